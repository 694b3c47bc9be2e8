(** * What peers receive (server/async_host.py:52-58) *)
From Coq Require Import ZArith List Bool.
From Coq Require Import Strings.Byte.
From Verif Require Import Py Stream Version Frame Proto Messages Rest Routes Settings Host.
Import ListNotations.
Open Scope Z_scope.

(** async_host.py:56 sock_sendall hands a reply to the operating system part by part.  When it
    completes, all of it was handed over; when it raises or is cancelled, the first [k] bytes.
    Simplified: the parts are accounted for at the end of the send. *)
Definition delivers {U} (w : world U) (k : nat) (e : event) : list (Z * bytes) :=
  match e with
  | SendDone c ok =>
      match dict_get Z.eqb c (w_conns w) with
      | Some (Sending d) => [(c, if ok then d else firstn k d)]
      | _ => []
      end
  | Cancelled c =>
      match dict_get Z.eqb c (w_conns w) with
      | Some (Sending d) => [(c, firstn k d)]
      | _ => []
      end
  | _ => []
  end.
(** the server, and what was handed over on which connection, oldest first *)
Definition net (U : Type) := (world U * list (Z * bytes))%type.
(** one event (Host.v), with the number of bytes handed over if it ends a send early *)
Definition net_step {U} (ev : env) (ext : extension U) (n : net U) (x : nat * event) : net U :=
  (world_step ev ext (fst n) (snd x), snd n ++ delivers (fst n) (fst x) (snd x)).
(** one event after the other *)
Definition net_run {U} (ev : env) (ext : extension U) (n : net U) (xs : list (nat * event)) : net U :=
  fold_left (net_step ev ext) xs n.
(** async_host.py:29-33 *)
Definition initial_net {U} (u : U) : net U := (initial_world u, []).
