(** * Bytes on their way to the peers (server/async_host.py:54-58) *)
From Coq Require Import ZArith List Bool String.
From Coq Require Import Strings.Byte.
From Verif Require Import Py Stream Version Frame Proto Messages Rest Routes Settings Host.
Import ListNotations.
Open Scope Z_scope.

(** The server of Host.v, whose sends now take time: sock_sendall (async_host.py:56) hands the
    reply to the network in pieces, and other tasks run in between.  [lk_left]: per connection,
    what the sock_sendall going on still has to hand over; [lk_out]: the pieces handed over,
    oldest first. *)
Record link (U : Type) := mkLink {
  lk_world : world U;
  lk_left : list (Z * bytes);
  lk_out : list (Z * bytes) }.
Arguments mkLink {U}. Arguments lk_world {U}. Arguments lk_left {U}. Arguments lk_out {U}.

(** what happens next *)
Inductive levent :=
| Host (e : event)             (* what happens to the server, as in Host.v *)
| Pass (c : Z) (n : nat).      (* the network takes n more bytes of the reply being sent on c *)

(** what the sock_sendall on c still has to hand over *)
Definition left_of {U} (l : link U) (c : Z) : bytes :=
  match dict_get Z.eqb c (lk_left l) with Some b => b | None => [] end.
(** hand over the first [n] bytes of what is left *)
Definition pass {U} (l : link U) (c : Z) (n : nat) : link U :=
  let r := left_of l c in
  mkLink (lk_world l) (dict_set Z.eqb c (skipn n r) (lk_left l)) (lk_out l ++ [(c, firstn n r)]).
(** async_host.py:55-58: sock_sendall begins with the whole reply; it completes when everything
    was handed over; an exception or a cancellation leaves the rest behind *)
Definition link_step {U} (ev : env) (ext : extension U) (l : link U) (e : levent) : link U :=
  match e with
  | Pass c n =>
      match dict_get Z.eqb c (w_conns (lk_world l)) with
      | Some (Sending _) => pass l c n
      | _ => l
      end
  | Host e =>
      let w := world_step ev ext (lk_world l) e in
      match e with
      | SendDone c true =>
          match dict_get Z.eqb c (w_conns (lk_world l)) with
          | Some (Sending _) =>
              let l := pass l c (List.length (left_of l c)) in mkLink w (lk_left l) (lk_out l)
          | _ => mkLink w (lk_left l) (lk_out l)
          end
      | Recv c _ _ =>
          match dict_get Z.eqb c (w_conns (lk_world l)), dict_get Z.eqb c (w_conns w) with
          | Some Receiving, Some (Sending d) =>
              mkLink w (dict_set Z.eqb c d (lk_left l)) (lk_out l)
          | _, _ => mkLink w (lk_left l) (lk_out l)
          end
      | _ => mkLink w (lk_left l) (lk_out l)
      end
  end.
(** one event after the other *)
Definition run_link {U} (ev : env) (ext : extension U) (l : link U) (es : list levent) : link U :=
  fold_left (link_step ev ext) es l.
(** async_host.py:29-33: no connection yet *)
Definition initial_link {U} (u : U) : link U := mkLink (initial_world u) [] [].
