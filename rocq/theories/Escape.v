(** * Handlers that raise more than an Exception (server/async_host.py:44-66,
    extension_rest_request_handler.py:27-50, and asyncio's tasks) *)
From Coq Require Import ZArith List Bool.
From Coq Require Import Strings.Byte.
From Verif Require Import Py Stream Version Frame Proto Messages Rest Routes Settings Host.
Import ListNotations.
Open Scope Z_scope.

(** How a call of handle_request may end, as far as async_host.py:49-58 tells apart. *)
Inductive outcome :=
| Gives (a : rest_response)   (* it returns a response *)
| Throws (e : exn)            (* an Exception; caught at async_host.py:57 *)
| Leaves                      (* a BaseException that is neither an Exception nor one of the next two
                                 (asyncio.CancelledError, GeneratorExit), not caught at line 57; or an
                                 Exception whose __str__ raises, so that the f-string at line 58 does *)
| Exits.                      (* SystemExit or KeyboardInterrupt *)

(** An extension with such handlers; otherwise as [extension] (Host.v). *)
Record program (U : Type) := mkProgram {
  pg_name : pystr;
  pg_interfaces : list pystr;
  pg_registry : registry;
  pg_handler : nat -> U -> rest_request -> U * outcome }.
Arguments mkProgram {U}. Arguments pg_name {U}. Arguments pg_interfaces {U}. Arguments pg_registry {U}.
Arguments pg_handler {U}.

(** What is in flight while the stack unwinds. *)
Inductive mark := Fine | Left | Exited.

(** The same program for the model of Host.v: nothing between the handler and on_connection catches
    anything or has a finally (extension_rest_handlers.py:40-49, extension_rest_request_handler.py:27-50,
    request_handlers.py:25-27, async_extension_host.py:48-70), so that an escape unwinds like any
    exception; [mark] notes it beside the user's state. *)
Definition as_ext {U} (pg : program U) : extension (U * mark) :=
  mkExtn (U * mark) (pg_name pg) (pg_interfaces pg) (pg_registry pg)
    (fun n v q => match pg_handler pg n (fst v) q with
                  | (u, Gives a) => ((u, snd v), Ok a)
                  | (u, Throws e) => ((u, snd v), Raise e)
                  | (u, Leaves) => ((u, Left), Raise EGeneric)
                  | (u, Exits) => ((u, Exited), Raise EGeneric)
                  end).

(** the escape has arrived where it goes *)
Definition unmark {U} (h : host (U * mark)) : host (U * mark) := set_user h (fst (hs_user h), Fine).

(** async_host.py:44-66 with escapes.  [Left]: line 57 does not catch it, line 66 closes the
    connection and the task ends; asyncio keeps the exception in the task.  [Exited]: asyncio
    re-raises it from the event loop; asyncio.run (async_host.py:26) cancels the accept and all
    tasks, each closing its connection (line 66), and run() raises it. *)
Definition escape_step {U} (ev : env) (pg : program U) (w : world (U * mark)) (e : event) : world (U * mark) :=
  let w' := world_step ev (as_ext pg) w e in
  match e with
  | Recv c _ _ =>
      match snd (hs_user (w_host w')) with
      | Fine => w'
      | Left => mkWorld (unmark (w_host w')) (w_terminating w) (w_accepting w)
                  (set_conn c Closed (w_conns w)) (w_sent w)
      | Exited => mkWorld (unmark (w_host w')) (w_terminating w) false
                    (map (fun x => (fst x, Closed)) (w_conns w)) (w_sent w)
      end
  | _ => w'
  end.
(** one event after the other *)
Definition escape_run {U} (ev : env) (pg : program U) (w : world (U * mark)) (es : list event) : world (U * mark) :=
  fold_left (escape_step ev pg) es w.
(** async_host.py:29-33 *)
Definition escape_start {U} (u : U) : world (U * mark) := initial_world (u, Fine).
