(** * Several hosts in one process (server/host.py, server/async_host.py:22-42, 68-74,
    server/async_extension_host.py:43-46) *)
From Coq Require Import ZArith List Bool String.
From Coq Require Import Strings.Byte.
From Verif Require Import Py Stream Version Frame Proto Messages Rest Routes Settings Host.
Import ListNotations.
Open Scope Z_scope.

(** One AsyncExtensionHost that has been given an extension.  [ho_ext], [ho_pending] and
    [ho_init] are what serve() sets up (async_extension_host.py:43-46): the extension, the
    ResponseHandlers dict and [self.response] of the DiscoveryExtensionsRequestHandler.
    [ho_port] is the attribute [port] (host.py:16-21), [ho_server] the port at which the socket
    in the attribute [server] listens (None: there is no socket, or it was closed).  The rest
    is as in [world] (Host.v).  Simplified: all hosts are at one address. *)
Record hobj (U : Type) := mkHobj {
  ho_ext : extension U;
  ho_pending : list (Z * rh);
  ho_init : option outbound;
  ho_port : option Z;
  ho_server : option Z;
  ho_terminating : bool;
  ho_accepting : bool;
  ho_conns : list (Z * conn);
  ho_sent : list (Z * bytes) }.
Arguments mkHobj {U}. Arguments ho_ext {U}. Arguments ho_pending {U}. Arguments ho_init {U}.
Arguments ho_port {U}. Arguments ho_server {U}. Arguments ho_terminating {U}.
Arguments ho_accepting {U}. Arguments ho_conns {U}. Arguments ho_sent {U}.

(** The process: what its hosts share (tcp_header.py:36 id_iter, the default dict of
    settings.py:18-22, the user's program), the ports at which other programs listen, and the
    hosts. *)
Record process (U : Type) := mkProcess {
  p_next : Z;
  p_settings : sdict pyval;
  p_user : U;
  p_others : list Z;
  p_hosts : list (Z * hobj U) }.
Arguments mkProcess {U}. Arguments p_next {U}. Arguments p_settings {U}. Arguments p_user {U}.
Arguments p_others {U}. Arguments p_hosts {U}.

(** a host object by its number *)
Definition get_host {U} (P : process U) (k : Z) : option (hobj U) := dict_get Z.eqb k (p_hosts P).
(** assignments to attributes of a host object *)
Definition put_host {U} (P : process U) (k : Z) (o : hobj U) : process U :=
  mkProcess (p_next P) (p_settings P) (p_user P) (p_others P) (dict_set Z.eqb k o (p_hosts P)).

(** the process as one of its hosts sees it *)
Definition world_of {U} (P : process U) (o : hobj U) : world U :=
  mkWorld (mkHost (p_next P) (ho_pending o) (ho_init o) (p_settings P) (p_user P))
    (ho_terminating o) (ho_accepting o) (ho_conns o) (ho_sent o).
(** what a step of a host changes: its attributes and the shared state *)
Definition put_world {U} (P : process U) (k : Z) (o : hobj U) (w : world U) : process U :=
  let h := w_host w in
  mkProcess (hs_next h) (hs_settings h) (hs_user h) (p_others P)
    (dict_set Z.eqb k
       (mkHobj (ho_ext o) (hs_pending h) (hs_init h) (ho_port o) (ho_server o)
          (w_terminating w) (w_accepting w) (w_conns w) (w_sent w))
       (p_hosts P)).

(** host.py:19-21 __init__, then async_extension_host.py:43-46 serve *)
Definition new_host {U} (ext : extension U) (port : option Z) : hobj U :=
  mkHobj ext [] None port None false false [] [].
(** async_extension_host.py:43-46 serve on a host that may already be running: new handlers,
    the connections stay *)
Definition serve_host {U} (o : hobj U) (ext : extension U) : hobj U :=
  mkHobj ext [] None (ho_port o) (ho_server o) (ho_terminating o) (ho_accepting o) (ho_conns o)
    (ho_sent o).

(** some socket listens at the port: of another program, or of a host (bind with SO_REUSEADDR
    fails exactly then) *)
Definition taken {U} (P : process U) (p : Z) : bool :=
  existsb (Z.eqb p) (p_others P) ||
  existsb (fun kv => match ho_server (snd kv) with Some q => q =? p | None => false end) (p_hosts P).

(** async_host.py:28-34, 68-74: async_run up to its first await.  [chosen] is the port the
    operating system picks if asked to (a free one).  The old server socket is closed only
    when the attribute is overwritten, i.e. after the new one is bound. *)
Definition listen {U} (P : process U) (port : option Z) (chosen : Z) : res Z :=
  let q := match port with Some q => q | None => 0 end in      (* self.port or 0 *)
  if q =? 0 then Ok chosen
  else if (q <? 0) || (65535 <? q) then Raise EOverflow      (* port must be 0-65535 *)
  else if taken P q then Raise EOS else Ok q.
(** async_host.py:28-34, 68-74 *)
Definition start {U} (P : process U) (k : Z) (o : hobj U) (chosen : Z) : res unit * process U :=
  match listen P (ho_port o) chosen with
  | Raise e =>      (* terminating is False already *)
      (Raise e, put_host P k (mkHobj (ho_ext o) (ho_pending o) (ho_init o) (ho_port o) (ho_server o)
                                false (ho_accepting o) (ho_conns o) (ho_sent o)))
  | Ok p =>
      (Ok tt, put_host P k (mkHobj (ho_ext o) (ho_pending o) (ho_init o) (Some p) (Some p)
                              false true (ho_conns o) (ho_sent o)))
  end.

(** what happens next: to a host, in the program, or in other programs *)
Inductive pevent (U : Type) :=
| Create (k : Z) (ext : extension U) (port : option Z)  (* a new host object, serve(ext) *)
| Serve (k : Z) (ext : extension U)                     (* serve() on an existing one *)
| Start (k chosen : Z)                                  (* its run() or async_run() is called *)
| Of (k : Z) (e : event)                                (* something happens to it (Host.v) *)
| SetPort (k : Z) (port : option Z)                     (* the program assigns host.port *)
| CloseServer (k : Z)                                   (* the program closes host.server *)
| Program (drawn : nat) (d : sdict pyval) (u : U)       (* the program does something: makes
                                                           messages, changes Settings(), ... *)
| OtherListens (p : Z) | OtherStops (p : Z).            (* other programs *)
Arguments Create {U}. Arguments Serve {U}. Arguments Start {U}. Arguments Of {U}.
Arguments SetPort {U}. Arguments CloseServer {U}. Arguments Program {U}.
Arguments OtherListens {U}. Arguments OtherStops {U}.

(** Events that cannot happen change nothing.  Simplified: the hosts run in one event loop, so
    what Host.v takes as atomic is atomic here; a host is not started, nor its socket closed
    by the program, while it is accepting. *)
Definition p_step {U} (ev : env) (P : process U) (e : pevent U) : process U :=
  match e with
  | Create k ext port => match get_host P k with Some _ => P | None => put_host P k (new_host ext port) end
  | Serve k ext => match get_host P k with Some o => put_host P k (serve_host o ext) | None => P end
  | Start k chosen =>
      match get_host P k with
      | Some o => if ho_accepting o || taken P chosen || (chosen <=? 0) || (65535 <? chosen) then P
                  else snd (start P k o chosen)
      | None => P
      end
  | Of k e =>
      match get_host P k with
      | Some o => put_world P k o (world_step ev (ho_ext o) (world_of P o) e)
      | None => P
      end
  | SetPort k port =>
      match get_host P k with
      | Some o => put_host P k (mkHobj (ho_ext o) (ho_pending o) (ho_init o) port (ho_server o)
                                  (ho_terminating o) (ho_accepting o) (ho_conns o) (ho_sent o))
      | None => P
      end
  | CloseServer k =>
      match get_host P k with
      | Some o => if ho_accepting o then P
                  else put_host P k (mkHobj (ho_ext o) (ho_pending o) (ho_init o) (ho_port o) None
                                       (ho_terminating o) (ho_accepting o) (ho_conns o) (ho_sent o))
      | None => P
      end
  | Program drawn d u => mkProcess (p_next P + Z.of_nat drawn) d u (p_others P) (p_hosts P)
  | OtherListens p =>
      if taken P p then P else mkProcess (p_next P) (p_settings P) (p_user P) (p :: p_others P) (p_hosts P)
  | OtherStops p =>
      mkProcess (p_next P) (p_settings P) (p_user P) (remove Z.eq_dec p (p_others P)) (p_hosts P)
  end.
(** one event after the other *)
Definition p_run {U} (ev : env) (P : process U) (es : list (pevent U)) : process U :=
  fold_left (p_step ev) es P.
(** a process just started *)
Definition new_process {U} (u : U) : process U := mkProcess 0 [] u [] [].
