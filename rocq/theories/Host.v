(** * The extension host (server/async_extension_host.py, server/async_host.py,
    and the actions package) *)
From Coq Require Import ZArith List Bool String.
From Coq Require Import Strings.Byte.
From Verif Require Import Py Stream Version Frame Proto Messages Rest Routes Settings.
Import ListNotations.
Open Scope Z_scope.

(** Everything outside the SDK that a run depends on but that does not change during it:
    Python's set iteration order (of str sets and of the four discovery roles), how many
    levels of recursion are left for read_generic_value, and the meaning of character
    classes in fnmatch patterns. *)
Record env := mkEnv {
  e_so : set_order;
  e_roles : list role -> list role;
  e_fuel : nat;
  e_cls : class_oracle }.

(** The user's extension: name and implemented_interfaces (extension.py:16-24), the
    handler registry built by ActionExtension.__init__ (action_extension.py:30-33), and
    the code of the handlers: handler number, state of the user's program, request; it may
    raise.  The result's set of consumed parameters is as it stands when handle_request
    returns. *)
Record extension (U : Type) := mkExtn {
  xt_name : pystr;
  xt_interfaces : list pystr;
  xt_registry : registry;
  xt_invoke : nat -> U -> rest_request -> U * res rest_response }.
Arguments xt_name {U}. Arguments xt_interfaces {U}. Arguments xt_registry {U}.
Arguments xt_invoke {U}.

(** Registered response handlers.  RegisterRestActionsResponseHandler holds the settings
    request it will send; EnvironmentSettingsResponseHandler holds the discovery handler,
    of which there is one. *)
Inductive rh := RegisterRH (settings_request : outbound) | EnvRH.

(** Mutable state of the process: the id counter of TcpHeader, the ResponseHandlers dict,
    [self.response] of the discovery handler, the default dict of Settings, the state of
    the user's program. *)
Record host (U : Type) := mkHost {
  hs_next : Z;
  hs_pending : list (Z * rh);
  hs_init : option outbound;
  hs_settings : sdict pyval;
  hs_user : U }.
Arguments hs_next {U}. Arguments hs_pending {U}. Arguments hs_init {U}.
Arguments hs_settings {U}. Arguments hs_user {U}. Arguments mkHost {U}.

(** next(id_iter) *)
Definition set_next {U} (h : host U) (n : Z) : host U :=
  mkHost n (hs_pending h) (hs_init h) (hs_settings h) (hs_user h).
(** assignments to the dict of response_handlers.py *)
Definition set_pending {U} (h : host U) (p : list (Z * rh)) : host U :=
  mkHost (hs_next h) p (hs_init h) (hs_settings h) (hs_user h).
(** discovery_extensions_request_handler.py: self.response = ... *)
Definition set_init {U} (h : host U) (o : outbound) : host U :=
  mkHost (hs_next h) (hs_pending h) (Some o) (hs_settings h) (hs_user h).
(** settings.py: the dict *)
Definition set_settings {U} (h : host U) (d : sdict pyval) : host U :=
  mkHost (hs_next h) (hs_pending h) (hs_init h) d (hs_user h).
(** the user's program goes on *)
Definition set_user {U} (h : host U) (u : U) : host U :=
  mkHost (hs_next h) (hs_pending h) (hs_init h) (hs_settings h) u.

(** a host just after serve() in a process that issued no id yet *)
Definition initial_host {U} (u : U) : host U := mkHost 0 [] None [] u.

(** Computations on the host state that may raise; effects before an exception remain. *)
Definition hm (U A : Type) := host U -> res A * host U.
(** nothing happens *)
Definition hret {U A} (a : A) : hm U A := fun h => (Ok a, h).
(** a computation that may raise, the host as it is *)
Definition hlift {U A} (x : res A) : hm U A := fun h => (x, h).
(** one computation after the other *)
Definition hbind {U A B} (m : hm U A) (k : A -> hm U B) : hm U B :=
  fun h => match m h with (Ok a, h') => k a h' | (Raise e, h') => (Raise e, h') end.
Notation "x <== m ;; k" := (hbind m (fun x => k))
  (at level 61, m at next level, right associativity).
(** construct a message: draws from the id counter *)
Definition hids {U A} (m : idm A) : hm U A :=
  fun h => match m (hs_next h) with (r, n) => (r, set_next h n) end.
(** a change of the host state *)
Definition hmod {U} (f : host U -> host U) : hm U unit := fun h => (Ok tt, f h).

(** response_handlers.py:22-23 register *)
Definition register_response {U} (id : Z) (x : rh) : hm U unit :=
  hmod (fun h => set_pending h (dict_set Z.eqb id x (hs_pending h))).

(** version.py:12: Version(Version.MIN_COMPAT) *)
Definition V_MIN_COMPAT : hver := HVer (version_of_id MIN_COMPAT).

(** The OutboundMessageResponse every request handler builds from the request
    (tcp_handshake_request_handler.py:30-38 and the others alike). *)
Definition reply_to (req : outbound) (msg : res bytes) : idm outbound :=
  let h := o_hdr req in
  new_response (Some (o_ctx req)) (o_features req) (Some msg) V_MIN_COMPAT (Some (h_id h))
    (is_handshake h) (is_compress h).

(** request_handler.py:32-38 send, response_handler.py:26-32 send *)
Definition send {U} (o : outbound) : hm U (option bytes) :=
  b <== hlift (write_outbound o) ;; hret (Some b).

(** ** Request handlers.  [input] is the unread input after the envelope. *)

(** tcp_handshake_request_handler.py:27-39 *)
Definition handle_tcp_handshake {U} (req : outbound) (input : bytes) : hm U (option bytes) :=
  _r <== hlift (read_tcp_handshake_request input) ;;
  o <== hids (reply_to req (write_tcp_handshake_response (Some (version_of_id CURRENT)))) ;;
  send o.

(** discovery_node_role.py: the four role constants *)
Definition DATA_ROLE : role := (py "data", py "d", true).
(** discovery_node_role.py:11 *)
Definition INGEST_ROLE : role := (py "ingest", py "i", false).
(** discovery_node_role.py:12 *)
Definition CLUSTER_MANAGER_ROLE : role := (py "cluster_manager", py "m", false).
(** discovery_node_role.py:13 *)
Definition REMOTE_CLUSTER_CLIENT_ROLE : role := (py "remote_cluster_client", py "r", false).

(** transport_handshake_request_handler.py:37-49; 127.0.0.1 is 0x7F000001 *)
Definition own_node (ev : env) (uuid : bytes) : node :=
  new_node uuid (py "hello-world") (py "hello-world") None None None
    (new_addr 0x7F000001 1234 None) []
    (e_roles ev [CLUSTER_MANAGER_ROLE; DATA_ROLE; INGEST_ROLE; REMOTE_CLUSTER_CLIENT_ROLE])
    None.
(** transport_handshake_request_handler.py:30-55; the response's cluster name and version
    are the defaults of transport_service_handshake_response.py:22-32 *)
Definition handle_transport_handshake {U} (ev : env) (uuid : bytes) (req : outbound)
  (input : bytes) : hm U (option bytes) :=
  _r <== hlift (read_transport_request input) ;;
  o <== hids (reply_to req (write_handshake_response
               (mkHsResp (Some (own_node ev uuid)) [] (version_of_id CURRENT)))) ;;
  send o.

(** extension_rest_request_handler.py:27-50 with action_extension.py:35-36 and
    extension_rest_handlers.py:40-49 *)
Definition exec_of (r : rest_response) : exec_response :=
  mkExec (rp_status r) (rp_ctype r) (rp_content r) (rp_headers r) (rp_consumed r)
    (rp_content_consumed r).
(** extension_rest_handlers.py:40-49: handler.handle_request(request) *)
Definition call_user {U} (ext : extension U) (n : nat) (r : rest_request)
  : hm U rest_response :=
  fun h => match xt_invoke ext n (hs_user h) r with (u, a) => (a, set_user h u) end.
(** extension_rest_request_handler.py:27-50 handle *)
Definition handle_rest {U} (ev : env) (ext : extension U) (req : outbound) (input : bytes)
  : hm U (option bytes) :=
  r <== hlift (read_rest_request input) ;;
  m <== hlift (method_name (rq_method (fst r))) ;;
  let route := m ++ [SPACE] ++ rq_path (fst r) in
  n <== hlift (find_handler (e_cls ev) (rg_map (xt_registry ext)) route) ;;
  a <== call_user ext n (fst r) ;;
  o <== hids (reply_to req (write_exec_response (exec_of a))) ;;
  send o.

(** discovery_extensions_request_handler.py:59 *)
Definition ENV_ACTION : pystr := py "internal:discovery/enviornmentsettings".
(** discovery_extensions_request_handler.py:70 *)
Definition REGISTER_ACTION : pystr := py "internal:discovery/registerrestactions".

(** discovery_extensions_request_handler.py:34-76 *)
Definition handle_discovery {U} (ext : extension U) (req : outbound) (input : bytes)
  : hm U (option bytes) :=
  _r <== hlift (read_init_request input) ;;
  resp <== hids (reply_to req (write_init_response
                  (mkInitResp (xt_name ext) (xt_interfaces ext)))) ;;
  _a <== hmod (fun h => set_init h resp) ;;
  env_msg <== hlift (new_ext_transport_request REQUEST_EXTENSION_ENVIRONMENT_SETTINGS []) ;;
  settings_request <== hids (new_request (Some (o_ctx req)) (o_features req)
                              (Some (write_ext_transport_request env_msg)) V_MIN_COMPAT
                              ENV_ACTION None false false) ;;
  _b <== register_response (h_id (o_hdr settings_request)) EnvRH ;;
  reg_msg <== hlift (new_register_request (xt_name ext) (rg_named (xt_registry ext)) []) ;;
  register_request <== hids (new_request (Some (o_ctx req)) (o_features req)
                              (Some (write_register_request reg_msg)) V_MIN_COMPAT
                              REGISTER_ACTION None false false) ;;
  _c <== register_response (h_id (o_hdr register_request)) (RegisterRH settings_request) ;;
  send register_request.

(** action_not_found_request_error_handler.py:17-19, request_error_handler.py:34-48 *)
Definition not_found_text (action : pystr) : pystr :=
  py "{""error"": ""No handler found for " ++ action ++ py """}".
(** action_not_found_request_error_handler.py:17-19, request_error_handler.py:34-48 *)
Definition handle_not_found {U} (req : outbound) : hm U (option bytes) :=
  c <== hlift (utf8_encode (not_found_text (o_action req))) ;;
  o <== hids (reply_to req (write_exec_response
               (mkExec (Some STATUS_NOT_FOUND) JSON_CONTENT_TYPE c [] [] false))) ;;
  send o.

(** discovery_extensions_request_handler.py:31 *)
Definition A_DISCOVERY : pystr := py "internal:discovery/extensions".
(** extension_rest_request_handler.py:25 *)
Definition A_REST : pystr := py "internal:extensions/restexecuteonextensiontaction".
(** tcp_handshake_request_handler.py:25 *)
Definition A_TCP : pystr := py "internal:tcp/handshake".
(** transport_handshake_request_handler.py:28 *)
Definition A_TRANSPORT : pystr := py "internal:transport/handshake".

(** request_handlers.py:18-27 with the four registrations of
    async_extension_host.py:36-41, and the fallback of async_extension_host.py:56-57 (no
    registered handler returns None, so the fallback runs exactly for unknown actions) *)
Definition handle_request {U} (ev : env) (ext : extension U) (uuid : bytes) (req : outbound)
  (input : bytes) : hm U (option bytes) :=
  let a := o_action req in
  if streqb a A_DISCOVERY then handle_discovery ext req input
  else if streqb a A_REST then handle_rest ev ext req input
  else if streqb a A_TCP then handle_tcp_handshake req input
  else if streqb a A_TRANSPORT then handle_transport_handshake ev uuid req input
  else handle_not_found req.

(** ** Response handlers *)

(** environment_settings_response_handler.py:24-28: reads into the shared dict, then
    next_handler.send() of the discovery handler, whose response attribute is None before
    the first initialization (AttributeError) *)
Definition handle_env {U} (ev : env) (input : bytes) : hm U (option bytes) :=
  fun h =>
    let (r, d) := read_settings (e_fuel ev) (hs_settings h) input in
    let h := set_settings h d in
    match r with
    | Raise e => (Raise e, h)
    | Ok _ => match hs_init h with
              | Some o => send o h
              | None => (Raise EAttr, h)
              end
    end.
(** register_rest_actions_response_handler.py:25-32 *)
Definition handle_register {U} (settings_request : outbound) (input : bytes)
  : hm U (option bytes) :=
  a <== hlift (read_ack input) ;;
  if fst a then send settings_request else hret None.

(** response_handlers.py:25-27 handle *)
Definition handle_response {U} (ev : env) (id : Z) (input : bytes) : hm U (option bytes) :=
  fun h =>
    match dict_get Z.eqb id (hs_pending h) with
    | None => (Ok None, h)
    | Some x =>
        let h := set_pending h (dict_del Z.eqb id (hs_pending h)) in
        match x with
        | RegisterRH o => handle_register o input h
        | EnvRH => handle_env ev input h
        end
    end.

(** ** async_extension_host.py:48-70 on_input.  [uuid] is what uuid4() returns if it is
    called while handling this input.  Logging calls are left out here: the __str__ methods
    they use do not raise and change nothing; what they log is in Log.v. *)
Definition on_input {U} (ev : env) (ext : extension U) (uuid : bytes) (raw : bytes)
  : hm U (option bytes) :=
  _d <== hids default_header ;;
  hs <== hlift (read_header raw) ;;
  let (hd, rest) := (hs : header * bytes) in
  if is_request hd then
    o <== hids (new_request None [] None HNone [] None false false) ;;
    m <== hlift (read_outbound (e_so ev) true o hd rest) ;;
    handle_request ev ext uuid (fst m) (snd m)
  else
    o <== hids (new_response None [] None HNone None false false) ;;
    m <== hlift (read_outbound (e_so ev) false o hd rest) ;;
    if is_error hd then hret None
    else handle_response ev (h_id hd) (snd m).

(** ** async_host.py:44-66 on_connection, run by the event loop together with other
    connections and with termination.  Between two awaits everything is atomic: the
    processing of one received chunk (sock_recv to sock_sendall or back to sock_recv), and
    the completion of a send. *)
Inductive conn :=
| Receiving             (* in sock_recv *)
| Sending (data : bytes)(* in sock_sendall *)
| Closed.

(** the state of an AsyncHost (async_host.py:22-66) and its tasks *)
Record world (U : Type) := mkWorld {
  w_host : host U;
  w_terminating : bool;
  w_accepting : bool;                 (* async_run is waiting in sock_accept; if not, it is over *)
  w_conns : list (Z * conn);          (* connections by number *)
  w_sent : list (Z * bytes) }.        (* completed sends, oldest first *)
Arguments w_host {U}. Arguments w_terminating {U}. Arguments w_accepting {U}. Arguments w_conns {U}.
Arguments w_sent {U}. Arguments mkWorld {U}.

(** what asyncio (async_host.py:28-66) or another part of the program does next *)
Inductive event :=
| Accept (c : Z)                            (* async_run: sock_accept returned a new connection *)
| Recv (c : Z) (raw uuid : bytes)           (* sock_recv returned; b"" means end of input *)
| SendDone (c : Z) (ok : bool)              (* sock_sendall completed, or raised an Exception *)
| RecvFail (c : Z)                          (* sock_recv raised *)
| Cancelled (c : Z)                         (* the task was cancelled, as asyncio.run does to all
                                               tasks when async_run returns *)
| Terminate                                 (* someone set host.terminating *)
| CancelAccept                              (* someone cancelled host.future *)
| AcceptFail.                               (* sock_accept raised, e.g. no file descriptors left *)

(** the task of a connection goes on *)
Definition set_conn (c : Z) (s : conn) (l : list (Z * conn)) := dict_set Z.eqb c s l.
(** async_host.py:59-62, then 64-66: after a chunk, if terminating, cancel the pending accept,
    leave the loop and close the connection; otherwise back to sock_recv *)
Definition after_chunk {U} (h : host U) (w : world U) (c : Z) (sent : list (Z * bytes)) : world U :=
  if w_terminating w
  then mkWorld h true false (set_conn c Closed (w_conns w)) sent
  else mkWorld h false (w_accepting w) (set_conn c Receiving (w_conns w)) sent.
(** async_host.py:64-66: leave the loop by an exception or at the end of input *)
Definition close_conn {U} (w : world U) (c : Z) : world U :=
  mkWorld (w_host w) (w_terminating w) (w_accepting w) (set_conn c Closed (w_conns w)) (w_sent w).

(** async_host.py:47: sock_recv(conn, 1024 * 10) returns at most that many bytes *)
Definition RECV_LIMIT : Z := 1024 * 10.
(** An event that cannot happen in the current state (e.g. data on a closed connection, or a
    chunk larger than the limit) changes nothing. *)
Definition world_step {U} (ev : env) (ext : extension U) (w : world U) (e : event) : world U :=
  match e with
  | Accept c =>   (* async_host.py:33-39; the loop goes on unless terminating *)
      match dict_get Z.eqb c (w_conns w) with
      | Some _ => w
      | None => if w_accepting w
                then mkWorld (w_host w) (w_terminating w) (negb (w_terminating w))
                       (set_conn c Receiving (w_conns w)) (w_sent w)
                else w
      end
  | Recv c raw uuid =>   (* async_host.py:47-58 *)
      if RECV_LIMIT <? zlen raw then w else
      match dict_get Z.eqb c (w_conns w) with
      | Some Receiving =>
          match raw with
          | [] => close_conn w c
          | _ =>
              match on_input ev ext uuid raw (w_host w) with
              | (Ok (Some d), h) =>
                  mkWorld h (w_terminating w) (w_accepting w) (set_conn c (Sending d) (w_conns w)) (w_sent w)
              | (_, h) => after_chunk h w c (w_sent w)
              end
          end
      | _ => w
      end
  | SendDone c ok =>   (* async_host.py:56-62 *)
      match dict_get Z.eqb c (w_conns w) with
      | Some (Sending d) =>
          after_chunk (w_host w) w c (if ok then w_sent w ++ [(c, d)] else w_sent w)
      | _ => w
      end
  | RecvFail c =>
      match dict_get Z.eqb c (w_conns w) with
      | Some Receiving => close_conn w c
      | _ => w
      end
  | Cancelled c =>   (* CancelledError is no Exception: line 57 does not catch it *)
      match dict_get Z.eqb c (w_conns w) with
      | Some _ => close_conn w c
      | None => w
      end
  | Terminate => mkWorld (w_host w) true (w_accepting w) (w_conns w) (w_sent w)
  | CancelAccept =>   (* async_host.py:40-41 *)
      if w_accepting w then mkWorld (w_host w) true false (w_conns w) (w_sent w) else w
  | AcceptFail =>   (* async_host.py:34-41: only CancelledError is caught, async_run raises *)
      if w_accepting w then mkWorld (w_host w) (w_terminating w) false (w_conns w) (w_sent w) else w
  end.
(** one event after the other *)
Definition run_world {U} (ev : env) (ext : extension U) (w : world U) (es : list event)
  : world U := fold_left (world_step ev ext) es w.
(** async_host.py:29-33 *)
Definition initial_world {U} (u : U) : world U := mkWorld (initial_host u) false true [] [].
