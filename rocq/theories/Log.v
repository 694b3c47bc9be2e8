(** * What the host writes to the log about the bytes it receives and sends: the __str__ methods
    of the messages, and the logging calls of async_host.py, async_extension_host.py and the
    handlers.  Not modelled: the texts of exceptions but one (async_host.py:58) and the records about
    the sockets and the end of the host (async_host.py:33, 39, 60). *)
From Coq Require Import ZArith List Bool String.
From Coq Require Import Strings.Byte.
From Verif Require Import Py Stream Version Frame Messages Rest Routes Settings Host.
Import ListNotations.
Open Scope list_scope.
Open Scope Z_scope.

(** What the texts depend on besides the messages: which characters from 128 up
    str.isprintable() accepts (Unicode version of the Python release), and the texts
    "<module.Class object at 0x...>" of objects without __str__, in the order they occur. *)
Record display := mkDisplay { ds_printable : Z -> bool; ds_object : nat -> pystr }.

(** a digit of hex() *)
Definition hex_digit (d : Z) : Z := if d <? 10 then 48 + d else 87 + d.
(** the last [n] hexadecimal digits *)
Fixpoint hex_digits (n : nat) (c : Z) : pystr :=
  match n with
  | O => []
  | S m => hex_digits m (c / 16) ++ [hex_digit (c mod 16)]
  end.
(** Python: the quote repr() uses: ' unless the text has a ' and no double quote *)
Definition quote_of (l : pystr) : Z :=
  if existsb (Z.eqb 39) l && negb (existsb (Z.eqb 34) l) then 34 else 39.
(** Python: how repr() shows a character below 128 (of a str or bytes), within quotes [q] *)
Definition repr_ascii (q c : Z) : pystr :=
  if (c =? q) || (c =? 92) then [92; c]
  else if c =? 9 then [92; 116]
  else if c =? 10 then [92; 110]
  else if c =? 13 then [92; 114]
  else if (c <? 32) || (c =? 127) then 92 :: 120 :: hex_digits 2 c
  else [c].
(** Python: repr() of bytes *)
Definition repr_byte (q c : Z) : pystr :=
  if c <? 128 then repr_ascii q c else 92 :: 120 :: hex_digits 2 c.
(** Python: repr() of bytes *)
Definition repr_bytes (b : bytes) : pystr :=
  let l := map b2z b in let q := quote_of l in
  98 :: q :: flat_map (repr_byte q) l ++ [q].
(** Python: how repr() shows a character of a str *)
Definition repr_char (ds : display) (q c : Z) : pystr :=
  if c <? 128 then repr_ascii q c
  else if ds_printable ds c then [c]
  else if c <? 256 then 92 :: 120 :: hex_digits 2 c
  else if c <? 65536 then 92 :: 117 :: hex_digits 4 c
  else 92 :: 85 :: hex_digits 8 c.
(** Python: repr() of a str *)
Definition repr_str (ds : display) (s : pystr) : pystr :=
  let q := quote_of s in q :: flat_map (repr_char ds q) s ++ [q].
(** ", ".join *)
Fixpoint commas (l : list pystr) : pystr :=
  match l with
  | [] => []
  | [x] => x
  | x :: t => x ++ py ", " ++ commas t
  end.
(** Python: repr() of a list *)
Definition repr_list (l : list pystr) : pystr := py "[" ++ commas l ++ py "]".
(** Python: repr() of a set *)
Definition repr_set (l : list pystr) : pystr :=
  match l with [] => py "set()" | _ => py "{" ++ commas l ++ py "}" end.
(** Python: repr() of a dict *)
Definition repr_dict {V} (ds : display) (show : V -> pystr) (d : sdict V) : pystr :=
  py "{" ++ commas (map (fun kv => repr_str ds (fst kv) ++ py ": " ++ show (snd kv)) d) ++ py "}".
(** Python: str() of a bool *)
Definition str_bool (b : bool) : pystr := if b then py "True" else py "False".
(** Python: str() of an int or None *)
Definition str_opt_int (i : option Z) : pystr := match i with Some i => str_int i | None => py "None" end.

(** str() of what the version of a header can be *)
Definition str_hver (v : hver) : pystr :=
  match v with HVer v => v_str v | HInt n => str_int n | HNone => py "None" end.
(** tcp_header.py:73-74 __str__ *)
Definition str_header (ds : display) (h : header) : pystr :=
  py "prefix=" ++ repr_bytes (h_prefix h) ++ py ", version=" ++ str_hver (h_version h)
  ++ py ", type=" ++ repr_list (map (repr_str ds) (statuses h))
  ++ py ", message=" ++ str_int (h_size h) ++ py " byte(s), id=" ++ str_int (h_id h).
(** thread_context_struct.py:37-38 __str__ *)
Definition str_ctx (ds : display) (c : ctx) : pystr :=
  py "req=" ++ repr_dict ds (repr_str ds) (c_req c)
  ++ py ", res=" ++ repr_dict ds (fun l => repr_set (map (repr_str ds) l)) (c_res c).
(** network_message.py:61-62, outbound_message.py:108-109 __str__; [txt] is the text of the
    attribute [message] *)
Definition str_envelope (ds : display) (txt : pystr) (o : outbound) : pystr :=
  str_header ds (o_hdr o) ++ py ", ctx=" ++ str_ctx ds (o_ctx o) ++ py ", " ++ txt.
(** outbound_message_request.py:53-54 __str__ *)
Definition str_request (ds : display) (txt : pystr) (o : outbound) : pystr :=
  str_envelope ds txt o ++ py ", features=" ++ repr_list (map (repr_str ds) (o_features o))
  ++ py ", action=" ++ o_action o.
(** outbound_message_response.py:39-40 __str__ *)
Definition str_response (ds : display) (txt : pystr) (o : outbound) : pystr :=
  str_envelope ds txt o ++ py ", features=" ++ repr_list (map (repr_str ds) (o_features o)).
(** the attribute [message] of a message that was read is None *)
Definition no_message : pystr := py "None".

(** task_id.py:37-38, transport_request.py:31-32 __str__ *)
Definition str_task (t : task_id) : pystr := py "node=" ++ t_node t ++ py ", id=" ++ str_opt_int (t_id t).
(** transport_handshaker_handshake_request.py:37-38 __str__ *)
Definition str_tcp_handshake_request (r : tcp_handshake_request) : pystr :=
  py "version=" ++ match tr_version r with Some v => v_str v | None => py "None" end.
(** repr() of a tuple of two strings and a bool *)
Definition repr_role (ds : display) (r : role) : pystr :=
  py "(" ++ commas [repr_str ds (fst (fst r)); repr_str ds (snd (fst r)); str_bool (snd r)] ++ py ")".
(** discovery_node.py:79-80 __str__; [roles] is the text of the roles *)
Definition str_node_with (ds : display) (roles : pystr) (n : node) : pystr :=
  py "id=" ++ n_id n ++ py ", version=" ++ v_str (n_version n) ++ py ", name=" ++ n_name n
  ++ py ", host=" ++ n_host n ++ py ", addr=" ++ n_hostaddr n
  ++ py ", attr=" ++ repr_dict ds (repr_str ds) (n_attrs n) ++ py ", roles=" ++ roles.
(** the roles of a node that was read (discovery_node.py:56) are an OrderedSet of the library
    sortedcollections *)
Definition str_node (ds : display) (n : node) : pystr :=
  str_node_with ds (py "OrderedSet(" ++ repr_list (map (repr_role ds) (n_roles n)) ++ py ")") n.
(** discovery_extension_node.py:56-57 __str__ *)
Definition str_ext_node (ds : display) (x : ext_node) : pystr :=
  str_node ds (x_node x) ++ py ", compatible>=" ++ v_str (x_min x)
  ++ py ", deps=" ++ repr_list (map (ds_object ds) (seq 0 (List.length (x_deps x)))).
(** initialize_extension_request.py:41-42 __str__ *)
Definition str_init_request (ds : display) (r : init_request) : pystr :=
  str_node ds (ir_source r) ++ py ", " ++ str_ext_node ds (ir_ext r).
(** str() of a member of RestMethod (rest_method.py:12) or None *)
Definition str_method (m : option Z) : pystr :=
  match m with Some m => py "RestMethod." ++ nth (Z.to_nat m) method_names [] | None => py "None" end.
(** str() of a member of HttpVersion (http_version.py:12) or None *)
Definition str_http (v : option Z) : pystr :=
  match v with Some v => py "HttpVersion." ++ nth (Z.to_nat v) [py "HTTP_1_0"; py "HTTP_1_1"] [] | None => py "None" end.
(** extension_rest_request.py:94-98 __str__; line 97 is a plain string, not an f-string *)
Definition str_rest_request (ds : display) (r : rest_request) : pystr :=
  py "http version=" ++ str_http (rq_http r) ++ py ", method=" ++ str_method (rq_method r)
  ++ py ", uri=" ++ rq_uri r ++ py ", path=" ++ rq_path r
  ++ py ", params=" ++ repr_dict ds (repr_str ds) (rq_params r) ++ py ", "
  ++ py "headers={self.headers}, media type={self.media_type}, content={len(self.content)} byte(s), pit={self.principal_identifier_token}".
(** acknowledged_response.py:32-33 __str__ *)
Definition str_ack (b : bool) : pystr := py "status=" ++ str_bool b.

(** the levels of the module logging that are used *)
Inductive level := DEBUG | INFO | WARNING.
(** a record: level and text *)
Definition record := (level * pystr)%type.

(** the record of a handler once it has read its message *)
Definition log_read {A} (r : res (A * bytes)) (show : A -> pystr) : list record :=
  match r with Ok (a, _) => [(DEBUG, py "< " ++ show a)] | Raise _ => [] end.
(** discovery_extensions_request_handler.py:36, extension_rest_request_handler.py:29,
    tcp_handshake_request_handler.py:29, transport_handshake_request_handler.py:32 *)
Definition log_handler (ds : display) (req : outbound) (input : bytes) : list record :=
  let a := o_action req in
  if streqb a A_DISCOVERY then log_read (read_init_request input) (str_init_request ds)
  else if streqb a A_REST then log_read (read_rest_request input) (str_rest_request ds)
  else if streqb a A_TCP then log_read (read_tcp_handshake_request input) str_tcp_handshake_request
  else if streqb a A_TRANSPORT then log_read (read_transport_request input) str_task
  else [].
(** async_extension_host.py:69 *)
Definition not_registered (id : Z) : record :=
  (WARNING, py "< response id " ++ str_int id ++ py " not registered").
(** response_handlers.py:25-27, register_rest_actions_response_handler.py:27,
    environment_settings_response_handler.py:26, async_extension_host.py:66-69: a handler
    that returns None (a registration that was not acknowledged) leads to that warning too *)
Definition log_response {U} (ev : env) (ds : display) (h : host U) (id : Z) (input : bytes) : list record :=
  match dict_get Z.eqb id (hs_pending h) with
  | None => [not_registered id]
  | Some (RegisterRH _) =>
      log_read (read_ack input) str_ack
      ++ match read_ack input with Ok (false, _) => [not_registered id] | _ => [] end
  | Some EnvRH =>
      match read_settings (e_fuel ev) (hs_settings h) input with
      | (Ok _, _) => [(DEBUG, py "< " ++ ds_object ds 0)]
      | (Raise _, _) => []
      end
  end.
(** async_extension_host.py:48-70 on_input: its records and those of the handlers *)
Definition log_input {U} (ev : env) (ds : display) (raw : bytes) (h : host U) : list record :=
  match read_header raw with
  | Raise _ => []
  | Ok (hd, rest) =>
      (DEBUG, py "< " ++ str_header ds hd) ::
      (if is_request hd then
         match fst (new_request None [] None HNone [] None false false (hs_next h + 1)) with
         | Raise _ => []
         | Ok o =>
             match read_outbound (e_so ev) true o hd rest with
             | Raise _ => []
             | Ok (req, input) => (INFO, py "< " ++ str_request ds no_message req) :: log_handler ds req input
             end
         end
       else
         match fst (new_response None [] None HNone None false false (hs_next h + 1)) with
         | Raise _ => []
         | Ok o =>
             match read_outbound (e_so ev) false o hd rest with
             | Raise _ => []
             | Ok (resp, input) =>
                 if is_error hd then [(WARNING, py "< error " ++ str_header ds hd)]
                 else (INFO, py "< response " ++ str_response ds no_message resp) :: log_response ev ds h (h_id hd) input
             end
         end)
  end.
(** async_host.py:49-52: what is logged about a chunk before the reply *)
Definition log_chunk {U} (ev : env) (ds : display) (raw : bytes) (h : host U) : list record :=
  (INFO, repr_bytes raw)
  :: (DEBUG, py "< #" ++ repr_bytes raw ++ py ", size=" ++ str_int (zlen raw) ++ py " byte(s)")
  :: log_input ev ds raw h.

(** ** What is logged about what is sent *)

(** str() of a member of RestStatus (rest_status.py:13) or None *)
Definition str_status (st : option Z) : pystr :=
  match st with Some v => py "RestStatus." ++ nth (Z.to_nat v) status_names [] | None => py "None" end.
(** rest_execute_on_extension_response.py:57-58 __str__ *)
Definition str_exec (ds : display) (r : exec_response) : pystr :=
  py "status=" ++ str_status (ex_status r) ++ py ", content_type=" ++ ex_ctype r
  ++ py ", headers=" ++ repr_dict ds (fun l => repr_list (map (repr_str ds) l)) (ex_headers r)
  ++ py ", content=" ++ str_int (zlen (ex_content r)) ++ py " byte(s)".
(** initialize_extension_response.py:35-36 __str__ *)
Definition str_init_response (ds : display) (r : init_response) : pystr :=
  py "name=" ++ is_name r ++ py ", interfaces=" ++ repr_list (map (repr_str ds) (is_interfaces r)).
(** transport_service_handshake_response.py:56-57 __str__ of a response made by the handler
    (transport_handshake_request_handler.py:38-49): the roles are a set of tuples *)
Definition str_handshake_response (ds : display) (n : node) : pystr :=
  str_node_with ds (repr_set (map (repr_role ds) (n_roles n))) n
  ++ py ", cluster name=" ++ py ", version=" ++ v_str (version_of_id CURRENT).
(** transport_handshaker_handshake_response.py:35-36 __str__ of Version(Version.CURRENT) *)
Definition str_tcp_handshake_response : pystr := py "version=" ++ v_str (version_of_id CURRENT).
(** register_rest_actions_request.py:18, extension_transport_request.py:20 have no __str__ of
    their own: transport_request.py:31-32 with the task of a request that was not read
    (task_id.py:16-18) *)
Definition str_no_task : pystr := str_task default_task.

(** A message about to be sent, whether it is a request, and the text of its [message]. *)
Record outgoing := mkOutgoing { og_out : outbound; og_request : bool; og_text : pystr }.
(** a response about to be sent *)
Definition responds {U} (o : outbound) (txt : pystr) : hm U (option outgoing) := hret (Some (mkOutgoing o false txt)).
(** a request about to be sent *)
Definition requests {U} (o : outbound) : hm U (option outgoing) := hret (Some (mkOutgoing o true str_no_task)).

(** tcp_handshake_request_handler.py:27-38, up to [send] *)
Definition says_tcp_handshake {U} (req : outbound) (input : bytes) : hm U (option outgoing) :=
  _r <== hlift (read_tcp_handshake_request input) ;;
  o <== hids (reply_to req (write_tcp_handshake_response (Some (version_of_id CURRENT)))) ;;
  responds o str_tcp_handshake_response.
(** transport_handshake_request_handler.py:30-54, up to [send] *)
Definition says_transport_handshake {U} (ev : env) (ds : display) (uuid : bytes) (req : outbound)
  (input : bytes) : hm U (option outgoing) :=
  _r <== hlift (read_transport_request input) ;;
  o <== hids (reply_to req (write_handshake_response
               (mkHsResp (Some (own_node ev uuid)) [] (version_of_id CURRENT)))) ;;
  responds o (str_handshake_response ds (own_node ev uuid)).
(** extension_rest_request_handler.py:27-49, up to [send] *)
Definition says_rest {U} (ev : env) (ds : display) (ext : extension U) (req : outbound) (input : bytes)
  : hm U (option outgoing) :=
  r <== hlift (read_rest_request input) ;;
  m <== hlift (method_name (rq_method (fst r))) ;;
  let route := m ++ [SPACE] ++ rq_path (fst r) in
  n <== hlift (find_handler (e_cls ev) (rg_map (xt_registry ext)) route) ;;
  a <== call_user ext n (fst r) ;;
  o <== hids (reply_to req (write_exec_response (exec_of a))) ;;
  responds o (str_exec ds (exec_of a)).
(** discovery_extensions_request_handler.py:34-75, up to [send] *)
Definition says_discovery {U} (ext : extension U) (req : outbound) (input : bytes)
  : hm U (option outgoing) :=
  _r <== hlift (read_init_request input) ;;
  resp <== hids (reply_to req (write_init_response
                  (mkInitResp (xt_name ext) (xt_interfaces ext)))) ;;
  _a <== hmod (fun h => set_init h resp) ;;
  env_msg <== hlift (new_ext_transport_request REQUEST_EXTENSION_ENVIRONMENT_SETTINGS []) ;;
  settings_request <== hids (new_request (Some (o_ctx req)) (o_features req)
                              (Some (write_ext_transport_request env_msg)) V_MIN_COMPAT
                              ENV_ACTION None false false) ;;
  _b <== register_response (h_id (o_hdr settings_request)) EnvRH ;;
  reg_msg <== hlift (new_register_request (xt_name ext) (rg_named (xt_registry ext)) []) ;;
  register_request <== hids (new_request (Some (o_ctx req)) (o_features req)
                              (Some (write_register_request reg_msg)) V_MIN_COMPAT
                              REGISTER_ACTION None false false) ;;
  _c <== register_response (h_id (o_hdr register_request)) (RegisterRH settings_request) ;;
  requests register_request.
(** request_error_handler.py:34-47, up to [send] *)
Definition says_not_found {U} (ds : display) (req : outbound) : hm U (option outgoing) :=
  c <== hlift (utf8_encode (not_found_text (o_action req))) ;;
  let r := mkExec (Some STATUS_NOT_FOUND) JSON_CONTENT_TYPE c [] [] false in
  o <== hids (reply_to req (write_exec_response r)) ;;
  responds o (str_exec ds r).
(** request_handlers.py:18-27, async_extension_host.py:56-57 *)
Definition says_request {U} (ev : env) (ds : display) (ext : extension U) (uuid : bytes) (req : outbound)
  (input : bytes) : hm U (option outgoing) :=
  let a := o_action req in
  if streqb a A_DISCOVERY then says_discovery ext req input
  else if streqb a A_REST then says_rest ev ds ext req input
  else if streqb a A_TCP then says_tcp_handshake req input
  else if streqb a A_TRANSPORT then says_transport_handshake ev ds uuid req input
  else says_not_found ds req.
(** environment_settings_response_handler.py:24-28, up to [send] of the init response *)
Definition says_env {U} (ev : env) (ds : display) (ext : extension U) (input : bytes) : hm U (option outgoing) :=
  fun h =>
    let (r, d) := read_settings (e_fuel ev) (hs_settings h) input in
    let h := set_settings h d in
    match r with
    | Raise e => (Raise e, h)
    | Ok _ => match hs_init h with
              | Some o => responds o (str_init_response ds (mkInitResp (xt_name ext) (xt_interfaces ext))) h
              | None => (Raise EAttr, h)
              end
    end.
(** register_rest_actions_response_handler.py:25-32, up to [send] *)
Definition says_register {U} (settings_request : outbound) (input : bytes) : hm U (option outgoing) :=
  a <== hlift (read_ack input) ;;
  if fst a then requests settings_request else hret None.
(** response_handlers.py:25-27 handle *)
Definition says_response {U} (ev : env) (ds : display) (ext : extension U) (id : Z) (input : bytes) : hm U (option outgoing) :=
  fun h =>
    match dict_get Z.eqb id (hs_pending h) with
    | None => (Ok None, h)
    | Some x =>
        let h := set_pending h (dict_del Z.eqb id (hs_pending h)) in
        match x with
        | RegisterRH o => says_register o input h
        | EnvRH => says_env ev ds ext input h
        end
    end.
(** async_extension_host.py:48-70 on_input, up to [send] *)
Definition says {U} (ev : env) (ds : display) (ext : extension U) (uuid : bytes) (raw : bytes)
  : hm U (option outgoing) :=
  _d <== hids default_header ;;
  hs <== hlift (read_header raw) ;;
  let (hd, rest) := (hs : header * bytes) in
  if is_request hd then
    o <== hids (new_request None [] None HNone [] None false false) ;;
    m <== hlift (read_outbound (e_so ev) true o hd rest) ;;
    says_request ev ds ext uuid (fst m) (snd m)
  else
    o <== hids (new_response None [] None HNone None false false) ;;
    m <== hlift (read_outbound (e_so ev) false o hd rest) ;;
    if is_error hd then hret None
    else says_response ev ds ext (h_id hd) (snd m).

(** outbound_message_request.py:53-54, outbound_message_response.py:39-40 *)
Definition str_outgoing (ds : display) (x : outgoing) : pystr :=
  if og_request x then str_request ds (og_text x) (og_out x) else str_response ds (og_text x) (og_out x).
(** request_handler.py:32-38, response_handler.py:26-32 send, then async_host.py:53-55 *)
Definition log_send (ds : display) (x : outgoing) : list record :=
  match write_outbound (og_out x) with
  | Ok b =>
      [(INFO, py "> " ++ str_outgoing ds x ++ py ", size=" ++ str_int (zlen b) ++ py " byte(s)");
       (DEBUG, py "> #" ++ repr_bytes b);
       (DEBUG, py "> #" ++ repr_bytes b ++ py ", size=" ++ str_int (zlen b) ++ py " byte(s)")]
  | Raise _ => []
  end.
(** what is logged after [log_chunk], exceptions apart *)
Definition log_reply {U} (ev : env) (ds : display) (ext : extension U) (uuid raw : bytes) (h : host U) : list record :=
  match fst (says ev ds ext uuid raw h) with
  | Ok (Some x) => log_send ds x
  | _ => []
  end.

(** ** What is logged about an exception *)

(** extension_rest_handlers.py:49: the text of the exception *)
Definition no_route_text (route : pystr) : pystr := py "Can not find a matching route for " ++ route ++ py ".".
(** async_extension_host.py:49-55, extension_rest_request_handler.py:28-33,
    extension_rest_handlers.py:40-49: the route of a request that is for no handler *)
Definition lost_route {U} (ev : env) (ext : extension U) (raw : bytes) (next : Z) : option pystr :=
  match read_header raw with
  | Raise _ => None
  | Ok (hd, rest) =>
      if is_request hd then
        match fst (new_request None [] None HNone [] None false false (next + 1)) with
        | Raise _ => None
        | Ok o =>
            match read_outbound (e_so ev) true o hd rest with
            | Raise _ => None
            | Ok (req, input) =>
                if streqb (o_action req) A_REST then
                  match read_rest_request input with
                  | Raise _ => None
                  | Ok (r, _) =>
                      match method_name (rq_method r) with
                      | Raise _ => None
                      | Ok m =>
                          let route := m ++ [SPACE] ++ rq_path r in
                          match find_handler (e_cls ev) (rg_map (xt_registry ext)) route with
                          | Raise EGeneric => Some route
                          | _ => None
                          end
                      end
                  end
                else None
            end
        end
      else None
  end.
(** async_host.py:57-58; [other] is the text of the exception if it is not the one of
    extension_rest_handlers.py:49 *)
Definition log_failure {U} (ev : env) (other : pystr) (ext : extension U) (uuid raw : bytes) (h : host U) : list record :=
  match fst (on_input ev ext uuid raw h) with
  | Ok _ => []
  | Raise _ =>
      [(WARNING, py "! #" ++ match lost_route ev ext raw (hs_next h) with
                             | Some route => no_route_text route
                             | None => other
                             end)]
  end.
