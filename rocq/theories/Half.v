(** * What a read_from that raises leaves of the object: the attributes assigned until then.
    The readers of Messages.v, Rest.v and Frame.v say what such a method returns or raises; here is,
    statement by statement, what it does to the object it is called on. *)
From Coq Require Import ZArith List Bool.
From Coq Require Import Strings.Byte.
From Verif Require Import Py Stream Version Frame Messages Rest Reuse.
Import ListNotations.
Open Scope list_scope.
Open Scope Z_scope.

(** A statement of a read_from: the rest of the input or what is raised, and the object it leaves *)
Definition stm (O : Type) := O -> bytes -> res bytes * O.
(** [self.x = input.read_...()]: nothing is assigned if the right side raises *)
Definition take {O A} (r : reader A) (set : O -> A -> O) : stm O := fun o s =>
  match r s with Ok (a, t) => (Ok t, set o a) | Raise e => (Raise e, o) end.
(** Python: one statement, then another *)
Definition andthen {O} (f g : stm O) : stm O := fun o s =>
  match f o s with (Ok t, o') => g o' t | (Raise e, o') => (Raise e, o') end.
(** Python: [for i in range(k): ...] *)
Fixpoint times {O} (k : nat) (f : stm O) : stm O :=
  match k with 0%nat => fun o s => (Ok s, o) | S k => andthen f (times k f) end.
(** [super().read_from(input)], and reading an object in place: what is done to the part is done to the whole *)
Definition inside {O P} (get : O -> P) (set : O -> P -> O) (f : stm P) : stm O := fun o s =>
  let (x, p) := f (get o) s in (x, set o p).
Infix ">>>" := andthen (at level 61, right associativity).

(** ** transport_address.py:23-30: line 24-26 check the number of bytes before anything is assigned *)
Definition half_addr : stm taddr :=
  take (n <~ read_byte ;; if negb (n =? 4) then rfail EGeneric else
        i <~ read_int ;; if i <? 0 then rfail EValue else rret i)
       (fun a i => mkAddr i (a_host a) (a_port a)) >>>
  take read_string (fun a h => mkAddr (a_addr a) h (a_port a)) >>>
  take read_int (fun a p => mkAddr (a_addr a) (a_host a) p).

(** ** discovery_node.py:49-60 *)
Definition set_name (n : node) x := mkNode x (n_id n) (n_eph n) (n_host n) (n_hostaddr n) (n_addr n) (n_attrs n) (n_roles n) (n_version n).
Definition set_id (n : node) x := mkNode (n_name n) x (n_eph n) (n_host n) (n_hostaddr n) (n_addr n) (n_attrs n) (n_roles n) (n_version n).
Definition set_eph (n : node) x := mkNode (n_name n) (n_id n) x (n_host n) (n_hostaddr n) (n_addr n) (n_attrs n) (n_roles n) (n_version n).
Definition set_host (n : node) x := mkNode (n_name n) (n_id n) (n_eph n) x (n_hostaddr n) (n_addr n) (n_attrs n) (n_roles n) (n_version n).
Definition set_hostaddr (n : node) x := mkNode (n_name n) (n_id n) (n_eph n) (n_host n) x (n_addr n) (n_attrs n) (n_roles n) (n_version n).
Definition set_addr (n : node) x := mkNode (n_name n) (n_id n) (n_eph n) (n_host n) (n_hostaddr n) x (n_attrs n) (n_roles n) (n_version n).
Definition set_attrs (n : node) x := mkNode (n_name n) (n_id n) (n_eph n) (n_host n) (n_hostaddr n) (n_addr n) x (n_roles n) (n_version n).
Definition set_roles (n : node) x := mkNode (n_name n) (n_id n) (n_eph n) (n_host n) (n_hostaddr n) (n_addr n) (n_attrs n) x (n_version n).
Definition set_version (n : node) x := mkNode (n_name n) (n_id n) (n_eph n) (n_host n) (n_hostaddr n) (n_addr n) (n_attrs n) (n_roles n) x.
(** discovery_node.py:56-59: the set is new and empty before the number of roles is read, and each role is added
    when it has been read *)
Definition half_roles : stm node := fun n s =>
  let n := set_roles n [] in
  match read_v_int s with
  | Raise e => (Raise e, n)
  | Ok (k, t) => times (Z.to_nat k) (take read_role (fun n r => set_roles n (role_add (n_roles n) r))) n t
  end.
(** discovery_node.py:48-61 *)
Definition half_node : stm node :=
  take read_string set_name >>> take read_string set_id >>> take read_string set_eph >>>
  take read_string set_host >>> take read_string set_hostaddr >>> take read_addr set_addr >>>
  take read_string_to_string_dict set_attrs >>> half_roles >>> take read_version set_version.

(** ** discovery_extension_node.py:42-45 *)
Definition set_deps (x : ext_node) d := mkExtNode (x_node x) (x_min x) d.
Definition half_deps : stm ext_node := fun x s =>
  let x := set_deps x [] in
  match read_v_int s with
  | Raise e => (Raise e, x)
  | Ok (k, t) => times (Z.to_nat k) (take read_dep (fun x d => set_deps x (x_deps x ++ [d]))) x t
  end.
(** discovery_extension_node.py:39-46 *)
Definition half_ext_node : stm ext_node :=
  inside x_node (fun x n => mkExtNode n (x_min x) (x_deps x)) half_node >>>
  take read_version (fun x v => mkExtNode (x_node x) v (x_deps x)) >>>
  half_deps.

(** ** initialize_extension_request.py:29-33; a new TaskId and new nodes are read and then assigned
    (transport_request.py:21-24) *)
Definition half_init_request : stm init_request :=
  take read_transport_request (fun r t => mkInitReq t (ir_source r) (ir_ext r)) >>>
  take read_node (fun r n => mkInitReq (ir_task r) n (ir_ext r)) >>>
  take read_ext_node (fun r x => mkInitReq (ir_task r) (ir_source r) x).

(** ** extension_rest_request.py:48-60 *)
Definition set_media (q : rest_request) x := mkReq (rq_task q) (rq_method q) (rq_uri q) (rq_path q) (rq_params q) (rq_headers q) x
  (rq_content q) (rq_token q) (rq_http q) (rq_consumed q) (rq_content_consumed q).
(** extension_rest_request.py:55-56 *)
Definition half_media : stm rest_request := fun q s =>
  match read_boolean s with
  | Raise e => (Raise e, q)
  | Ok (true, t) => take read_string set_media q t
  | Ok (false, t) => (Ok t, q)
  end.
Definition half_rest_request : stm rest_request :=
  take read_transport_request (fun q x => mkReq x (rq_method q) (rq_uri q) (rq_path q) (rq_params q) (rq_headers q) (rq_media q)
    (rq_content q) (rq_token q) (rq_http q) (rq_consumed q) (rq_content_consumed q)) >>>
  take (read_enum N_METHODS) (fun q x => mkReq (rq_task q) (Some x) (rq_uri q) (rq_path q) (rq_params q) (rq_headers q) (rq_media q)
    (rq_content q) (rq_token q) (rq_http q) (rq_consumed q) (rq_content_consumed q)) >>>
  take read_string (fun q x => mkReq (rq_task q) (rq_method q) x (rq_path q) (rq_params q) (rq_headers q) (rq_media q)
    (rq_content q) (rq_token q) (rq_http q) (rq_consumed q) (rq_content_consumed q)) >>>
  take read_string (fun q x => mkReq (rq_task q) (rq_method q) (rq_uri q) x (rq_params q) (rq_headers q) (rq_media q)
    (rq_content q) (rq_token q) (rq_http q) (rq_consumed q) (rq_content_consumed q)) >>>
  take read_string_to_string_dict (fun q x => mkReq (rq_task q) (rq_method q) (rq_uri q) (rq_path q) x (rq_headers q) (rq_media q)
    (rq_content q) (rq_token q) (rq_http q) (rq_consumed q) (rq_content_consumed q)) >>>
  take read_string_to_string_array_dict (fun q x => mkReq (rq_task q) (rq_method q) (rq_uri q) (rq_path q) (rq_params q) x (rq_media q)
    (rq_content q) (rq_token q) (rq_http q) (rq_consumed q) (rq_content_consumed q)) >>>
  half_media >>>
  take (n <~ read_array_size ;; read_bytes n) (fun q x => mkReq (rq_task q) (rq_method q) (rq_uri q) (rq_path q) (rq_params q)
    (rq_headers q) (rq_media q) x (rq_token q) (rq_http q) (rq_consumed q) (rq_content_consumed q)) >>>
  take read_string (fun q x => mkReq (rq_task q) (rq_method q) (rq_uri q) (rq_path q) (rq_params q) (rq_headers q) (rq_media q)
    (rq_content q) x (rq_http q) (rq_consumed q) (rq_content_consumed q)) >>>
  take (read_enum N_HTTP) (fun q x => mkReq (rq_task q) (rq_method q) (rq_uri q) (rq_path q) (rq_params q) (rq_headers q) (rq_media q)
    (rq_content q) (rq_token q) (Some x) (rq_consumed q) (rq_content_consumed q)).

(** ** rest_execute_on_extension_response.py:36-44 *)
Definition half_exec_response : stm exec_response :=
  take (read_enum N_STATUS) (fun r x => mkExec (Some x) (ex_ctype r) (ex_content r) (ex_headers r) (ex_consumed r) (ex_content_consumed r)) >>>
  take read_string (fun r x => mkExec (ex_status r) x (ex_content r) (ex_headers r) (ex_consumed r) (ex_content_consumed r)) >>>
  take (n <~ read_array_size ;; read_bytes n)
    (fun r x => mkExec (ex_status r) (ex_ctype r) x (ex_headers r) (ex_consumed r) (ex_content_consumed r)) >>>
  take read_string_to_string_array_dict
    (fun r x => mkExec (ex_status r) (ex_ctype r) (ex_content r) x (ex_consumed r) (ex_content_consumed r)) >>>
  take read_string_array (fun r x => mkExec (ex_status r) (ex_ctype r) (ex_content r) (ex_headers r) x (ex_content_consumed r)) >>>
  take read_boolean (fun r x => mkExec (ex_status r) (ex_ctype r) (ex_content r) (ex_headers r) (ex_consumed r) x).

(** ** thread_context_struct.py:21-24 read_from *)
Definition half_ctx (so : set_order) : stm ctx :=
  take read_string_to_string_dict (fun c x => mkCtx x (c_res c)) >>>
  take (read_string_to_string_set_dict so) (fun c x => mkCtx (c_req c) x).
(** outbound_message_request.py:42-45 _read_variable_bytes *)
Definition half_features : stm outbound :=
  take read_string_array (fun o f => mkOut (o_hdr o) (o_ctx o) (o_var o) (o_msg o) f (o_action o)) >>>
  take read_string (fun o a => mkOut (o_hdr o) (o_ctx o) (o_var o) (o_msg o) (o_features o) a).
(** outbound_message.py:77-79 *)
Definition half_variable (req : bool) : stm outbound := fun o s =>
  if 0 <? h_vhs (o_hdr o) then
    match ctx_size (o_ctx o) with
    | Raise e => (Raise e, o)
    | Ok sz =>
        match read_bytes (h_vhs (o_hdr o) - sz) s with
        | Raise e => (Raise e, o)
        | Ok (vb, t) =>
            let o := mkOut (o_hdr o) (o_ctx o) (Some vb) (o_msg o) (o_features o) (o_action o) in
            if req then
              match half_features o vb with
              | (Ok _, o) => (Ok t, o)
              | (Raise e, o) => (Raise e, o)
              end
            else (Ok t, o)
        end
    end
  else (Ok s, o).
(** outbound_message.py:71-85 read_from with a header: it is assigned first (73), and the context is read in place (76) *)
Definition half_outbound (so : set_order) (req : bool) (h : header) : stm outbound := fun o s =>
  (inside o_ctx (fun o c => mkOut (o_hdr o) c (o_var o) (o_msg o) (o_features o) (o_action o)) (half_ctx so) >>>
   half_variable req) (with_hdr o h) s.
(** the same of a message whose context is one of those of the program (see [held] in Reuse.v) *)
Definition half_held (so : set_order) (req : bool) (st : list ctx) (m : held) (h : header) (s : bytes)
  : res bytes * (list ctx * held) :=
  let (x, o) := half_outbound so req h (whole st m) s in
  (x, (put (hd_ctx m) (o_ctx o) st, mkHeld (hd_ctx m) o)).

(** ** task_id.py:23-29 *)
Definition half_task : stm task_id :=
  take read_string (fun t n => mkTask n (t_id t)) >>>
  (fun t s => match t_node t with
              | [] => (Ok s, mkTask [] None)
              | _ => take read_long (fun t i => mkTask (t_node t) (Some i)) t s
              end).
(** ** tcp_header.py:54-62; the Version of line 59 is new and gets its id in line 60 *)
Definition half_header : stm header :=
  take (read_bytes 2) (fun h p => mkHeader p (h_size h) (h_id h) (h_status h) (h_version h) (h_vhs h)) >>>
  take read_int (fun h z => mkHeader (h_prefix h) z (h_id h) (h_status h) (h_version h) (h_vhs h)) >>>
  take read_long (fun h i => mkHeader (h_prefix h) (h_size h) i (h_status h) (h_version h) (h_vhs h)) >>>
  take read_byte (fun h t => mkHeader (h_prefix h) (h_size h) (h_id h) t (h_version h) (h_vhs h)) >>>
  take (read_bytes 4) (fun h v => mkHeader (h_prefix h) (h_size h) (h_id h) (h_status h) (HVer (version_from_bytes v)) (h_vhs h)) >>>
  take read_int (fun h n => mkHeader (h_prefix h) (h_size h) (h_id h) (h_status h) (h_version h) n).
(** ** extension_dependency.py:22-25 *)
Definition half_dep : stm dependency :=
  take read_string (fun d i => mkDep i (d_version d)) >>> take read_version (fun d v => mkDep (d_id d) v).
(** ** transport_handshaker_handshake_request.py:23-27 *)
Definition half_tcp_handshake_request : stm tcp_handshake_request :=
  take read_transport_request (fun r t => mkTcpReq t (tr_version r)) >>>
  take (_k <~ read_v_int ;; read_version) (fun r v => mkTcpReq (tr_task r) (Some v)).
(** ** transport_service_handshake_response.py:34-43 *)
Definition half_handshake_response : stm handshake_response :=
  take (p <~ read_boolean ;; if p then (n <~ read_node ;; rret (Some n)) else rret None)
       (fun r n => mkHsResp n (hr_cluster r) (hr_version r)) >>>
  take read_string (fun r c => mkHsResp (hr_node r) c (hr_version r)) >>>
  take read_version (fun r v => mkHsResp (hr_node r) (hr_cluster r) v).
(** ** initialize_extension_response.py:23-27 *)
Definition half_init_response : stm init_response :=
  take read_string (fun r n => mkInitResp n (is_interfaces r)) >>>
  take read_string_array (fun r l => mkInitResp (is_name r) l).
