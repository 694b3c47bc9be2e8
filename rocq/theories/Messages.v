(** * Transport messages (transport/*.py) *)
From Coq Require Import ZArith List Bool String.
From Coq Require Import Strings.Byte.
From Verif Require Import Py Stream Version Frame Proto.
Import ListNotations.
Open Scope Z_scope.

(** ** task_id.py *)
Record task_id := mkTask { t_node : pystr; t_id : option Z }.
(** task_id.py:19-21 *)
Definition default_task : task_id := mkTask [] None.
(** [i.to_bytes(...)] on None: AttributeError *)
Definition write_opt_long (i : option Z) : res bytes :=
  match i with Some i => write_long i | None => Raise EAttr end.
(** task_id.py:31-35 *)
Definition write_task (t : task_id) : res bytes :=
  wcat [write_string (t_node t);
        match t_node t with [] => Ok [] | _ => write_opt_long (t_id t) end].
(** task_id.py:23-29 *)
Definition read_task : reader task_id :=
  n <~ read_string ;;
  match n with
  | [] => rret (mkTask n None)
  | _ => i <~ read_long ;; rret (mkTask n (Some i))
  end.

(** ** transport_request.py:16-32 TransportRequest, and transport_service_handshake_request.py
    which adds nothing: the only content is the parent task id. *)
Definition write_transport_request : task_id -> res bytes := write_task.
(** transport_request.py:21-24 read_from *)
Definition read_transport_request : reader task_id := read_task.

(** ** acknowledged_response.py:17-33 *)
Definition write_ack : bool -> res bytes := write_boolean.
(** acknowledged_response.py:22-25 read_from *)
Definition read_ack : reader bool := read_boolean.

(** ** transport_address.py.  The address is the 32-bit number of the IPv4Address. *)
Record taddr := mkAddr { a_addr : Z; a_host : pystr; a_port : Z }.
(** transport_address.py:32-37 *)
Definition write_addr (a : taddr) : res bytes :=
  wcat [write_byte 4; write_int (a_addr a); write_string (a_host a); write_int (a_port a)].
(** transport_address.py:23-30; IPv4Address(i) raises AddressValueError for negative i *)
Definition read_addr : reader taddr :=
  n <~ read_byte ;;
  if negb (n =? 4) then rfail EGeneric else
  i <~ read_int ;;
  if i <? 0 then rfail EValue else
  h <~ read_string ;;
  p <~ read_int ;;
  rret (mkAddr i h p).

(** ** discovery_node.py *)
Definition role := (pystr * pystr * bool)%type.
(** Python: == of role tuples *)
Definition role_eqb (a b : role) : bool :=
  streqb (fst (fst a)) (fst (fst b)) && streqb (snd (fst a)) (snd (fst b))
  && Bool.eqb (snd a) (snd b).
(** OrderedSet.add *)
Definition role_add (s : list role) (x : role) : list role :=
  if existsb (role_eqb x) s then s else s ++ [x].

(** discovery_node.py:22-46.  Roles are listed in iteration order.  The attributes exist
    only if the node was built with an id and an address or read from a stream; objects
    without them are not modelled. *)
Record node := mkNode {
  n_name : pystr; n_id : pystr; n_eph : pystr; n_host : pystr; n_hostaddr : pystr;
  n_addr : taddr; n_attrs : sdict pystr; n_roles : list role; n_version : version }.

(** discovery_node.py:72-75 *)
Definition write_role (r : role) : res bytes :=
  wcat [write_string (fst (fst r)); write_string (snd (fst r)); write_boolean (snd r)].
(** discovery_node.py:59 *)
Definition read_role : reader role :=
  a <~ read_string ;; b <~ read_string ;; c <~ read_boolean ;; rret (a, b, c).

(** discovery_node.py:63-77 *)
Definition write_node (n : node) : res bytes :=
  wcat [write_string (n_name n); write_string (n_id n); write_string (n_eph n);
        write_string (n_host n); write_string (n_hostaddr n); write_addr (n_addr n);
        write_string_to_string_dict (n_attrs n);
        wcat (write_v_int (zlen (n_roles n)) :: map write_role (n_roles n));
        write_version (n_version n)].
(** discovery_node.py:48-61 *)
Definition read_node : reader node :=
  name <~ read_string ;;
  id <~ read_string ;;
  eph <~ read_string ;;
  host <~ read_string ;;
  ha <~ read_string ;;
  addr <~ read_addr ;;
  attrs <~ read_string_to_string_dict ;;
  k <~ read_v_int ;;
  roles <~ read_n read_role (Z.to_nat k) ;;
  v <~ read_version ;;
  rret (mkNode name id eph host ha addr attrs (fold_left role_add roles []) v).

(** *** base64.urlsafe_b64encode (RFC 4648 section 5, with padding) *)
Definition b64_char (n : Z) : Z :=
  if n <? 26 then 65 + n           (* A-Z *)
  else if n <? 52 then 97 + (n - 26) (* a-z *)
  else if n <? 62 then 48 + (n - 52) (* 0-9 *)
  else if n =? 62 then 45          (* - *)
  else 95                          (* _ *).
(** Python: base64.urlsafe_b64encode *)
Fixpoint urlsafe_b64encode (l : bytes) : pystr :=
  match l with
  | [] => []
  | [a] =>
      let n := b2z a * 65536 in
      [b64_char (n / 262144); b64_char ((n / 4096) mod 64); 61; 61]
  | [a; b] =>
      let n := b2z a * 65536 + b2z b * 256 in
      [b64_char (n / 262144); b64_char ((n / 4096) mod 64); b64_char ((n / 64) mod 64); 61]
  | a :: b :: c :: t =>
      let n := b2z a * 65536 + b2z b * 256 + b2z c in
      [b64_char (n / 262144); b64_char ((n / 4096) mod 64); b64_char ((n / 64) mod 64);
       b64_char (n mod 64)] ++ urlsafe_b64encode t
  end.
(** discovery_node.py:40: urlsafe_b64encode(uuid4().bytes)[:-2].decode() *)
Definition drop_last2 (l : pystr) : pystr := firstn (List.length l - 2) l.
(** discovery_node.py:40 *)
Definition new_ephemeral_id (uuid : bytes) : pystr := drop_last2 (urlsafe_b64encode uuid).

(** [str(IPv4Address)]: dotted decimal *)
Definition ip_str (a : Z) : pystr :=
  str_nat (a / 16777216) ++ [46] ++ str_nat ((a / 65536) mod 256) ++ [46]
  ++ str_nat ((a / 256) mod 256) ++ [46] ++ str_nat (a mod 256).

(** [x if x else y] for an optional string *)
Definition or_else (x : option pystr) (y : pystr) : pystr :=
  match x with Some (c :: t) => c :: t | _ => y end.

(** discovery_node.py:23-46 __init__ with a non-empty id and an address; [uuid] is the
    value of uuid4().bytes *)
Definition new_node (uuid : bytes) (name id : pystr) (eph host hostaddr : option pystr)
  (addr : taddr) (attrs : sdict pystr) (roles : list role) (v : option version) : node :=
  mkNode name id (or_else eph (new_ephemeral_id uuid)) (or_else host (a_host addr))
    (or_else hostaddr (ip_str (a_addr addr))) addr attrs roles
    (match v with Some v => v | None => version_of_id CURRENT end).

(** transport_address.py:18-21 __init__ *)
Definition new_addr (addr port : Z) (host : option pystr) : taddr :=
  mkAddr addr (or_else host (ip_str addr)) port.

(** ** extension_dependency.py:17-30 *)
Record dependency := mkDep { d_id : pystr; d_version : version }.
(** extension_dependency.py:27-30 write_to *)
Definition write_dep (d : dependency) : res bytes :=
  wcat [write_string (d_id d); write_version (d_version d)].
(** extension_dependency.py:22-25 read_from *)
Definition read_dep : reader dependency :=
  i <~ read_string ;; v <~ read_version ;; rret (mkDep i v).

(** ** discovery_extension_node.py (19-37 __init__ stores its arguments) *)
Record ext_node := mkExtNode { x_node : node; x_min : version; x_deps : list dependency }.
(** discovery_extension_node.py:48-54 *)
Definition write_ext_node (n : ext_node) : res bytes :=
  wcat [write_node (x_node n); write_version (x_min n);
        wcat (write_v_int (zlen (x_deps n)) :: map write_dep (x_deps n))].
(** discovery_extension_node.py:39-46 *)
Definition read_ext_node : reader ext_node :=
  n <~ read_node ;;
  v <~ read_version ;;
  k <~ read_v_int ;;
  d <~ read_n read_dep (Z.to_nat k) ;;
  rret (mkExtNode n v d).

(** ** initialize_extension_request.py:19-42 *)
Record init_request := mkInitReq { ir_task : task_id; ir_source : node; ir_ext : ext_node }.
(** initialize_extension_request.py:35-39 write_to *)
Definition write_init_request (r : init_request) : res bytes :=
  wcat [write_transport_request (ir_task r); write_node (ir_source r); write_ext_node (ir_ext r)].
(** initialize_extension_request.py:29-33 read_from *)
Definition read_init_request : reader init_request :=
  t <~ read_transport_request ;; s <~ read_node ;; x <~ read_ext_node ;;
  rret (mkInitReq t s x).

(** ** initialize_extension_response.py:17-36 *)
Record init_response := mkInitResp { is_name : pystr; is_interfaces : list pystr }.
(** initialize_extension_response.py:29-33 write_to *)
Definition write_init_response (r : init_response) : res bytes :=
  wcat [write_string (is_name r); write_string_array (is_interfaces r)].
(** initialize_extension_response.py:23-27 read_from *)
Definition read_init_response : reader init_response :=
  n <~ read_string ;; i <~ read_string_array ;; rret (mkInitResp n i).

(** ** transport_service_handshake_response.py:22-57 *)
Record handshake_response := mkHsResp {
  hr_node : option node; hr_cluster : pystr; hr_version : version }.
(** transport_service_handshake_response.py:45-54 *)
Definition write_handshake_response (r : handshake_response) : res bytes :=
  wcat [match hr_node r with
        | Some n => wcat [write_boolean true; write_node n]
        | None => write_boolean false
        end;
        write_string (hr_cluster r); write_version (hr_version r)].
(** transport_service_handshake_response.py:34-43 *)
Definition read_handshake_response : reader handshake_response :=
  p <~ read_boolean ;;
  n <~ (if p then (n <~ read_node ;; rret (Some n)) else rret None) ;;
  c <~ read_string ;;
  v <~ read_version ;;
  rret (mkHsResp n c v).

(** ** transport_handshaker_handshake_request.py:18-38 *)
Record tcp_handshake_request := mkTcpReq { tr_task : task_id; tr_version : option version }.
(** transport_handshaker_handshake_request.py:29-35 *)
Definition write_tcp_handshake_request (r : tcp_handshake_request) : res bytes :=
  wcat [write_transport_request (tr_task r);
        match tr_version r with
        | Some v => wcat [write_v_int (version_size v); write_version v]
        | None => Ok []
        end].
(** transport_handshaker_handshake_request.py:23-27 *)
Definition read_tcp_handshake_request : reader tcp_handshake_request :=
  t <~ read_transport_request ;;
  _k <~ read_v_int ;;
  v <~ read_version ;;
  rret (mkTcpReq t (Some v)).

(** ** transport_handshaker_handshake_response.py:20-36.  A None version makes
    write_version raise AttributeError. *)
Definition write_tcp_handshake_response (v : option version) : res bytes :=
  match v with Some v => write_version v | None => Raise EAttr end.
(** transport_handshaker_handshake_response.py:25-28 read_from *)
Definition read_tcp_handshake_response : reader (option version) :=
  v <~ read_version ;; rret (Some v).

(** ** extension_transport_request.py:20-43 *)
Record ext_transport_request := mkETR { etr_task : task_id; etr_er : ext_request }.
(** extension_transport_request.py:21-29 __init__: assigning identity.uniqueId makes the
    submessage present; a string with a lone surrogate is refused. *)
Definition new_ext_transport_request (rt : Z) (uid : pystr) : res ext_transport_request :=
  _e <- utf8_encode uid ;;
  Ok (mkETR default_task (mkER (Some uid) rt)).
(** extension_transport_request.py:38-43 *)
Definition write_ext_transport_request (r : ext_transport_request) : res bytes :=
  wcat [write_transport_request (etr_task r);
        b <- ser_ext_request (etr_er r) ;; wcat [write_v_int (zlen b); Ok b]].
(** extension_transport_request.py:31-36 *)
Definition read_ext_transport_request : reader ext_transport_request :=
  t <~ read_transport_request ;;
  k <~ read_v_int ;;
  b <~ read_bytes k ;;
  m <~ rlift (parse_ext_request b) ;;
  rret (mkETR t m).

(** ** register_rest_actions_request.py:18-43 *)
Record register_request := mkRRR { rrr_task : task_id; rrr_rra : rest_actions }.
(** register_rest_actions_request.py:19-29 __init__ *)
Definition new_register_request (uid : pystr) (acts dep : list pystr) : res register_request :=
  _u <- utf8_encode uid ;;
  _a <- wcat (map utf8_encode acts) ;;
  _d <- wcat (map utf8_encode dep) ;;
  Ok (mkRRR default_task (mkRRA (Some uid) acts dep)).
(** register_rest_actions_request.py:38-43 *)
Definition write_register_request (r : register_request) : res bytes :=
  wcat [write_transport_request (rrr_task r);
        b <- ser_rest_actions (rrr_rra r) ;; wcat [write_v_int (zlen b); Ok b]].
(** register_rest_actions_request.py:31-36 *)
Definition read_register_request : reader register_request :=
  t <~ read_transport_request ;;
  k <~ read_v_int ;;
  b <~ read_bytes k ;;
  m <~ rlift (parse_rest_actions b) ;;
  rret (mkRRR t m).

(** request_type.py:13-22 *)
Definition REQUEST_EXTENSION_ENVIRONMENT_SETTINGS : Z := 4.
