(** * What an exception leaves behind: where the input is, and what was written

    The readers of Stream.v and of the messages, once more, with the position of the input kept when
    they raise; the writers, with what they appended before they raised.  PropsTrack.v proves that
    they agree with the readers and writers used everywhere else. *)
From Coq Require Import ZArith List Bool String.
From Coq Require Import Strings.Byte.
From Verif Require Import Py Stream Version Frame Proto Messages Rest Settings Floats.
Import ListNotations.
Open Scope Z_scope.

(** ** Reading *)
(** A reader of a StreamInput (stream_input.py:20-23): a value or an exception, and in both cases
    the bytes not consumed. *)
Definition tracker (A : Type) := bytes -> res A * bytes.
(** reading nothing *)
Definition tret {A} (a : A) : tracker A := fun s => (Ok a, s).
(** raising *)
Definition tfail {A} (e : exn) : tracker A := fun s => (Raise e, s).
(** one after the other; an exception ends both, the input staying where it is *)
Definition tbind {A B} (r : tracker A) (k : A -> tracker B) : tracker B :=
  fun s => match r s with (Ok a, s') => k a s' | (Raise e, s') => (Raise e, s') end.
(** a computation on what was read *)
Definition tlift {A} (x : res A) : tracker A := fun s => (x, s).
Notation "x <% r ;; k" := (tbind r (fun x => k))
  (at level 61, r at next level, right associativity).
(** Python: [for i in range(n): result.append(r())] *)
Fixpoint t_n {A} (r : tracker A) (n : nat) : tracker (list A) :=
  match n with
  | O => tret []
  | S k => a <% r ;; l <% t_n r k ;; tret (a :: l)
  end.

(** stream_input.py:28-29 read_bytes *)
Definition t_read_bytes (n : Z) : tracker bytes := fun s => (Ok (fst (bio_read n s)), snd (bio_read n s)).
(** stream_input.py:25-26 read_byte *)
Definition t_read_byte : tracker Z := b <% t_read_bytes 1 ;; tret (from_bytes_signed b).
(** stream_input.py:31-32 read_int *)
Definition t_read_int : tracker Z := b <% t_read_bytes 4 ;; tret (from_bytes_signed b).
(** stream_input.py:34-35 read_short *)
Definition t_read_short : tracker Z := b <% t_read_bytes 2 ;; tret (from_bytes_signed b).
(** stream_input.py:100-101 read_long *)
Definition t_read_long : tracker Z := b <% t_read_bytes 8 ;; tret (from_bytes_signed b).
(** stream_input.py:43-50 read_boolean *)
Definition t_read_boolean : tracker bool :=
  v <% t_read_byte ;;
  if v =? 0 then tret false else if v =? 1 then tret true else tfail EGeneric.
(** stream_input.py:52-61 read_optional_boolean *)
Definition t_read_optional_boolean : tracker (option bool) :=
  v <% t_read_byte ;;
  if v =? 2 then tret None
  else if v =? 0 then tret (Some false)
  else if v =? 1 then tret (Some true) else tfail EGeneric.
(** stream_input.py:67-87 read_v_int *)
Definition t_read_v_int : tracker Z :=
  b <% t_read_byte ;;
  let i := Z.land b 0x7F in
  if Z.land b 0x80 =? 0 then tret i else
  b <% t_read_byte ;;
  let i := Z.lor i (Z.shiftl (Z.land b 0x7F) 7) in
  if Z.land b 0x80 =? 0 then tret i else
  b <% t_read_byte ;;
  let i := Z.lor i (Z.shiftl (Z.land b 0x7F) 14) in
  if Z.land b 0x80 =? 0 then tret i else
  b <% t_read_byte ;;
  let i := Z.lor i (Z.shiftl (Z.land b 0x7F) 21) in
  if Z.land b 0x80 =? 0 then tret i else
  b <% t_read_byte ;;
  if negb (Z.land b 0x80 =? 0) then tfail EGeneric else
  tret (Z.lor i (Z.shiftl (Z.land b 0x7F) 28)).
(** stream_input.py:94-98 read_optional_int *)
Definition t_read_optional_int : tracker (option Z) :=
  p <% t_read_boolean ;; if p then (i <% t_read_int ;; tret (Some i)) else tret None.
(** stream_input.py:104-146 read_v_long *)
Definition t_read_v_long : tracker Z :=
  b <% t_read_byte ;;
  let i := Z.land b 0x7F in
  if Z.land b 0x80 =? 0 then tret i else
  b <% t_read_byte ;;
  let i := Z.lor i (Z.shiftl (Z.land b 0x7F) 7) in
  if Z.land b 0x80 =? 0 then tret i else
  b <% t_read_byte ;;
  let i := Z.lor i (Z.shiftl (Z.land b 0x7F) 14) in
  if Z.land b 0x80 =? 0 then tret i else
  b <% t_read_byte ;;
  let i := Z.lor i (Z.shiftl (Z.land b 0x7F) 21) in
  if Z.land b 0x80 =? 0 then tret i else
  b <% t_read_byte ;;
  let i := Z.lor i (Z.shiftl (Z.land b 0x7F) 28) in
  if Z.land b 0x80 =? 0 then tret i else
  b <% t_read_byte ;;
  let i := Z.lor i (Z.shiftl (Z.land b 0x7F) 35) in
  if Z.land b 0x80 =? 0 then tret i else
  b <% t_read_byte ;;
  let i := Z.lor i (Z.shiftl (Z.land b 0x7F) 42) in
  if Z.land b 0x80 =? 0 then tret i else
  b <% t_read_byte ;;
  let i := Z.lor i (Z.shiftl (Z.land b 0x7F) 49) in
  if Z.land b 0x80 =? 0 then tret i else
  b <% t_read_byte ;;
  let i := Z.lor i (Z.shiftl (Z.land b 0x7F) 56) in
  if Z.land b 0x80 =? 0 then tret i else
  b <% t_read_byte ;;
  if negb (b =? 0) && negb (b =? 1) then tfail EGeneric else
  tret (Z.lor i (Z.shiftl b 63)).
(** stream_input.py:149-151 read_z_long *)
Definition t_read_z_long : tracker Z :=
  z <% t_read_v_long ;;
  tret (Z.shiftr z 1 * (if Z.land z 1 =? 0 then 1 else -1)).
(** stream_input.py:153-157 read_optional_v_long, read_optional_long *)
Definition t_read_optional_v_long : tracker (option Z) :=
  p <% t_read_boolean ;; if p then (i <% t_read_v_long ;; tret (Some i)) else tret None.
(** stream_input.py:156-157 read_optional_long *)
Definition t_read_optional_long : tracker (option Z) :=
  p <% t_read_boolean ;; if p then (i <% t_read_long ;; tret (Some i)) else tret None.
(** stream_input.py:162-166 read_array_size *)
Definition t_read_array_size : tracker Z :=
  n <% t_read_v_int ;; if 2 ^ 31 <? n then tfail EGeneric else tret n.
(** stream_input.py:168-169 read_string *)
Definition t_read_string : tracker pystr :=
  n <% t_read_array_size ;; b <% t_read_bytes n ;; tlift (utf8_decode b).
(** stream_input.py:159-160 read_optional_string *)
Definition t_read_optional_string : tracker (option pystr) :=
  p <% t_read_boolean ;; if p then (s <% t_read_string ;; tret (Some s)) else tret None.
(** stream_input.py:171-180 read_string_array *)
Definition t_read_string_array : tracker (list pystr) :=
  n <% t_read_array_size ;;
  if n =? 0 then tret [] else t_n t_read_string (Z.to_nat n).
(** stream_input.py:182-186 read_optional_string_array *)
Definition t_read_optional_string_array : tracker (option (list pystr)) :=
  p <% t_read_boolean ;; if p then (a <% t_read_string_array ;; tret (Some a)) else tret None.
(** one round of the loops of stream_input.py reading dicts: key, then value *)
Definition t_read_pair {V} (rv : tracker V) : tracker (pystr * V) :=
  k <% t_read_string ;; v <% rv ;; tret (k, v).
(** Loop shared by the three dict readers (stream_input.py:189-199, 202-212, 215-227).
    The dict is built pair by pair in Python; here all pairs are read first and then
    inserted in the same order, which gives the same dict. *)
Definition t_read_dict {V} (rv : tracker V) : tracker (sdict V) :=
  n <% t_read_v_int ;;
  if n =? 0 then tret [] else
  l <% t_n (t_read_pair rv) (Z.to_nat n) ;; tret (dict_of_pairs l).
(** stream_input.py:188-199 read_string_to_string_dict *)
Definition t_read_string_to_string_dict : tracker (sdict pystr) := t_read_dict t_read_string.
(** stream_input.py:201-212 read_string_to_string_array_dict *)
Definition t_read_string_to_string_array_dict : tracker (sdict (list pystr)) :=
  t_read_dict t_read_string_array.
(** stream_input.py:222-224: value = set(); for v in read_string_array(): value.add(v) *)
Definition t_read_string_set (so : set_order) : tracker (list pystr) :=
  l <% t_read_string_array ;; tret (so (set_of_list l)).
(** stream_input.py:214-227 read_string_to_string_set_dict *)
Definition t_read_string_to_string_set_dict (so : set_order) : tracker (sdict (list pystr)) :=
  t_read_dict (t_read_string_set so).
(** stream_input.py:273-275 read_byte_array *)
Definition t_read_byte_array : tracker bytes :=
  n <% t_read_array_size ;; if 0 <? n then t_read_bytes n else tret [].
(** stream_input.py:229-271 read_generic_value, read_array_list.  The recursion is
    bounded by Python's recursion limit: [fuel] levels of nesting are available and
    running out raises RecursionError. *)
Fixpoint t_read_generic_value (fuel : nat) : tracker pyval :=
  match fuel with
  | O => tfail ERecursion
  | S f =>
    t <% t_read_byte ;;
    if t =? -1 then tret VNone
    else if t =? 0 then (s <% t_read_string ;; tret (VStr s))
    else if t =? 1 then (i <% t_read_int ;; tret (VInt i))
    else if t =? 2 then (i <% t_read_long ;; tret (VInt i))
    else if t =? 5 then (b <% t_read_boolean ;; tret (VBool b))
    else if t =? 6 then (b <% t_read_byte_array ;; tret (VBytes b))
    else if t =? 7 then
      (n <% t_read_v_int ;; l <% t_n (t_read_generic_value f) (Z.to_nat n) ;; tret (VList l))
    else if t =? 11 then (i <% t_read_byte ;; tret (VInt i))
    else if t =? 16 then (i <% t_read_short ;; tret (VInt i))
    else tfail EGeneric
  end.
(** stream_input.py:277-278 read_enum for an Enum whose values are 0..n-1: the member is
    identified with its value; ValueError for any other number. *)
Definition t_read_enum (n : Z) : tracker Z :=
  v <% t_read_v_int ;; if (0 <=? v) && (v <? n) then tret v else tfail EValue.
(** stream_input.py:90-91 read_version: Version(self.read_v_int() ^ Version.MASK) *)
Definition t_read_version : tracker version :=
  i <% t_read_v_int ;; tret (version_of_id (Z.lxor i MASK)).
(** stream_input.py:37-41 read_float, read_double: struct.unpack raises struct.error
    unless it gets exactly 4 / 8 bytes *)
Definition t_read_double : tracker f64 :=
  b <% t_read_bytes 8 ;;
  if zlen b =? 8 then tret (from_bytes_unsigned b) else tfail EStruct.
(** stream_input.py:37-38 read_float *)
Definition t_read_float : tracker f64 :=
  b <% t_read_bytes 4 ;;
  if zlen b =? 4 then tret (f32_to_f64 (from_bytes_unsigned b)) else tfail EStruct.
(** double_setting.py:37-42 read_from *)
Definition t_read_double_parser : tracker float_parser :=
  a <% t_read_double ;; b <% t_read_double ;; k <% t_read_string ;; f <% t_read_boolean ;;
  tret (mkFP a b k f).
(** float_setting.py:37-42 read_from *)
Definition t_read_single_parser : tracker float_parser :=
  a <% t_read_float ;; b <% t_read_float ;; k <% t_read_string ;; f <% t_read_boolean ;;
  tret (mkFP a b k f).
(** integer_setting.py:45-50 read_from *)
Definition t_read_integer_parser : tracker int_parser :=
  a <% t_read_int ;; b <% t_read_int ;; k <% t_read_string ;; f <% t_read_boolean ;;
  tret (mkIP a b k f).
(** long_setting.py:44-49 read_from *)
Definition t_read_long_parser : tracker int_parser :=
  a <% t_read_long ;; b <% t_read_long ;; k <% t_read_string ;; f <% t_read_boolean ;;
  tret (mkIP a b k f).
(** regex_validator.py:28-31 read_from *)
Definition t_read_validator : tracker validator :=
  r <% t_read_string ;; m <% t_read_boolean ;; tret (mkVal r m).
(** byte_size_value.py:60-63 read_from *)
Definition t_read_bsv : tracker bsv :=
  n <% t_read_z_long ;; u <% t_read_enum 6 ;; tret (mkBSV n u).
(** stream_input.py:280-283 read_time_value *)
Definition t_read_time_value : tracker tval :=
  n <% t_read_z_long ;; u <% t_read_enum 7 ;; tret (mkTV n u).
(** byte_size_value_setting.py:47-51 read_from *)
Definition t_read_bs_parser : tracker bs_parser :=
  a <% t_read_bsv ;; b <% t_read_bsv ;; k <% t_read_string ;; tret (mkBP a b k).
(** time_value_setting.py:48-54 read_from *)
Definition t_read_tv_parser : tracker tv_parser :=
  has_max <% t_read_boolean ;;
  k <% t_read_string ;;
  lo <% t_read_time_value ;;
  hi <% (if has_max then t_read_time_value else tret TV_MINUS_ONE) ;;
  f <% t_read_boolean ;;
  tret (mkTP lo hi k f).
(** tcp_header.py:54-62 read_from *)
Definition t_read_header : tracker header :=
  p <% t_read_bytes 2 ;;
  sz <% t_read_int ;;
  i <% t_read_long ;;
  st <% t_read_byte ;;
  v <% t_read_bytes 4 ;;
  vhs <% t_read_int ;;
  tret (mkHeader p sz i st (HVer (version_from_bytes v)) vhs).
(** thread_context_struct.py:21-24 read_from *)
Definition t_read_ctx (so : set_order) : tracker ctx :=
  a <% t_read_string_to_string_dict ;;
  b <% t_read_string_to_string_set_dict so ;;
  tret (mkCtx a b).
(** outbound_message.py:71-85 read_from, with the header already read ([header] given).
    [req] tells OutboundMessageRequest from OutboundMessageResponse, whose
    _read_variable_bytes does nothing. *)
Definition t_read_outbound (so : set_order) (req : bool) (o : outbound) (h : header)
  : tracker outbound :=
  c <% t_read_ctx so ;;
  if 0 <? h_vhs h then
    sz <% tlift (ctx_size c) ;;
    vb <% t_read_bytes (h_vhs h - sz) ;;
    if req then
      fa <% tlift (read_variable vb) ;;
      tret (mkOut h c (Some vb) (o_msg o) (fst fa) (snd fa))
    else tret (mkOut h c (Some vb) (o_msg o) (o_features o) (o_action o))
  else tret (mkOut h c (o_var o) (o_msg o) (o_features o) (o_action o)).
(** task_id.py:23-29 *)
Definition t_read_task : tracker task_id :=
  n <% t_read_string ;;
  match n with
  | [] => tret (mkTask n None)
  | _ => i <% t_read_long ;; tret (mkTask n (Some i))
  end.
(** transport_request.py:21-24 read_from *)
Definition t_read_transport_request : tracker task_id := t_read_task.
(** acknowledged_response.py:22-25 read_from *)
Definition t_read_ack : tracker bool := t_read_boolean.
(** transport_address.py:23-30; IPv4Address(i) raises AddressValueError for negative i *)
Definition t_read_addr : tracker taddr :=
  n <% t_read_byte ;;
  if negb (n =? 4) then tfail EGeneric else
  i <% t_read_int ;;
  if i <? 0 then tfail EValue else
  h <% t_read_string ;;
  p <% t_read_int ;;
  tret (mkAddr i h p).
(** discovery_node.py:59 *)
Definition t_read_role : tracker role :=
  a <% t_read_string ;; b <% t_read_string ;; c <% t_read_boolean ;; tret (a, b, c).
(** discovery_node.py:48-61 *)
Definition t_read_node : tracker node :=
  name <% t_read_string ;;
  id <% t_read_string ;;
  eph <% t_read_string ;;
  host <% t_read_string ;;
  ha <% t_read_string ;;
  addr <% t_read_addr ;;
  attrs <% t_read_string_to_string_dict ;;
  k <% t_read_v_int ;;
  roles <% t_n t_read_role (Z.to_nat k) ;;
  v <% t_read_version ;;
  tret (mkNode name id eph host ha addr attrs (fold_left role_add roles []) v).
(** extension_dependency.py:22-25 read_from *)
Definition t_read_dep : tracker dependency :=
  i <% t_read_string ;; v <% t_read_version ;; tret (mkDep i v).
(** discovery_extension_node.py:39-46 *)
Definition t_read_ext_node : tracker ext_node :=
  n <% t_read_node ;;
  v <% t_read_version ;;
  k <% t_read_v_int ;;
  d <% t_n t_read_dep (Z.to_nat k) ;;
  tret (mkExtNode n v d).
(** initialize_extension_request.py:29-33 read_from *)
Definition t_read_init_request : tracker init_request :=
  t <% t_read_transport_request ;; s <% t_read_node ;; x <% t_read_ext_node ;;
  tret (mkInitReq t s x).
(** initialize_extension_response.py:23-27 read_from *)
Definition t_read_init_response : tracker init_response :=
  n <% t_read_string ;; i <% t_read_string_array ;; tret (mkInitResp n i).
(** transport_service_handshake_response.py:34-43 *)
Definition t_read_handshake_response : tracker handshake_response :=
  p <% t_read_boolean ;;
  n <% (if p then (n <% t_read_node ;; tret (Some n)) else tret None) ;;
  c <% t_read_string ;;
  v <% t_read_version ;;
  tret (mkHsResp n c v).
(** transport_handshaker_handshake_request.py:23-27 *)
Definition t_read_tcp_handshake_request : tracker tcp_handshake_request :=
  t <% t_read_transport_request ;;
  _k <% t_read_v_int ;;
  v <% t_read_version ;;
  tret (mkTcpReq t (Some v)).
(** transport_handshaker_handshake_response.py:25-28 read_from *)
Definition t_read_tcp_handshake_response : tracker (option version) :=
  v <% t_read_version ;; tret (Some v).
(** extension_transport_request.py:31-36 *)
Definition t_read_ext_transport_request : tracker ext_transport_request :=
  t <% t_read_transport_request ;;
  k <% t_read_v_int ;;
  b <% t_read_bytes k ;;
  m <% tlift (parse_ext_request b) ;;
  tret (mkETR t m).
(** register_rest_actions_request.py:31-36 *)
Definition t_read_register_request : tracker register_request :=
  t <% t_read_transport_request ;;
  k <% t_read_v_int ;;
  b <% t_read_bytes k ;;
  m <% tlift (parse_rest_actions b) ;;
  tret (mkRRR t m).
(** extension_rest_request.py:48-60 read_from on a fresh ExtensionRestRequest() *)
Definition t_read_rest_request : tracker rest_request :=
  t <% t_read_transport_request ;;
  m <% t_read_enum N_METHODS ;;
  uri <% t_read_string ;;
  path <% t_read_string ;;
  params <% t_read_string_to_string_dict ;;
  headers <% t_read_string_to_string_array_dict ;;
  has <% t_read_boolean ;;
  media <% (if has then t_read_string else tret []) ;;
  n <% t_read_array_size ;;
  content <% t_read_bytes n ;;
  tok <% t_read_string ;;
  hv <% t_read_enum N_HTTP ;;
  tret (mkReq t (Some m) uri path params headers media content tok (Some hv) [] false).
(** extension_rest_response.py:43-51 read_from; set(list) goes through the order oracle *)
Definition t_read_rest_response (so : set_order) : tracker rest_response :=
  st <% t_read_enum N_STATUS ;;
  n <% t_read_array_size ;;
  c <% t_read_bytes n ;;
  ct <% t_read_string ;;
  h <% t_read_string_to_string_array_dict ;;
  ps <% t_read_string_array ;;
  cc <% t_read_boolean ;;
  tret (mkResp (Some st) c ct h (so (set_of_list ps)) cc).
(** rest_execute_on_extension_response.py:36-44 *)
Definition t_read_exec_response : tracker exec_response :=
  st <% t_read_enum N_STATUS ;;
  ct <% t_read_string ;;
  n <% t_read_array_size ;;
  c <% t_read_bytes n ;;
  h <% t_read_string_to_string_array_dict ;;
  ps <% t_read_string_array ;;
  cc <% t_read_boolean ;;
  tret (mkExec (Some st) ct c h ps cc).
(** settings.py:25-31 read_from on an object whose dict is [d]; the dict after an exception is in
    Settings.v and left out here *)
Fixpoint t_settings_loop (fuel : nat) (n : nat) (d : sdict pyval) : tracker (sdict pyval) :=
  match n with
  | O => tret d
  | S k => key <% t_read_string ;; v <% t_read_generic_value fuel ;; t_settings_loop fuel k (dict_set streqb key v d)
  end.
(** settings.py:25-31 *)
Definition t_read_settings (fuel : nat) (d : sdict pyval) : tracker (sdict pyval) :=
  n <% t_read_v_int ;; t_settings_loop fuel (Z.to_nat n) d.

(** ** Writing *)
(** A writer of a StreamOutput (stream_output.py:19): how it ends, and the bytes it appended. *)
Definition emit := (res unit * bytes)%type.
(** BytesIO.write(b) *)
Definition put (b : bytes) : emit := (Ok tt, b).
(** raising *)
Definition stop (e : exn) : emit := (Raise e, []).
(** write(x) where computing x may raise *)
Definition once (r : res bytes) : emit := match r with Ok b => put b | Raise e => stop e end.
(** writers in sequence: an exception ends them, what was appended stays *)
Fixpoint tcat (l : list emit) : emit :=
  match l with
  | [] => put []
  | (Raise e, b) :: _ => (Raise e, b)
  | (Ok _, b) :: t => (fst (tcat t), b ++ snd (tcat t))
  end.
(** writing to a stream that holds [out] *)
Definition write_onto (out : bytes) (m : emit) : res unit * bytes := (fst m, out ++ snd m).

(** stream_output.py:21-22 write_byte *)
Definition t_write_byte (b : Z) : emit := once (to_bytes_signed 1 b).
(** stream_output.py:25-26 write_int *)
Definition t_write_int (i : Z) : emit := once (to_bytes_signed 4 i).
(** stream_output.py:65-66 write_long *)
Definition t_write_long (i : Z) : emit := once (to_bytes_signed 8 i).
(** stream_output.py:29-40 write_v_int (single byte shortcut for i < 0x80, which for
    negative i writes a signed byte) *)
Definition t_write_v_int (i : Z) : emit :=
  if i <? 0x80 then t_write_byte i else once (v_int_loop (v_int_fuel i) i).
(** stream_output.py:131-133 write_v_long *)
Definition t_write_v_long (i : Z) : emit := t_write_v_int i.
(** stream_output.py:145-149 write_z_long *)
Definition t_write_z_long (i : Z) : emit :=
  let zz := 2 * Z.abs i + (if i <? 0 then 1 else 0) in
  if 0 <? Z.shiftr zz 64 then stop EValue else t_write_v_long zz.
(** stream_output.py:68-70 write_byte_array *)
Definition t_write_byte_array (b : bytes) : emit := tcat [t_write_v_int (zlen b); put b].
(** stream_output.py:236-240 write_string *)
Definition t_write_string (s : pystr) : emit :=
  match utf8_encode s with
  | Raise e => stop e
  | Ok e => tcat [t_write_v_int (zlen e); if 0 <? zlen e then put e else put []]
  end.
(** stream_output.py:275-276 write_boolean *)
Definition t_write_boolean (b : bool) : emit := t_write_byte (if b then 1 else 0).
(** stream_output.py:321-324 write_string_array *)
Definition t_write_string_array (a : list pystr) : emit :=
  tcat (t_write_v_int (zlen a) :: map t_write_string a).
(** stream_output.py:327-330 write_string_set ([a] in iteration order) *)
Definition t_write_string_set (a : list pystr) : emit :=
  tcat (t_write_v_int (zlen a) :: map t_write_string a).
(** stream_output.py:348-352 write_string_to_string_dict *)
Definition t_write_string_to_string_dict (d : sdict pystr) : emit :=
  tcat (t_write_v_int (zlen d)
        :: map (fun kv => tcat [t_write_string (fst kv); t_write_string (snd kv)]) d).
(** stream_output.py:364-368 write_string_to_string_array_dict *)
Definition t_write_string_to_string_array_dict (d : sdict (list pystr)) : emit :=
  tcat (t_write_v_int (zlen d)
        :: map (fun kv => tcat [t_write_string (fst kv); t_write_string_array (snd kv)]) d).
(** stream_output.py:370-374 write_string_to_string_set_dict *)
Definition t_write_string_to_string_set_dict (d : sdict (list pystr)) : emit :=
  tcat (t_write_v_int (zlen d)
        :: map (fun kv => tcat [t_write_string (fst kv); t_write_string_set (snd kv)]) d).
(** stream_output.py:504-507, 612-630 write_array_list, write_generic_value.
    A value of any other type falls through the if-chain: nothing is written. *)
Fixpoint t_write_generic_value (v : pyval) : emit :=
  match v with
  | VNone => t_write_byte (-1)
  | VBool b => tcat [t_write_byte 5; t_write_boolean b]
  | VStr s => tcat [t_write_byte 0; t_write_string s]
  | VInt i => tcat [t_write_byte 2; t_write_long i]
  | VBytes b => tcat [t_write_byte 6; t_write_byte_array b]
  | VList l => tcat [t_write_byte 7; tcat (t_write_v_int (zlen l) :: map t_write_generic_value l)]
  | VOther _ _ => put []
  end.
(** stream_output.py:1023-1024 write_enum *)
Definition t_write_enum (v : Z) : emit := t_write_v_int v.
(** stream_output.py:61-62 write_version *)
Definition t_write_version (v : version) : emit := t_write_v_int (vid v).
(** stream_output.py:251-255 write_float, write_double *)
Definition t_write_double (x : f64) : emit := put (be_bytes 8 x).
(** stream_output.py:251-252 write_float *)
Definition t_write_float (x : f64) : emit := once (y <- f64_to_f32 x ;; Ok (be_bytes 4 y)).
(** double_setting.py:37-49 *)
Definition t_write_double_parser (p : float_parser) : emit :=
  tcat [t_write_double (fp_min p); t_write_double (fp_max p); t_write_string (fp_key p);
        t_write_boolean (fp_filtered p)].
(** float_setting.py:37-49 *)
Definition t_write_single_parser (p : float_parser) : emit :=
  tcat [t_write_float (fp_min p); t_write_float (fp_max p); t_write_string (fp_key p);
        t_write_boolean (fp_filtered p)].
(** settings.py:33-38 write_to *)
Definition t_write_settings (d : sdict pyval) : emit :=
  tcat (t_write_v_int (zlen d)
        :: map (fun kv => tcat [t_write_string (fst kv); t_write_generic_value (snd kv)]) d).
(** integer_setting.py:45-57 read_from, write_to *)
Definition t_write_integer_parser (p : int_parser) : emit :=
  tcat [t_write_int (ip_min p); t_write_int (ip_max p); t_write_string (ip_key p);
        t_write_boolean (ip_filtered p)].
(** long_setting.py:44-56 read_from, write_to *)
Definition t_write_long_parser (p : int_parser) : emit :=
  tcat [t_write_long (ip_min p); t_write_long (ip_max p); t_write_string (ip_key p);
        t_write_boolean (ip_filtered p)].
(** regex_validator.py:28-36 *)
Definition t_write_validator (v : validator) : emit :=
  tcat [t_write_string (rv_regex v); t_write_boolean (rv_matching v)].
(** byte_size_value.py:60-68 *)
Definition t_write_bsv (v : bsv) : emit := tcat [t_write_z_long (bs_size v); t_write_enum (bs_unit v)].
(** stream_output.py:1036-1038 write_time_value, stream_input.py:280-283 read_time_value *)
Definition t_write_time_value (v : tval) : emit :=
  tcat [t_write_z_long (tv_dur v); t_write_byte (tv_unit v)].
(** byte_size_value_setting.py:47-57 *)
Definition t_write_bs_parser (p : bs_parser) : emit :=
  tcat [t_write_bsv (bp_min p); t_write_bsv (bp_max p); t_write_string (bp_key p)].
(** time_value_setting.py:48-64 *)
Definition t_write_tv_parser (p : tv_parser) : emit :=
  let has_max := 0 <=? tv_dur (tp_max p) in
  tcat [t_write_boolean has_max; t_write_string (tp_key p); t_write_time_value (tp_min p);
        if has_max then t_write_time_value (tp_max p) else put [];
        t_write_boolean (tp_filtered p)].
(** tcp_header.py:64-71 write_to *)
Definition t_write_header (h : header) : emit :=
  tcat [put (h_prefix h); t_write_int (h_size h); t_write_long (h_id h); t_write_byte (h_status h);
        once (hver_bytes (h_version h)); t_write_int (h_vhs h)].
(** thread_context_struct.py:26-29 write_to *)
Definition t_write_ctx (c : ctx) : emit :=
  tcat [t_write_string_to_string_dict (c_req c); t_write_string_to_string_array_dict (c_res c)].
(** outbound_message.py:99-106 write_to *)
Definition t_write_outbound (o : outbound) : emit :=
  tcat [t_write_header (o_hdr o); t_write_ctx (o_ctx o);
        put (match o_var o with Some b => b | None => [] end);
        put (match o_msg o with Some b => b | None => [] end)].
(** [i.to_bytes(...)] on None: AttributeError *)
Definition t_write_opt_long (i : option Z) : emit :=
  match i with Some i => t_write_long i | None => stop EAttr end.
(** task_id.py:31-35 *)
Definition t_write_task (t : task_id) : emit :=
  tcat [t_write_string (t_node t);
        match t_node t with [] => put [] | _ => t_write_opt_long (t_id t) end].
(** ** transport_request.py:16-32 TransportRequest, and transport_service_handshake_request.py
    which adds nothing: the only content is the parent task id. *)
Definition t_write_transport_request : task_id -> emit := t_write_task.
(** ** acknowledged_response.py:17-33 *)
Definition t_write_ack : bool -> emit := t_write_boolean.
(** transport_address.py:32-37 *)
Definition t_write_addr (a : taddr) : emit :=
  tcat [t_write_byte 4; t_write_int (a_addr a); t_write_string (a_host a); t_write_int (a_port a)].
(** discovery_node.py:72-75 *)
Definition t_write_role (r : role) : emit :=
  tcat [t_write_string (fst (fst r)); t_write_string (snd (fst r)); t_write_boolean (snd r)].
(** discovery_node.py:63-77 *)
Definition t_write_node (n : node) : emit :=
  tcat [t_write_string (n_name n); t_write_string (n_id n); t_write_string (n_eph n);
        t_write_string (n_host n); t_write_string (n_hostaddr n); t_write_addr (n_addr n);
        t_write_string_to_string_dict (n_attrs n);
        tcat (t_write_v_int (zlen (n_roles n)) :: map t_write_role (n_roles n));
        t_write_version (n_version n)].
(** extension_dependency.py:27-30 write_to *)
Definition t_write_dep (d : dependency) : emit :=
  tcat [t_write_string (d_id d); t_write_version (d_version d)].
(** discovery_extension_node.py:48-54 *)
Definition t_write_ext_node (n : ext_node) : emit :=
  tcat [t_write_node (x_node n); t_write_version (x_min n);
        tcat (t_write_v_int (zlen (x_deps n)) :: map t_write_dep (x_deps n))].
(** initialize_extension_request.py:35-39 write_to *)
Definition t_write_init_request (r : init_request) : emit :=
  tcat [t_write_transport_request (ir_task r); t_write_node (ir_source r); t_write_ext_node (ir_ext r)].
(** initialize_extension_response.py:29-33 write_to *)
Definition t_write_init_response (r : init_response) : emit :=
  tcat [t_write_string (is_name r); t_write_string_array (is_interfaces r)].
(** transport_service_handshake_response.py:45-54 *)
Definition t_write_handshake_response (r : handshake_response) : emit :=
  tcat [match hr_node r with
        | Some n => tcat [t_write_boolean true; t_write_node n]
        | None => t_write_boolean false
        end;
        t_write_string (hr_cluster r); t_write_version (hr_version r)].
(** transport_handshaker_handshake_request.py:29-35 *)
Definition t_write_tcp_handshake_request (r : tcp_handshake_request) : emit :=
  tcat [t_write_transport_request (tr_task r);
        match tr_version r with
        | Some v => tcat [t_write_v_int (version_size v); t_write_version v]
        | None => put []
        end].
(** ** transport_handshaker_handshake_response.py:20-36.  A None version makes
    write_version raise AttributeError. *)
Definition t_write_tcp_handshake_response (v : option version) : emit :=
  match v with Some v => t_write_version v | None => stop EAttr end.
(** extension_transport_request.py:38-43 *)
Definition t_write_ext_transport_request (r : ext_transport_request) : emit :=
  tcat [t_write_transport_request (etr_task r);
        match ser_ext_request (etr_er r) with Ok b => tcat [t_write_v_int (zlen b); put b] | Raise e => stop e end].
(** register_rest_actions_request.py:38-43 *)
Definition t_write_register_request (r : register_request) : emit :=
  tcat [t_write_transport_request (rrr_task r);
        match ser_rest_actions (rrr_rra r) with Ok b => tcat [t_write_v_int (zlen b); put b] | Raise e => stop e end].
(** stream_output.py:1023-1024 write_enum: [enum.value], AttributeError on None *)
Definition t_write_opt_enum (e : option Z) : emit :=
  match e with Some v => t_write_enum v | None => stop EAttr end.
(** extension_rest_request.py:62-76 write_to *)
Definition t_write_rest_request (r : rest_request) : emit :=
  tcat [t_write_transport_request (rq_task r);
        t_write_opt_enum (rq_method r);
        t_write_string (rq_uri r);
        t_write_string (rq_path r);
        t_write_string_to_string_dict (rq_params r);
        t_write_string_to_string_array_dict (rq_headers r);
        t_write_boolean (0 <? zlen (rq_media r));
        match rq_media r with [] => put [] | _ => t_write_string (rq_media r) end;
        t_write_v_int (zlen (rq_content r));
        put (rq_content r);
        t_write_string (rq_token r);
        t_write_opt_enum (rq_http r)].
(** extension_rest_response.py:53-62 write_to *)
Definition t_write_rest_response (r : rest_response) : emit :=
  tcat [t_write_opt_enum (rp_status r);
        t_write_v_int (zlen (rp_content r));
        put (rp_content r);
        t_write_string (rp_ctype r);
        t_write_string_to_string_array_dict (rp_headers r);
        t_write_string_array (py_sorted (rp_consumed r));
        t_write_boolean (rp_content_consumed r)].
(** rest_execute_on_extension_response.py:46-55 *)
Definition t_write_exec_response (r : exec_response) : emit :=
  tcat [t_write_opt_enum (ex_status r);
        t_write_string (ex_ctype r);
        t_write_v_int (zlen (ex_content r));
        put (ex_content r);
        t_write_string_to_string_array_dict (ex_headers r);
        t_write_string_array (ex_consumed r);
        t_write_boolean (ex_content_consumed r)].
