(** * Message envelope: tcp_header.py, thread_context_struct.py, network_message.py,
    outbound_message*.py, transport_status.py (all in transport/) *)
From Coq Require Import ZArith List Bool String.
From Coq Require Import Strings.Byte.
From Verif Require Import Py Stream Version.
Import ListNotations.
Open Scope Z_scope.

(** transport_status.py:9-13 *)
Definition STATUS_REQRES : Z := 1.
(** transport_status.py:11 *)
Definition STATUS_ERROR : Z := 2.
(** transport_status.py:12 *)
Definition STATUS_COMPRESS : Z := 4.
(** transport_status.py:13 *)
Definition STATUS_HANDSHAKE : Z := 8.

(** tcp_header.py:22-34 *)
Definition HEADER_SIZE : Z := 23.
(** tcp_header.py:22-34: 23 - 6 *)
Definition MESSAGE_SIZE : Z := 17.

(** What the [version] attribute of a TcpHeader can be: a Version object, an int (the
    default Version.CURRENT is an int), or None (the default of NetworkMessage). *)
Inductive hver := HVer (v : version) | HInt (n : Z) | HNone.

(** tcp_header.py:38-52 instance attributes *)
Record header := mkHeader {
  h_prefix : bytes;
  h_size : Z;
  h_id : Z;
  h_status : Z;
  h_version : hver;
  h_vhs : Z }.

(** Computations that draw from the process-wide [id_iter = itertools.count()]
    (tcp_header.py:36) and may raise; ids drawn before an exception stay drawn. *)
Definition idm (A : Type) := Z -> res A * Z.
(** a computation that draws no id *)
Definition iret {A} (a : A) : idm A := fun n => (Ok a, n).
(** a computation that draws no id and may raise *)
Definition ilift {A} (x : res A) : idm A := fun n => (x, n).
(** one computation after the other *)
Definition ibind {A B} (m : idm A) (k : A -> idm B) : idm B :=
  fun n => match m n with (Ok a, n') => k a n' | (Raise e, n') => (Raise e, n') end.
Notation "x <! m ;; k" := (ibind m (fun x => k))
  (at level 61, m at next level, right associativity).

(** tcp_header.py:47: request_id if request_id else next(self.id_iter) *)
Definition pick_id (request_id : option Z) : idm Z := fun n =>
  match request_id with
  | Some i => if i =? 0 then (Ok n, n + 1) else (Ok i, n)
  | None => (Ok n, n + 1)
  end.

(** tcp_header.py:40: the default prefix *)
Definition ES : bytes := [x45; x53].

(** tcp_header.py:38-52 __init__ *)
Definition new_header (prefix : bytes) (request_id : option Z) (status : Z) (v : hver)
  (size vhs : Z) : idm header :=
  i <! pick_id request_id ;; iret (mkHeader prefix size i status v vhs).

(** TcpHeader() with every default *)
Definition default_header : idm header := new_header ES None 0 (HInt CURRENT) MESSAGE_SIZE 0.

(** tcp_header.py:54-62 read_from *)
Definition read_header : reader header :=
  p <~ read_bytes 2 ;;
  sz <~ read_int ;;
  i <~ read_long ;;
  st <~ read_byte ;;
  v <~ read_bytes 4 ;;
  vhs <~ read_int ;;
  rret (mkHeader p sz i st (HVer (version_from_bytes v)) vhs).

(** [bytes(self.version)] *)
Definition hver_bytes (v : hver) : res bytes :=
  match v with
  | HVer v => version_to_bytes v
  | HInt n => bytes_of_int n
  | HNone => Raise EType
  end.

(** tcp_header.py:64-71 write_to *)
Definition write_header (h : header) : res bytes :=
  wcat [Ok (h_prefix h); write_int (h_size h); write_long (h_id h); write_byte (h_status h);
        hver_bytes (h_version h); write_int (h_vhs h)].

(** tcp_header.py:131-138 __is_status, __set_status *)
Definition is_status (st flag : Z) : bool := negb (Z.land st flag =? 0).
(** tcp_header.py:134-138 __set_status *)
Definition set_status (st flag : Z) (v : bool) : Z :=
  if v then Z.lor st flag else Z.land st (Z.lnot flag).

(** assignment to status *)
Definition with_status (h : header) (st : Z) : header :=
  mkHeader (h_prefix h) (h_size h) (h_id h) st (h_version h) (h_vhs h).
(** assignments to size and variable_header_size *)
Definition with_sizes (h : header) (sz vhs : Z) : header :=
  mkHeader (h_prefix h) sz (h_id h) (h_status h) (h_version h) vhs.

(** tcp_header.py:76-114 properties; network_message.py:33-59 forward to these *)
Definition is_response (h : header) : bool := is_status (h_status h) STATUS_REQRES.
(** tcp_header.py:85-86 *)
Definition is_request (h : header) : bool := negb (is_response h).
(** tcp_header.py:93-94 *)
Definition is_error (h : header) : bool := is_status (h_status h) STATUS_ERROR.
(** tcp_header.py:101-102 *)
Definition is_compress (h : header) : bool := is_status (h_status h) STATUS_COMPRESS.
(** tcp_header.py:109-110 *)
Definition is_handshake (h : header) : bool := is_status (h_status h) STATUS_HANDSHAKE.
(** tcp_header.py:81-82 *)
Definition set_is_response (h : header) (v : bool) : header :=
  with_status h (set_status (h_status h) STATUS_REQRES v).
(** tcp_header.py:89-90 *)
Definition set_is_request (h : header) (v : bool) : header :=
  with_status h (set_status (h_status h) STATUS_REQRES (negb v)).
(** tcp_header.py:97-98 *)
Definition set_is_error (h : header) (v : bool) : header :=
  with_status h (set_status (h_status h) STATUS_ERROR v).
(** tcp_header.py:105-106 *)
Definition set_is_compress (h : header) (v : bool) : header :=
  with_status h (set_status (h_status h) STATUS_COMPRESS v).
(** tcp_header.py:113-114 *)
Definition set_is_handshake (h : header) (v : bool) : header :=
  with_status h (set_status (h_status h) STATUS_HANDSHAKE v).

(** tcp_header.py:116-129 statuses *)
Definition statuses (h : header) : list pystr :=
  (if is_request h then [py "request"] else [py "response"])
  ++ (if is_error h then [py "error"] else [])
  ++ (if is_compress h then [py "compressed"] else [])
  ++ (if is_handshake h then [py "handshake"] else []).

(** ** thread_context_struct.py *)

(** thread_context_struct.py:17-19.  The value sets are lists in iteration order. *)
Record ctx := mkCtx { c_req : sdict pystr; c_res : sdict (list pystr) }.
(** thread_context_struct.py:17-19: no headers *)
Definition empty_ctx : ctx := mkCtx [] [].

(** thread_context_struct.py:21-24 read_from *)
Definition read_ctx (so : set_order) : reader ctx :=
  a <~ read_string_to_string_dict ;;
  b <~ read_string_to_string_set_dict so ;;
  rret (mkCtx a b).
(** thread_context_struct.py:26-29 write_to *)
Definition write_ctx (c : ctx) : res bytes :=
  wcat [write_string_to_string_dict (c_req c); write_string_to_string_array_dict (c_res c)].
(** thread_context_struct.py:31-35 size *)
Definition ctx_size (c : ctx) : res Z :=
  sum_res [string_to_string_dict_size (c_req c);
           string_to_string_collection_dict_size (c_res c)].

(** ** network_message.py, outbound_message.py *)

(** Attributes of an OutboundMessage; [o_features]/[o_action] are those of
    OutboundMessageRequest (a response has features but never writes them).
    The attribute [message] is represented only by its bytes [o_msg]. *)
Record outbound := mkOut {
  o_hdr : header;
  o_ctx : ctx;
  o_var : option bytes;
  o_msg : option bytes;
  o_features : list pystr;
  o_action : pystr }.

(** assignment to an attribute of tcp_header *)
Definition with_hdr (o : outbound) (h : header) : outbound :=
  mkOut h (o_ctx o) (o_var o) (o_msg o) (o_features o) (o_action o).

(** [if x: ... len(x)] for an Optional[bytes]: None and b"" are both falsy *)
Definition opt_len (b : option bytes) : Z := match b with Some x => zlen x | None => 0 end.

(** outbound_message.py:51-58 variable_bytes setter *)
Definition set_variable_bytes (o : outbound) (b : bytes) : outbound :=
  let h := o_hdr o in
  mkOut (with_sizes h (h_size h - opt_len (o_var o) + zlen b)
                      (h_vhs h - opt_len (o_var o) + zlen b))
        (o_ctx o) (Some b) (o_msg o) (o_features o) (o_action o).

(** outbound_message.py:64-69 message_bytes setter *)
Definition set_message_bytes (o : outbound) (b : bytes) : outbound :=
  let h := o_hdr o in
  mkOut (with_sizes h (h_size h - opt_len (o_msg o) + zlen b) (h_vhs h))
        (o_ctx o) (o_var o) (Some b) (o_features o) (o_action o).

(** network_message.py:22-31 and outbound_message.py:25-45: the constructors up to, but
    not including, _write_variable_bytes.  [msg] is the message argument, as the result
    of [bytes(message)], which is evaluated after the header took its id. *)
Definition new_outbound (c : option ctx) (v : hver) (status : Z) (rid : option Z)
  (msg : option (res bytes)) (features : list pystr) (action : pystr) : idm outbound :=
  let c := match c with Some c => c | None => empty_ctx end in
  h <! new_header ES rid status v MESSAGE_SIZE 0 ;;
  sz <! ilift (ctx_size c) ;;
  mb <! match msg with
        | Some r => (b <! ilift r ;; iret (Some b))
        | None => iret None
        end ;;
  iret (mkOut (with_sizes h (MESSAGE_SIZE + sz + opt_len mb) sz) c None mb features action).

(** outbound_message_request.py:47-51 _write_variable_bytes *)
Definition request_variable_bytes (features : list pystr) (action : pystr) : res bytes :=
  wcat [write_string_array features; write_string action].

(** outbound_message_request.py:37-40 / outbound_message_response.py:34-37: flags *)
Definition set_flags (o : outbound) (hs cp : bool) : outbound :=
  let h := o_hdr o in
  let h := if hs then set_is_handshake h true else h in
  let h := if cp then set_is_compress h true else h in
  with_hdr o h.

(** outbound_message_request.py:23-40 __init__ *)
Definition new_request (c : option ctx) (features : list pystr) (msg : option (res bytes))
  (v : hver) (action : pystr) (rid : option Z) (hs cp : bool) : idm outbound :=
  o <! new_outbound c v 0 rid msg features action ;;
  vb <! ilift (request_variable_bytes features action) ;;
  iret (set_flags (set_variable_bytes o vb) hs cp).

(** outbound_message_response.py:22-37 __init__ *)
Definition new_response (c : option ctx) (features : list pystr) (msg : option (res bytes))
  (v : hver) (rid : option Z) (hs cp : bool) : idm outbound :=
  o <! new_outbound c v STATUS_REQRES rid msg features [] ;;
  iret (set_flags o hs cp).

(** outbound_message_request.py:42-45 _read_variable_bytes: a separate StreamInput over
    the variable bytes, whatever is left in it is ignored *)
Definition read_variable (b : bytes) : res (list pystr * pystr) :=
  rmap fst ((f <~ read_string_array ;; a <~ read_string ;; rret (f, a)) b).

(** outbound_message.py:71-85 read_from, with the header already read ([header] given).
    [req] tells OutboundMessageRequest from OutboundMessageResponse, whose
    _read_variable_bytes does nothing. *)
Definition read_outbound (so : set_order) (req : bool) (o : outbound) (h : header)
  : reader outbound :=
  c <~ read_ctx so ;;
  if 0 <? h_vhs h then
    sz <~ rlift (ctx_size c) ;;
    vb <~ read_bytes (h_vhs h - sz) ;;
    if req then
      fa <~ rlift (read_variable vb) ;;
      rret (mkOut h c (Some vb) (o_msg o) (fst fa) (snd fa))
    else rret (mkOut h c (Some vb) (o_msg o) (o_features o) (o_action o))
  else rret (mkOut h c (o_var o) (o_msg o) (o_features o) (o_action o)).

(** outbound_message.py:99-106 write_to, 111-114 __bytes__ (transport_message.py:23-26) *)
Definition write_outbound (o : outbound) : res bytes :=
  wcat [write_header (o_hdr o); write_ctx (o_ctx o);
        Ok (match o_var o with Some b => b | None => [] end);
        Ok (match o_msg o with Some b => b | None => [] end)].
