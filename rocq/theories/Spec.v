(** * Small specifications used in the statements of the properties.
    They do not refer to how the model computes anything. *)
From Coq Require Import String ZArith List Bool Permutation.
From Coq Require Import Strings.Byte.
From Verif Require Import Py Stream Version Frame Proto Messages Rest Routes Settings.
Import ListNotations.
Open Scope list_scope.
Open Scope Z_scope.

(** ** Round trips *)

(** Every value satisfying [P] can be written, and reading what was written, whatever
    bytes follow it, gives the value back and leaves exactly the following bytes. *)
Definition survives {A} (w : A -> res bytes) (r : reader A) (P : A -> Prop) : Prop :=
  forall a, P a -> exists bs, w a = Ok bs /\ forall s, r (bs ++ s) = Ok (a, s).

(** The same up to an equivalence (used where Python does not promise an order). *)
Definition survives_upto {A} (E : A -> A -> Prop) (w : A -> res bytes) (r : reader A)
  (P : A -> Prop) : Prop :=
  forall a, P a -> exists bs, w a = Ok bs /\
    forall s, exists a', r (bs ++ s) = Ok (a', s) /\ E a a'.

(** ** Integers *)

(** big-endian value of a byte string *)
Fixpoint be_value (bs : bytes) : Z :=
  match bs with
  | [] => 0
  | b :: t => b2z b * 256 ^ zlen t + be_value t
  end.

(** Two's complement in [n] bytes: accepted exactly in range, [n] bytes, big-endian, read
    back. *)
Definition twos_complement (n : nat) (w : Z -> res bytes) (r : reader Z) : Prop :=
  forall i,
    (- 2 ^ (8 * Z.of_nat n - 1) <= i < 2 ^ (8 * Z.of_nat n - 1) ->
     exists bs, w i = Ok bs /\ length bs = n /\ be_value bs = i mod 2 ^ (8 * Z.of_nat n)
                /\ forall s, r (bs ++ s) = Ok (i, s)) /\
    (~ (- 2 ^ (8 * Z.of_nat n - 1) <= i < 2 ^ (8 * Z.of_nat n - 1)) -> w i = Raise EOverflow).

(** Base-128 little-endian with continuation bits: [leb128 bs i] says [bs] is the
    encoding of [i] (OpenSearch's vInt/vLong, protocol buffers' varint). *)
Inductive leb128 : bytes -> Z -> Prop :=
| leb_last b : b2z b < 128 -> leb128 [b] (b2z b)
| leb_more b bs i : 128 <= b2z b -> leb128 bs i -> leb128 (b :: bs) (b2z b - 128 + 128 * i).

(** protocol buffers' zig-zag: 0, -1, 1, -2, 2, ... -> 0, 1, 2, 3, 4, ... *)
Definition zigzag (i : Z) : Z := if i <? 0 then - 2 * i - 1 else 2 * i.

(** ** Text *)

(** Unicode scalar values: code points without surrogates *)
Definition scalar (c : Z) : Prop := 0 <= c < 0xD800 \/ 0xE000 <= c < 0x110000.

(** UTF-8 bit distribution (Unicode standard, table 3-6, with the range conditions of
    table 3-7): code point and its bytes *)
Inductive utf8_char : Z -> list Z -> Prop :=
| utf8_1 x : 0 <= x < 0x80 -> utf8_char x [x]
| utf8_2 y x : 0 <= y < 0x20 -> 0 <= x < 0x40 -> 0x80 <= y * 0x40 + x ->
    utf8_char (y * 0x40 + x) [0xC0 + y; 0x80 + x]
| utf8_3 z y x : 0 <= z < 0x10 -> 0 <= y < 0x40 -> 0 <= x < 0x40 ->
    0x800 <= z * 0x1000 + y * 0x40 + x -> scalar (z * 0x1000 + y * 0x40 + x) ->
    utf8_char (z * 0x1000 + y * 0x40 + x) [0xE0 + z; 0x80 + y; 0x80 + x]
| utf8_4 u z y x : 0 <= u < 0x8 -> 0 <= z < 0x40 -> 0 <= y < 0x40 -> 0 <= x < 0x40 ->
    0x10000 <= u * 0x40000 + z * 0x1000 + y * 0x40 + x < 0x110000 ->
    utf8_char (u * 0x40000 + z * 0x1000 + y * 0x40 + x)
              [0xF0 + u; 0x80 + z; 0x80 + y; 0x80 + x].

Inductive utf8_text : pystr -> list Z -> Prop :=
| ut_nil : utf8_text [] []
| ut_cons c bs t bt : utf8_char c bs -> utf8_text t bt -> utf8_text (c :: t) (bs ++ bt).

Definition is_utf8 (x : pystr) (e : bytes) : Prop := utf8_text x (map b2z e).

(** A string the wire format can carry: encodable, at most 2^31 bytes long. *)
Definition text_ok (x : pystr) : Prop := exists e, is_utf8 x e /\ zlen e <= 2 ^ 31.
(** A list of such strings, of at most 2^31 elements. *)
Definition texts_ok (l : list pystr) : Prop := zlen l <= 2 ^ 31 /\ Forall text_ok l.
(** A Python set given by listing its members: no duplicates. *)
Definition set_ok (l : list pystr) : Prop := texts_ok l /\ NoDup l.
(** A Python dict with string keys: distinct keys, fewer than 2^35 of them. *)
Definition dict_ok {V} (P : V -> Prop) (d : sdict V) : Prop :=
  zlen d < 2 ^ 35 /\ NoDup (map fst d) /\ Forall (fun kv => text_ok (fst kv) /\ P (snd kv)) d.

(** An iteration-order oracle lists every set's members, each once, in some order. *)
Definition set_order_ok (so : set_order) : Prop := forall l, Permutation (so l) l.
(** Same keys in the same order, the values equal as sets *)
Definition same_set_dict (d d' : sdict (list pystr)) : Prop :=
  Forall2 (fun a b => fst a = fst b /\ Permutation (snd a) (snd b)) d d'.

(** ** Decimal digits: the number written by a list of digits, most significant first *)
Fixpoint digits_value (l : list Z) : Z :=
  match l with
  | [] => 0
  | d :: t => d * 10 ^ zlen t + digits_value t
  end.

(** ** Generic values that the wire format can carry *)
Inductive generic_ok : pyval -> Prop :=
| gen_none : generic_ok VNone
| gen_bool b : generic_ok (VBool b)
| gen_str s : text_ok s -> generic_ok (VStr s)
| gen_int i : - 2 ^ 63 <= i < 2 ^ 63 -> generic_ok (VInt i)
| gen_bytes b : zlen b <= 2 ^ 31 -> generic_ok (VBytes b)
| gen_list l : zlen l < 2 ^ 35 -> Forall generic_ok l -> generic_ok (VList l).

(** Made of None, bool, str, int, bytes and lists only, of whatever size or content *)
Inductive plain : pyval -> Prop :=
| plain_none : plain VNone
| plain_bool b : plain (VBool b)
| plain_str s : plain (VStr s)
| plain_int i : plain (VInt i)
| plain_bytes b : plain (VBytes b)
| plain_list l : Forall plain l -> plain (VList l).
(** No string with a surrogate and no integer over 64 bits anywhere in it *)
Inductive encodable : pyval -> Prop :=
| enc_none : encodable VNone
| enc_bool b : encodable (VBool b)
| enc_str s : Forall scalar s -> encodable (VStr s)
| enc_int i : - 2 ^ 63 <= i < 2 ^ 63 -> encodable (VInt i)
| enc_bytes b : encodable (VBytes b)
| enc_list l : Forall encodable l -> encodable (VList l)
| enc_other t r : encodable (VOther t r).
(** No string or bytes of more than 2^31 bytes, no list of 2^35 elements or more *)
Inductive sized : pyval -> Prop :=
| sized_none : sized VNone
| sized_bool b : sized (VBool b)
| sized_str s : (forall e, is_utf8 s e -> zlen e <= 2 ^ 31) -> sized (VStr s)
| sized_int i : sized (VInt i)
| sized_bytes b : zlen b <= 2 ^ 31 -> sized (VBytes b)
| sized_list l : zlen l < 2 ^ 35 -> Forall sized l -> sized (VList l)
| sized_other t r : sized (VOther t r).

(** [nested v n]: [v] has at most [n] levels of lists *)
Inductive nested : pyval -> nat -> Prop :=
| nest_flat v n : (forall l, v <> VList l) -> nested v n
| nest_list l n : Forall (fun x => nested x n) l -> nested (VList l) (S n).

(** ** All the public readers of StreamInput (stream_input.py) *)
Inductive stream_reader : forall A : Type, reader A -> Prop :=
| sr_bytes n : stream_reader _ (read_bytes n)
| sr_byte : stream_reader _ read_byte
| sr_int : stream_reader _ read_int
| sr_short : stream_reader _ read_short
| sr_long : stream_reader _ read_long
| sr_boolean : stream_reader _ read_boolean
| sr_optional_boolean : stream_reader _ read_optional_boolean
| sr_v_int : stream_reader _ read_v_int
| sr_optional_int : stream_reader _ read_optional_int
| sr_v_long : stream_reader _ read_v_long
| sr_z_long : stream_reader _ read_z_long
| sr_optional_v_long : stream_reader _ read_optional_v_long
| sr_optional_long : stream_reader _ read_optional_long
| sr_array_size : stream_reader _ read_array_size
| sr_string : stream_reader _ read_string
| sr_optional_string : stream_reader _ read_optional_string
| sr_string_array : stream_reader _ read_string_array
| sr_optional_string_array : stream_reader _ read_optional_string_array
| sr_string_dict : stream_reader _ read_string_to_string_dict
| sr_string_array_dict : stream_reader _ read_string_to_string_array_dict
| sr_string_set_dict so : stream_reader _ (read_string_to_string_set_dict so)
| sr_byte_array : stream_reader _ read_byte_array
| sr_generic f : stream_reader _ (read_generic_value f)
| sr_enum n : stream_reader _ (read_enum n).

(** ** Message envelopes *)

(** The thread context as the wire can carry it: a dict of strings, a dict of sets *)
Definition ctx_ok (c : ctx) : Prop := dict_ok text_ok (c_req c) /\ dict_ok set_ok (c_res c).
(** Equal contexts: same request headers in the same order; same response header names in
    the same order with equal sets of values *)
Definition same_ctx (c c' : ctx) : Prop := c_req c = c_req c' /\ same_set_dict (c_res c) (c_res c').

(** All strings occurring in a thread context *)
Definition ctx_strings (c : ctx) : list pystr :=
  flat_map (fun kv => [fst kv; snd kv]) (c_req c) ++
  flat_map (fun kv => fst kv :: snd kv) (c_res c).
(** The number of characters takes as many base-128 digits as the number of UTF-8 bytes
    (true of ASCII strings and of all strings of less than 128 bytes) *)
Definition length_prefix_ok (x : pystr) : Prop :=
  forall e k, is_utf8 x e -> 1 <= k -> (zlen x < 128 ^ k <-> zlen e < 128 ^ k).

(** The status flags and their properties on TcpHeader *)
Inductive flag := Response | Error | Compress | Handshake.
Definition flag_get (f : flag) : header -> bool :=
  match f with
  | Response => is_response | Error => is_error
  | Compress => is_compress | Handshake => is_handshake
  end.
Definition flag_set (f : flag) : header -> bool -> header :=
  match f with
  | Response => set_is_response | Error => set_is_error
  | Compress => set_is_compress | Handshake => set_is_handshake
  end.

(** A request or response message just constructed with a version *)
Inductive constructed : outbound -> Prop :=
| con_request c f msg v a rid hs cp n o n' :
    new_request c f msg (HVer v) a rid hs cp n = (Ok o, n') -> constructed o
| con_response c f msg v rid hs cp n o n' :
    new_response c f msg (HVer v) rid hs cp n = (Ok o, n') -> constructed o.
(** Assignments to a message's properties *)
Inductive edit := EditMessage (b : bytes) | EditVariable (b : bytes) | EditFlag (f : flag) (v : bool).
Definition apply_edit (o : outbound) (e : edit) : outbound :=
  match e with
  | EditMessage b => set_message_bytes o b
  | EditVariable b => set_variable_bytes o b
  | EditFlag f v => with_hdr o (flag_set f (o_hdr o) v)
  end.
(** The length fields describe the bytes [bs] of the message: 6 bytes are not counted in
    the size; the variable header is the thread context plus the variable bytes. *)
Definition lengths_right (o : outbound) (bs : bytes) : Prop :=
  h_size (o_hdr o) = zlen bs - 6 /\
  exists hdr cb, zlen hdr = 23 /\ write_ctx (o_ctx o) = Ok cb /\
    bs = hdr ++ cb ++ match o_var o with Some b => b | None => [] end
             ++ match o_msg o with Some b => b | None => [] end /\
    h_vhs (o_hdr o) = zlen cb + match o_var o with Some b => zlen b | None => 0 end.

(** A header whose fields fit: 2-byte prefix, 32-bit sizes, 64-bit id, 8-bit status, a
    Version object with a 32-bit id *)
Definition header_ok (h : header) : Prop :=
  length (h_prefix h) = 2%nat /\ - 2 ^ 31 <= h_size h < 2 ^ 31 /\ - 2 ^ 63 <= h_id h < 2 ^ 63 /\
  - 2 ^ 7 <= h_status h < 2 ^ 7 /\ - 2 ^ 31 <= h_vhs h < 2 ^ 31 /\
  exists v, h_version h = HVer v /\ 0 <= vid v < 2 ^ 32.

(** One assignment to a status flag *)
Definition assign (h : header) (a : flag * bool) : header := flag_set (fst a) h (snd a).

(** The ways a message header comes into being, the request id given, and a history of such
    constructions starting with the id counter at [n] *)
Inductive making :=
| MkHeader (prefix : bytes) (rid : option Z) (status : Z) (v : hver) (size vhs : Z)
| MkRequest (c : option ctx) (features : list pystr) (msg : option (res bytes)) (v : hver)
    (action : pystr) (rid : option Z) (hs cp : bool)
| MkResponse (c : option ctx) (features : list pystr) (msg : option (res bytes)) (v : hver)
    (rid : option Z) (hs cp : bool).
Definition making_id (m : making) : option Z :=
  match m with
  | MkHeader _ rid _ _ _ _ => rid
  | MkRequest _ _ _ _ _ rid _ _ => rid
  | MkResponse _ _ _ _ rid _ _ => rid
  end.
Definition make (m : making) : idm header :=
  match m with
  | MkHeader p rid st v sz vhs => new_header p rid st v sz vhs
  | MkRequest c f msg v a rid hs cp => o <! new_request c f msg v a rid hs cp ;; iret (o_hdr o)
  | MkResponse c f msg v rid hs cp => o <! new_response c f msg v rid hs cp ;; iret (o_hdr o)
  end.
Fixpoint make_all (l : list making) (n : Z) : list (res header) :=
  match l with
  | [] => []
  | m :: t => let (r, n') := make m n in r :: make_all t n'
  end.

Definition opt_bytes (b : option bytes) : bytes := match b with Some x => x | None => [] end.

(** ** Transport messages: values whose fields fit the wire *)

Definition version_ok (v : version) : Prop := 0 <= vid v < 2 ^ 35.
(** either no parent task, or a node id and a 64-bit task number *)
Definition task_ok (t : task_id) : Prop :=
  (t_node t = [] /\ t_id t = None) \/
  (t_node t <> [] /\ text_ok (t_node t) /\ exists i, t_id t = Some i /\ - 2 ^ 63 <= i < 2 ^ 63).
(** any IPv4 address, any encodable host name, a 32-bit port *)
Definition addr_ok (a : taddr) : Prop :=
  0 <= a_addr a < 2 ^ 32 /\ text_ok (a_host a) /\ - 2 ^ 31 <= a_port a < 2 ^ 31.
Definition role_ok (r : role) : Prop := text_ok (fst (fst r)) /\ text_ok (snd (fst r)).
Definition node_ok (n : node) : Prop :=
  Forall text_ok [n_name n; n_id n; n_eph n; n_host n; n_hostaddr n] /\ addr_ok (n_addr n) /\
  dict_ok text_ok (n_attrs n) /\ zlen (n_roles n) < 2 ^ 35 /\ NoDup (n_roles n) /\
  Forall role_ok (n_roles n) /\ version_ok (n_version n).
Definition dep_ok (d : dependency) : Prop := text_ok (d_id d) /\ version_ok (d_version d).
Definition ext_node_ok (x : ext_node) : Prop :=
  node_ok (x_node x) /\ version_ok (x_min x) /\ zlen (x_deps x) < 2 ^ 35 /\ Forall dep_ok (x_deps x).
(** addresses below 128.0.0.0 *)
Definition low (a : taddr) : Prop := a_addr a < 2 ^ 31.
Definition low_node (n : node) : Prop := low (n_addr n).

Definition init_request_ok (r : init_request) : Prop :=
  task_ok (ir_task r) /\ node_ok (ir_source r) /\ ext_node_ok (ir_ext r).
Definition init_response_ok (r : init_response) : Prop :=
  text_ok (is_name r) /\ texts_ok (is_interfaces r).
Definition handshake_response_ok (r : handshake_response) : Prop :=
  (forall n, hr_node r = Some n -> node_ok n) /\ text_ok (hr_cluster r) /\ version_ok (hr_version r).
Definition tcp_handshake_request_ok (r : tcp_handshake_request) : Prop :=
  task_ok (tr_task r) /\ (forall v, tr_version r = Some v -> version_ok v).

(** The URL-safe base64 alphabet (RFC 4648, table 2) *)
Definition base64url : pystr := py "ABCDEFGHIJKLMNOPQRSTUVWXYZabcdefghijklmnopqrstuvwxyz0123456789-_".
(** the number with digits [ds] in base [b], most significant first *)
Definition number (b : Z) (ds : list Z) : Z := fold_left (fun n d => n * b + d) ds 0.

(** ** REST messages *)

Definition member (n : Z) (o : option Z) : Prop := exists m, o = Some m /\ 0 <= m < n.
Definition rest_request_ok (r : rest_request) : Prop :=
  task_ok (rq_task r) /\ member 9 (rq_method r) /\
  Forall text_ok [rq_uri r; rq_path r; rq_media r; rq_token r] /\
  dict_ok text_ok (rq_params r) /\ dict_ok texts_ok (rq_headers r) /\
  zlen (rq_content r) <= 2 ^ 31 /\ member 2 (rq_http r).
(** The same request as sent; nothing of it consumed yet *)
Definition received_request (r r' : rest_request) : Prop :=
  rq_task r' = rq_task r /\ rq_method r' = rq_method r /\ rq_uri r' = rq_uri r /\
  rq_path r' = rq_path r /\ rq_params r' = rq_params r /\ rq_headers r' = rq_headers r /\
  rq_media r' = rq_media r /\ rq_content r' = rq_content r /\ rq_token r' = rq_token r /\
  rq_http r' = rq_http r /\ rq_consumed r' = [] /\ rq_content_consumed r' = false.
Definition rest_response_ok (r : rest_response) : Prop :=
  member 47 (rp_status r) /\ zlen (rp_content r) <= 2 ^ 31 /\ text_ok (rp_ctype r) /\
  dict_ok texts_ok (rp_headers r) /\ set_ok (rp_consumed r).
(** Equal responses, the consumed parameters as a set *)
Definition same_response (r r' : rest_response) : Prop :=
  rp_status r' = rp_status r /\ rp_content r' = rp_content r /\ rp_ctype r' = rp_ctype r /\
  rp_headers r' = rp_headers r /\ Permutation (rp_consumed r) (rp_consumed r') /\
  rp_content_consumed r' = rp_content_consumed r.
Definition exec_response_ok (r : exec_response) : Prop :=
  member 47 (ex_status r) /\ text_ok (ex_ctype r) /\ zlen (ex_content r) <= 2 ^ 31 /\
  dict_ok texts_ok (ex_headers r) /\ texts_ok (ex_consumed r).

(** ** Routes.  Characters: newline 10, ! 33, * 42, / 47, ? 63, [ 91, ] 93, { 123, } 125 *)

(** The text of a placeholder: at least one character; no newline; no closing brace except
    possibly as the first character *)
Definition placeholder (x : pystr) : Prop := exists c n, x = c :: n /\ ~ In 10 x /\ ~ In 125 n.
(** [replaced p q]: [q] is [p] with the placeholders, found from left to right, replaced by * *)
Inductive replaced : pystr -> pystr -> Prop :=
| rep_end : replaced [] []
| rep_name x p q : placeholder x -> replaced p q -> replaced (123 :: x ++ 125 :: p) (42 :: q)
| rep_char c p q : (c = 123 -> forall x p', placeholder x -> p <> x ++ 125 :: p') ->
    replaced p q -> replaced (c :: p) (c :: q).

(** The text between the brackets of a character class: an optional !, then one character
    which may be anything (also a closing bracket), then no closing bracket *)
Definition class_text (x : pystr) : Prop :=
  exists c m, ~ In 93 m /\ ((x = c :: m /\ c <> 33) \/ x = 33 :: c :: m).
(** [glob P p s]: the string [s] matches the shell pattern [p]; [P x c] says that the
    character [c] belongs to the class with the text [x] *)
Inductive glob (P : pystr -> Z -> Prop) : pystr -> pystr -> Prop :=
| glob_end : glob P [] []
| glob_star p s1 s2 : glob P p s2 -> glob P (42 :: p) (s1 ++ s2)
| glob_any c p s : glob P p s -> glob P (63 :: p) (c :: s)
| glob_class x c p s : class_text x -> P x c -> glob P p s -> glob P (91 :: x ++ 93 :: p) (c :: s)
| glob_char c p s : c <> 42 -> c <> 63 ->
    (c = 91 -> forall x p', class_text x -> p <> x ++ 93 :: p') ->
    glob P p s -> glob P (c :: p) (c :: s).

(** Route templates: literal text and named placeholders *)
Inductive piece := Text (x : pystr) | Hole (name : pystr).
Definition piece_ok (e : piece) : Prop :=
  match e with
  | Text x => forall c, In c x -> c <> 42 /\ c <> 63 /\ c <> 91 /\ c <> 123
  | Hole n => n <> [] /\ ~ In 10 n /\ ~ In 125 n
  end.
(** the path as the developer writes it *)
Definition template (l : list piece) : pystr :=
  flat_map (fun e => match e with Text x => x | Hole n => [123] ++ n ++ [125] end) l.
(** [fills l s]: [s] is the template with every placeholder replaced by some string of [P] *)
Inductive fills (P : pystr -> Prop) : list piece -> pystr -> Prop :=
| fill_end : fills P [] []
| fill_text x l s : fills P l s -> fills P (Text x :: l) (x ++ s)
| fill_hole n v l s : P v -> fills P l s -> fills P (Hole n :: l) (v ++ s).

(** A history of registrations: handler number and its routes, and what became of each *)
Fixpoint register_history (g : registry) (l : list (nat * list named_route)) : registry * list (option exn) :=
  match l with
  | [] => (g, [])
  | (h, rs) :: t => let (g', e) := register g h rs in
                    let (g'', es) := register_history g' t in (g'', e :: es)
  end.

(** ** Python releases *)
(** What every Python release has in common: a limit on the digits of an integer is none or at
    least 640 (sys.int_info.str_digits_check_threshold); a decimal digit has a value from 0
    to 9, is a word character and no space; no space is a word character; every character has
    a lower case, and the only
    characters from 128 up that have an ASCII character in lower case are U+0130 (an i and
    a combining dot) and U+212A (a k). *)
Record runtime_ok (rt : runtime) : Prop := {
  limit_ok : rt_limit = 0 \/ 640 <= rt_limit;
  digit_ok : forall c d, rt_digit c = Some d -> 0 <= d <= 9 /\ rt_word c = true /\ rt_space c = false;
  space_ok : forall c, rt_space c = true -> rt_word c = false;
  lower_some : forall c, 128 <= c -> rt_lower c <> [];
  lower_ok : forall c x, 128 <= c -> In x (rt_lower c) -> 128 <= x \/ (c = 304 /\ x = 105) \/ (c = 8490 /\ x = 107) }.
(** at most 640 decimal digits *)
Definition short (i : Z) : Prop := Z.abs i < 10 ^ 640.

(** ** Texts of numbers *)
(** a digit and its value; what counts as a space in int(), what does in a regular expression
    (the four separators too), what counts as a word character there *)
Definition digit_of {rt : runtime} (c d : Z) : Prop :=
  (48 <= c <= 57 /\ d = c - 48) \/ (128 <= c /\ rt_digit c = Some d).
Definition blank {rt : runtime} (c : Z) : Prop :=
  9 <= c <= 13 \/ c = 32 \/ (128 <= c /\ rt_space c = true).
Definition wide_blank {rt : runtime} (c : Z) : Prop := blank c \/ 28 <= c <= 31.
Definition word_char {rt : runtime} (c : Z) : Prop :=
  48 <= c <= 57 \/ 65 <= c <= 90 \/ 97 <= c <= 122 \/ c = 95 \/ (128 <= c /\ rt_word c = true).
(** digits, with single underscores between them at will *)
Inductive digit_run {rt : runtime} : pystr -> list Z -> Prop :=
| run_one c d : digit_of c d -> digit_run [c] [d]
| run_more c d b ds : digit_of c d -> digit_run b ds -> digit_run (c :: b) (d :: ds)
| run_underscore c d b ds : digit_of c d -> digit_run b ds -> digit_run (c :: 95 :: b) (d :: ds).
Definition digits_fit {rt : runtime} (ds : list Z) : Prop := rt_limit = 0 \/ zlen ds <= rt_limit.
(** what Python's int() takes for the number [n] *)
Definition int_text {rt : runtime} (s : pystr) (n : Z) : Prop :=
  exists l sign b r ds, s = l ++ sign ++ b ++ r /\ Forall blank l /\ Forall blank r /\
    digit_run b ds /\ digits_fit ds /\
    (((sign = [] \/ sign = py "+") /\ n = digits_value ds) \/ (sign = py "-" /\ n = - digits_value ds)).
(** [s] and its lower case: character by character, as the runtime has it for those from 128 up *)
Inductive in_lower_case {rt : runtime} : pystr -> pystr -> Prop :=
| lc_nil : in_lower_case [] []
| lc_capital c s t : 65 <= c <= 90 -> in_lower_case s t -> in_lower_case (c :: s) (c + 32 :: t)
| lc_ascii c s t : c < 65 \/ 90 < c < 128 -> in_lower_case s t -> in_lower_case (c :: s) (c :: t)
| lc_other c s t : 128 <= c -> in_lower_case s t -> in_lower_case (c :: s) (rt_lower c ++ t).
(** a number, spaces, a unit in any case, then [rest] *)
Definition quantity {rt : runtime} (s : pystr) (n : Z) (unit rest : pystr) : Prop :=
  exists b ds sp, in_lower_case s (b ++ sp ++ unit ++ rest) /\ b <> [] /\ Forall2 digit_of b ds /\
    digits_fit ds /\ n = digits_value ds /\ Forall wide_blank sp.
(** [rest] does not go on with the unit *)
Definition no_word_first {rt : runtime} (rest : pystr) : Prop := forall c t, rest = c :: t -> ~ word_char c.
(** optional sign and ASCII digits: the integers of JSON, YAML and Java *)
Definition numeral (s : pystr) (n : Z) : Prop :=
  exists sign ds, s = sign ++ map (Z.add 48) ds /\ ds <> [] /\ Forall (fun d => 0 <= d <= 9) ds /\
    (((sign = [] \/ sign = py "+") /\ n = digits_value ds) \/ (sign = py "-" /\ n = - digits_value ds)).
(** the same text but for the case of ASCII letters; [t] is in lower case *)
Definition ignoring_case (s t : pystr) : Prop :=
  Forall2 (fun c d => c = d \/ (97 <= d <= 122 /\ c = d - 32)) s t.
Definition size_names : list (pystr * Z) :=
  [(py "b", 0); (py "kb", 1); (py "k", 1); (py "mb", 2); (py "m", 2); (py "gb", 3); (py "g", 3);
   (py "tb", 4); (py "t", 4); (py "pb", 5); (py "p", 5)].
Definition time_names : list (pystr * Z) :=
  [(py "nanos", 0); (py "micros", 1); (py "ms", 2); (py "s", 3); (py "m", 4); (py "h", 5); (py "d", 6)].

(** ** Settings *)
(** [get] on settings without the key returns [v] *)
Definition returns_default {A} (st : setting A) (key : pystr) (v : A) : Prop :=
  forall rp d, ~ In key (map fst d) -> setting_get rp st d = Ok v.
(** bytes in a unit: 1, 1024, 1024^2, ...; nanoseconds in a unit *)
Definition byte_factor (u : Z) : Z := 1024 ^ u.
Definition nano_factor (u : Z) : Z :=
  nth (Z.to_nat u) [1; 1000; 1000000; 1000000000; 60000000000; 3600000000000; 86400000000000] 0.
(** a member of ByteSizeUnit / TimeUnit *)
Definition byte_unit (v : bsv) : Prop := 0 <= bs_unit v < 6.
Definition time_unit (v : tval) : Prop := 0 <= tv_unit v < 7.
(** the amount meant *)
Definition in_bytes (v : bsv) : Z := bs_size v * byte_factor (bs_unit v).
Definition in_nanos (v : tval) : Z := tv_dur v * nano_factor (tv_unit v).
(** [v] respects the bounds [lo], [hi], of which a negative one (-1) is undefined *)
Definition bytes_within (lo hi v : bsv) : Prop :=
  (0 <= bs_size lo -> in_bytes lo <= in_bytes v) /\ (0 <= bs_size hi -> in_bytes v <= in_bytes hi).
Definition nanos_within (lo hi v : tval) : Prop :=
  (0 <= tv_dur lo -> in_nanos lo <= in_nanos v) /\ (0 <= tv_dur hi -> in_nanos v <= in_nanos hi).
(** decimal notation without superfluous zeros *)
Definition decimal (n : Z) (x : pystr) : Prop :=
  exists ds, x = map (Z.add 48) ds /\ ds <> [] /\ Forall (fun d => 0 <= d <= 9) ds /\ digits_value ds = n /\
    (hd 0 ds = 0 -> ds = [0]).
(** Values Python takes for false: None, False, 0 and empty texts, bytes and lists *)
Inductive falsy : pyval -> Prop :=
| falsy_none : falsy VNone
| falsy_false : falsy (VBool false)
| falsy_zero : falsy (VInt 0)
| falsy_text : falsy (VStr [])
| falsy_bytes : falsy (VBytes [])
| falsy_list : falsy (VList [])
| falsy_other x : falsy (VOther false x).
(** [str_of rp v x]: str(v) is [x], [rp] giving the texts of bytes and lists *)
Inductive str_of (rp : pyval -> pystr) : pyval -> pystr -> Prop :=
| str_none : str_of rp VNone (py "None")
| str_true : str_of rp (VBool true) (py "True")
| str_false : str_of rp (VBool false) (py "False")
| str_text x : str_of rp (VStr x) x
| str_pos i x : 0 <= i -> decimal i x -> str_of rp (VInt i) x
| str_neg i x : i < 0 -> decimal (- i) x -> str_of rp (VInt i) (py "-" ++ x)
| str_bytes b : str_of rp (VBytes b) (rp (VBytes b))
| str_list l : str_of rp (VList l) (rp (VList l))
| str_other t x : str_of rp (VOther t x) x.
(** Bounds that fit the wire *)
Definition bsv_ok (v : bsv) : Prop := Z.abs (bs_size v) < 2 ^ 63 /\ byte_unit v.
Definition tv_ok (v : tval) : Prop := Z.abs (tv_dur v) < 2 ^ 63 /\ time_unit v.
Definition int_parser_ok (bits : Z) (p : int_parser) : Prop :=
  - 2 ^ bits <= ip_min p < 2 ^ bits /\ - 2 ^ bits <= ip_max p < 2 ^ bits /\ text_ok (ip_key p).
Definition bs_parser_ok (p : bs_parser) : Prop := bsv_ok (bp_min p) /\ bsv_ok (bp_max p) /\ text_ok (bp_key p).
Definition tv_parser_ok (p : tv_parser) : Prop := tv_ok (tp_min p) /\ tv_ok (tp_max p) /\ text_ok (tp_key p).
(** same bounds, key and flag; all undefined maxima count as equal *)
Definition same_tv_parser (p p' : tv_parser) : Prop :=
  tp_min p' = tp_min p /\ tp_key p' = tp_key p /\ tp_filtered p' = tp_filtered p /\
  (tp_max p' = tp_max p \/ (tv_dur (tp_max p) < 0 /\ tv_dur (tp_max p') < 0)).

(** ** IEEE 754 numbers: sign and magnitude, the magnitude in units of 2^-1074 *)
Inductive num := Finite (negative : bool) (v : Z) | Infinite (negative : bool).
Definition sign_bit (negative : bool) : Z := if negative then 1 else 0.
(** [double_is x v]: the 64 bits of [x] stand for the number [v] (binary64) *)
Inductive double_is : Z -> num -> Prop :=
| double_small s f : 0 <= f < 2 ^ 52 -> double_is (sign_bit s * 2 ^ 63 + f) (Finite s f)
| double_normal s e f : 1 <= e <= 2046 -> 0 <= f < 2 ^ 52 ->
    double_is (sign_bit s * 2 ^ 63 + e * 2 ^ 52 + f) (Finite s ((2 ^ 52 + f) * 2 ^ (e - 1)))
| double_infinite s : double_is (sign_bit s * 2 ^ 63 + 2047 * 2 ^ 52) (Infinite s).
(** [single_is y v]: the 32 bits of [y] stand for the number [v] (binary32; the least
    positive single is 2^-149 = 2^925 units) *)
Inductive single_is : Z -> num -> Prop :=
| single_small s f : 0 <= f < 2 ^ 23 -> single_is (sign_bit s * 2 ^ 31 + f) (Finite s (f * 2 ^ 925))
| single_normal s e f : 1 <= e <= 254 -> 0 <= f < 2 ^ 23 ->
    single_is (sign_bit s * 2 ^ 31 + e * 2 ^ 23 + f) (Finite s ((2 ^ 23 + f) * 2 ^ (e - 1) * 2 ^ 925))
| single_infinite s : single_is (sign_bit s * 2 ^ 31 + 255 * 2 ^ 23) (Infinite s).
(** all exponent bits set and a non-zero fraction *)
Definition double_nan (x : Z) : Prop := exists s f, 0 < f < 2 ^ 52 /\ x = sign_bit s * 2 ^ 63 + 2047 * 2 ^ 52 + f.
Definition single_nan (y : Z) : Prop := exists s f, 0 < f < 2 ^ 23 /\ y = sign_bit s * 2 ^ 31 + 255 * 2 ^ 23 + f.
(** a magnitude with its sign *)
Definition signed (s : bool) (v : Z) : Z := if s then - v else v.
(** numeric order (zeros of both signs are equal) *)
Definition num_le (a b : num) : Prop :=
  match a, b with
  | Infinite true, _ | _, Infinite false => True
  | Infinite false, _ | _, Infinite true => False
  | Finite s v, Finite t w => (if s then - v else v) <= (if t then - w else w)
  end.
