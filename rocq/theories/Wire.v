(** * The OpenSearch transport wire format, written down on its own (C69-C74).
    A format relates a value to the byte strings that encode it.  Nothing here mentions a
    reader or a writer of the SDK. *)
From Coq Require Import String ZArith List Bool Permutation.
From Coq Require Import Strings.Byte.
From Verif Require Import Py Stream Version Frame Proto Messages Rest Settings Spec.
Import ListNotations.
Open Scope list_scope.
Open Scope Z_scope.

Definition fmt (A : Type) := A -> bytes -> Prop.

(** one part after the other *)
Inductive parts : list (bytes -> Prop) -> bytes -> Prop :=
| parts_nil : parts [] []
| parts_cons (P : bytes -> Prop) l a b : P a -> parts l b -> parts (P :: l) (a ++ b).

(** these very bytes *)
Definition exactly (x : bytes) : bytes -> Prop := fun bs => bs = x.

(** big-endian two's complement in [n] bytes; unsigned in [n] bytes *)
Definition w_signed (n : Z) : fmt Z := fun i bs =>
  zlen bs = n /\ - 2 ^ (8 * n - 1) <= i < 2 ^ (8 * n - 1) /\ be_value bs = i mod 2 ^ (8 * n).
Definition w_unsigned (n : Z) : fmt Z := fun i bs => zlen bs = n /\ be_value bs = i.
Definition w_bool : fmt bool := fun b bs => bs = [if b then x01 else x00].

(** [deduped l s]: [s] is [l] with repetitions left out (the first occurrence stays) *)
Inductive deduped {A} : list A -> list A -> Prop :=
| dd_nil : deduped [] []
| dd_old l s x : deduped l s -> In x s -> deduped (l ++ [x]) s
| dd_new l s x : deduped l s -> ~ In x s -> deduped (l ++ [x]) (s ++ [x]).
(** [dict_from l d]: [d] is the dict made by inserting the pairs of [l] one after the other:
    a new key goes to the end, a known key gets the new value *)
Inductive dict_from {V} : list (pystr * V) -> list (pystr * V) -> Prop :=
| df_nil : dict_from [] []
| df_old l a k v w b : dict_from l (a ++ (k, w) :: b) -> dict_from (l ++ [(k, v)]) (a ++ (k, v) :: b)
| df_new l d k v : dict_from l d -> ~ In k (map fst d) -> dict_from (l ++ [(k, v)]) (d ++ [(k, v)]).

(** the last byte is zero only if it is the only one *)
Definition shortest (bs : bytes) : Prop := last bs x00 = x00 -> zlen bs = 1.

Section Formats.
(** OpenSearch and this SDK write vInts in the shortest way and dicts and sets without
    repetitions: [strict = true].  [strict = false] also allows padded vInts and repeated keys
    or members. *)
Variable strict : bool.
Definition canonical (P : Prop) : Prop := if strict then P else True.

(** vInt: base 128, at most five bytes.  vLong: 64 bits, at most ten bytes. *)
Definition w_vint : fmt Z := fun i bs => leb128 bs i /\ zlen bs <= 5 /\ canonical (shortest bs).
Definition w_vlong : fmt Z := fun i bs =>
  leb128 bs i /\ i < 2 ^ 64 /\ zlen bs <= 10 /\ canonical (shortest bs).
(** zLong as this SDK writes it (see C06): the magnitude times two, plus one for a minus *)
Definition w_zlong : fmt Z := fun i bs =>
  exists m (neg : bool), 0 <= m /\ i = (if neg then - m else m) /\
    w_vlong (2 * m + (if neg then 1 else 0)) bs.

(** a boolean telling whether a value follows *)
Definition w_optional {A} (F : fmt A) : fmt (option A) := fun o =>
  match o with
  | None => w_bool false
  | Some a => parts [w_bool true; F a]
  end.

(** the length, then the bytes *)
Definition w_bytes : fmt bytes := fun b bs => zlen b <= 2 ^ 31 /\ parts [w_vint (zlen b); exactly b] bs.
(** UTF-8 *)
Definition w_string : fmt pystr := fun x bs => exists e, is_utf8 x e /\ w_bytes e bs.
(** the number of elements, then the elements *)
Definition w_list {A} (F : fmt A) : fmt (list A) := fun l => parts (w_vint (zlen l) :: map F l).
Definition w_strings : fmt (list pystr) := fun l bs => zlen l <= 2 ^ 31 /\ w_list w_string l bs.
Definition w_set : fmt (list pystr) := fun s bs =>
  exists l d, deduped l d /\ Permutation d s /\ canonical (l = d) /\ w_strings l bs.
(** the number of entries, then key and value of each *)
Definition w_dict {V} (F : fmt V) : fmt (list (pystr * V)) := fun d bs =>
  exists l, dict_from l d /\ canonical (l = d) /\
    w_list (fun kv => parts [w_string (fst kv); F (snd kv)]) l bs.
(** a value with a type byte in front; this SDK writes every integer as a long *)
Inductive w_generic : fmt pyval :=
| wg_none : w_generic VNone [xff]
| wg_string s bs : w_string s bs -> w_generic (VStr s) (x00 :: bs)
| wg_int i bs : strict = false -> w_signed 4 i bs -> w_generic (VInt i) (x01 :: bs)
| wg_long i bs : w_signed 8 i bs -> w_generic (VInt i) (x02 :: bs)
| wg_bool b bs : w_bool b bs -> w_generic (VBool b) (x05 :: bs)
| wg_bytes b bs : w_bytes b bs -> w_generic (VBytes b) (x06 :: bs)
| wg_list l n bss : w_vint (zlen l) n -> Forall2 w_generic l bss ->
    w_generic (VList l) (x07 :: n ++ concat bss)
| wg_byte i bs : strict = false -> w_signed 1 i bs -> w_generic (VInt i) (x0b :: bs)
| wg_short i bs : strict = false -> w_signed 2 i bs -> w_generic (VInt i) (x10 :: bs).
(** a member of an enumeration of [n] members: its number *)
Definition w_enum (n : Z) : fmt Z := fun v bs => 0 <= v < n /\ w_vint v bs.

(** ** Messages *)

(** a version is its id, mask bit included *)
Definition w_version : fmt version := fun v => w_vint (vid v).
(** the thread context: request headers and response headers *)
Definition w_ctx : fmt ctx := fun c => parts [w_dict w_string (c_req c); w_dict w_set (c_res c)].
(** a task: node name, and the number if the name is not empty *)
Definition w_task : fmt task_id := fun t bs =>
  (t_node t = [] /\ t_id t = None /\ w_string [] bs) \/
  (t_node t <> [] /\ exists i, t_id t = Some i /\ parts [w_string (t_node t); w_signed 8 i] bs).
(** an IPv4 address: the number of its bytes, the bytes, the host name, the port *)
Definition w_addr : fmt taddr := fun a =>
  parts [exactly [x04]; w_unsigned 4 (a_addr a); w_string (a_host a); w_signed 4 (a_port a)].
Definition w_role : fmt role := fun r =>
  parts [w_string (fst (fst r)); w_string (snd (fst r)); w_bool (snd r)].
Definition w_roles : fmt (list role) := fun s bs =>
  exists l, deduped l s /\ canonical (l = s) /\ w_list w_role l bs.
Definition w_node : fmt node := fun n =>
  parts [w_string (n_name n); w_string (n_id n); w_string (n_eph n); w_string (n_host n);
         w_string (n_hostaddr n); w_addr (n_addr n); w_dict w_string (n_attrs n);
         w_roles (n_roles n); w_version (n_version n)].
Definition w_dependency : fmt dependency := fun d => parts [w_string (d_id d); w_version (d_version d)].
Definition w_ext_node : fmt ext_node := fun x =>
  parts [w_node (x_node x); w_version (x_min x); w_list w_dependency (x_deps x)].
Definition w_init_request : fmt init_request := fun r =>
  parts [w_task (ir_task r); w_node (ir_source r); w_ext_node (ir_ext r)].
Definition w_init_response : fmt init_response := fun r =>
  parts [w_string (is_name r); w_strings (is_interfaces r)].
Definition w_handshake_response : fmt handshake_response := fun r =>
  parts [w_optional w_node (hr_node r); w_string (hr_cluster r); w_version (hr_version r)].
(** the version, with the number of its bytes in front *)
Definition w_tcp_handshake_request : fmt tcp_handshake_request := fun r bs =>
  exists v n b, tr_version r = Some v /\ w_version v b /\ canonical (n = zlen b) /\
    parts [w_task (tr_task r); w_vint n; exactly b] bs.
Definition w_rest_request : fmt rest_request := fun r bs =>
  exists m h o, rq_method r = Some m /\ rq_http r = Some h /\
  rq_media r = match o with Some x => x | None => [] end /\ canonical (o <> Some []) /\
  parts [w_task (rq_task r); w_enum 9 m; w_string (rq_uri r); w_string (rq_path r);
         w_dict w_string (rq_params r); w_dict w_strings (rq_headers r);
         w_optional w_string o; w_bytes (rq_content r); w_string (rq_token r); w_enum 2 h] bs.
Definition w_rest_response : fmt rest_response := fun r bs =>
  exists st, rp_status r = Some st /\
  parts [w_enum 47 st; w_bytes (rp_content r); w_string (rp_ctype r);
         w_dict w_strings (rp_headers r); w_set (rp_consumed r);
         w_bool (rp_content_consumed r)] bs.
Definition w_exec_response : fmt exec_response := fun r bs =>
  exists st, ex_status r = Some st /\
  parts [w_enum 47 st; w_string (ex_ctype r); w_bytes (ex_content r);
         w_dict w_strings (ex_headers r); w_strings (ex_consumed r);
         w_bool (ex_content_consumed r)] bs.
(** settings: a dict of generic values *)
Definition w_settings : fmt (sdict pyval) := w_dict w_generic.

(** ** Setting parsers and their bounds *)
Definition w_byte_size : fmt bsv := fun v => parts [w_zlong (bs_size v); w_enum 6 (bs_unit v)].
(** the unit is written as one byte *)
Definition w_time : fmt tval := fun v => parts [w_zlong (tv_dur v); w_enum 7 (tv_unit v)].
(** integers in [n] bytes: 4 for integer settings, 8 for long settings *)
Definition w_int_parser (n : Z) : fmt int_parser := fun p =>
  parts [w_signed n (ip_min p); w_signed n (ip_max p); w_string (ip_key p); w_bool (ip_filtered p)].
Definition w_bs_parser : fmt bs_parser := fun p =>
  parts [w_byte_size (bp_min p); w_byte_size (bp_max p); w_string (bp_key p)].
(** whether there is a maximum comes first; without one there is none in the middle *)
Definition w_tv_parser : fmt tv_parser := fun p bs =>
  exists b, parts [w_bool b; w_string (tp_key p); w_time (tp_min p);
                   (if b then w_time (tp_max p) else exactly []); w_bool (tp_filtered p)] bs /\
    (b = true -> canonical (0 <= tv_dur (tp_max p))) /\ (b = false -> tv_dur (tp_max p) < 0).
Definition w_validator : fmt validator := fun v => parts [w_string (rv_regex v); w_bool (rv_matching v)].
End Formats.

(** ** Protocol buffers (the two messages the SDK embeds) *)
Definition varint (n : Z) : bytes -> Prop := fun bs => leb128 bs n /\ shortest bs.
(** field [num] holding the bytes [b] *)
Definition pb_field (num : Z) (b : bytes) : bytes -> Prop :=
  parts [varint (num * 8 + 2); varint (zlen b); exactly b].
Definition pb_text (num : Z) (x : pystr) : bytes -> Prop := fun bs =>
  exists e, is_utf8 x e /\ pb_field num e bs.
(** ExtensionIdentity as field 1: uniqueId is field 1 in it, left out when empty *)
Definition pb_identity (uid : pystr) : bytes -> Prop := fun bs =>
  exists b, pb_field 1 b bs /\ ((uid = [] /\ b = []) \/ (uid <> [] /\ pb_text 1 uid b)).
(** ExtensionRequest: identity = 1, requestType = 2 (left out when 0) *)
Definition pb_ext_request (uid : pystr) (ty : Z) : bytes -> Prop :=
  parts [pb_identity uid; if ty =? 0 then exactly [] else parts [varint (2 * 8 + 0); varint ty]].
(** RegisterRestActions: identity = 1, restActions = 2, deprecatedRestActions = 3 *)
Definition pb_rest_actions (uid : pystr) (acts deprecated : list pystr) : bytes -> Prop :=
  parts (pb_identity uid :: map (pb_text 2) acts ++ map (pb_text 3) deprecated).
(** both are sent as a byte string after the task *)
Definition w_ext_transport_request (t : task_id) (uid : pystr) (ty : Z) : bytes -> Prop := fun bs =>
  exists b, pb_ext_request uid ty b /\ parts [w_task true t; w_vint true (zlen b); exactly b] bs.
Definition w_register_request (t : task_id) (uid : pystr) (acts deprecated : list pystr)
  : bytes -> Prop := fun bs =>
  exists b, pb_rest_actions uid acts deprecated b /\
    parts [w_task true t; w_vint true (zlen b); exactly b] bs.

(** ** Protocol buffers as any program may write them (C77)
    A message is a sequence of fields in any order; numbers may be padded: tags and sizes to
    five bytes, values to ten, of which the lower 64 bits count. *)
Definition pb_item (f : Z * pbval) : bytes -> Prop := fun bs =>
  1 <= fst f < 2 ^ 29 /\
  match snd f with
  | PVarint n => parts [w_vint false (fst f * 8);
                        fun b => exists v, leb128 b v /\ zlen b <= 10 /\ n = v mod 2 ^ 64] bs
  | PFixed b => (zlen b = 8 /\ parts [w_vint false (fst f * 8 + 1); exactly b] bs) \/
                (zlen b = 4 /\ parts [w_vint false (fst f * 8 + 5); exactly b] bs)
  | PBytes b => zlen b < 2 ^ 31 /\
                parts [w_vint false (fst f * 8 + 2); w_vint false (zlen b); exactly b] bs
  end.
Definition pb_message (fs : list (Z * pbval)) : bytes -> Prop := parts (map pb_item fs).
(** the byte strings, and the numbers, in the fields with number [num] *)
Definition blobs (num : Z) (fs : list (Z * pbval)) : list bytes :=
  flat_map (fun f => match snd f with PBytes b => if fst f =? num then [b] else [] | _ => [] end) fs.
Definition numbers (num : Z) (fs : list (Z * pbval)) : list Z :=
  flat_map (fun f => match snd f with PVarint n => if fst f =? num then [n] else [] | _ => [] end) fs.
(** the strings in the fields with number [num] *)
Definition pb_texts (num : Z) (fs : list (Z * pbval)) (l : list pystr) : Prop :=
  Forall2 is_utf8 l (blobs num fs).
(** field 1 is an ExtensionIdentity: several are merged, and the last uniqueId (its field 1)
    counts *)
Definition pb_identity_is (fs : list (Z * pbval)) (o : option pystr) : Prop :=
  match o with
  | None => blobs 1 fs = []
  | Some u => blobs 1 fs <> [] /\
      exists gs l, Forall2 pb_message gs (blobs 1 fs) /\ pb_texts 1 (concat gs) l /\ u = last l []
  end.
(** an enum is the 32-bit number in the last occurrence, 0 without one *)
Definition pb_enum_is (num : Z) (fs : list (Z * pbval)) (ty : Z) : Prop :=
  - 2 ^ 31 <= ty < 2 ^ 31 /\ exists k, last (numbers num fs) 0 = ty + k * 2 ^ 32.
Definition any_ext_request : fmt ext_request := fun r bs =>
  exists fs, pb_message fs bs /\ pb_identity_is fs (er_identity r) /\ pb_enum_is 2 fs (er_type r).
Definition any_rest_actions : fmt rest_actions := fun r bs =>
  exists fs, pb_message fs bs /\ pb_identity_is fs (rra_identity r) /\
    pb_texts 2 fs (rra_actions r) /\ pb_texts 3 fs (rra_deprecated r).
Definition w_any_ext_request (strict : bool) : fmt ext_transport_request := fun r bs =>
  exists b, any_ext_request (etr_er r) b /\
    parts [w_task strict (etr_task r); w_vint strict (zlen b); exactly b] bs.
Definition w_any_register_request (strict : bool) : fmt register_request := fun r bs =>
  exists b, any_rest_actions (rrr_rra r) b /\
    parts [w_task strict (rrr_task r); w_vint strict (zlen b); exactly b] bs.

(** What a transport message says *)
Record message := mkMsg {
  m_ctx : ctx;
  m_features : list pystr;
  m_version : version;
  m_action : pystr;
  m_id : Z;
  m_hs : bool;
  m_cp : bool;
  m_payload : bytes }.

(** ** Frames: a header of 23 bytes: marker, size of what follows the size field, id, status
    byte, version, size of the variable header (thread context, features and action) *)
Definition w_header (marker : bytes) (size id status : Z) (v : version) (vhs : Z) : bytes -> Prop :=
  parts [exactly marker; w_signed 4 size; w_signed 8 id; w_signed 1 status; w_unsigned 4 (vid v);
         w_signed 4 vhs].
(** status bits: 1 response, 2 error, 4 compressed, 8 handshake *)
Definition status_of (response error compress handshake : bool) : Z :=
  (if response then 1 else 0) + (if error then 2 else 0) + (if compress then 4 else 0)
  + (if handshake then 8 else 0).
(** a request carries features and action in the variable header, a response nothing *)
Definition w_variable (strict resp : bool) (m : message) : bytes -> Prop :=
  if resp then exactly []
  else parts [w_strings strict (m_features m); w_string strict (m_action m)].
(** the frame of the request or response [m], with the sizes [size] and [vhs] in the header *)
Definition w_frame_with (resp err : bool) (m : message) (size vhs : Z) (cb vb : bytes) : bytes -> Prop :=
  parts [w_header [x45; x53] size (m_id m) (status_of resp err (m_cp m) (m_hs m)) (m_version m) vhs;
         exactly cb; exactly vb; exactly (m_payload m)].
Definition w_message (resp err : bool) (m : message) : bytes -> Prop := fun bs =>
  exists cb vb, w_ctx true (m_ctx m) cb /\ w_variable true resp m vb /\
    w_frame_with resp err m (zlen bs - 6) (zlen cb + zlen vb) cb vb bs.
(** without error mark *)
Definition w_frame (resp : bool) (m : message) : bytes -> Prop := w_message resp false m.

(** ** What it means for the SDK to follow a format *)

(** every value satisfying [P] is written in the format *)
Definition writes {A} (w : A -> res bytes) (F : fmt A) (P : A -> Prop) : Prop :=
  forall a, P a -> exists bs, w a = Ok bs /\ F a bs.
(** every encoding of a value satisfying [P] is read as that value (up to [E]), and exactly it
    is consumed *)
Definition reads_upto {A} (E : A -> A -> Prop) (r : reader A) (F : fmt A) (P : A -> Prop) : Prop :=
  forall a bs s, P a -> F a bs -> exists a', r (bs ++ s) = Ok (a', s) /\ E a a'.
Definition reads {A} (r : reader A) (F : fmt A) (P : A -> Prop) : Prop :=
  forall a bs s, P a -> F a bs -> r (bs ++ s) = Ok (a, s).
(** nothing else is read, unless the input ends within the value (see C12) *)
Definition reads_only {A} (r : reader A) (F : fmt A) : Prop :=
  forall s a s', r s = Ok (a, s') -> s' <> [] -> exists bs, s = bs ++ s' /\ F a bs.
(** [w] writes every value of [P] in the (strict) format; [r] reads every encoding of every
    value, lenient or strict, and nothing else *)
Definition follows_upto {A} (E : A -> A -> Prop) (w : A -> res bytes) (r : reader A)
  (F : bool -> fmt A) (P : A -> Prop) : Prop :=
  writes w (F true) P /\ (forall strict, reads_upto E r (F strict) (fun _ => True)) /\
  reads_only r (F false).
Definition follows {A} (w : A -> res bytes) (r : reader A) (F : bool -> fmt A) (P : A -> Prop) : Prop :=
  writes w (F true) P /\ (forall strict, reads r (F strict) (fun _ => True)) /\ reads_only r (F false).
(** at most one encoding *)
Definition single (P : bytes -> Prop) : Prop := forall a b, P a -> P b -> a = b.
