(** * StreamInput and StreamOutput (transport/stream_input.py, transport/stream_output.py) *)
From Coq Require Import ZArith List Bool.
From Coq Require Import Strings.Byte.
From Verif Require Import Py.
Import ListNotations.
Open Scope Z_scope.

(** ** StreamOutput.  BytesIO is used append-only (simplification: no seek). *)

(** stream_output.py:21-22 write_byte *)
Definition write_byte (b : Z) : res bytes := to_bytes_signed 1 b.
(** stream_output.py:25-26 write_int *)
Definition write_int (i : Z) : res bytes := to_bytes_signed 4 i.
(** stream_output.py:65-66 write_long *)
Definition write_long (i : Z) : res bytes := to_bytes_signed 8 i.

(** stream_output.py:34-39, the [while True] loop of write_v_int:
    result.append((i & 0x7F) | 0x80); i >>= 7; if (i & ~0x7F) == 0: append(i); break.
    The loop has no bound in Python; [fuel] bounds it by the bit length of [i], and
    exhausting it would be [ERecursion] (proved unreachable). *)
Fixpoint v_int_loop (fuel : nat) (i : Z) : res bytes :=
  match fuel with
  | O => Raise ERecursion
  | S f =>
      let b := z2b (Z.lor (Z.land i 0x7F) 0x80) in
      let i' := Z.shiftr i 7 in
      if Z.land i' (Z.lnot 0x7F) =? 0 then Ok [b; z2b i']
      else l <- v_int_loop f i' ;; Ok (b :: l)
  end.
(** enough rounds for the loop of stream_output.py:34-39: one per bit *)
Definition v_int_fuel (i : Z) : nat := S (Z.to_nat (Z.log2 i)).
(** stream_output.py:29-40 write_v_int (single byte shortcut for i < 0x80, which for
    negative i writes a signed byte) *)
Definition write_v_int (i : Z) : res bytes :=
  if i <? 0x80 then write_byte i else v_int_loop (v_int_fuel i) i.

(** stream_output.py:47-53 loop of v_int_size *)
Fixpoint v_int_size_loop (fuel : nat) (i : Z) : Z :=
  match fuel with
  | O => 0
  | S f =>
      let i' := Z.shiftr i 7 in
      if Z.land i' (Z.lnot 0x7F) =? 0 then 2 else 1 + v_int_size_loop f i'
  end.
(** stream_output.py:43-53 v_int_size *)
Definition v_int_size (i : Z) : Z :=
  if i <? 0x80 then 1 else v_int_size_loop (v_int_fuel i) i.

(** stream_output.py:131-133 write_v_long *)
Definition write_v_long (i : Z) : res bytes := write_v_int i.

(** stream_output.py:145-149 write_z_long *)
Definition write_z_long (i : Z) : res bytes :=
  let zz := 2 * Z.abs i + (if i <? 0 then 1 else 0) in
  if 0 <? Z.shiftr zz 64 then Raise EValue else write_v_long zz.

(** stream_output.py:68-70 write_byte_array *)
Definition write_byte_array (b : bytes) : res bytes := wcat [write_v_int (zlen b); Ok b].

(** stream_output.py:236-240 write_string *)
Definition write_string (s : pystr) : res bytes :=
  e <- utf8_encode s ;;
  wcat [write_v_int (zlen e); if 0 <? zlen e then Ok e else Ok []].

(** stream_output.py:275-276 write_boolean *)
Definition write_boolean (b : bool) : res bytes := write_byte (if b then 1 else 0).

(** stream_output.py:321-324 write_string_array *)
Definition write_string_array (a : list pystr) : res bytes :=
  wcat (write_v_int (zlen a) :: map write_string a).
(** stream_output.py:327-330 write_string_set ([a] in iteration order) *)
Definition write_string_set (a : list pystr) : res bytes :=
  wcat (write_v_int (zlen a) :: map write_string a).

(** stream_output.py:348-352 write_string_to_string_dict *)
Definition write_string_to_string_dict (d : sdict pystr) : res bytes :=
  wcat (write_v_int (zlen d)
        :: map (fun kv => wcat [write_string (fst kv); write_string (snd kv)]) d).
(** stream_output.py:364-368 write_string_to_string_array_dict *)
Definition write_string_to_string_array_dict (d : sdict (list pystr)) : res bytes :=
  wcat (write_v_int (zlen d)
        :: map (fun kv => wcat [write_string (fst kv); write_string_array (snd kv)]) d).
(** stream_output.py:370-374 write_string_to_string_set_dict *)
Definition write_string_to_string_set_dict (d : sdict (list pystr)) : res bytes :=
  wcat (write_v_int (zlen d)
        :: map (fun kv => wcat [write_string (fst kv); write_string_set (snd kv)]) d).

(** [len(bytes(s, "utf-8"))] *)
Definition utf8_len (s : pystr) : res Z := rmap zlen (utf8_encode s).

(** One string's share in the size computations: v_int_size(len(s)) + len(bytes(s)).
    Note [len(s)] counts characters, not bytes. *)
Definition str_size (s : pystr) : res Z :=
  rmap (Z.add (v_int_size (zlen s))) (utf8_len s).

(** the additions in the size functions (stream_output.py:354-386), any of which may raise *)
Fixpoint sum_res (l : list (res Z)) : res Z :=
  match l with
  | [] => Ok 0
  | x :: t => a <- x ;; b <- sum_res t ;; Ok (a + b)
  end.

(** stream_output.py:354-362 string_to_string_dict_size *)
Definition string_to_string_dict_size (d : sdict pystr) : res Z :=
  sum_res (Ok (v_int_size (zlen d))
           :: map (fun kv => sum_res [str_size (fst kv); str_size (snd kv)]) d).
(** stream_output.py:376-386 string_to_string_collection_dict_size *)
Definition string_to_string_collection_dict_size (d : sdict (list pystr)) : res Z :=
  sum_res (Ok (v_int_size (zlen d))
           :: map (fun kv => sum_res (str_size (fst kv)
                                      :: Ok (v_int_size (zlen (snd kv)))
                                      :: map str_size (snd kv))) d).

(** Python values that reach write_generic_value / read_generic_value.  [VOther] stands
    for a value of any type the code does not name (float, dict, tuple, ...), with its
    truth value and its [str()]. *)
Inductive pyval :=
| VNone
| VBool (b : bool)
| VStr (s : pystr)
| VInt (i : Z)
| VBytes (b : bytes)
| VList (l : list pyval)
| VOther (truthy : bool) (repr : pystr).

(** stream_output.py:504-507, 612-630 write_array_list, write_generic_value.
    A value of any other type falls through the if-chain: nothing is written. *)
Fixpoint write_generic_value (v : pyval) : res bytes :=
  match v with
  | VNone => write_byte (-1)
  | VBool b => wcat [write_byte 5; write_boolean b]
  | VStr s => wcat [write_byte 0; write_string s]
  | VInt i => wcat [write_byte 2; write_long i]
  | VBytes b => wcat [write_byte 6; write_byte_array b]
  | VList l => wcat [write_byte 7; wcat (write_v_int (zlen l) :: map write_generic_value l)]
  | VOther _ _ => Ok []
  end.

(** ** StreamInput *)

(** stream_input.py:28-29 read_bytes *)
Definition read_bytes (n : Z) : reader bytes := fun s => Ok (bio_read n s).
(** stream_input.py:25-26 read_byte *)
Definition read_byte : reader Z := b <~ read_bytes 1 ;; rret (from_bytes_signed b).
(** stream_input.py:31-32 read_int *)
Definition read_int : reader Z := b <~ read_bytes 4 ;; rret (from_bytes_signed b).
(** stream_input.py:34-35 read_short *)
Definition read_short : reader Z := b <~ read_bytes 2 ;; rret (from_bytes_signed b).
(** stream_input.py:100-101 read_long *)
Definition read_long : reader Z := b <~ read_bytes 8 ;; rret (from_bytes_signed b).

(** stream_input.py:43-50 read_boolean *)
Definition read_boolean : reader bool :=
  v <~ read_byte ;;
  if v =? 0 then rret false else if v =? 1 then rret true else rfail EGeneric.
(** stream_input.py:52-61 read_optional_boolean *)
Definition read_optional_boolean : reader (option bool) :=
  v <~ read_byte ;;
  if v =? 2 then rret None
  else if v =? 0 then rret (Some false)
  else if v =? 1 then rret (Some true) else rfail EGeneric.

(** stream_input.py:67-87 read_v_int *)
Definition read_v_int : reader Z :=
  b <~ read_byte ;;
  let i := Z.land b 0x7F in
  if Z.land b 0x80 =? 0 then rret i else
  b <~ read_byte ;;
  let i := Z.lor i (Z.shiftl (Z.land b 0x7F) 7) in
  if Z.land b 0x80 =? 0 then rret i else
  b <~ read_byte ;;
  let i := Z.lor i (Z.shiftl (Z.land b 0x7F) 14) in
  if Z.land b 0x80 =? 0 then rret i else
  b <~ read_byte ;;
  let i := Z.lor i (Z.shiftl (Z.land b 0x7F) 21) in
  if Z.land b 0x80 =? 0 then rret i else
  b <~ read_byte ;;
  if negb (Z.land b 0x80 =? 0) then rfail EGeneric else
  rret (Z.lor i (Z.shiftl (Z.land b 0x7F) 28)).

(** stream_input.py:94-98 read_optional_int *)
Definition read_optional_int : reader (option Z) :=
  p <~ read_boolean ;; if p then (i <~ read_int ;; rret (Some i)) else rret None.

(** stream_input.py:104-146 read_v_long *)
Definition read_v_long : reader Z :=
  b <~ read_byte ;;
  let i := Z.land b 0x7F in
  if Z.land b 0x80 =? 0 then rret i else
  b <~ read_byte ;;
  let i := Z.lor i (Z.shiftl (Z.land b 0x7F) 7) in
  if Z.land b 0x80 =? 0 then rret i else
  b <~ read_byte ;;
  let i := Z.lor i (Z.shiftl (Z.land b 0x7F) 14) in
  if Z.land b 0x80 =? 0 then rret i else
  b <~ read_byte ;;
  let i := Z.lor i (Z.shiftl (Z.land b 0x7F) 21) in
  if Z.land b 0x80 =? 0 then rret i else
  b <~ read_byte ;;
  let i := Z.lor i (Z.shiftl (Z.land b 0x7F) 28) in
  if Z.land b 0x80 =? 0 then rret i else
  b <~ read_byte ;;
  let i := Z.lor i (Z.shiftl (Z.land b 0x7F) 35) in
  if Z.land b 0x80 =? 0 then rret i else
  b <~ read_byte ;;
  let i := Z.lor i (Z.shiftl (Z.land b 0x7F) 42) in
  if Z.land b 0x80 =? 0 then rret i else
  b <~ read_byte ;;
  let i := Z.lor i (Z.shiftl (Z.land b 0x7F) 49) in
  if Z.land b 0x80 =? 0 then rret i else
  b <~ read_byte ;;
  let i := Z.lor i (Z.shiftl (Z.land b 0x7F) 56) in
  if Z.land b 0x80 =? 0 then rret i else
  b <~ read_byte ;;
  if negb (b =? 0) && negb (b =? 1) then rfail EGeneric else
  rret (Z.lor i (Z.shiftl b 63)).

(** stream_input.py:149-151 read_z_long *)
Definition read_z_long : reader Z :=
  z <~ read_v_long ;;
  rret (Z.shiftr z 1 * (if Z.land z 1 =? 0 then 1 else -1)).

(** stream_input.py:153-157 read_optional_v_long, read_optional_long *)
Definition read_optional_v_long : reader (option Z) :=
  p <~ read_boolean ;; if p then (i <~ read_v_long ;; rret (Some i)) else rret None.
(** stream_input.py:156-157 read_optional_long *)
Definition read_optional_long : reader (option Z) :=
  p <~ read_boolean ;; if p then (i <~ read_long ;; rret (Some i)) else rret None.

(** stream_input.py:162-166 read_array_size *)
Definition read_array_size : reader Z :=
  n <~ read_v_int ;; if 2 ^ 31 <? n then rfail EGeneric else rret n.

(** stream_input.py:168-169 read_string *)
Definition read_string : reader pystr :=
  n <~ read_array_size ;; b <~ read_bytes n ;; rlift (utf8_decode b).

(** stream_input.py:159-160 read_optional_string *)
Definition read_optional_string : reader (option pystr) :=
  p <~ read_boolean ;; if p then (s <~ read_string ;; rret (Some s)) else rret None.

(** stream_input.py:171-180 read_string_array *)
Definition read_string_array : reader (list pystr) :=
  n <~ read_array_size ;;
  if n =? 0 then rret [] else read_n read_string (Z.to_nat n).

(** stream_input.py:182-186 read_optional_string_array *)
Definition read_optional_string_array : reader (option (list pystr)) :=
  p <~ read_boolean ;; if p then (a <~ read_string_array ;; rret (Some a)) else rret None.

(** [result[key] = value] for the pairs read, in order. *)
Definition dict_of_pairs {V} (l : list (pystr * V)) : sdict V :=
  fold_left (fun d kv => dict_set streqb (fst kv) (snd kv) d) l [].

(** one round of the loops of stream_input.py reading dicts: key, then value *)
Definition read_pair {V} (rv : reader V) : reader (pystr * V) :=
  k <~ read_string ;; v <~ rv ;; rret (k, v).

(** Loop shared by the three dict readers (stream_input.py:189-199, 202-212, 215-227).
    The dict is built pair by pair in Python; here all pairs are read first and then
    inserted in the same order, which gives the same dict. *)
Definition read_dict {V} (rv : reader V) : reader (sdict V) :=
  n <~ read_v_int ;;
  if n =? 0 then rret [] else
  l <~ read_n (read_pair rv) (Z.to_nat n) ;; rret (dict_of_pairs l).

(** stream_input.py:188-199 read_string_to_string_dict *)
Definition read_string_to_string_dict : reader (sdict pystr) := read_dict read_string.
(** stream_input.py:201-212 read_string_to_string_array_dict *)
Definition read_string_to_string_array_dict : reader (sdict (list pystr)) :=
  read_dict read_string_array.
(** stream_input.py:222-224: value = set(); for v in read_string_array(): value.add(v) *)
Definition read_string_set (so : set_order) : reader (list pystr) :=
  l <~ read_string_array ;; rret (so (set_of_list l)).
(** stream_input.py:214-227 read_string_to_string_set_dict *)
Definition read_string_to_string_set_dict (so : set_order) : reader (sdict (list pystr)) :=
  read_dict (read_string_set so).

(** stream_input.py:273-275 read_byte_array *)
Definition read_byte_array : reader bytes :=
  n <~ read_array_size ;; if 0 <? n then read_bytes n else rret [].

(** stream_input.py:229-271 read_generic_value, read_array_list.  The recursion is
    bounded by Python's recursion limit: [fuel] levels of nesting are available and
    running out raises RecursionError. *)
Fixpoint read_generic_value (fuel : nat) : reader pyval :=
  match fuel with
  | O => rfail ERecursion
  | S f =>
    t <~ read_byte ;;
    if t =? -1 then rret VNone
    else if t =? 0 then (s <~ read_string ;; rret (VStr s))
    else if t =? 1 then (i <~ read_int ;; rret (VInt i))
    else if t =? 2 then (i <~ read_long ;; rret (VInt i))
    else if t =? 5 then (b <~ read_boolean ;; rret (VBool b))
    else if t =? 6 then (b <~ read_byte_array ;; rret (VBytes b))
    else if t =? 7 then
      (n <~ read_v_int ;; l <~ read_n (read_generic_value f) (Z.to_nat n) ;; rret (VList l))
    else if t =? 11 then (i <~ read_byte ;; rret (VInt i))
    else if t =? 16 then (i <~ read_short ;; rret (VInt i))
    else rfail EGeneric
  end.

(** stream_input.py:277-278 read_enum for an Enum whose values are 0..n-1: the member is
    identified with its value; ValueError for any other number. *)
Definition read_enum (n : Z) : reader Z :=
  v <~ read_v_int ;; if (0 <=? v) && (v <? n) then rret v else rfail EValue.
(** stream_output.py:1023-1024 write_enum *)
Definition write_enum (v : Z) : res bytes := write_v_int v.
