(** * Python run-time pieces used by the SDK.

    Line numbers cite /repo/src/opensearch_sdk_py unless another root is given.
    Everything here models the behaviour of CPython builtins that the SDK calls
    (bytes, str, int.to_bytes, int.from_bytes, io.BytesIO, dict, set, int(), str()). *)
From Coq Require Import ZArith List Bool Ascii String.
From Coq Require Import Strings.Byte.
Import ListNotations.
Open Scope Z_scope.

(** Python [bytes]: a list of 8-bit values. *)
Definition bytes := list byte.

(** Python [str]: the list of its code points.  CPython guarantees each is in
    [0, 0x110000); lone surrogates (0xD800-0xDFFF) are allowed in a str. *)
Definition pystr := list Z.

(** Exceptions the modelled code can raise, by class (messages are not modelled).
    [EGeneric] is a bare [Exception(...)]. *)
Inductive exn :=
| EOverflow    (* OverflowError: int too big to convert *)
| EValue       (* ValueError (and ipaddress.AddressValueError) *)
| EUnicode     (* UnicodeEncodeError / UnicodeDecodeError *)
| EType        (* TypeError *)
| EAttr        (* AttributeError, e.g. attribute of None *)
| EGeneric     (* Exception *)
| ERecursion   (* RecursionError *)
| ERegex       (* re.error *)
| EProto       (* google.protobuf DecodeError *)
| EOS          (* OSError, e.g. address already in use *)
| EStruct      (* struct.error *).

(** Python: the outcome of an evaluation, a value or an exception *)
Inductive res (A : Type) :=
| Ok (a : A)
| Raise (e : exn).
Arguments Ok {A} a.
Arguments Raise {A} e.

(** Python: apply to the value of an outcome *)
Definition rmap {A B} (f : A -> B) (r : res A) : res B :=
  match r with Ok a => Ok (f a) | Raise e => Raise e end.

(** Python: sequencing; an exception ends the evaluation *)
Definition bind {A B} (r : res A) (k : A -> res B) : res B :=
  match r with Ok a => k a | Raise e => Raise e end.

Notation "x <- m ;; k" := (bind m (fun x => k))
  (at level 61, m at next level, right associativity).

(** ** Bytes *)

(** Python: a byte as int *)
Definition b2z (b : byte) : Z := Z.of_N (Byte.to_N b).
(** Python: the low eight bits of an int as a byte *)
Definition z2b (z : Z) : byte :=
  match Byte.of_N (Z.to_N (z mod 256)) with Some b => b | None => x00 end.

(** Python: len() *)
Definition zlen {A} (l : list A) : Z := Z.of_nat (List.length l).

(** [n] low-order bytes of [v], most significant first. *)
Fixpoint be_bytes (n : nat) (v : Z) : bytes :=
  match n with
  | O => []
  | S k => be_bytes k (v / 256) ++ [z2b v]
  end.

(** [int.to_bytes(n, "big", signed=True)]: OverflowError outside the range. *)
Definition to_bytes_signed (n : nat) (i : Z) : res bytes :=
  let m := 2 ^ (8 * Z.of_nat n - 1) in
  if (- m <=? i) && (i <? m) then Ok (be_bytes n (i mod (2 * m)))
  else Raise EOverflow.

(** [int.to_bytes(n, "big")] (unsigned): OverflowError if negative or too big. *)
Definition to_bytes_unsigned (n : nat) (i : Z) : res bytes :=
  if (0 <=? i) && (i <? 2 ^ (8 * Z.of_nat n)) then Ok (be_bytes n i)
  else Raise EOverflow.

(** [int.from_bytes(bs, "big")] *)
Definition from_bytes_unsigned (bs : bytes) : Z :=
  fold_left (fun acc b => acc * 256 + b2z b) bs 0.

(** [int.from_bytes(bs, "big", signed=True)]; the empty string gives 0. *)
Definition from_bytes_signed (bs : bytes) : Z :=
  let u := from_bytes_unsigned bs in
  match bs with
  | [] => 0
  | _ => let m := 2 ^ (8 * zlen bs - 1) in
         if m <=? u then u - 2 * m else u
  end.

(** [bytes(n)] for an int [n]: n zero bytes, ValueError if negative. *)
Definition bytes_of_int (n : Z) : res bytes :=
  if n <? 0 then Raise EValue else Ok (repeat x00 (Z.to_nat n)).

(** ** io.BytesIO used for reading: [read(n)] returns at most [n] bytes (fewer at
    the end of the data, without error) and everything left if [n] is negative. *)
Fixpoint takeZ {A} (n : Z) (l : list A) : list A :=
  match l with
  | [] => []
  | x :: t => if n <=? 0 then [] else x :: takeZ (n - 1) t
  end.
(** Python: what BytesIO.read(n) leaves, [l[n:]] *)
Fixpoint dropZ {A} (n : Z) (l : list A) : list A :=
  match l with
  | [] => []
  | x :: t => if n <=? 0 then l else dropZ (n - 1) t
  end.
(** Python: BytesIO.read(n), n >= 0 or everything *)
Definition bio_read (n : Z) (s : bytes) : bytes * bytes :=
  if n <? 0 then (s, []) else (takeZ n s, dropZ n s).

(** A reader consumes a prefix of the unread bytes of a StreamInput, or raises.
    Simplification: the read position after an exception is not modelled here (see Track.v) (the host
    drops the input then). *)
Definition reader (A : Type) := bytes -> res (A * bytes).
(** a reader that reads nothing *)
Definition rret {A} (a : A) : reader A := fun s => Ok (a, s).
(** a reader that raises *)
Definition rfail {A} (e : exn) : reader A := fun _ => Raise e.
(** one reader after the other *)
Definition rbind {A B} (r : reader A) (k : A -> reader B) : reader B :=
  fun s => match r s with Ok (a, s') => k a s' | Raise e => Raise e end.
(** a computation on what was read *)
Definition rlift {A} (x : res A) : reader A :=
  fun s => match x with Ok a => Ok (a, s) | Raise e => Raise e end.

Notation "x <~ r ;; k" := (rbind r (fun x => k))
  (at level 61, r at next level, right associativity).

(** [for i in range(n): result.append(r())] *)
Fixpoint read_n {A} (r : reader A) (n : nat) : reader (list A) :=
  match n with
  | O => rret []
  | S k => a <~ r ;; l <~ read_n r k ;; rret (a :: l)
  end.

(** A writer yields the bytes it appends, or raises.  [wcat] runs writers in sequence.
    Simplification: bytes appended before an exception are dropped here (see Track.v). *)
Fixpoint wcat (l : list (res bytes)) : res bytes :=
  match l with
  | [] => Ok []
  | w :: t => a <- w ;; b <- wcat t ;; Ok (a ++ b)
  end.

(** ** Strings *)

(** String constants of the source, as code points (ASCII only). *)
Definition py (s : string) : pystr :=
  map (fun a => Z.of_N (N_of_ascii a)) (list_ascii_of_string s).

(** Python: == of str *)
Fixpoint streqb (a b : pystr) : bool :=
  match a, b with
  | [], [] => true
  | x :: a', y :: b' => (x =? y) && streqb a' b'
  | _, _ => false
  end.

(** Lexicographic order on code points: Python's [<=] on str. *)
Fixpoint strleb (a b : pystr) : bool :=
  match a, b with
  | [], _ => true
  | _ :: _, [] => false
  | x :: a', y :: b' => if x <? y then true else if y <? x then false else strleb a' b'
  end.

(** [sorted(...)] of strings. *)
Fixpoint insert_sorted (x : pystr) (l : list pystr) : list pystr :=
  match l with
  | [] => [x]
  | y :: t => if strleb x y then x :: l else y :: insert_sorted x t
  end.
(** Python: sorted() of str *)
Definition py_sorted (l : list pystr) : list pystr := fold_right insert_sorted [] l.

(** Python: [x in l] *)
Definition str_mem (x : pystr) (l : list pystr) : bool := existsb (streqb x) l.

(** *** UTF-8: [s.encode("utf-8")] and [str(b, "utf-8")] (strict error handler). *)
Definition utf8_enc1 (c : Z) : res bytes :=
  if c <? 0 then Raise EUnicode
  else if c <? 0x80 then Ok [z2b c]
  else if c <? 0x800 then Ok [z2b (0xC0 + c / 64); z2b (0x80 + c mod 64)]
  else if c <? 0x10000 then
    if (0xD800 <=? c) && (c <? 0xE000) then Raise EUnicode
    else Ok [z2b (0xE0 + c / 4096); z2b (0x80 + (c / 64) mod 64); z2b (0x80 + c mod 64)]
  else if c <? 0x110000 then
    Ok [z2b (0xF0 + c / 262144); z2b (0x80 + (c / 4096) mod 64);
        z2b (0x80 + (c / 64) mod 64); z2b (0x80 + c mod 64)]
  else Raise EUnicode.

(** Python: str.encode("utf-8"), strict *)
Definition utf8_encode (s : pystr) : res bytes := wcat (map utf8_enc1 s).

(** a UTF-8 continuation byte *)
Definition is_cont (b : byte) : bool := (0x80 <=? b2z b) && (b2z b <? 0xC0).

(** Python: str(b, "utf-8"), strict *)
Fixpoint utf8_decode (l : bytes) : res pystr :=
  match l with
  | [] => Ok []
  | b0 :: t0 =>
      let x0 := b2z b0 in
      if x0 <? 0x80 then rmap (cons x0) (utf8_decode t0)
      else if x0 <? 0xC2 then Raise EUnicode
      else match t0 with
      | [] => Raise EUnicode
      | b1 :: t1 =>
        let x1 := b2z b1 in
        if negb (is_cont b1) then Raise EUnicode
        else if x0 <? 0xE0 then
          rmap (cons ((x0 - 0xC0) * 64 + (x1 - 0x80))) (utf8_decode t1)
        else match t1 with
        | [] => Raise EUnicode
        | b2 :: t2 =>
          let x2 := b2z b2 in
          if negb (is_cont b2) then Raise EUnicode
          else if x0 <? 0xF0 then
            let c := (x0 - 0xE0) * 4096 + (x1 - 0x80) * 64 + (x2 - 0x80) in
            if c <? 0x800 then Raise EUnicode
            else if (0xD800 <=? c) && (c <? 0xE000) then Raise EUnicode
            else rmap (cons c) (utf8_decode t2)
          else match t2 with
          | [] => Raise EUnicode
          | b3 :: t3 =>
            let x3 := b2z b3 in
            if negb (is_cont b3) then Raise EUnicode
            else
              let c := (x0 - 0xF0) * 262144 + (x1 - 0x80) * 4096
                       + (x2 - 0x80) * 64 + (x3 - 0x80) in
              if c <? 0x10000 then Raise EUnicode
              else if 0x110000 <=? c then Raise EUnicode
              else rmap (cons c) (utf8_decode t3)
          end
        end
      end
  end.

(** ** dict: insertion-ordered association list; [d[k] = v] keeps the position of an
    existing key. *)
Section Dict.
  Context {K V : Type} (keqb : K -> K -> bool).
  Fixpoint dict_set (k : K) (v : V) (d : list (K * V)) : list (K * V) :=
    match d with
    | [] => [(k, v)]
    | (k', v') :: t => if keqb k k' then (k', v) :: t else (k', v') :: dict_set k v t
    end.
  Fixpoint dict_get (k : K) (d : list (K * V)) : option V :=
    match d with
    | [] => None
    | (k', v') :: t => if keqb k k' then Some v' else dict_get k t
    end.
  (** [dict.pop(k, None)] *)
  Fixpoint dict_del (k : K) (d : list (K * V)) : list (K * V) :=
    match d with
    | [] => []
    | (k', v') :: t => if keqb k k' then t else (k', v') :: dict_del k t
    end.
End Dict.

(** Python: dict with str keys, in insertion order *)
Definition sdict (V : Type) := list (pystr * V).

(** ** set of str.  A set is represented by the list of its members in Python's
    iteration order.  That order is unspecified: building a set from a sequence of
    [add] calls goes through an oracle [so] which permutes the members. *)
Definition set_order := list pystr -> list pystr.
(** Python: set.add *)
Definition set_add (x : pystr) (s : list pystr) : list pystr :=
  if str_mem x s then s else s ++ [x].
(** Python: the members of set(l) *)
Definition set_of_list (l : list pystr) : list pystr := fold_left (fun s x => set_add x s) l [].

(** ** [str(i)] and [int(s)] *)
Fixpoint dec_digits (fuel : nat) (n : Z) (acc : pystr) : pystr :=
  match fuel with
  | O => acc
  | S f => if n <? 10 then (48 + n) :: acc else dec_digits f (n / 10) ((48 + n mod 10) :: acc)
  end.
(** Python: str() of an int >= 0 *)
Definition str_nat (n : Z) : pystr := dec_digits (S (Z.to_nat (Z.log2 n))) n [].
(** Python: str() of an int *)
Definition str_int (i : Z) : pystr :=
  if i <? 0 then 45 :: str_nat (- i) else str_nat i.

(** ASCII digits *)
Definition is_digit (c : Z) : bool := (48 <=? c) && (c <=? 57).
(** ASCII part of [\w] *)
Definition is_word (c : Z) : bool :=
  is_digit c || ((65 <=? c) && (c <=? 90)) || ((97 <=? c) && (c <=? 122)) || (c =? 95).
(** ASCII part of str.lower *)
Definition lower1 (c : Z) : Z := if (65 <=? c) && (c <=? 90) then c + 32 else c.

(** What depends on the Python release and its configuration: for characters from 128 up the
    decimal digits and their values, the spaces, the word characters and the lower case;
    the limit on the digits int() takes (sys.set_int_max_str_digits, 0 for none, as before
    3.9.14, 3.10.7, 3.11).  A class only so that it is passed along silently. *)
Class runtime := mkRT {
  rt_digit : Z -> option Z;
  rt_space : Z -> bool;
  rt_word : Z -> bool;
  rt_lower : Z -> pystr;
  rt_limit : Z }.
(** [str.isdecimal], [\d], and the value of the digit *)
Definition digit_val {rt : runtime} (c : Z) : option Z :=
  if c <? 128 then if is_digit c then Some (c - 48) else None else rt_digit c.
(** Python: str.isdecimal *)
Definition is_decimal {rt : runtime} (c : Z) : bool :=
  match digit_val c with Some _ => true | None => false end.
(** [\s]: str.isspace *)
Definition re_space {rt : runtime} (c : Z) : bool :=
  if c <? 128 then ((9 <=? c) && (c <=? 13)) || ((28 <=? c) && (c <=? 32)) else rt_space c.
(** what int() takes for a space: of the ASCII characters only those of C's isspace *)
Definition int_space {rt : runtime} (c : Z) : bool :=
  if c <? 128 then ((9 <=? c) && (c <=? 13)) || (c =? 32) else rt_space c.
(** [\w] *)
Definition re_word {rt : runtime} (c : Z) : bool := if c <? 128 then is_word c else rt_word c.
(** [str.lower], character by character.  Simplification: the one context-dependent rule of
    Unicode (the Greek final sigma) is not modelled. *)
Definition lower {rt : runtime} (s : pystr) : pystr :=
  flat_map (fun c => if c <? 128 then [lower1 c] else rt_lower c) s.

(** what the loop of a scanner leaves *)
Fixpoint drop_while (f : Z -> bool) (l : pystr) : pystr :=
  match l with
  | [] => []
  | c :: t => if f c then drop_while f t else l
  end.
(** what the loop of a scanner takes *)
Fixpoint take_while (f : Z -> bool) (l : pystr) : pystr :=
  match l with
  | [] => []
  | c :: t => if f c then c :: take_while f t else []
  end.
(** Python: str.strip() *)
Definition strip {rt : runtime} (l : pystr) : pystr :=
  rev (drop_while int_space (rev (drop_while int_space l))).

(** digits with single underscores between them *)
Fixpoint int_digits {rt : runtime} (after_us : bool) (acc : Z) (l : pystr) : res Z :=
  match l with
  | [] => if after_us then Raise EValue else Ok acc
  | c :: t =>
      match digit_val c with
      | Some d => int_digits false (acc * 10 + d) t
      | None => if (c =? 95) && negb after_us then int_digits true acc t else Raise EValue
      end
  end.
(** Python: int() of a stripped text without sign *)
Definition int_start {rt : runtime} (l : pystr) : res Z :=
  match l with
  | c :: t => match digit_val c with Some d => int_digits false d t | None => Raise EValue end
  | [] => Raise EValue
  end.
(** the limit counts digits, leading zeros included, not underscores *)
Definition over_limit {rt : runtime} (l : pystr) : bool :=
  (0 <? rt_limit) && (rt_limit <? zlen (filter is_decimal l)).
(** [int(s)] in base 10 *)
Definition py_int {rt : runtime} (s : pystr) : res Z :=
  if over_limit s then Raise EValue else
  match strip s with
  | c :: t => if c =? 43 then int_start t
              else if c =? 45 then rmap Z.opp (int_start t)
              else int_start (c :: t)
  | [] => Raise EValue
  end.
(** A runtime that knows ASCII only, for texts that are ASCII and short. *)
Definition ascii_rt : runtime :=
  mkRT (fun _ => None) (fun _ => false) (fun _ => false) (fun c => [c]) 0.
