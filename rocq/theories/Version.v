(** * transport/version.py and the version methods of the streams *)
From Coq Require Import ZArith List Bool.
From Verif Require Import Py Stream.
Import ListNotations.
Open Scope Z_scope.

(** version.py:10-13 *)
Definition MASK : Z := 0x08000000.
(** version.py:11 *)
Definition CURRENT : Z := 3000099.
(** version.py:12 *)
Definition MIN_COMPAT : Z := 7099999.

(** A Version object; major, minor, revision and build are functions of [vid] because
    every assignment of id in the class is followed by __build_string (version.py:15-31). *)
Record version := mkVersion { vid : Z }.

(** version.py:15-18 __init__ *)
Definition version_of_id (n : Z) : version := mkVersion (Z.lxor n MASK).
(** version.py:20-23 from_bytes (after Version()) *)
Definition version_from_bytes (b : bytes) : version := mkVersion (from_bytes_unsigned b).
(** version.py:36-37 __bytes__ *)
Definition version_to_bytes (v : version) : res bytes := to_bytes_unsigned 4 (vid v).

(** Python's [a / b] on ints 0 <= a, 0 < b: the double nearest to the quotient, ties to
    even.  The result is the pair (m, k) standing for m / 2^k with 2^52 <= m <= 2^53,
    or (0, 0).  Restricted to quotients below 2^53 (so k >= 0), which covers ids, since
    they are masked to 32 bits. *)
Definition round_half_even (n d : Z) : Z :=
  let q := n / d in
  let r := n mod d in
  if 2 * r <? d then q
  else if d <? 2 * r then q + 1
  else if Z.even q then q else q + 1.
(** Python: [a / b] on ints, as said above *)
Definition float_div (a b : Z) : Z * Z :=
  if a =? 0 then (0, 0) else
  let k0 := 53 - (Z.log2 a - Z.log2 b) in
  let k := if 2 ^ 53 <=? (a * 2 ^ k0) / b then k0 - 1 else k0 in
  (round_half_even (a * 2 ^ k) b, k).
(** [int(x % 100)] for the double x = m / 2^k >= 0: the remainder is exact (fmod). *)
Definition float_mod100_int (x : Z * Z) : Z :=
  (fst x mod (100 * 2 ^ snd x)) / 2 ^ snd x.

(** version.py:25-31 __build_string *)
Definition stripped_id (v : version) : Z := Z.land (vid v) 0xF7FFFFFF.
(** version.py:28 *)
Definition v_major (v : version) : Z := float_mod100_int (float_div (stripped_id v) 1000000).
(** version.py:29 *)
Definition v_minor (v : version) : Z := float_mod100_int (float_div (stripped_id v) 10000).
(** version.py:30 *)
Definition v_revision (v : version) : Z := float_mod100_int (float_div (stripped_id v) 100).
(** version.py:31 *)
Definition v_build (v : version) : Z := stripped_id v mod 100.
(** version.py:33-34 __str__ *)
Definition v_str (v : version) : pystr :=
  str_int (v_major v) ++ [46] ++ str_int (v_minor v) ++ [46] ++ str_int (v_revision v)
  ++ [46] ++ str_int (v_build v).

(** stream_output.py:61-62 write_version *)
Definition write_version (v : version) : res bytes := write_v_int (vid v).
(** stream_input.py:90-91 read_version: Version(self.read_v_int() ^ Version.MASK) *)
Definition read_version : reader version :=
  i <~ read_v_int ;; rret (version_of_id (Z.lxor i MASK)).
(** stream_output.py:55-59 version_size *)
Definition version_size (v : version) : Z :=
  if negb (Z.land (vid v) MASK =? 0) then 4 else v_int_size (vid v).
