(** * Doubles and singles on the wire (struct.pack/unpack ">d" and ">f"), double_setting.py,
    float_setting.py *)
From Coq Require Import ZArith List Bool.
From Verif Require Import Py Stream Version Settings.
Import ListNotations.
Open Scope Z_scope.

(** A Python float is an IEEE 754 double, given by its 64 bits as a number. *)
Definition f64 := Z.
(** IEEE 754: sign bit of a double *)
Definition f64_sign (x : f64) : Z := x / 2 ^ 63.
(** IEEE 754: exponent bits of a double *)
Definition f64_exp (x : f64) : Z := (x / 2 ^ 52) mod 2048.
(** IEEE 754: fraction bits of a double *)
Definition f64_frac (x : f64) : Z := x mod 2 ^ 52.
(** Python: math.isnan *)
Definition f64_is_nan (x : f64) : bool := (f64_exp x =? 2047) && negb (f64_frac x =? 0).
(** Python: math.isinf *)
Definition f64_is_inf (x : f64) : bool := (f64_exp x =? 2047) && (f64_frac x =? 0).
(** a finite double is (-1)^sign * f64_mant * 2^(f64_pow) *)
Definition f64_mant (x : f64) : Z :=
  if f64_exp x =? 0 then f64_frac x else 2 ^ 52 + f64_frac x.
(** IEEE 754: the power of two of the last bit of a double *)
Definition f64_pow (x : f64) : Z := Z.max (f64_exp x) 1 - 1075.

(** The same for singles. *)
Definition f32 := Z.
(** IEEE 754: sign bit of a single *)
Definition f32_sign (x : f32) : Z := x / 2 ^ 31.
(** IEEE 754: exponent bits of a single *)
Definition f32_exp (x : f32) : Z := (x / 2 ^ 23) mod 256.
(** IEEE 754: fraction bits of a single *)
Definition f32_frac (x : f32) : Z := x mod 2 ^ 23.
(** IEEE 754: a single that is a NaN *)
Definition f32_is_nan (x : f32) : bool := (f32_exp x =? 255) && negb (f32_frac x =? 0).
(** IEEE 754: an infinite single *)
Definition f32_is_inf (x : f32) : bool := (f32_exp x =? 255) && (f32_frac x =? 0).
(** IEEE 754: integer mantissa of a single *)
Definition f32_mant (x : f32) : Z :=
  if f32_exp x =? 0 then f32_frac x else 2 ^ 23 + f32_frac x.
(** IEEE 754: the power of two of the last bit of a single *)
Definition f32_pow (x : f32) : Z := Z.max (f32_exp x) 1 - 150.

(** round m * 2^k to an integer, half to even *)
Definition scale_round (m k : Z) : Z :=
  if 0 <=? k then m * 2 ^ k else round_half_even m (2 ^ (- k)).

(** C cast of a double to float in round-to-nearest mode, with CPython's check in
    PyFloat_Pack4: a finite double that becomes infinite raises OverflowError.
    A NaN keeps its sign and the leading bits of its payload and is made quiet (what the
    usual hardware does; the standard leaves it open). *)
Definition f64_to_f32 (x : f64) : res f32 :=
  let s := f64_sign x * 2 ^ 31 in
  if f64_is_nan x then Ok (s + 255 * 2 ^ 23 + Z.lor (2 ^ 22) (f64_frac x / 2 ^ 29))
  else if f64_is_inf x then Ok (s + 255 * 2 ^ 23)
  else
    let m := f64_mant x in
    let e := f64_pow x in
    if m =? 0 then Ok s else
    let p := Z.max (Z.log2 m + e - 23) (-149) in
    let m' := scale_round m (e - p) in
    let bits := (p + 149) * 2 ^ 23 + m' in
    if 255 * 2 ^ 23 <=? bits then Raise EOverflow else Ok (s + bits).

(** C cast of a float to double: exact (a NaN is made quiet and keeps its payload) *)
Definition f32_to_f64 (x : f32) : f64 :=
  let s := f32_sign x * 2 ^ 63 in
  if f32_is_nan x then s + 2047 * 2 ^ 52 + Z.lor (2 ^ 51) (f32_frac x * 2 ^ 29)
  else if f32_is_inf x then s + 2047 * 2 ^ 52
  else
    let m := f32_mant x in
    if m =? 0 then s else
    (* m * 2^pow with m = 2^l + r: normalize to a 53-bit significand *)
    let l := Z.log2 m in
    s + (l + f32_pow x + 1023 - 1) * 2 ^ 52 + m * 2 ^ (52 - l).

(** stream_output.py:251-255 write_float, write_double *)
Definition write_double (x : f64) : res bytes := Ok (be_bytes 8 x).
(** stream_output.py:251-252 write_float *)
Definition write_float (x : f64) : res bytes := y <- f64_to_f32 x ;; Ok (be_bytes 4 y).
(** stream_input.py:37-41 read_float, read_double: struct.unpack raises struct.error
    unless it gets exactly 4 / 8 bytes *)
Definition read_double : reader f64 :=
  b <~ read_bytes 8 ;;
  if zlen b =? 8 then rret (from_bytes_unsigned b) else rfail EStruct.
(** stream_input.py:37-38 read_float *)
Definition read_float : reader f64 :=
  b <~ read_bytes 4 ;;
  if zlen b =? 4 then rret (f32_to_f64 (from_bytes_unsigned b)) else rfail EStruct.

(** Python's [a <= b] on floats: false if either is a NaN; -0.0 equals 0.0. *)
Definition f64_key (x : f64) : Z := if f64_sign x =? 0 then x else - (x - 2 ^ 63).
(** Python: <= of floats *)
Definition f64_le (a b : f64) : bool :=
  negb (f64_is_nan a) && negb (f64_is_nan b) && (f64_key a <=? f64_key b).

(** ** double_setting.py / float_setting.py.  [float(s)] and [str(x)] are oracles. *)
Record float_oracle := mkFO { fo_parse : pystr -> res f64; fo_str : f64 -> pystr }.
(** double_setting.py:23-27, float_setting.py:23-27: attributes of Parser *)
Record float_parser := mkFP { fp_min : f64; fp_max : f64; fp_key : pystr; fp_filtered : bool }.
(** double_setting.py:23-27 / float_setting.py:23-27 *)
Definition new_float_parser (lo hi : f64) (key : pystr) (props : list parg) : float_parser :=
  mkFP lo hi key (has_filtered props).
(** double_setting.py:32-35 / float_setting.py:32-35 *)
Definition float_bounds_check (p : float_parser) (v : f64) : res f64 :=
  if negb (f64_le (fp_min p) v && f64_le v (fp_max p)) then Raise EValue else Ok v.
(** double_setting.py:29-30 / float_setting.py:29-30 *)
Definition float_parse (fo : float_oracle) (p : float_parser) (s : pystr) : res f64 :=
  v <- fo_parse fo s ;; float_bounds_check p v.
(** double_setting.py:17-20 / float_setting.py:17-20 *)
Definition new_float_setting (ty : stype) (fo : float_oracle) (key : pystr)
  (default lo hi : f64) (props : list prop) : res (setting f64 * float_parser) :=
  let p := new_float_parser lo hi key [PTuple props] in
  _d <- float_bounds_check p default ;;
  Ok (mkSetting ty key (fo_str fo default) (float_parse fo p) None [PTuple props], p).
(** double_setting.py:17-20 *)
Definition new_double_setting := new_float_setting TDOUBLE.
(** float_setting.py:17-20 *)
Definition new_single_setting := new_float_setting TFLOAT.
(** double_setting.py:37-49 *)
Definition write_double_parser (p : float_parser) : res bytes :=
  wcat [write_double (fp_min p); write_double (fp_max p); write_string (fp_key p);
        write_boolean (fp_filtered p)].
(** double_setting.py:37-42 read_from *)
Definition read_double_parser : reader float_parser :=
  a <~ read_double ;; b <~ read_double ;; k <~ read_string ;; f <~ read_boolean ;;
  rret (mkFP a b k f).
(** float_setting.py:37-49 *)
Definition write_single_parser (p : float_parser) : res bytes :=
  wcat [write_float (fp_min p); write_float (fp_max p); write_string (fp_key p);
        write_boolean (fp_filtered p)].
(** float_setting.py:37-42 read_from *)
Definition read_single_parser : reader float_parser :=
  a <~ read_float ;; b <~ read_float ;; k <~ read_string ;; f <~ read_boolean ;;
  rret (mkFP a b k f).
