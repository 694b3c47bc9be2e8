(** * Properties C15-C17: versions *)
From Coq Require Import ZArith List Bool.
From Coq Require Import Strings.Byte.
From Verif Require Import Py Stream Version Spec VersionFacts.
Import ListNotations.
Open Scope Z_scope.

(** C15: the first part for ids MMmmrrbb given to the constructor; the second for every
    object, whose id is some 32-bit [n] without the marker bit 27, or that plus the marker. *)
Theorem C15_version_components :
  (forall a b c d, 0 <= a < 100 -> 0 <= b < 100 -> 0 <= c < 100 -> 0 <= d < 100 ->
     let v := version_of_id (a * 1000000 + b * 10000 + c * 100 + d) in
     v_major v = a /\ v_minor v = b /\ v_revision v = c /\ v_build v = d) /\
  (forall n v, 0 <= n < 2 ^ 32 -> Z.testbit n 27 = false ->
     vid v = n \/ vid v = n + 2 ^ 27 ->
     v_major v = n / 1000000 mod 100 /\ v_minor v = n / 10000 mod 100 /\
     v_revision v = n / 100 mod 100 /\ v_build v = n mod 100).
Proof. exact (conj version_components version_pairs). Qed.
Print Assumptions C15_version_components.
(** the division used there is IEEE division: 53-bit mantissa, nearest, ties to even *)
Theorem C15_division_is_correctly_rounded : forall a b, 0 < a -> 0 < b -> a / b < 2 ^ 53 ->
  let m := fst (float_div a b) in let k := snd (float_div a b) in
  0 <= k -> 2 ^ 52 <= m <= 2 ^ 53 /\ 2 * Z.abs (m * b - a * 2 ^ k) <= b /\
  (2 * Z.abs (m * b - a * 2 ^ k) = b -> Z.even m = true).
Proof. exact float_div_nearest. Qed.
Print Assumptions C15_division_is_correctly_rounded.
Example C15_case : let v := version_of_id 2110399 in
  v_major v = 2 /\ v_minor v = 11 /\ v_revision v = 3 /\ v_build v = 99 /\
  float_div 2110399 100 = (5801020599367107, 38).
Proof. vm_compute. repeat split. Qed.

(** C16 *)
Theorem C16_versions_survive :
  survives write_version read_version (fun v => 0 <= vid v < 2 ^ 35) /\
  (forall v, 0 <= vid v < 2 ^ 32 ->
     exists bs, version_to_bytes v = Ok bs /\ length bs = 4%nat /\ be_value bs = vid v
                /\ version_from_bytes bs = v) /\
  (forall v, ~ 0 <= vid v < 2 ^ 32 -> version_to_bytes v = Raise EOverflow) /\
  (forall n, Z.testbit (vid (version_of_id n)) 27 = negb (Z.testbit n 27) /\
     forall i, 0 <= i -> i <> 27 -> Z.testbit (vid (version_of_id n)) i = Z.testbit n i).
Proof.
  exact (conj version_survives (conj version_bytes_ok (conj version_bytes_out version_id_marker))).
Qed.
Print Assumptions C16_versions_survive.
Example C16_case : write_version (version_of_id 2110399) = Ok [xbf; xe7; x80; x41] /\
  read_version [xbf; xe7; x80; x41; x07] = Ok (version_of_id 2110399, [x07]) /\
  version_to_bytes (version_of_id 2110399) = Ok [x08; x20; x33; xbf].
Proof. vm_compute. repeat split. Qed.

(** C17, full statement: false for marked ids of 2^28 and above. *)
Definition C17_statement : Prop := forall v bs, write_version v = Ok bs -> version_size v = zlen bs.
Theorem C17_version_size_refuted : ~ C17_statement.
Proof. exact version_size_refuted. Qed.
Print Assumptions C17_version_size_refuted.
(** C17, what holds: all ids below 2^27 given to the constructor (every MMmmrrbb), and
    exactly when it holds in general. *)
Theorem C17_version_size_partial :
  (forall n bs, 0 <= n < 2 ^ 27 -> write_version (version_of_id n) = Ok bs ->
     version_size (version_of_id n) = zlen bs) /\
  (forall v bs, 0 <= vid v -> write_version v = Ok bs ->
     (version_size v = zlen bs <-> (Z.testbit (vid v) 27 = false \/ vid v < 2 ^ 28))).
Proof. exact version_size_partial. Qed.
Print Assumptions C17_version_size_partial.
Example C17_case : write_version (mkVersion 3000099) = Ok [xa3; x8e; xb7; x01] /\
  version_size (mkVersion 3000099) = 4 /\ version_size (version_of_id 3000099) = 4.
Proof. vm_compute. repeat split. Qed.
