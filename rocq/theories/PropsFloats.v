(** * Properties C60, C66 (and the float classes of C57, C64): floating point *)
From Coq Require Import String ZArith List Bool Lia.
From Coq Require Import Strings.Byte.
From Verif Require Import Py Stream Version Settings Floats PyFacts Spec SpecFacts SettingsFacts FloatFacts RoundFacts PropsMessages.
Import ListNotations.
Open Scope list_scope.
Open Scope Z_scope.

(** C60: a double is given by its 64 bits *)
Theorem C60_double : survives write_double read_double (fun x => 0 <= x < 2 ^ 64) /\
  forall x, 0 <= x < 2 ^ 64 -> exists bs, write_double x = Ok bs /\ length bs = 8%nat /\ be_value bs = x.
Proof.
  split; [exact double_survives|]. intros x Hx. exists (be_bytes 8 x). split; [reflexivity|].
  split; [apply be_bytes_length|]. rewrite be_value_bytes. apply Z.mod_small, Hx.
Qed.
Print Assumptions C60_double.
(** C60: if the double [x] stands for the same number as the single [y], exactly the bits of
    [y] are written and [x] is read back; every single is such a [y] *)
Theorem C60_float :
  (forall x y v, double_is x v -> single_is y v -> exists bs, write_float x = Ok bs /\
     length bs = 4%nat /\ be_value bs = y /\ forall s, read_float (bs ++ s) = Ok (x, s)) /\
  (forall y v, single_is y v -> exists x, double_is x v) /\
  (forall y, 0 <= y < 2 ^ 32 -> single_nan y \/ exists v, single_is y v) /\
  (forall x, double_nan x -> exists bs, write_float x = Ok bs /\ forall s, exists x', read_float (bs ++ s) = Ok (x', s) /\ double_nan x').
Proof.
  split; [|split; [|split]].
  - intros x y v D S. destruct (float_exact x y v D S) as [W R]. exists (be_bytes 4 y). split; [exact W|].
    split; [apply be_bytes_length|]. split; [|exact R]. rewrite be_value_bytes. apply Z.mod_small.
    destruct (single_double y v S) as (_ & _ & H). exact H.
  - intros y v S. destruct (single_double y v S) as (D & _ & _). eauto.
  - intros y Hy. set (s := y / 2 ^ 31). set (e := (y / 2 ^ 23) mod 2 ^ 8). set (f := y mod 2 ^ 23).
    assert (E : y = s * 2 ^ 31 + e * 2 ^ 23 + f).
    { unfold s, e, f. change (2 ^ 31) with (2 ^ 23 * 2 ^ 8). rewrite <- Z.div_div by lia.
      pose proof (Z.div_mod y (2 ^ 23) ltac:(lia)). pose proof (Z.div_mod (y / 2 ^ 23) (2 ^ 8) ltac:(lia)). lia. }
    assert (Hf : 0 <= f < 2 ^ 23) by (apply Z.mod_pos_bound; lia).
    assert (He : 0 <= e < 256) by (apply (Z.mod_pos_bound _ (2 ^ 8)); lia).
    assert (Hs : s = 0 \/ s = 1).
    { assert (0 <= s) by (apply Z.div_pos; lia). assert (s < 2) by (apply Z.div_lt_upper_bound; lia). lia. }
    assert (Sb : exists t, s = sign_bit t) by (destruct Hs as [->| ->]; [exists false|exists true]; reflexivity).
    clearbody s e f. destruct Sb as (t & ->). subst y.
    destruct (Z.eq_dec e 0) as [->|]; [right; eexists; rewrite Z.mul_0_l, Z.add_0_r; apply single_small; exact Hf|].
    destruct (Z.eq_dec e 255) as [->|]; [|right; eexists; apply single_normal; lia].
    destruct (Z.eq_dec f 0) as [->|]; [right; eexists; rewrite Z.add_0_r; apply single_infinite|].
    left. exists t, f. split; [lia|reflexivity].
  - intros x N. destruct (nan_to_single x N) as (y & E & Ny). exists (be_bytes 4 y).
    split; [unfold write_float; rewrite E; reflexivity|]. intros s. exists (f32_to_f64 y).
    split; [|apply nan_to_double, Ny]. apply read_float_be. destruct Ny as (t & f & Hf & ->).
    pose proof (sign_bit_range t). lia.
Qed.
Print Assumptions C60_float.
(** 0.15625 = 0x3FC4000000000000 as a double and 0x3E200000 as a single; the least positive
    single, 2^-149 *)
Example C60_case :
  (double_is 0x3FC4000000000000 (Finite false ((2 ^ 52 + 2 ^ 50) * 2 ^ 1019)) /\
   single_is 0x3E200000 (Finite false ((2 ^ 52 + 2 ^ 50) * 2 ^ 1019)) /\
   write_float 0x3FC4000000000000 = Ok [x3e; x20; x00; x00]) /\
  (double_is 0x36A0000000000000 (Finite false (1 * 2 ^ 925)) /\ single_is 1 (Finite false (1 * 2 ^ 925)) /\
   write_float 0x36A0000000000000 = Ok [x00; x00; x00; x01]).
Proof.
  split; split.
  - change 0x3FC4000000000000 with (sign_bit false * 2 ^ 63 + 1020 * 2 ^ 52 + 2 ^ 50). apply (double_normal false 1020 (2 ^ 50)); lia.
  - split; [|vm_compute; reflexivity].
    replace ((2 ^ 52 + 2 ^ 50) * 2 ^ 1019) with ((2 ^ 23 + 2 ^ 21) * 2 ^ (124 - 1) * 2 ^ 925) by (vm_compute; reflexivity).
    apply (single_normal false 124 (2 ^ 21)); lia.
  - replace (1 * 2 ^ 925) with ((2 ^ 52 + 0) * 2 ^ (874 - 1)) by (vm_compute; reflexivity).
    apply (double_normal false 874 0); lia.
  - split; [apply (single_small false 1); lia|vm_compute; reflexivity].
Qed.

(** C60: every other finite double is written as the nearest single, the one with an even
    last bit when two are equally near; from half a unit above the largest single,
    (2^24 - 1/2) * 2^104, on it is rejected instead of becoming infinite, and so nothing is
    written.  Magnitudes are in units of 2^-1074: 2^1074 * (2^24 - 1/2) * 2^104 = (2^25 - 1) * 2^1177. *)
Theorem C60_rounding : forall x s v, double_is x (Finite s v) ->
  (v < (2 ^ 25 - 1) * 2 ^ 1177 -> exists bs y w, write_float x = Ok bs /\
     length bs = 4%nat /\ be_value bs = y /\ single_is y (Finite s w) /\
     forall y' s' w', single_is y' (Finite s' w') ->
       Z.abs (signed s w - signed s v) <= Z.abs (signed s' w' - signed s v) /\
       (Z.abs (signed s w - signed s v) = Z.abs (signed s' w' - signed s v) -> signed s' w' <> signed s w -> Z.even y = true)) /\
  ((2 ^ 25 - 1) * 2 ^ 1177 <= v -> write_float x = Raise EOverflow).
Proof.
  intros x s v D. destruct (float_rounds x s v D) as [A B]. unfold write_float. split; intros H.
  - destruct (A H) as (y & w & E & S & N). exists (be_bytes 4 y), y, w. rewrite E. split; [reflexivity|].
    split; [apply be_bytes_length|]. split; [|split; [exact S|exact N]].
    rewrite be_value_bytes. apply Z.mod_small. destruct (single_double y _ S) as (_ & _ & R). exact R.
  - rewrite (B H). reflexivity.
Qed.
Print Assumptions C60_rounding.
(** 0.1 is rounded up; 1 + 2^-24, half way, goes to 1; 3.5e38 is too large *)
Example C60_case2 :
  (double_is 0x3FB999999999999A (Finite false ((2 ^ 52 + 0x999999999999A) * 2 ^ (1019 - 1))) /\
   (2 ^ 52 + 0x999999999999A) * 2 ^ (1019 - 1) < (2 ^ 25 - 1) * 2 ^ 1177 /\
   write_float 0x3FB999999999999A = Ok [x3d; xcc; xcc; xcd]) /\
  (double_is 0x3FF0000010000000 (Finite false ((2 ^ 52 + 2 ^ 28) * 2 ^ (1023 - 1))) /\
   write_float 0x3FF0000010000000 = Ok [x3f; x80; x00; x00]) /\
  (double_is 0x47F0000000000000 (Finite false ((2 ^ 52 + 0) * 2 ^ (1151 - 1))) /\
   (2 ^ 25 - 1) * 2 ^ 1177 <= (2 ^ 52 + 0) * 2 ^ (1151 - 1) /\ write_float 0x47F0000000000000 = Raise EOverflow).
Proof.
  split; [|split].
  - split; [apply (double_normal false 1019 0x999999999999A); lia|]. split; [vm_compute; reflexivity|vm_compute; reflexivity].
  - split; [apply (double_normal false 1023 (2 ^ 28)); lia|vm_compute; reflexivity].
  - split; [apply (double_normal false 1151 0); lia|]. split; [vm_compute; discriminate|vm_compute; reflexivity].
Qed.

(** C66: bounds are numbers (infinities allowed).  [fo_parse] is Python's float(), of which
    it is only assumed that it returns 64-bit doubles. *)
Definition float_setting_sound (new : float_oracle -> pystr -> f64 -> f64 -> f64 -> list prop -> res (setting f64 * float_parser)) : Prop :=
  forall fo key default lo hi props vlo vhi, double_is lo vlo -> double_is hi vhi ->
    (forall s x, fo_parse fo s = Ok x -> 0 <= x < 2 ^ 64) ->
    (forall v, double_is default v -> num_le vlo v -> num_le v vhi ->
       exists st p, new fo key default lo hi props = Ok (st, p) /\
         (forall rp d x, setting_get rp st d = Ok x -> exists w, double_is x w /\ num_le vlo w /\ num_le w vhi) /\
         (fo_parse fo (fo_str fo default) = Ok default -> returns_default st key default) /\
         (forall t x w, fo_parse fo t = Ok x -> double_is x w -> num_le vlo w -> num_le w vhi -> s_parse st t = Ok x)) /\
    (forall v, double_is default v -> ~ (num_le vlo v /\ num_le v vhi) -> new fo key default lo hi props = Raise EValue) /\
    (double_nan default -> new fo key default lo hi props = Raise EValue).
Lemma float_setting_is_sound ty : float_setting_sound (new_float_setting ty).
Proof.
  intros fo key default lo hi props vlo vhi Dlo Dhi Hfo.
  assert (CK : forall x w, double_is x w -> (float_bounds_check (mkFP lo hi key false) x = Ok x <-> num_le vlo w /\ num_le w vhi) /\
     (~ (num_le vlo w /\ num_le w vhi) -> float_bounds_check (mkFP lo hi key false) x = Raise EValue)).
  { intros x w D. pose proof (f64_le_spec _ _ _ _ Dlo D) as A. pose proof (f64_le_spec _ _ _ _ D Dhi) as B.
    unfold float_bounds_check. cbn [fp_min fp_max].
    destruct (f64_le lo x), (f64_le x hi); cbn [andb negb]; split; try split; intros; try reflexivity; try discriminate; intuition congruence. }
  split; [|split].
  - intros v D L1 L2. unfold new_float_setting, new_float_parser. change (has_filtered [PTuple props]) with false. cbv zeta.
    rewrite (proj2 (proj1 (CK default v D)) (conj L1 L2)). cbn [bind]. eexists _, _. split; [reflexivity|]. split; [|split].
    + intros rp d x G. apply setting_get_parsed in G as (t & G); [|reflexivity]. cbn [s_parse] in G.
      apply bind_ok in G as (w & P & G). pose proof (float_bounds_ok _ _ _ G) as [-> [E1 E2]]. cbn [fp_min fp_max] in *.
      destruct (double_cases w (Hfo _ _ P)) as [N|[u Du]].
      * apply nan_is_nan in N. apply float_le_nan in E1 as [_ E1]. congruence.
      * exists u. split; [exact Du|]. apply (CK w u Du), G.
    + intros R rp d N. rewrite setting_get_absent by exact N. cbn [s_parse s_default]. unfold float_parse. rewrite R. cbn [bind].
      apply (CK default v D). auto.
    + intros t x w P Dx L3 L4. cbn [s_parse]. unfold float_parse. rewrite P. cbn [bind]. apply (CK x w Dx). auto.
  - intros v D NL. unfold new_float_setting, new_float_parser. change (has_filtered [PTuple props]) with false. cbv zeta.
    rewrite (proj2 (CK default v D) NL). reflexivity.
  - intros N. unfold new_float_setting, new_float_parser. change (has_filtered [PTuple props]) with false. cbv zeta.
    unfold float_bounds_check, f64_le at 1. rewrite (nan_is_nan _ N). cbn [fp_min fp_max negb andb]. rewrite andb_false_r. reflexivity.
Qed.
Theorem C66_float_bounds : float_setting_sound new_double_setting /\ float_setting_sound new_single_setting.
Proof. exact (conj (float_setting_is_sound TDOUBLE) (float_setting_is_sound TFLOAT)). Qed.
Print Assumptions C66_float_bounds.
(** the parsers on the wire; the bounds of a FloatSetting must be representable as singles *)
Theorem C66_float_parsers :
  survives write_double_parser read_double_parser (fun p => 0 <= fp_min p < 2 ^ 64 /\ 0 <= fp_max p < 2 ^ 64 /\ text_ok (fp_key p)) /\
  survives write_single_parser read_single_parser (fun p =>
    (exists y v, single_is y v /\ double_is (fp_min p) v) /\ (exists y v, single_is y v /\ double_is (fp_max p) v) /\ text_ok (fp_key p)).
Proof. exact (conj double_parser_survives single_parser_survives). Qed.
Print Assumptions C66_float_parsers.
(** -inf <= 1.0 <= 2.0 with an oracle that parses "1" and "3" *)
Example C66_case : let fo := mkFO (fun s => if streqb s (py "1") then Ok 0x3FF0000000000000 else Ok 0x4008000000000000) (fun _ => py "1") in
  double_is 0xFFF0000000000000 (Infinite true) /\ double_is 0x4000000000000000 (Finite false ((2 ^ 52 + 0) * 2 ^ (1024 - 1))) /\
  exists st p, new_double_setting fo (py "k") 0x3FF0000000000000 0xFFF0000000000000 0x4000000000000000 [] = Ok (st, p) /\
    setting_get (fun _ => []) st [] = Ok 0x3FF0000000000000 /\
    setting_get (fun _ => []) st [(py "k", VStr (py "3"))] = Raise EValue.
Proof.
  split; [apply (double_infinite true)|]. split; [apply (double_normal false 1024 0); lia|].
  eexists _, _. split; [reflexivity|]. split; vm_compute; reflexivity.
Qed.

(** C57 and C64 for DoubleSetting and FloatSetting *)
Theorem C57_float_filtered_partial : forall ty fo key default lo hi props st p,
  In ty [TDOUBLE; TFLOAT] -> new_float_setting ty fo key default lo hi props = Ok (st, p) -> fp_filtered p = false.
Proof. intros ty fo key default lo hi props st p _ H. apply new_float_ok in H as (_ & -> & _). reflexivity. Qed.
Print Assumptions C57_float_filtered_partial.
Theorem C64_float_type :
  (forall fo key default lo hi props st p, new_double_setting fo key default lo hi props = Ok (st, p) -> s_type st = TDOUBLE) /\
  (forall fo key default lo hi props st p, new_single_setting fo key default lo hi props = Ok (st, p) -> s_type st = TFLOAT).
Proof. split; intros fo key default lo hi props st p H; apply new_float_ok in H as (_ & _ & ->); reflexivity. Qed.
Print Assumptions C64_float_type.
