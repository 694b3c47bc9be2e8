(** * Facts about doubles and singles *)
From Coq Require Import ZArith List Bool Lia ZifyBool.
From Verif Require Import Py Stream Version Settings Floats PyFacts StreamFacts Spec SpecFacts VersionFacts MsgFacts SettingsFacts.
Import ListNotations.
Open Scope Z_scope.

Lemma sign_bit_range s : 0 <= sign_bit s <= 1. Proof. destruct s; cbn; lia. Qed.

(** ** taking the bits apart *)
Lemma fields_hi n w s e f : 0 <= n -> 0 <= w -> 0 <= e < 2 ^ w -> 0 <= f < 2 ^ n ->
  (s * 2 ^ (n + w) + e * 2 ^ n + f) / 2 ^ (n + w) = s /\
  ((s * 2 ^ (n + w) + e * 2 ^ n + f) / 2 ^ n) mod 2 ^ w = e /\
  (s * 2 ^ (n + w) + e * 2 ^ n + f) mod 2 ^ n = f.
Proof.
  intros Hn Hw He Hf. pose proof (pow2_pos n Hn). pose proof (pow2_pos w Hw).
  rewrite Z.pow_add_r by lia.
  replace (s * (2 ^ n * 2 ^ w) + e * 2 ^ n + f) with ((s * 2 ^ w + e) * 2 ^ n + f) by ring.
  assert (D : ((s * 2 ^ w + e) * 2 ^ n + f) / 2 ^ n = s * 2 ^ w + e)
    by (rewrite Z.div_add_l, Z.div_small by lia; lia).
  split; [|split].
  - rewrite <- Z.div_div by lia. rewrite D, Z.div_add_l, Z.div_small by lia. lia.
  - rewrite D, Z.add_comm, Z.mod_add, Z.mod_small by lia. reflexivity.
  - rewrite Z.add_comm, Z.mod_add, Z.mod_small by lia. reflexivity.
Qed.
Lemma f64_fields s e f : 0 <= e < 2048 -> 0 <= f < 2 ^ 52 ->
  let x := s * 2 ^ 63 + e * 2 ^ 52 + f in f64_sign x = s /\ f64_exp x = e /\ f64_frac x = f.
Proof. intros He Hf. exact (fields_hi 52 11 s e f ltac:(lia) ltac:(lia) He Hf). Qed.
Lemma f32_fields s e f : 0 <= e < 256 -> 0 <= f < 2 ^ 23 ->
  let x := s * 2 ^ 31 + e * 2 ^ 23 + f in f32_sign x = s /\ f32_exp x = e /\ f32_frac x = f.
Proof. intros He Hf. exact (fields_hi 23 8 s e f ltac:(lia) ltac:(lia) He Hf). Qed.

Lemma rhe_exact m d : 0 < d -> round_half_even (m * d) d = m.
Proof.
  intros H. unfold round_half_even. rewrite Z.div_mul, Z.mod_mul by lia.
  destruct (Z.ltb_spec (2 * 0) d); lia.
Qed.
Lemma log2_scale m : 0 < m -> Z.log2 m <= 52 -> 2 ^ 52 <= m * 2 ^ (52 - Z.log2 m) < 2 ^ 53.
Proof.
  intros H L. pose proof (Z.log2_spec m H) as [A B]. pose proof (Z.log2_nonneg m).
  assert (P : 2 ^ 52 = 2 ^ Z.log2 m * 2 ^ (52 - Z.log2 m)) by (rewrite <- Z.pow_add_r by lia; f_equal; lia).
  assert (Q : 2 ^ 53 = 2 ^ Z.succ (Z.log2 m) * 2 ^ (52 - Z.log2 m)) by (rewrite <- Z.pow_add_r by lia; f_equal; lia).
  pose proof (pow2_pos (52 - Z.log2 m) ltac:(lia)).
  rewrite P, Q. split; [apply Z.mul_le_mono_nonneg_r|apply Z.mul_lt_mono_pos_r]; lia.
Qed.

(** A finite non-zero single, by its significand [m] and power [p] *)
Lemma single_to_double s e f : 0 <= e <= 254 -> 0 <= f < 2 ^ 23 -> (e = 0 -> 0 < f) ->
  let m := if e =? 0 then f else 2 ^ 23 + f in
  let p := Z.max e 1 - 150 in
  let y := s * 2 ^ 31 + e * 2 ^ 23 + f in
  0 < m < 2 ^ 24 /\
  f32_to_f64 y = s * 2 ^ 63 + (Z.log2 m + p + 1023) * 2 ^ 52 + (m * 2 ^ (52 - Z.log2 m) - 2 ^ 52) /\
  f64_to_f32 (f32_to_f64 y) = Ok y.
Proof.
  intros He Hf H0 m p y.
  assert (Hm : 0 < m < 2 ^ 24) by (unfold m; destruct (Z.eqb_spec e 0); lia).
  assert (L : 0 <= Z.log2 m <= 23).
  { split; [apply Z.log2_nonneg|]. assert (Z.log2 m < 24) by (apply Z.log2_lt_pow2; lia). lia. }
  pose proof (log2_scale m ltac:(lia) ltac:(lia)) as Sc.
  destruct (f32_fields s e f ltac:(lia) Hf) as (F1 & F2 & F3). fold y in F1, F2, F3.
  split; [exact Hm|].
  assert (E1 : f32_to_f64 y = s * 2 ^ 63 + (Z.log2 m + p + 1023) * 2 ^ 52 + (m * 2 ^ (52 - Z.log2 m) - 2 ^ 52)).
  { unfold f32_to_f64, f32_is_nan, f32_is_inf, f32_mant, f32_pow. rewrite F1, F2, F3.
    destruct (Z.eqb_spec e 255); [lia|]. cbn [andb]. fold m. destruct (Z.eqb_spec m 0); [lia|].
    fold p. cbv zeta. lia. }
  split; [exact E1|]. rewrite E1.
  set (E := Z.log2 m + p + 1023). set (F := m * 2 ^ (52 - Z.log2 m) - 2 ^ 52).
  assert (HE : 1 <= E <= 2046) by (unfold E, p; lia).
  destruct (f64_fields s E F ltac:(lia) ltac:(unfold F; lia)) as (G1 & G2 & G3).
  set (x := s * 2 ^ 63 + E * 2 ^ 52 + F) in *.
  unfold f64_to_f32, f64_is_nan, f64_is_inf, f64_mant, f64_pow. rewrite G1, G2, G3.
  destruct (Z.eqb_spec E 2047); [lia|]. destruct (Z.eqb_spec E 0); [lia|]. cbn [andb].
  replace (2 ^ 52 + F) with (m * 2 ^ (52 - Z.log2 m)) by (unfold F; lia).
  set (M := m * 2 ^ (52 - Z.log2 m)) in *.
  destruct (Z.eqb_spec M 0); [lia|]. rewrite (Z.max_l E 1) by lia.
  assert (LM : Z.log2 M = 52) by (apply Z.log2_unique; lia). rewrite LM.
  assert (P : Z.max (52 + (E - 1075) - 23) (-149) = p).
  { unfold E, p, m in *. destruct (Z.eqb_spec e 0) as [->|Ne].
    - assert (Z.log2 f < 23) by (apply Z.log2_lt_pow2; lia). lia.
    - assert (LG : Z.log2 (2 ^ 23 + f) = 23) by (apply Z.log2_unique; lia). rewrite LG. lia. }
  cbv zeta. rewrite P. replace (E - 1075 - p) with (- (52 - Z.log2 m)) by (unfold E; lia).
  assert (R : scale_round M (- (52 - Z.log2 m)) = m).
  { unfold scale_round. destruct (Z.leb_spec 0 (- (52 - Z.log2 m))); [lia|].
    rewrite Z.opp_involutive. unfold M. apply rhe_exact, pow2_pos. lia. }
  rewrite R.
  assert (B : (p + 149) * 2 ^ 23 + m = e * 2 ^ 23 + f) by (unfold p, m; destruct (Z.eqb_spec e 0); lia).
  rewrite B. destruct (Z.leb_spec (255 * 2 ^ 23) (e * 2 ^ 23 + f)); [lia|]. f_equal. unfold y. lia.
Qed.

(** ** numbers *)
Lemma zero_trip s : 0 <= s -> f32_to_f64 (s * 2 ^ 31) = s * 2 ^ 63 /\ f64_to_f32 (s * 2 ^ 63) = Ok (s * 2 ^ 31).
Proof.
  intros Hs. split.
  - destruct (f32_fields s 0 0 ltac:(lia) ltac:(lia)) as (F1 & F2 & F3).
    replace (s * 2 ^ 31 + 0 * 2 ^ 23 + 0) with (s * 2 ^ 31) in * by lia.
    unfold f32_to_f64, f32_is_nan, f32_is_inf, f32_mant. rewrite F1, F2, F3. reflexivity.
  - destruct (f64_fields s 0 0 ltac:(lia) ltac:(lia)) as (F1 & F2 & F3).
    replace (s * 2 ^ 63 + 0 * 2 ^ 52 + 0) with (s * 2 ^ 63) in * by lia.
    unfold f64_to_f32, f64_is_nan, f64_is_inf, f64_mant. rewrite F1, F2, F3. reflexivity.
Qed.
Lemma inf_trip s : 0 <= s -> f32_to_f64 (s * 2 ^ 31 + 255 * 2 ^ 23) = s * 2 ^ 63 + 2047 * 2 ^ 52 /\
  f64_to_f32 (s * 2 ^ 63 + 2047 * 2 ^ 52) = Ok (s * 2 ^ 31 + 255 * 2 ^ 23).
Proof.
  intros Hs. split.
  - destruct (f32_fields s 255 0 ltac:(lia) ltac:(lia)) as (F1 & F2 & F3). rewrite Z.add_0_r in *.
    unfold f32_to_f64, f32_is_nan, f32_is_inf, f32_mant. rewrite F1, F2, F3. reflexivity.
  - destruct (f64_fields s 2047 0 ltac:(lia) ltac:(lia)) as (F1 & F2 & F3). rewrite Z.add_0_r in *.
    unfold f64_to_f32, f64_is_nan, f64_is_inf, f64_mant. rewrite F1, F2, F3. reflexivity.
Qed.

(** a finite double is determined by its sign and magnitude *)
Lemma normal_log2 f e : 1 <= e -> 0 <= f < 2 ^ 52 -> Z.log2 ((2 ^ 52 + f) * 2 ^ (e - 1)) = 51 + e.
Proof.
  intros He Hf. rewrite Z.log2_mul_pow2 by lia.
  assert (LG : Z.log2 (2 ^ 52 + f) = 52) by (apply Z.log2_unique; lia). lia.
Qed.
Lemma small_log2 f : 0 <= f < 2 ^ 52 -> Z.log2 f < 52.
Proof. intros H. destruct (Z.eq_dec f 0) as [->|]; [reflexivity|]. apply Z.log2_lt_pow2; lia. Qed.
Definition enc_double (v : num) : Z :=
  match v with
  | Finite s n => if Z.log2 n <? 52 then sign_bit s * 2 ^ 63 + n
                  else sign_bit s * 2 ^ 63 + (Z.log2 n - 51) * 2 ^ 52 + (n / 2 ^ (Z.log2 n - 52) - 2 ^ 52)
  | Infinite s => sign_bit s * 2 ^ 63 + 2047 * 2 ^ 52
  end.
Lemma double_enc x v : double_is x v -> x = enc_double v.
Proof.
  intros [s f Hf|s e f He Hf|s]; unfold enc_double.
  - pose proof (small_log2 f Hf). destruct (Z.ltb_spec (Z.log2 f) 52); [reflexivity|lia].
  - rewrite normal_log2 by lia. destruct (Z.ltb_spec (51 + e) 52); [lia|].
    replace (51 + e - 52) with (e - 1) by lia. rewrite Z.div_mul by (pose proof (pow2_pos (e - 1) ltac:(lia)); lia). lia.
  - reflexivity.
Qed.
Lemma double_unique x x' v : double_is x v -> double_is x' v -> x = x'.
Proof. intros H H'. apply double_enc in H, H'. congruence. Qed.

Lemma single_double y v : single_is y v -> double_is (f32_to_f64 y) v /\ f64_to_f32 (f32_to_f64 y) = Ok y /\ 0 <= y < 2 ^ 32.
Proof.
  assert (N : forall s e f, 0 <= e <= 254 -> 0 <= f < 2 ^ 23 -> (e = 0 -> 0 < f) ->
    let y := sign_bit s * 2 ^ 31 + e * 2 ^ 23 + f in
    let m := if e =? 0 then f else 2 ^ 23 + f in
    double_is (f32_to_f64 y) (Finite s (m * 2 ^ (Z.max e 1 + 924))) /\ f64_to_f32 (f32_to_f64 y) = Ok y).
  { clear y. intros s e f He Hf H0 y m. destruct (single_to_double (sign_bit s) e f He Hf H0) as (Hm & E1 & E2).
    fold y m in Hm, E1, E2. split; [|exact E2]. rewrite E1.
    assert (L : 0 <= Z.log2 m <= 23).
    { split; [apply Z.log2_nonneg|]. assert (Z.log2 m < 24) by (apply Z.log2_lt_pow2; lia). lia. }
    pose proof (log2_scale m ltac:(lia) ltac:(lia)) as Sc.
    replace (m * 2 ^ (Z.max e 1 + 924)) with
      ((2 ^ 52 + (m * 2 ^ (52 - Z.log2 m) - 2 ^ 52)) * 2 ^ (Z.log2 m + (Z.max e 1 - 150) + 1023 - 1)).
    - apply double_normal; lia.
    - replace (2 ^ 52 + (m * 2 ^ (52 - Z.log2 m) - 2 ^ 52)) with (m * 2 ^ (52 - Z.log2 m)) by lia.
      rewrite <- Z.mul_assoc, <- Z.pow_add_r by lia. f_equal. f_equal. lia. }
  intros [s f Hf|s e f He Hf|s]; pose proof (sign_bit_range s) as Hs.
  - destruct (Z.eq_dec f 0) as [->|Hf0].
    + rewrite Z.add_0_r, Z.mul_0_l. destruct (zero_trip (sign_bit s) ltac:(lia)) as [Z1 Z2]. rewrite Z1, Z2.
      split; [|split; [reflexivity|lia]]. rewrite <- (Z.add_0_r (sign_bit s * 2 ^ 63)). constructor. lia.
    + destruct (N s 0 f ltac:(lia) ltac:(lia) ltac:(lia)) as [N1 N2]. 
      replace (sign_bit s * 2 ^ 31 + 0 * 2 ^ 23 + f) with (sign_bit s * 2 ^ 31 + f) in * by lia.
      split; [exact N1|]. split; [exact N2|lia].
  - destruct (N s e f ltac:(lia) ltac:(lia) ltac:(lia)) as [N1 N2].
    destruct (Z.eqb_spec e 0); [lia|]. rewrite Z.max_l in N1 by lia.
    rewrite <- Z.mul_assoc, <- Z.pow_add_r by lia. replace (e - 1 + 925) with (e + 924) by lia.
    split; [exact N1|]. split; [exact N2|lia].
  - destruct (inf_trip (sign_bit s) ltac:(lia)) as [Z1 Z2]. rewrite Z1, Z2. split; [constructor|]. split; [reflexivity|lia].
Qed.

(** ** NaNs *)
Lemma lor_disjoint_range a b n : 0 <= n -> 0 <= a < 2 ^ n -> 0 <= b < 2 ^ n -> 0 <= Z.lor a b < 2 ^ n.
Proof.
  intros Hn Ha Hb. split; [apply Z.lor_nonneg; lia|].
  destruct (Z.eq_dec (Z.lor a b) 0) as [->|Hz]; [apply pow2_pos, Hn|].
  assert (0 <= Z.lor a b) by (apply Z.lor_nonneg; lia).
  destruct (Z.eq_dec n 0) as [->|Hn0]; [assert (a = 0) by lia; assert (b = 0) by lia; subst; cbn in Hz; lia|].
  apply Z.log2_lt_pow2; [lia|]. rewrite Z.log2_lor by lia.
  apply Z.max_lub_lt.
  - destruct (Z.eq_dec a 0) as [->|]; [cbn; lia|]. apply Z.log2_lt_pow2; lia.
  - destruct (Z.eq_dec b 0) as [->|]; [cbn; lia|]. apply Z.log2_lt_pow2; lia.
Qed.
Lemma lor_bit_pos a k : 0 <= k -> 0 <= a -> 0 < Z.lor (2 ^ k) a.
Proof.
  intros Hk Ha. assert (0 <= Z.lor (2 ^ k) a) by (apply Z.lor_nonneg; pose proof (pow2_pos k Hk); lia).
  destruct (Z.eq_dec (Z.lor (2 ^ k) a) 0) as [E|]; [|lia].
  apply Z.lor_eq_0_iff in E as [E _]. pose proof (pow2_pos k Hk). lia.
Qed.
Lemma f32_nan_double s f : 0 < f < 2 ^ 23 ->
  f32_to_f64 (sign_bit s * 2 ^ 31 + 255 * 2 ^ 23 + f) = sign_bit s * 2 ^ 63 + 2047 * 2 ^ 52 + Z.lor (2 ^ 51) (f * 2 ^ 29).
Proof.
  intros Hf. destruct (f32_fields (sign_bit s) 255 f ltac:(lia) ltac:(lia)) as (F1 & F2 & F3).
  unfold f32_to_f64, f32_is_nan. rewrite F1, F2, F3. destruct (Z.eqb_spec f 0); [lia|]. reflexivity.
Qed.
Lemma f64_nan_single s f : 0 < f < 2 ^ 52 ->
  f64_to_f32 (sign_bit s * 2 ^ 63 + 2047 * 2 ^ 52 + f) = Ok (sign_bit s * 2 ^ 31 + 255 * 2 ^ 23 + Z.lor (2 ^ 22) (f / 2 ^ 29)).
Proof.
  intros Hf. destruct (f64_fields (sign_bit s) 2047 f ltac:(lia) ltac:(lia)) as (F1 & F2 & F3).
  unfold f64_to_f32, f64_is_nan. rewrite F1, F2, F3. destruct (Z.eqb_spec f 0); [lia|]. reflexivity.
Qed.
Lemma nan_to_double y : single_nan y -> double_nan (f32_to_f64 y).
Proof.
  intros (s & f & Hf & ->). rewrite f32_nan_double by exact Hf. exists s, (Z.lor (2 ^ 51) (f * 2 ^ 29)).
  split; [|reflexivity]. split; [apply lor_bit_pos; lia|]. apply (lor_disjoint_range _ _ 52); lia.
Qed.
Lemma nan_to_single x : double_nan x -> exists y, f64_to_f32 x = Ok y /\ single_nan y.
Proof.
  intros (s & f & Hf & ->). rewrite f64_nan_single by exact Hf. eexists. split; [reflexivity|].
  exists s, (Z.lor (2 ^ 22) (f / 2 ^ 29)). split; [|reflexivity].
  assert (0 <= f / 2 ^ 29) by (apply Z.div_pos; lia).
  assert (f / 2 ^ 29 < 2 ^ 23) by (apply Z.div_lt_upper_bound; lia).
  split; [apply lor_bit_pos; lia|]. apply (lor_disjoint_range _ _ 23); lia.
Qed.
(** a NaN that came from the wire goes back unchanged but for the quiet bit, which is stable *)
Lemma nan_stable y : single_nan y -> exists y', f64_to_f32 (f32_to_f64 y) = Ok y' /\ single_nan y' /\ f32_to_f64 y' = f32_to_f64 y.
Proof.
  intros (s & f & Hf & ->). rewrite f32_nan_double by exact Hf.
  set (F := Z.lor (2 ^ 51) (f * 2 ^ 29)).
  assert (HF : 0 < F < 2 ^ 52).
  { unfold F. split; [apply lor_bit_pos; lia|]. apply (lor_disjoint_range _ _ 52); lia. }
  rewrite f64_nan_single by exact HF.
  assert (D : F / 2 ^ 29 = Z.lor (2 ^ 22) f).
  { unfold F. rewrite <- Z.shiftr_div_pow2, Z.shiftr_lor by lia. rewrite !Z.shiftr_div_pow2 by lia.
    rewrite Z.div_mul by lia. reflexivity. }
  rewrite D, Z.lor_assoc, Z.lor_diag.
  assert (Hq : 0 < Z.lor (2 ^ 22) f < 2 ^ 23).
  { split; [apply lor_bit_pos; lia|]. apply (lor_disjoint_range _ _ 23); lia. }
  eexists. split; [reflexivity|]. split; [exists s, (Z.lor (2 ^ 22) f); split; [exact Hq|reflexivity]|].
  rewrite f32_nan_double by exact Hq. f_equal. unfold F.
  rewrite <- !Z.shiftl_mul_pow2, Z.shiftl_lor by lia. rewrite Z.lor_assoc.
  change (Z.shiftl (2 ^ 22) 29) with (2 ^ 51). rewrite Z.lor_diag. reflexivity.
Qed.

(** ** on the wire *)
Lemma read_bytes_be n x s : read_bytes (Z.of_nat n) (be_bytes n x ++ s) = Ok (be_bytes n x, s).
Proof.
  unfold read_bytes. rewrite <- (be_bytes_zlen n x) at 1. rewrite bio_read_app. reflexivity.
Qed.
Lemma double_survives : survives write_double read_double (fun x => 0 <= x < 2 ^ 64).
Proof.
  intros x Hx. exists (be_bytes 8 x). split; [reflexivity|]. intros s. unfold read_double.
  rewrite (rbind_step _ _ _ _ _ _ _ (read_bytes_be 8 x s)). rewrite be_bytes_zlen. cbn [Z.eqb Pos.eqb Z.of_nat Pos.of_succ_nat Pos.succ].
  rewrite from_be_bytes by exact Hx. reflexivity.
Qed.
Lemma read_float_be y s : 0 <= y < 2 ^ 32 -> read_float (be_bytes 4 y ++ s) = Ok (f32_to_f64 y, s).
Proof.
  intros Hy. unfold read_float. rewrite (rbind_step _ _ _ _ _ _ _ (read_bytes_be 4 y s)). rewrite be_bytes_zlen.
  cbn [Z.eqb Pos.eqb Z.of_nat Pos.of_succ_nat Pos.succ]. rewrite from_be_bytes by exact Hy. reflexivity.
Qed.

(** ** comparison *)
Lemma double_cases x : 0 <= x < 2 ^ 64 -> double_nan x \/ exists v, double_is x v.
Proof.
  intros Hx.
  assert (P : forall k, 0 < 2 ^ k \/ 2 ^ k = 0) by (intros k; pose proof (Z.pow_nonneg 2 k); lia).
  set (s := x / 2 ^ 63). set (e := (x / 2 ^ 52) mod 2 ^ 11). set (f := x mod 2 ^ 52).
  assert (E : x = s * 2 ^ 63 + e * 2 ^ 52 + f).
  { unfold s, e, f. change (2 ^ 63) with (2 ^ 52 * 2 ^ 11). rewrite <- Z.div_div by lia.
    pose proof (Z.div_mod x (2 ^ 52) ltac:(lia)). pose proof (Z.div_mod (x / 2 ^ 52) (2 ^ 11) ltac:(lia)). lia. }
  assert (Hf : 0 <= f < 2 ^ 52) by (apply Z.mod_pos_bound; lia).
  assert (He : 0 <= e < 2048) by (apply (Z.mod_pos_bound _ (2 ^ 11)); lia).
  assert (Hs : s = 0 \/ s = 1).
  { assert (0 <= s) by (apply Z.div_pos; lia). assert (s < 2) by (apply Z.div_lt_upper_bound; lia). lia. }
  assert (Sb : exists t, s = sign_bit t) by (destruct Hs as [->| ->]; [exists false|exists true]; reflexivity).
  clearbody s e f. destruct Sb as (t & ->). subst x.
  destruct (Z.eq_dec e 0) as [->|]; [right; eexists; rewrite Z.mul_0_l, Z.add_0_r; apply double_small; exact Hf|].
  destruct (Z.eq_dec e 2047) as [->|]; [|right; eexists; apply double_normal; lia].
  destruct (Z.eq_dec f 0) as [->|]; [right; eexists; rewrite Z.add_0_r; apply double_infinite|].
  left. exists t, f. split; [lia|reflexivity].
Qed.
Definition magnitude (v : num) : option Z := match v with Finite _ n => Some n | Infinite _ => None end.
Definition negative (v : num) : bool := match v with Finite s _ => s | Infinite s => s end.
(** the bits without the sign, ordered like the magnitudes *)
Definition mbits (v : num) : Z := enc_double v - sign_bit (negative v) * 2 ^ 63.
Lemma double_mbits x v : double_is x v -> x = sign_bit (negative v) * 2 ^ 63 + mbits v /\ 0 <= mbits v <= 2047 * 2 ^ 52.
Proof.
  intros H. pose proof (double_enc _ _ H) as E. unfold mbits. split; [lia|]. rewrite <- E. clear E.
  destruct H as [s f Hf|s e f He Hf|s]; cbn [negative]; lia.
Qed.
Lemma double_not_nan x v : double_is x v -> f64_is_nan x = false.
Proof.
  intros [s f Hf|s e f He Hf|s].
  - destruct (f64_fields (sign_bit s) 0 f ltac:(lia) Hf) as (_ & F2 & _).
    replace (sign_bit s * 2 ^ 63 + 0 * 2 ^ 52 + f) with (sign_bit s * 2 ^ 63 + f) in F2 by lia.
    unfold f64_is_nan. rewrite F2. reflexivity.
  - destruct (f64_fields (sign_bit s) e f ltac:(lia) Hf) as (_ & F2 & _).
    unfold f64_is_nan. rewrite F2. destruct (Z.eqb_spec e 2047); [lia|reflexivity].
  - destruct (f64_fields (sign_bit s) 2047 0 ltac:(lia) ltac:(lia)) as (_ & F2 & F3). rewrite Z.add_0_r in *.
    unfold f64_is_nan. rewrite F2, F3. reflexivity.
Qed.
Lemma nan_is_nan x : double_nan x -> f64_is_nan x = true.
Proof.
  intros (s & f & Hf & ->). destruct (f64_fields (sign_bit s) 2047 f ltac:(lia) ltac:(lia)) as (_ & F2 & F3).
  unfold f64_is_nan. rewrite F2, F3. destruct (Z.eqb_spec f 0); [lia|reflexivity].
Qed.
Lemma double_sign x v : double_is x v -> f64_sign x = sign_bit (negative v).
Proof.
  intros H. destruct (double_mbits x v H) as [E R]. unfold f64_sign. rewrite E.
  rewrite Z.div_add_l, Z.div_small by lia. lia.
Qed.
Lemma double_key x v : double_is x v -> f64_key x = if negative v then - mbits v else mbits v.
Proof.
  intros H. unfold f64_key. rewrite (double_sign x v H). destruct (double_mbits x v H) as [E R].
  destruct (negative v); cbn [sign_bit Z.eqb] in *; lia.
Qed.
Lemma mbits_mono x v y w : double_is x v -> double_is y w ->
  (mbits v <= mbits w <-> match magnitude v, magnitude w with
                          | Some a, Some b => a <= b | None, Some _ => False | _, None => True end).
Proof.
  assert (B : forall e f, 1 <= e -> 0 <= f < 2 ^ 52 -> 2 ^ 52 * 2 ^ (e - 1) <= (2 ^ 52 + f) * 2 ^ (e - 1) < 2 ^ 52 * 2 ^ e).
  { intros e f He Hf. replace (2 ^ e) with (2 * 2 ^ (e - 1)) by (rewrite <- Z.pow_succ_r by lia; f_equal; lia).
    pose proof (pow2_pos (e - 1) ltac:(lia)). split; [apply Z.mul_le_mono_nonneg_r; lia|].
    rewrite Z.mul_assoc. apply Z.mul_lt_mono_pos_r; lia. }
  assert (M : forall x v, double_is x v -> exists e f, 0 <= e <= 2047 /\ 0 <= f < 2 ^ 52 /\ mbits v = e * 2 ^ 52 + f /\
    match magnitude v with
    | Some n => e <= 2046 /\ n = if e =? 0 then f else (2 ^ 52 + f) * 2 ^ (e - 1)
    | None => e = 2047 /\ f = 0
    end).
  { clear x v y w. intros x v H. pose proof (double_enc x v H) as E. unfold mbits. rewrite <- E. clear E.
    destruct H as [s f Hf|s e f He Hf|s]; cbn [negative magnitude].
    - exists 0, f. split; [lia|]. split; [exact Hf|]. split; [lia|]. split; [lia|reflexivity].
    - exists e, f. split; [lia|]. split; [exact Hf|]. split; [lia|]. split; [lia|]. destruct (Z.eqb_spec e 0); [lia|reflexivity].
    - exists 2047, 0. split; [lia|]. split; [lia|]. split; [lia|auto]. }
  intros H1 H2. destruct (M x v H1) as (e & f & He & Hf & Ev & Mv). destruct (M y w H2) as (e' & f' & He' & Hf' & Ew & Mw).
  rewrite Ev, Ew. clear Ev Ew H1 H2 M.
  assert (St : forall a b, 0 <= a <= 2047 -> forall g h, 0 <= g < 2 ^ 52 -> 0 <= h < 2 ^ 52 -> a < b ->
     (if a =? 0 then g else (2 ^ 52 + g) * 2 ^ (a - 1)) < (if b =? 0 then h else (2 ^ 52 + h) * 2 ^ (b - 1))).
  { intros a b Ha g h Hg Hh Hab. destruct (Z.eqb_spec b 0); [lia|]. pose proof (B b h ltac:(lia) Hh) as [B1 _].
    destruct (Z.eqb_spec a 0) as [->|].
    - pose proof (Z.pow_le_mono_r 2 0 (b - 1) ltac:(lia) ltac:(lia)). change (2 ^ 0) with 1 in *. lia.
    - pose proof (B a g ltac:(lia) Hg) as [_ B2]. pose proof (Z.pow_le_mono_r 2 a (b - 1) ltac:(lia) ltac:(lia)). lia. }
  destruct (magnitude v) as [n|], (magnitude w) as [n'|].
  - destruct Mv as [Le ->], Mw as [Le' ->].
    destruct (Z.lt_trichotomy e e') as [L|[->|L]].
    + specialize (St e e' ltac:(lia) f f' Hf Hf' L). lia.
    + destruct (Z.eqb_spec e' 0); [lia|]. pose proof (pow2_pos (e' - 1) ltac:(lia)).
      rewrite <- Z.mul_le_mono_pos_r by lia. lia.
    + specialize (St e' e ltac:(lia) f' f Hf' Hf L). lia.
  - lia.
  - lia.
  - lia.
Qed.
Lemma magnitude_nonneg x v n : double_is x v -> magnitude v = Some n -> 0 <= n.
Proof.
  intros [s f Hf|s e f He Hf|s]; cbn [magnitude]; intros E; [| |discriminate];
    apply (f_equal (fun o => match o with Some q => q | None => 0 end)) in E; rewrite <- E; [lia|].
  apply Z.mul_nonneg_nonneg; [lia|apply Z.pow_nonneg; lia].
Qed.
Lemma mbits_zero x v : double_is x v -> mbits v = 0 -> magnitude v = Some 0.
Proof.
  intros H Z0. assert (D0 : double_is (sign_bit false * 2 ^ 63 + 0) (Finite false 0)) by (constructor; lia).
  assert (E0 : mbits (Finite false 0) = 0) by reflexivity.
  pose proof (mbits_mono _ _ _ _ H D0) as M. rewrite Z0, E0 in M. cbn [magnitude] in M.
  destruct (magnitude v) as [n|] eqn:E; [|exfalso; apply M; lia]. f_equal.
  pose proof (magnitude_nonneg _ _ _ H E). destruct M as [M _]. specialize (M ltac:(lia)). lia.
Qed.
Lemma f64_le_spec x v y w : double_is x v -> double_is y w -> (f64_le x y = true <-> num_le v w).
Proof.
  intros H1 H2. unfold f64_le. rewrite (double_not_nan _ _ H1), (double_not_nan _ _ H2). cbn [negb andb].
  rewrite (double_key _ _ H1), (double_key _ _ H2), Z.leb_le.
  pose proof (proj2 (double_mbits _ _ H1)) as R1. pose proof (proj2 (double_mbits _ _ H2)) as R2.
  pose proof (mbits_mono _ _ _ _ H1 H2) as M12. pose proof (mbits_mono _ _ _ _ H2 H1) as M21.
  pose proof (mbits_zero _ _ H1) as Z1. pose proof (mbits_zero _ _ H2) as Z2.
  pose proof (magnitude_nonneg x v) as G1. pose proof (magnitude_nonneg y w) as G2.
  assert (I : forall s, 0 < mbits (Infinite s)) by (intros []; reflexivity).
  assert (Zf : forall s, mbits (Finite s 0) = 0) by (intros []; reflexivity).
  destruct v as [s a|s], w as [t b|t]; cbn [negative magnitude num_le] in *.
  - specialize (G1 a H1 eq_refl). specialize (G2 b H2 eq_refl).
    assert (A0 : a = 0 -> mbits (Finite s a) = 0) by (intros ->; apply Zf).
    assert (B0 : b = 0 -> mbits (Finite t b) = 0) by (intros ->; apply Zf).
    assert (A1 : mbits (Finite s a) = 0 -> a = 0) by (intros Q; specialize (Z1 Q); congruence).
    assert (B1 : mbits (Finite t b) = 0 -> b = 0) by (intros Q; specialize (Z2 Q); congruence).
    destruct s, t; lia.
  - pose proof (I t). assert (mbits (Finite s a) <= mbits (Infinite t)) by tauto.
    assert (~ mbits (Infinite t) <= mbits (Finite s a)) by tauto. destruct s, t; split; intros; try exact Logic.I; lia.
  - pose proof (I s). assert (mbits (Finite t b) <= mbits (Infinite s)) by tauto.
    assert (~ mbits (Infinite s) <= mbits (Finite t b)) by tauto. destruct s, t; split; intros; try exact Logic.I; lia.
  - assert (I1 : forall q, mbits (Infinite q) = 2047 * 2 ^ 52) by (intros []; reflexivity). rewrite !I1.
    destruct s, t; split; intros; try exact Logic.I; lia.
Qed.

(** ** settings *)
Lemma float_bounds_ok p v w : float_bounds_check p v = Ok w -> w = v /\ f64_le (fp_min p) v = true /\ f64_le v (fp_max p) = true.
Proof.
  unfold float_bounds_check. destruct (f64_le (fp_min p) v) eqn:E1, (f64_le v (fp_max p)) eqn:E2; cbn; try discriminate.
  intros H. apply Ok_inj in H. auto.
Qed.
Lemma float_le_nan x y : f64_le x y = true -> f64_is_nan x = false /\ f64_is_nan y = false.
Proof. unfold f64_le. destruct (f64_is_nan x), (f64_is_nan y); cbn; auto; discriminate. Qed.
Lemma new_float_ok ty fo key default lo hi props st p : new_float_setting ty fo key default lo hi props = Ok (st, p) ->
  float_bounds_check (mkFP lo hi key false) default = Ok default /\ p = mkFP lo hi key false /\
  st = mkSetting ty key (fo_str fo default) (float_parse fo (mkFP lo hi key false)) None [PTuple props].
Proof.
  unfold new_float_setting, new_float_parser. change (has_filtered [PTuple props]) with false. cbv zeta.
  intros H. apply bind_ok in H as (w & B & H). pose proof (float_bounds_ok _ _ _ B) as [-> _].
  apply Ok_inj in H. apply pair_equal_spec in H as [<- <-]. auto.
Qed.
Lemma double_parser_survives : survives write_double_parser read_double_parser (fun p =>
  0 <= fp_min p < 2 ^ 64 /\ 0 <= fp_max p < 2 ^ 64 /\ text_ok (fp_key p)).
Proof.
  intros [a b k f] (Ha & Hb & Hk). cbn [fp_min fp_max fp_key] in *.
  field (double_survives a Ha). field (double_survives b Hb). field (string_survives k Hk). field (bool_survives f I).
  eexists. split; [unfold write_double_parser; cbn [fp_min fp_max fp_key fp_filtered]; write_out|].
  intros s. assoc. unfold read_double_parser. rstep R. rstep R0. rstep R1. rstep R2. reflexivity.
Qed.
Definition single_exact (x : f64) : Prop := exists y v, single_is y v /\ double_is x v.
Lemma float_exact x y v : double_is x v -> single_is y v ->
  write_float x = Ok (be_bytes 4 y) /\ forall s, read_float (be_bytes 4 y ++ s) = Ok (x, s).
Proof.
  intros D S. destruct (single_double y v S) as (D' & T & R). rewrite (double_unique _ _ _ D D').
  split; [unfold write_float; rewrite T; reflexivity|]. intros s. apply read_float_be, R.
Qed.
Lemma float_survives : survives write_float read_float single_exact.
Proof. intros x (y & v & S & D). destruct (float_exact x y v D S) as [W R]. eauto. Qed.
Lemma single_parser_survives : survives write_single_parser read_single_parser (fun p =>
  single_exact (fp_min p) /\ single_exact (fp_max p) /\ text_ok (fp_key p)).
Proof.
  intros [a b k f] (Ha & Hb & Hk). cbn [fp_min fp_max fp_key] in *.
  field (float_survives a Ha). field (float_survives b Hb). field (string_survives k Hk). field (bool_survives f I).
  eexists. split; [unfold write_single_parser; cbn [fp_min fp_max fp_key fp_filtered]; write_out|].
  intros s. assoc. unfold read_single_parser. rstep R. rstep R0. rstep R1. rstep R2. reflexivity.
Qed.
