(** * write_float rounds to the nearest single (C60) *)
From Coq Require Import ZArith List Bool Lia.
From Verif Require Import Py Stream Version Settings Floats PyFacts Spec SpecFacts VersionFacts FloatFacts.
Import ListNotations.
Open Scope Z_scope.

Lemma pow_split a b : 0 <= a -> 0 <= b -> 2 ^ (a + b) = 2 ^ a * 2 ^ b.
Proof. intros. apply Z.pow_add_r; assumption. Qed.

(** the rounded significand is the nearest multiple *)
Lemma scale_round_nearest m k q : 0 <= q -> 0 <= q + k ->
  let u := 2 ^ q in let v := m * 2 ^ (q + k) in let r := scale_round m k in
  2 * Z.abs (r * u - v) <= u /\ (2 * Z.abs (r * u - v) = u -> Z.even r = true).
Proof.
  intros Hq Hk u v r. unfold r, scale_round. pose proof (pow2_pos q Hq) as Pu. fold u in Pu.
  destruct (Z.leb_spec 0 k).
  - replace (m * 2 ^ k * u - v) with 0 by (unfold u, v; rewrite (pow_split q k) by lia; ring).
    cbn [Z.abs]. split; lia.
  - set (d := 2 ^ (- k)). pose proof (pow2_pos (- k) ltac:(lia)) as Pd. fold d in Pd.
    set (g := 2 ^ (q + k)). pose proof (pow2_pos (q + k) Hk) as Pg. fold g in Pg.
    assert (Eu : u = d * g) by (unfold u, d, g; rewrite <- pow_split by lia; f_equal; lia).
    pose proof (round_half_even_nearest m d Pd) as N. pose proof (round_half_even_even m d Pd) as E.
    set (a := round_half_even m d) in *.
    replace (a * u - v) with ((a * d - m) * g) by (rewrite Eu; unfold v; fold g; ring).
    rewrite Z.abs_mul, (Z.abs_eq g) by lia. rewrite Eu. split.
    + rewrite Z.mul_assoc. apply Z.mul_le_mono_nonneg_r; lia.
    + intros H1. apply E. rewrite Z.mul_assoc in H1. apply Z.mul_cancel_r in H1; lia.
Qed.

(** facts about one multiple being the nearest *)
Lemma nearest_multiple u v r j : 0 < u -> 2 * Z.abs (r * u - v) <= u ->
  Z.abs (r * u - v) <= Z.abs (j * u - v) /\ (Z.abs (r * u - v) = Z.abs (j * u - v) -> j <> r -> 2 * Z.abs (r * u - v) = u).
Proof.
  intros Hu N. destruct (Z.eq_dec j r) as [->|Ne]; [split; [lia|congruence]|].
  assert (D : u <= Z.abs (j * u - r * u)).
  { replace (j * u - r * u) with ((j - r) * u) by ring. rewrite Z.abs_mul, (Z.abs_eq u) by lia.
    assert (1 <= Z.abs (j - r)) by lia. rewrite <- (Z.mul_1_l u) at 1. apply Z.mul_le_mono_nonneg_r; lia. }
  set (A := r * u) in *. set (B := j * u) in *. split; [lia|]. intros E _. lia.
Qed.
Definition rp (m e : Z) : Z := Z.max (Z.log2 m + e - 23) (-149).
Definition rr (m e : Z) : Z := scale_round m (e - rp m e).
Definition ru (m e : Z) : Z := 2 ^ (rp m e + 1074).
Lemma round_core m e : 0 < m -> -1074 <= e ->
  let v := m * 2 ^ (e + 1074) in let u := ru m e in let r := rr m e in let p := rp m e in
  -149 <= p /\ 2 ^ 925 <= u /\ 2 * Z.abs (r * u - v) <= u /\ (2 * Z.abs (r * u - v) = u -> Z.even r = true) /\
  0 <= r <= 2 ^ 24 /\ 0 <= v < 2 ^ 24 * u /\ (-149 < p -> 2 ^ 23 * u <= v /\ 2 ^ 23 <= r).
Proof.
  intros Hm He v u r p.
  assert (Hp : -149 <= p) by (unfold p, rp; lia).
  assert (Hu : 2 ^ 925 <= u) by (unfold u, ru; fold p; apply Z.pow_le_mono_r; lia).
  assert (Pu : 0 < u) by (pose proof (pow2_pos 925 ltac:(lia)); lia).
  pose proof (scale_round_nearest m (e - p) (p + 1074) ltac:(lia) ltac:(lia)) as N. cbv zeta in N.
  replace (p + 1074 + (e - p)) with (e + 1074) in N by lia.
  fold v in N. change (2 ^ (p + 1074)) with u in N. change (scale_round m (e - p)) with r in N. destruct N as [N1 N2].
  pose proof (Z.log2_spec m Hm) as [L1 L2]. pose proof (Z.log2_nonneg m) as L0.
  set (g := 2 ^ (e + 1074)) in *. pose proof (pow2_pos (e + 1074) ltac:(lia)) as Pg. fold g in Pg.
  assert (V0 : 0 <= v) by (unfold v; apply Z.mul_nonneg_nonneg; lia).
  assert (V1 : v < 2 ^ 24 * u).
  { apply Z.lt_le_trans with (2 ^ Z.succ (Z.log2 m) * g); [unfold v; apply Z.mul_lt_mono_pos_r; lia|].
    unfold g, u, ru. fold p. rewrite <- !pow_split by lia. apply Z.pow_le_mono_r; [lia|]. unfold p, rp. lia. }
  assert (V2 : -149 < p -> 2 ^ 23 * u <= v).
  { intros Hp'. apply Z.le_trans with (2 ^ Z.log2 m * g); [|unfold v; apply Z.mul_le_mono_nonneg_r; lia].
    unfold g, u, ru. fold p. rewrite <- !pow_split by lia. apply Z.pow_le_mono_r; [lia|]. unfold p, rp in *. lia. }
  assert (R0 : 0 <= r).
  { destruct (Z.lt_ge_cases r 0); [|lia]. assert (r * u <= -1 * u) by (apply Z.mul_le_mono_nonneg_r; lia). lia. }
  assert (R1 : r <= 2 ^ 24).
  { destruct (Z.lt_ge_cases (2 ^ 24) r); [|lia]. assert ((2 ^ 24 + 1) * u <= r * u) by (apply Z.mul_le_mono_nonneg_r; lia). lia. }
  assert (R2 : -149 < p -> 2 ^ 23 <= r).
  { intros Hp'. specialize (V2 Hp'). destruct (Z.lt_ge_cases r (2 ^ 23)); [|lia].
    assert (r * u <= (2 ^ 23 - 1) * u) by (apply Z.mul_le_mono_nonneg_r; lia). lia. }
  repeat (split; [first [assumption|lia]|]). auto.
Qed.

(** the bits of the rounded number *)
Lemma round_bits s m e : 0 < m -> -1074 <= e ->
  let bits := (rp m e + 149) * 2 ^ 23 + rr m e in
  bits < 255 * 2 ^ 23 -> single_is (sign_bit s * 2 ^ 31 + bits) (Finite s (rr m e * ru m e)).
Proof.
  intros Hm He bits Hb. destruct (round_core m e Hm He) as (P & _ & _ & _ & R & _ & R2). cbv zeta in *.
  unfold bits, ru in *. set (p := rp m e) in *. set (r := rr m e) in *.
  assert (E : forall k, 0 <= k -> 2 ^ k * 2 ^ 925 = 2 ^ (k + 925)) by (intros; symmetry; apply pow_split; lia).
  destruct (Z.lt_ge_cases r (2 ^ 23)).
  - assert (p = -149) by (destruct (Z.eq_dec p (-149)); [assumption|]; destruct R2; lia). rewrite H0 in *.
    change (-149 + 1074) with 925. replace (sign_bit s * 2 ^ 31 + ((-149 + 149) * 2 ^ 23 + r)) with (sign_bit s * 2 ^ 31 + r) by lia.
    apply single_small. lia.
  - destruct (Z.eq_dec r (2 ^ 24)) as [->|].
    + replace (sign_bit s * 2 ^ 31 + ((p + 149) * 2 ^ 23 + 2 ^ 24)) with (sign_bit s * 2 ^ 31 + (p + 151) * 2 ^ 23 + 0) by lia.
      replace (2 ^ 24 * 2 ^ (p + 1074)) with ((2 ^ 23 + 0) * 2 ^ (p + 151 - 1) * 2 ^ 925).
      * apply single_normal; lia.
      * rewrite <- Z.mul_assoc, E by lia. rewrite Z.add_0_r, <- !pow_split by lia. f_equal. lia.
    + replace (sign_bit s * 2 ^ 31 + ((p + 149) * 2 ^ 23 + r)) with (sign_bit s * 2 ^ 31 + (p + 150) * 2 ^ 23 + (r - 2 ^ 23)) by lia.
      replace (r * 2 ^ (p + 1074)) with ((2 ^ 23 + (r - 2 ^ 23)) * 2 ^ (p + 150 - 1) * 2 ^ 925).
      * apply single_normal; lia.
      * rewrite <- Z.mul_assoc, E by lia. f_equal; [lia|]. f_equal. lia.
Qed.
(** overflow exactly from half a unit above the largest single *)
Lemma round_overflow m e : 0 < m -> -1074 <= e ->
  (255 * 2 ^ 23 <= (rp m e + 149) * 2 ^ 23 + rr m e <-> (2 ^ 25 - 1) * 2 ^ 1177 <= m * 2 ^ (e + 1074)).
Proof.
  intros Hm He. destruct (round_core m e Hm He) as (P & _ & N1 & N2 & R & V & R2). cbv zeta in *.
  set (v := m * 2 ^ (e + 1074)) in *. unfold ru in *. set (p := rp m e) in *. set (r := rr m e) in *. clearbody v p r.
  destruct (Z.lt_trichotomy p 104) as [L|[->|L]].
  - assert (2 ^ (p + 1074) <= 2 ^ 1177) by (apply Z.pow_le_mono_r; lia).
    set (u := 2 ^ (p + 1074)) in *. set (t := 2 ^ 1177) in *.
    assert (0 < u) by (apply pow2_pos; lia).
    assert (2 ^ 24 * u <= 2 ^ 24 * t) by (apply Z.mul_le_mono_nonneg_l; lia). split; lia.
  - change (2 ^ (104 + 1074)) with (2 * 2 ^ 1177) in *. set (t := 2 ^ 1177) in *.
    assert (Pt : 0 < t) by (apply pow2_pos; lia). clearbody t.
    split; intros Ho.
    + assert (r = 2 ^ 24) by lia. subst r. lia.
    + destruct (Z.eq_dec r (2 ^ 24)) as [->|]; [lia|]. exfalso.
      assert (B1 : r * (2 * t) <= (2 ^ 24 - 1) * (2 * t)) by (apply Z.mul_le_mono_nonneg_r; lia).
      assert (EQ : 2 * Z.abs (r * (2 * t) - v) = 2 * t) by lia.
      assert (B2 : r * (2 * t) = (2 ^ 24 - 1) * (2 * t)) by lia. apply Z.mul_cancel_r in B2; [|lia]. subst r.
      specialize (N2 EQ). discriminate N2.
  - destruct (R2 ltac:(lia)) as [A B].
    assert (2 ^ 1179 <= 2 ^ (p + 1074)) by (apply Z.pow_le_mono_r; lia).
    change (2 ^ 1179) with (4 * 2 ^ 1177) in *. set (u := 2 ^ (p + 1074)) in *. set (t := 2 ^ 1177) in *.
    assert (0 < t) by (apply pow2_pos; lia). clearbody u t. split; lia.
Qed.
Lemma single_inv y n : single_is y n -> match n with
  | Finite s w => (exists f, 0 <= f < 2 ^ 23 /\ w = f * 2 ^ 925) \/
      (exists e f, 1 <= e <= 254 /\ 0 <= f < 2 ^ 23 /\ w = (2 ^ 23 + f) * 2 ^ (e - 1) * 2 ^ 925)
  | Infinite _ => True end.
Proof.
  intros [s f Hf|s e f He Hf|s]; [left; exists f|right; exists e, f|exact I]; repeat (split; [assumption|]); reflexivity.
Qed.
Lemma double_inv x n : double_is x n -> match n with
  | Finite s w => (0 <= w < 2 ^ 52 /\ x = sign_bit s * 2 ^ 63 + w) \/
      (exists e f, 1 <= e <= 2046 /\ 0 <= f < 2 ^ 52 /\ w = (2 ^ 52 + f) * 2 ^ (e - 1) /\ x = sign_bit s * 2 ^ 63 + e * 2 ^ 52 + f)
  | Infinite _ => True end.
Proof.
  intros [s f Hf|s e f He Hf|s]; [left|right; exists e, f|exact I]; repeat (split; [first [assumption|reflexivity]|]); try reflexivity; assumption.
Qed.
(** singles are multiples of the unit, or below the last binade *)
Lemma single_grid m e y s w : 0 < m -> -1074 <= e -> single_is y (Finite s w) ->
  (exists j, w = j * ru m e) \/ (w < 2 ^ 23 * ru m e /\ -149 < rp m e).
Proof.
  intros Hm He S. destruct (round_core m e Hm He) as (P & _). cbv zeta in *. unfold ru. set (p := rp m e) in *. clearbody p.
  apply single_inv in S as [(f & Hf & ->)|(e0 & f & He0 & Hf & ->)].
  - destruct (Z.eq_dec p (-149)) as [->|]; [left; exists f; reflexivity|]. right. split; [|lia].
    assert (2 ^ 925 <= 2 ^ (p + 1074)) by (apply Z.pow_le_mono_r; lia).
    pose proof (pow2_pos 925 ltac:(lia)).
    apply Z.lt_le_trans with (2 ^ 23 * 2 ^ 925); [apply Z.mul_lt_mono_pos_r; lia|apply Z.mul_le_mono_nonneg_l; lia].
  - rewrite <- Z.mul_assoc, <- pow_split by lia.
    destruct (Z.le_gt_cases (p + 1074) (e0 - 1 + 925)).
    + left. exists ((2 ^ 23 + f) * 2 ^ (e0 - 1 + 925 - (p + 1074))). rewrite <- Z.mul_assoc, <- pow_split by lia. f_equal. f_equal. lia.
    + right. split; [|lia]. pose proof (pow2_pos (e0 - 1 + 925) ltac:(lia)).
      apply Z.lt_le_trans with (2 ^ 24 * 2 ^ (e0 - 1 + 925)); [apply Z.mul_lt_mono_pos_r; lia|].
      rewrite <- !pow_split by lia. apply Z.pow_le_mono_r; lia.
Qed.
Lemma round_best m e y s w : 0 < m -> -1074 <= e -> single_is y (Finite s w) ->
  let v := m * 2 ^ (e + 1074) in
  Z.abs (rr m e * ru m e - v) <= Z.abs (w - v) /\
  (Z.abs (rr m e * ru m e - v) = Z.abs (w - v) -> w <> rr m e * ru m e -> Z.even (rr m e) = true).
Proof.
  intros Hm He S v. destruct (round_core m e Hm He) as (P & U & N1 & N2 & R & V & R2). cbv zeta in *. fold v in N1, N2, V, R2.
  assert (Pu : 0 < ru m e) by (pose proof (pow2_pos 925 ltac:(lia)); lia).
  destruct (single_grid m e y s w Hm He S) as [[j ->]|[L1 L2]].
  - destruct (nearest_multiple (ru m e) v (rr m e) j Pu N1) as [A B]. split; [exact A|].
    intros E Ne. apply N2, B; [exact E|]. intros ->. apply Ne. reflexivity.
  - destruct (R2 L2) as [V2 _]. destruct (nearest_multiple (ru m e) v (rr m e) (2 ^ 23) Pu N1) as [A _].
    set (A1 := rr m e * ru m e) in *. set (A2 := 2 ^ 23 * ru m e) in *. split; lia.
Qed.

(** a finite double by significand and power *)
Lemma double_parts x s v : double_is x (Finite s v) ->
  f64_sign x = sign_bit s /\ f64_is_nan x = false /\ f64_is_inf x = false /\ 0 <= f64_mant x /\ -1074 <= f64_pow x /\
  v = f64_mant x * 2 ^ (f64_pow x + 1074).
Proof.
  intros D. apply double_inv in D as [(Hv & ->)|(e & f & He & Hf & -> & ->)].
  - destruct (f64_fields (sign_bit s) 0 v ltac:(lia) ltac:(lia)) as (F1 & F2 & F3).
    replace (sign_bit s * 2 ^ 63 + 0 * 2 ^ 52 + v) with (sign_bit s * 2 ^ 63 + v) in * by lia.
    unfold f64_is_nan, f64_is_inf, f64_mant, f64_pow. rewrite F1, F2, F3. cbn [Z.eqb andb].
    repeat (split; [first [reflexivity|lia]|]). change (Z.max 0 1 - 1075 + 1074) with 0. lia.
  - destruct (f64_fields (sign_bit s) e f ltac:(lia) ltac:(lia)) as (F1 & F2 & F3).
    unfold f64_is_nan, f64_is_inf, f64_mant, f64_pow. rewrite F1, F2, F3.
    destruct (Z.eqb_spec e 2047); [lia|]. destruct (Z.eqb_spec e 0); [lia|]. cbn [andb].
    repeat (split; [first [reflexivity|lia]|]). rewrite Z.max_l by lia. f_equal. f_equal. lia.
Qed.
Lemma float_rounds x s v : double_is x (Finite s v) ->
  (v < (2 ^ 25 - 1) * 2 ^ 1177 -> exists y w, f64_to_f32 x = Ok y /\ single_is y (Finite s w) /\
     forall y' s' w', single_is y' (Finite s' w') ->
       Z.abs (signed s w - signed s v) <= Z.abs (signed s' w' - signed s v) /\
       (Z.abs (signed s w - signed s v) = Z.abs (signed s' w' - signed s v) -> signed s' w' <> signed s w -> Z.even y = true)) /\
  ((2 ^ 25 - 1) * 2 ^ 1177 <= v -> f64_to_f32 x = Raise EOverflow).
Proof.
  intros D. destruct (double_parts x s v D) as (F1 & F2 & F3 & F4 & F5 & EV). subst v. clear D.
  unfold f64_to_f32. rewrite F1, F2, F3. set (m := f64_mant x) in *. set (e := f64_pow x) in *. clearbody m e. cbv zeta.
  destruct (Z.eqb_spec m 0) as [->|Hm].
  - rewrite Z.mul_0_l. split.
    + intros _. exists (sign_bit s * 2 ^ 31), 0. split; [reflexivity|].
      split. { rewrite <- (Z.add_0_r (sign_bit s * 2 ^ 31)), <- (Z.mul_0_l (2 ^ 925)). apply single_small. lia. }
      intros y' s' w' _. replace (signed s 0) with 0 by (destruct s; reflexivity). cbn [Z.sub Z.abs Z.opp Z.add].
      split; [lia|]. intros E Ne. lia.
    + intros H. exfalso. pose proof (pow2_pos 1177 ltac:(lia)). lia.
  - assert (Pm : 0 < m) by lia. pose proof (round_overflow m e Pm F5) as RO.
    change (Z.max (Z.log2 m + e - 23) (-149)) with (rp m e) in *. change (scale_round m (e - rp m e)) with (rr m e) in *.
    destruct (Z.leb_spec (255 * 2 ^ 23) ((rp m e + 149) * 2 ^ 23 + rr m e)) as [L|L].
    + split; [intros H; exfalso; apply RO in L; lia|reflexivity].
    + split; [|intros H; exfalso; apply RO in H; lia]. intros _.
      exists (sign_bit s * 2 ^ 31 + ((rp m e + 149) * 2 ^ 23 + rr m e)), (rr m e * ru m e).
      split; [reflexivity|]. split; [apply round_bits; assumption|].
      assert (EV : Z.even (rr m e) = true -> Z.even (sign_bit s * 2 ^ 31 + ((rp m e + 149) * 2 ^ 23 + rr m e)) = true).
      { intros Hev. rewrite !Z.even_add, !Z.even_mul, Hev. cbn [Z.pow Z.pow_pos Pos.iter Z.mul Pos.mul Z.even].
        rewrite !orb_true_r. reflexivity. }
      assert (Z0 : single_is (sign_bit s * 2 ^ 31 + 0) (Finite s (0 * 2 ^ 925))) by (apply single_small; lia).
      pose proof (round_best m e _ _ _ Pm F5 Z0) as [B0 T0]. rewrite Z.mul_0_l in B0, T0.
      assert (V0 : 0 <= m * 2 ^ (e + 1074)) by (apply Z.mul_nonneg_nonneg; [lia|apply Z.pow_nonneg; lia]).
      destruct (round_core m e Pm F5) as (_ & U & _ & _ & R & _ & _). cbv zeta in *.
      assert (W0 : 0 <= rr m e * ru m e) by (apply Z.mul_nonneg_nonneg; [lia|pose proof (pow2_pos 925 ltac:(lia)); lia]).
      intros y' s' w' S. pose proof (round_best m e _ _ _ Pm F5 S) as [B1 T1].
      assert (W' : 0 <= w').
      { apply single_inv in S as [(f & Hf & ->)|(e0 & f & He0 & Hf & ->)]; [apply Z.mul_nonneg_nonneg; [lia|apply Z.pow_nonneg; lia]|].
        apply Z.mul_nonneg_nonneg; [apply Z.mul_nonneg_nonneg; [lia|apply Z.pow_nonneg; lia]|apply Z.pow_nonneg; lia]. }
      set (w := rr m e * ru m e) in *. set (v := m * 2 ^ (e + 1074)) in *. clearbody w v.
      destruct s, s'; unfold signed; (split; [lia|]); intros E Ne; apply EV;
        first [apply T1; lia | apply T0; lia].
Qed.
