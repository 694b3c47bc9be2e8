(** * Facts about decimal notation *)
From Coq Require Import String ZArith List Bool Lia.
From Verif Require Import Py Stream Settings Spec PyFacts SettingsFacts.
Import ListNotations.
Open Scope list_scope.
Open Scope Z_scope.

Lemma str_nat_decimal n : 0 <= n -> decimal n (str_nat n).
Proof.
  intros H. destruct (str_nat_spec n H) as (ds & Hne & Hd & V & E & P & Z0). exists ds.
  split; [exact E|]. split; [exact Hne|]. split; [exact Hd|]. split; [exact V|].
  intros H0. apply Z0. destruct (Z.eq_dec n 0); [assumption|]. exfalso. apply P; [lia|exact H0].
Qed.
Lemma digits_value_bound ds : Forall (fun d => 0 <= d <= 9) ds -> 0 <= digits_value ds < 10 ^ zlen ds.
Proof.
  induction 1 as [|d ds Hd _ IH]; [cbn; lia|]. cbn [digits_value].
  rewrite zlen_cons, Z.pow_add_r by (pose proof (zlen_nonneg _ ds); lia).
  assert (0 < 10 ^ zlen ds) by (apply Z.pow_pos_nonneg; [lia|apply zlen_nonneg]). nia.
Qed.
Lemma digits_value_head d ds : 0 < d -> Forall (fun d => 0 <= d <= 9) ds -> 10 ^ zlen ds <= digits_value (d :: ds).
Proof.
  intros Hd H. cbn [digits_value]. pose proof (digits_value_bound ds H).
  assert (0 < 10 ^ zlen ds) by (apply Z.pow_pos_nonneg; [lia|apply zlen_nonneg]). nia.
Qed.
Lemma digits_text x : forallb is_digit x = true -> exists ds, x = map (Z.add 48) ds /\ Forall (fun d => 0 <= d <= 9) ds.
Proof.
  induction x as [|c x IH]; cbn [forallb]; intros H; [exists []; split; [reflexivity|constructor]|].
  apply andb_prop in H as [Hc H]. apply is_digit_spec in Hc. unfold digit_char in Hc.
  destruct (IH H) as (ds & -> & F). exists (c - 48 :: ds). split; [cbn [map]; f_equal; lia|constructor; [lia|exact F]].
Qed.
Lemma text_digits ds : Forall (fun d => 0 <= d <= 9) ds -> forallb is_digit (map (Z.add 48) ds) = true.
Proof.
  induction 1 as [|d ds Hd _ IH]; [reflexivity|]. cbn [map forallb]. rewrite IH, andb_true_r.
  apply is_digit_spec. unfold digit_char. lia.
Qed.
Lemma decimal_small n x : decimal n x -> n <= 255 -> zlen x <= 3.
Proof.
  intros (ds & -> & Hne & F & V & Z0) L. unfold zlen. rewrite map_length. fold (zlen ds).
  destruct ds as [|d ds]; [contradiction|]. inversion_clear F as [|? ? Hd F'].
  destruct (Z.eq_dec d 0) as [->|].
  - rewrite (Z0 eq_refl). change (zlen [0]) with 1. lia.
  - pose proof (digits_value_head d ds ltac:(lia) F'). rewrite zlen_cons.
    destruct (Z_le_gt_dec 3 (zlen ds)); [|lia].
    pose proof (Z.pow_le_mono_r 10 3 (zlen ds) ltac:(lia) ltac:(lia)). lia.
Qed.
Lemma same_digits ds : forall es, Forall (fun d => 0 <= d <= 9) ds -> Forall (fun d => 0 <= d <= 9) es ->
  zlen ds = zlen es -> digits_value ds = digits_value es -> ds = es.
Proof.
  induction ds as [|d ds IH]; intros [|e es] D E L V; [reflexivity| | |].
  - rewrite zlen_cons, zlen_nil in L. pose proof (zlen_nonneg _ es). lia.
  - rewrite zlen_cons, zlen_nil in L. pose proof (zlen_nonneg _ ds). lia.
  - rewrite !zlen_cons in L. inversion_clear D as [|? ? Hd D']. inversion_clear E as [|? ? He E'].
    cbn [digits_value] in V. assert (L' : zlen ds = zlen es) by lia. rewrite L' in V.
    pose proof (digits_value_bound ds D') as B1. pose proof (digits_value_bound es E') as B2. rewrite L' in B1.
    assert (0 < 10 ^ zlen es) by (apply Z.pow_pos_nonneg; [lia|apply zlen_nonneg]).
    assert (d = e) by nia. subst e. f_equal. apply IH; try assumption. lia.
Qed.
Lemma decimal_len n ds : ds <> [] -> Forall (fun d => 0 <= d <= 9) ds -> digits_value ds = n ->
  (hd 0 ds = 0 -> ds = [0]) -> n < 10 ^ zlen ds /\ (n = 0 -> zlen ds = 1) /\ (0 < n -> 10 ^ (zlen ds - 1) <= n).
Proof.
  intros Hne F <- Z0. pose proof (digits_value_bound ds F). split; [lia|].
  destruct ds as [|d ds]; [contradiction|]. inversion_clear F as [|? ? Hd F']. cbn [hd] in Z0.
  destruct (Z.eq_dec d 0) as [->|].
  - rewrite (Z0 eq_refl). change (zlen [0]) with 1. cbn [digits_value]. change (zlen (@nil Z)) with 0. split; lia.
  - pose proof (digits_value_head d ds ltac:(lia) F') as B. rewrite zlen_cons.
    replace (1 + zlen ds - 1) with (zlen ds) by lia.
    assert (0 < 10 ^ zlen ds) by (apply Z.pow_pos_nonneg; [lia|apply zlen_nonneg]). split; lia.
Qed.
Lemma decimal_one n x y : decimal n x -> decimal n y -> x = y.
Proof.
  intros (ds & -> & N1 & F1 & V1 & Z1) (es & -> & N2 & F2 & V2 & Z2). f_equal.
  destruct (decimal_len n ds N1 F1 V1 Z1) as (A1 & B1 & C1). destruct (decimal_len n es N2 F2 V2 Z2) as (A2 & B2 & C2).
  pose proof (digits_value_bound ds F1).
  apply same_digits; try assumption; [|lia].
  destruct (Z.eq_dec n 0) as [E|]; [rewrite B1, B2 by exact E; reflexivity|].
  assert (P : 0 < n) by lia. specialize (C1 P). specialize (C2 P).
  assert (L : forall a b, 0 <= a -> 0 <= b -> 10 ^ (a - 1) <= n -> n < 10 ^ b -> a <= b).
  { intros a b Ha Hb Q1 Q2. destruct (Z_le_gt_dec a b); [assumption|].
    pose proof (Z.pow_le_mono_r 10 b (a - 1) ltac:(lia) ltac:(lia)). lia. }
  pose proof (zlen_nonneg _ ds). pose proof (zlen_nonneg _ es).
  pose proof (L (zlen ds) (zlen es) ltac:(assumption) ltac:(assumption) C1 A2). pose proof (L (zlen es) (zlen ds) ltac:(assumption) ltac:(assumption) C2 A1). lia.
Qed.

