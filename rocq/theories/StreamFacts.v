(** * Facts about the stream codecs *)
From Coq Require Import ZArith List Bool Lia Permutation.
From Coq Require Import ZifyBool.
From Coq Require Import Strings.Byte.
From Verif Require Import Py PyFacts Utf8Facts Stream.
Import ListNotations.
Open Scope Z_scope.
Ltac Zify.zify_post_hook ::= Z.div_mod_to_equations.

(** ** Reading exactly what is there *)
Lemma read_bytes_app l s : read_bytes (zlen l) (l ++ s) = Ok (l, s).
Proof. unfold read_bytes. rewrite bio_read_app. reflexivity. Qed.

Lemma read_bytes_app_n n l s : zlen l = n -> read_bytes n (l ++ s) = Ok (l, s).
Proof. intros <-. apply read_bytes_app. Qed.

Definition sbyte (b : byte) : Z := from_bytes_signed [b].

Lemma read_byte_cons b s : read_byte (b :: s) = Ok (sbyte b, s).
Proof.
  unfold read_byte. rewrite (rbind_step _ _ _ _ _ [b] s); [reflexivity|].
  apply (read_bytes_app_n 1 [b] s). reflexivity.
Qed.

Lemma sbyte_land_7f b : Z.land (sbyte b) 0x7F = b2z b mod 128.
Proof. destruct b; reflexivity. Qed.
Lemma sbyte_land_80 b : (Z.land (sbyte b) 0x80 =? 0) = (b2z b <? 128).
Proof. destruct b; reflexivity. Qed.
Lemma sbyte_small b : b2z b < 128 -> sbyte b = b2z b.
Proof. destruct b; cbv; intros; congruence. Qed.

(** ** Fixed width *)
Lemma fixed_roundtrip n i bs s (r : reader Z) :
  (0 < n)%nat ->
  (forall s, r s = (b <~ read_bytes (Z.of_nat n) ;; rret (from_bytes_signed b)) s) ->
  to_bytes_signed n i = Ok bs -> r (bs ++ s) = Ok (i, s).
Proof.
  intros Hn Hr H. apply to_bytes_signed_ok in H as (_ & Hl & Hf); auto.
  rewrite Hr. rewrite (rbind_step _ _ _ _ _ bs s).
  - unfold rret. rewrite Hf. reflexivity.
  - apply read_bytes_app_n. unfold zlen. lia.
Qed.

Lemma byte_roundtrip i bs s : write_byte i = Ok bs -> read_byte (bs ++ s) = Ok (i, s).
Proof. apply (fixed_roundtrip 1); auto. Qed.
Lemma int_roundtrip i bs s : write_int i = Ok bs -> read_int (bs ++ s) = Ok (i, s).
Proof. apply (fixed_roundtrip 4); auto; lia. Qed.
Lemma long_roundtrip i bs s : write_long i = Ok bs -> read_long (bs ++ s) = Ok (i, s).
Proof. apply (fixed_roundtrip 8); auto; lia. Qed.

Lemma write_byte_small i : 0 <= i < 128 -> write_byte i = Ok [z2b i].
Proof.
  intros H. unfold write_byte. rewrite to_bytes_signed_in_range by (cbn; lia).
  cbn [be_bytes app]. do 2 f_equal. rewrite Z.mod_small by (cbn; lia). reflexivity.
Qed.

Lemma boolean_roundtrip b bs s : write_boolean b = Ok bs -> read_boolean (bs ++ s) = Ok (b, s).
Proof.
  unfold write_boolean, read_boolean. intros H.
  rewrite (rbind_step _ _ _ _ _ _ s (byte_roundtrip _ _ _ H)). destruct b; reflexivity.
Qed.

Lemma write_boolean_total b : exists bs, write_boolean b = Ok bs.
Proof. destruct b; cbv; eauto. Qed.
Lemma write_boolean_eq b : write_boolean b = Ok [if b then x01 else x00].
Proof. destruct b; reflexivity. Qed.

(** ** vInt writer *)
Lemma land_not_7f i : 0 <= i -> (Z.land i (Z.lnot 0x7F) =? 0) = (i <? 128).
Proof.
  intros H. rewrite <- Z.ldiff_land. change 0x7F with (Z.ones 7).
  rewrite Z.ldiff_ones_r by lia.
  rewrite Z.shiftr_div_pow2, Z.shiftl_mul_pow2 by lia. change (2 ^ 7) with 128. lia.
Qed.

Lemma lor_shiftl_add a x n : 0 <= n -> 0 <= a < 2 ^ n -> 0 <= x ->
  Z.lor a (Z.shiftl x n) = a + x * 2 ^ n.
Proof.
  intros Hn Ha Hx. rewrite Z.shiftl_mul_pow2 by lia.
  assert (Z.land a (x * 2 ^ n) = 0) as Hl.
  { apply Z.bits_inj'. intros m Hm. rewrite Z.land_spec, Z.bits_0.
    destruct (Z_lt_le_dec m n).
    - rewrite Z.mul_pow2_bits_low by lia. apply andb_false_r.
    - assert (Z.testbit a m = false) as ->; [|reflexivity].
      destruct (Z.eq_dec a 0) as [->|Hz]; [apply Z.bits_0|].
      apply Z.bits_above_log2; [lia|]. apply Z.log2_lt_pow2; try lia.
      apply Z.lt_le_trans with (2 ^ n); [lia|]. apply Z.pow_le_mono_r; lia. }
  rewrite <- Z.lxor_lor by auto. rewrite Z.add_nocarry_lxor by auto. reflexivity.
Qed.

Lemma land_lor_byte i : 0 <= i -> Z.lor (Z.land i 0x7F) 0x80 = i mod 128 + 128.
Proof.
  intros H. change 0x7F with (Z.ones 7). rewrite Z.land_ones by lia.
  change 0x80 with (Z.shiftl 1 7). change (2 ^ 7) with 128.
  rewrite lor_shiftl_add; [reflexivity|lia| |lia]. change (2 ^ 7) with 128. lia.
Qed.

Lemma shiftr7 i : Z.shiftr i 7 = i / 128.
Proof. rewrite Z.shiftr_div_pow2 by lia. reflexivity. Qed.

Lemma log2_div128 i : 128 <= i -> Z.log2 (i / 128) = Z.log2 i - 7.
Proof.
  intros H. rewrite <- shiftr7, Z.log2_shiftr by lia.
  pose proof (Z.log2_le_mono 128 i H) as Hm. change (Z.log2 128) with 7 in Hm. lia.
Qed.

(** One unrolling of the loop, for any sufficient fuel. *)
Lemma v_int_loop_fuel i : 128 <= i -> forall f1 f2,
  (Z.to_nat (Z.log2 i) <= f1)%nat -> (Z.to_nat (Z.log2 i) <= f2)%nat ->
  v_int_loop f1 i = v_int_loop f2 i.
Proof.
  intros Hi. remember (Z.to_nat i) as n eqn:Hn.
  revert i Hi Hn. induction n as [n IH] using lt_wf_ind. intros i Hi Hn f1 f2 H1 H2.
  assert (Hl : 7 <= Z.log2 i).
  { pose proof (Z.log2_le_mono 128 i Hi) as Hm. exact Hm. }
  destruct f1 as [|f1]; [lia|]. destruct f2 as [|f2]; [lia|].
  cbn [v_int_loop]. rewrite shiftr7. rewrite land_not_7f by lia.
  destruct (i / 128 <? 128) eqn:E; auto.
  rewrite (IH (Z.to_nat (i / 128))) with (f2 := f2); auto; try lia;
  rewrite log2_div128 by lia; lia.
Qed.

Lemma write_v_int_small i : 0 <= i < 128 -> write_v_int i = Ok [z2b i].
Proof.
  intros H. unfold write_v_int. replace (i <? 0x80) with true by lia.
  apply write_byte_small; lia.
Qed.

Lemma write_v_int_big i :
  128 <= i ->
  write_v_int i = (l <- write_v_int (i / 128) ;; Ok (z2b (i mod 128 + 128) :: l)).
Proof.
  intros H. unfold write_v_int at 1. replace (i <? 0x80) with false by lia.
  unfold v_int_fuel. cbn [v_int_loop]. rewrite shiftr7, land_not_7f, land_lor_byte by lia.
  destruct (i / 128 <? 128) eqn:E.
  - rewrite write_v_int_small by lia. reflexivity.
  - unfold write_v_int. change 0x80 with 128. rewrite E.
    rewrite (v_int_loop_fuel (i / 128)) with (f2 := v_int_fuel (i / 128)); auto; try lia;
    unfold v_int_fuel; rewrite log2_div128 by lia; lia.
Qed.

(** Induction principle following the encoding. *)
Lemma vint_ind (P : Z -> Prop) :
  (forall i, 0 <= i < 128 -> P i) ->
  (forall i, 128 <= i -> P (i / 128) -> P i) ->
  forall i, 0 <= i -> P i.
Proof.
  intros Hs Hb i Hi. remember (Z.to_nat i) as n eqn:Hn. revert i Hi Hn.
  induction n as [n IH] using lt_wf_ind. intros i Hi Hn.
  destruct (Z_lt_le_dec i 128); [apply Hs; lia|].
  apply Hb; auto. apply (IH (Z.to_nat (i / 128))); lia.
Qed.

Lemma write_v_int_total i : 0 <= i -> exists bs, write_v_int i = Ok bs.
Proof.
  revert i. apply vint_ind.
  - intros i Hi. rewrite write_v_int_small; eauto.
  - intros i Hi [bs IH]. rewrite write_v_int_big, IH; auto. simpl. eauto.
Qed.

Lemma v_int_size_loop_fuel i : 128 <= i -> forall f1 f2,
  (Z.to_nat (Z.log2 i) <= f1)%nat -> (Z.to_nat (Z.log2 i) <= f2)%nat ->
  v_int_size_loop f1 i = v_int_size_loop f2 i.
Proof.
  intros Hi. remember (Z.to_nat i) as n eqn:Hn.
  revert i Hi Hn. induction n as [n IH] using lt_wf_ind. intros i Hi Hn f1 f2 H1 H2.
  assert (Hl : 7 <= Z.log2 i).
  { pose proof (Z.log2_le_mono 128 i Hi) as Hm. exact Hm. }
  destruct f1 as [|f1]; [lia|]. destruct f2 as [|f2]; [lia|].
  cbn [v_int_size_loop]. rewrite shiftr7. rewrite land_not_7f by lia.
  destruct (i / 128 <? 128) eqn:E; auto.
  rewrite (IH (Z.to_nat (i / 128))) with (f2 := f2); auto; try lia;
  rewrite log2_div128 by lia; lia.
Qed.

Lemma v_int_size_big i : 128 <= i -> v_int_size i = 1 + v_int_size (i / 128).
Proof.
  intros H. unfold v_int_size at 1. replace (i <? 0x80) with false by lia.
  unfold v_int_fuel. cbn [v_int_size_loop]. rewrite shiftr7, land_not_7f by lia.
  unfold v_int_size. change 0x80 with 128.
  destruct (i / 128 <? 128) eqn:E; auto. f_equal.
  rewrite (v_int_size_loop_fuel (i / 128)) with (f2 := v_int_fuel (i / 128)); auto; try lia;
  unfold v_int_fuel; rewrite log2_div128 by lia; lia.
Qed.

Lemma v_int_size_small i : i < 128 -> v_int_size i = 1.
Proof. intros H. unfold v_int_size. replace (i <? 0x80) with true by lia. reflexivity. Qed.

Lemma v_int_size_correct i bs : write_v_int i = Ok bs -> v_int_size i = zlen bs.
Proof.
  destruct (Z_lt_le_dec i 0) as [Hn|Hp].
  { intros H. rewrite v_int_size_small by lia. unfold write_v_int in H.
    replace (i <? 0x80) with true in H by lia. unfold write_byte in H.
    apply to_bytes_signed_ok in H as (_ & Hl & _); [|lia]. unfold zlen. lia. }
  revert bs. revert i Hp. refine (vint_ind _ _ _).
  - intros i Hi bs H. rewrite write_v_int_small in H by lia.
    apply Ok_inj in H; subst. rewrite v_int_size_small by lia. reflexivity.
  - intros i Hi IH bs H. rewrite write_v_int_big in H by lia. winv.
    rewrite v_int_size_big by lia. rewrite (IH _ Ha). rewrite zlen_cons. reflexivity.
Qed.

Lemma v_int_size_least i : 0 <= i ->
  1 <= v_int_size i /\ i < 128 ^ v_int_size i /\
  forall k, 1 <= k -> i < 128 ^ k -> v_int_size i <= k.
Proof.
  revert i. apply vint_ind.
  - intros i Hi. rewrite v_int_size_small by lia. change (128 ^ 1) with 128.
    split; [lia|]. split; [lia|]. intros; assumption.
  - intros i Hi (H1 & H2 & H3). rewrite v_int_size_big by lia.
    set (n := v_int_size (i / 128)) in *.
    split; [lia|]. split.
    + rewrite Z.pow_add_r by lia. change (128 ^ 1) with 128.
      generalize dependent (128 ^ n). intros p Hp. lia.
    + intros k Hk Hi'. destruct (Z.eq_dec k 1) as [->|Hn].
      { change (128 ^ 1) with 128 in Hi'. lia. }
      assert (n <= k - 1); [|lia]. apply H3; [lia|].
      replace k with (1 + (k - 1)) in Hi' by lia. rewrite Z.pow_add_r in Hi' by lia.
      change (128 ^ 1) with 128 in Hi'. apply Z.div_lt_upper_bound; [lia|exact Hi'].
Qed.

(** ** vInt reader *)
(** The common shape of read_v_int and read_v_long: groups of seven bits at
    increasing shifts; [last sh acc] decides about the final byte. *)
Fixpoint vgroups (k : nat) (sh acc : Z) (fin : Z -> reader Z) : reader Z :=
  match k with
  | O => fin acc
  | S k' =>
      b <~ read_byte ;;
      let i := Z.lor acc (Z.shiftl (Z.land b 0x7F) sh) in
      if Z.land b 0x80 =? 0 then rret i else vgroups k' (sh + 7) i fin
  end.

Definition fin_int (acc : Z) : reader Z :=
  b <~ read_byte ;;
  if negb (Z.land b 0x80 =? 0) then rfail EGeneric else
  rret (Z.lor acc (Z.shiftl (Z.land b 0x7F) 28)).
Definition fin_long (acc : Z) : reader Z :=
  b <~ read_byte ;;
  if negb (b =? 0) && negb (b =? 1) then rfail EGeneric else
  rret (Z.lor acc (Z.shiftl b 63)).

Lemma shiftl_0_lor x : Z.lor 0 (Z.shiftl x 0) = x.
Proof. rewrite Z.shiftl_0_r. apply Z.lor_0_l. Qed.

Lemma read_v_int_groups s : read_v_int s = vgroups 4 0 0 fin_int s.
Proof.
  unfold read_v_int, fin_int. cbn [vgroups]. unfold rbind at 1. symmetry. unfold rbind at 1. symmetry.
  destruct (read_byte s) as [[b s']|e]; [|reflexivity]. cbv zeta. rewrite shiftl_0_lor. reflexivity.
Qed.

Lemma read_v_long_groups s : read_v_long s = vgroups 9 0 0 fin_long s.
Proof.
  unfold read_v_long, fin_long. cbn [vgroups]. unfold rbind at 1. symmetry. unfold rbind at 1. symmetry.
  destruct (read_byte s) as [[b s']|e]; [|reflexivity]. cbv zeta. rewrite shiftl_0_lor. reflexivity.
Qed.

(** Reading k+1 groups of an encoded number. *)
Lemma vgroups_enc k : forall i bs s sh acc fin,
  0 <= sh -> 0 <= acc < 2 ^ sh -> 0 <= i -> write_v_int i = Ok bs ->
  ((k = O -> 1 <= i) -> i < 2 ^ (7 * Z.of_nat k) -> vgroups k sh acc fin (bs ++ s) = Ok (acc + i * 2 ^ sh, s)) /\
  (2 ^ (7 * Z.of_nat k) <= i ->
   exists bs' , write_v_int (i / 2 ^ (7 * Z.of_nat k)) = Ok bs' /\
   vgroups k sh acc fin (bs ++ s) =
   fin (acc + (i mod 2 ^ (7 * Z.of_nat k)) * 2 ^ sh) (bs' ++ s)).
Proof.
  induction k as [|k IH]; intros i bs s sh acc fin Hsh Hacc Hi Hw.
  { change (2 ^ (7 * Z.of_nat 0)) with 1. split; [intros Hk Hl; specialize (Hk eq_refl); lia|].
    intros _. rewrite Z.div_1_r, Z.mod_1_r. exists bs. split; auto. cbn [vgroups].
    replace (acc + 0 * 2 ^ sh) with acc by lia. reflexivity. }
  set (P := 2 ^ (7 * Z.of_nat k)).
  assert (HP : 0 < P) by (unfold P; apply Z.pow_pos_nonneg; lia).
  assert (HPS : 2 ^ (7 * Z.of_nat (S k)) = 128 * P).
  { unfold P. replace (7 * Z.of_nat (S k)) with (7 + 7 * Z.of_nat k) by lia.
    rewrite Z.pow_add_r by lia. reflexivity. }
  rewrite HPS.
  destruct (Z_lt_le_dec i 128) as [Hs|Hb].
  - rewrite write_v_int_small in Hw by lia. apply Ok_inj in Hw; subst bs.
    split; [|lia]. intros _ _. cbn [vgroups app].
    rewrite (rbind_step _ _ _ _ _ _ _ (read_byte_cons _ _)). cbv zeta.
    rewrite sbyte_land_7f, sbyte_land_80, b2z_z2b_small by lia.
    replace (i <? 128) with true by lia. unfold rret.
    rewrite (Z.mod_small i 128) by lia. rewrite lor_shiftl_add by lia. reflexivity.
  - rewrite write_v_int_big in Hw by lia. apply bind_ok in Hw as (l & Hl & Hw).
    apply Ok_inj in Hw; subst bs. cbn [vgroups app].
    rewrite !(rbind_step _ _ _ _ _ _ _ (read_byte_cons _ _)). cbv zeta.
    rewrite sbyte_land_7f, sbyte_land_80, b2z_z2b_small by lia.
    replace (i mod 128 + 128 <? 128) with false by lia.
    replace ((i mod 128 + 128) mod 128) with (i mod 128) by lia.
    rewrite lor_shiftl_add by lia.
    set (Q := 2 ^ sh) in *.
    assert (HQ : 0 < Q) by (unfold Q; apply Z.pow_pos_nonneg; lia).
    assert (HQ7 : 2 ^ (sh + 7) = Q * 128) by (unfold Q; rewrite Z.pow_add_r by lia; reflexivity).
    destruct (IH (i / 128) l s (sh + 7) (acc + i mod 128 * Q) fin) as [IH1 IH2]; auto; try lia.
    { rewrite HQ7. clearbody Q P. pose proof (Z.mod_pos_bound i 128 eq_refl). nia. }
    fold P in IH1, IH2. rewrite HQ7 in IH1, IH2.
    assert (E : forall q, acc + i mod 128 * Q + q * (Q * 128) = acc + (i mod 128 + q * 128) * Q)
      by (intros; ring).
    split.
    + intros _ Hlt. rewrite IH1.
      * rewrite E. do 3 f_equal. lia.
      * intros _. clear - Hb. lia.
      * apply Z.div_lt_upper_bound; lia.
    + intros Hge. destruct IH2 as (bs' & Hb' & IH2).
      { apply Z.div_le_lower_bound; lia. }
      exists bs'. split; [|rewrite IH2, E].
      * rewrite Z.div_div in Hb' by lia. exact Hb'.
      * f_equal. f_equal. f_equal. rewrite Z.rem_mul_r by lia. lia.
Qed.

Lemma v_int_roundtrip i bs s :
  0 <= i < 2 ^ 35 -> write_v_int i = Ok bs -> read_v_int (bs ++ s) = Ok (i, s).
Proof.
  intros Hi Hw. rewrite read_v_int_groups.
  destruct (vgroups_enc 4 i bs s 0 0 fin_int) as [H1 H2]; auto; try lia.
  change (2 ^ 0) with 1 in *. change (2 ^ (7 * Z.of_nat 4)) with (2 ^ 28) in *.
  destruct (Z_lt_le_dec i (2 ^ 28)) as [Hs|Hb].
  - rewrite H1 by (auto; discriminate). do 2 f_equal. lia.
  - destruct H2 as (bs' & Hb' & H2); auto. rewrite H2. clear H1 H2.
    assert (0 <= i / 2 ^ 28 < 128) by (change (2 ^ 28) with 268435456 in *; lia).
    rewrite write_v_int_small in Hb' by lia. apply Ok_inj in Hb'; subst bs'.
    unfold fin_int. cbn [app].
    rewrite (rbind_step _ _ _ _ _ _ _ (read_byte_cons _ _)).
    rewrite sbyte_land_7f, sbyte_land_80, b2z_z2b_small by lia.
    replace (i / 2 ^ 28 <? 128) with true by lia. cbn [negb]. unfold rret.
    rewrite (Z.mod_small (i / 2 ^ 28)) by lia.
    pose proof (Z.mod_pos_bound i (2 ^ 28) eq_refl).
    rewrite lor_shiftl_add by lia.
    do 2 f_equal. change (2 ^ 28) with 268435456 in *. lia.
Qed.

Lemma v_int_reject i bs s :
  2 ^ 35 <= i -> write_v_int i = Ok bs -> read_v_int (bs ++ s) = Raise EGeneric.
Proof.
  intros Hi Hw. rewrite read_v_int_groups.
  destruct (vgroups_enc 4 i bs s 0 0 fin_int) as [H1 H2]; auto; try lia.
  change (2 ^ (7 * Z.of_nat 4)) with (2 ^ 28) in *.
  destruct H2 as (bs' & Hb' & H2); [change (2 ^ 28) with 268435456; lia|]. rewrite H2. clear H1 H2.
  assert (128 <= i / 2 ^ 28) by (change (2 ^ 28) with 268435456 in *; lia).
  rewrite write_v_int_big in Hb' by lia. apply bind_ok in Hb' as (l & _ & Hb').
  apply Ok_inj in Hb'; subst bs'.
  unfold fin_int. cbn [app].
  rewrite (rbind_step _ _ _ _ _ _ _ (read_byte_cons _ _)).
  assert (Hm : 0 <= (i / 2 ^ 28) mod 128 < 128) by (apply Z.mod_pos_bound; lia).
  rewrite sbyte_land_80, b2z_z2b_small by lia.
  replace (_ <? 128) with false by lia. reflexivity.
Qed.

Lemma v_long_roundtrip i bs s :
  0 <= i < 2 ^ 64 -> write_v_long i = Ok bs -> read_v_long (bs ++ s) = Ok (i, s).
Proof.
  unfold write_v_long. intros Hi Hw. rewrite read_v_long_groups.
  destruct (vgroups_enc 9 i bs s 0 0 fin_long) as [H1 H2]; auto; try lia.
  change (2 ^ 0) with 1 in *. change (2 ^ (7 * Z.of_nat 9)) with (2 ^ 63) in *.
  destruct (Z_lt_le_dec i (2 ^ 63)) as [Hs|Hb].
  - rewrite H1 by (auto; discriminate). do 2 f_equal. lia.
  - destruct H2 as (bs' & Hb' & H2); auto. rewrite H2. clear H1 H2.
    assert (i / 2 ^ 63 = 1) by (change (2 ^ 63) with 9223372036854775808 in *; lia).
    rewrite write_v_int_small in Hb' by lia. apply Ok_inj in Hb'; subst bs'.
    unfold fin_long. cbn [app].
    rewrite (rbind_step _ _ _ _ _ _ _ (read_byte_cons _ _)).
    rewrite H. change (sbyte (z2b 1)) with 1. cbn [Z.eqb Pos.eqb negb andb].
    pose proof (Z.mod_pos_bound i (2 ^ 63) eq_refl).
    unfold rret. rewrite lor_shiftl_add by lia.
    do 2 f_equal. change (2 ^ 63) with 9223372036854775808 in *. lia.
Qed.

Lemma v_long_reject i bs s :
  2 ^ 64 <= i -> write_v_long i = Ok bs -> read_v_long (bs ++ s) = Raise EGeneric.
Proof.
  unfold write_v_long. intros Hi Hw. rewrite read_v_long_groups.
  destruct (vgroups_enc 9 i bs s 0 0 fin_long) as [H1 H2]; auto; try lia.
  change (2 ^ (7 * Z.of_nat 9)) with (2 ^ 63) in *.
  destruct H2 as (bs' & Hb' & H2); [change (2 ^ 63) with 9223372036854775808; lia|].
  rewrite H2. clear H1 H2.
  assert (Hq : 2 <= i / 2 ^ 63) by (change (2 ^ 63) with 9223372036854775808 in *; lia).
  assert (exists b t, bs' = b :: t /\ sbyte b <> 0 /\ sbyte b <> 1) as (b & t & -> & N0 & N1).
  { destruct (Z_lt_le_dec (i / 2 ^ 63) 128) as [Hs|Hb].
    - rewrite write_v_int_small in Hb' by lia. apply Ok_inj in Hb'; subst bs'.
      exists (z2b (i / 2 ^ 63)), []. split; auto.
      rewrite sbyte_small; rewrite b2z_z2b_small; lia.
    - rewrite write_v_int_big in Hb' by lia. apply bind_ok in Hb' as (l & _ & Hb').
      apply Ok_inj in Hb'; subst bs'. eexists _, l. split; [reflexivity|].
      assert (Hm : 0 <= (i / 2 ^ 63) mod 128 < 128) by (apply Z.mod_pos_bound; lia).
      set (x := z2b _). pose proof (sbyte_land_80 x) as H8.
      unfold x in H8 at 2. rewrite b2z_z2b_small in H8 by lia.
      replace (_ <? 128) with false in H8 by lia.
      split; intros Hc; rewrite Hc in H8; discriminate. }
  unfold fin_long. cbn [app].
  rewrite (rbind_step _ _ _ _ _ _ _ (read_byte_cons _ _)).
  replace (sbyte b =? 0) with false by lia. replace (sbyte b =? 1) with false by lia.
  reflexivity.
Qed.

(** ** zLong *)
Lemma z_long_roundtrip i bs s :
  write_z_long i = Ok bs -> read_z_long (bs ++ s) = Ok (i, s).
Proof.
  unfold write_z_long. set (zz := 2 * Z.abs i + (if i <? 0 then 1 else 0)).
  rewrite Z.shiftr_div_pow2 by lia.
  destruct (0 <? zz / 2 ^ 64) eqn:E; [discriminate|]. intros H.
  assert (Hz : 0 <= zz < 2 ^ 64).
  { assert (0 <= zz) by (unfold zz; destruct (i <? 0); lia).
    split; auto. change (2 ^ 64) with 18446744073709551616 in *. lia. }
  unfold read_z_long.
  rewrite (rbind_step _ _ _ _ _ _ _ (v_long_roundtrip _ _ s Hz H)).
  unfold rret. do 2 f_equal. change 1 with (Z.ones 1) at 2.
  rewrite Z.land_ones, Z.shiftr_div_pow2 by lia. change (2 ^ 1) with 2.
  unfold zz. destruct (i <? 0) eqn:Ei.
  - replace ((2 * Z.abs i + 1) mod 2) with 1 by lia. cbn [Z.eqb].
    replace ((2 * Z.abs i + 1) / 2) with (Z.abs i) by lia. lia.
  - replace ((2 * Z.abs i + 0) mod 2) with 0 by lia. cbn [Z.eqb].
    replace ((2 * Z.abs i + 0) / 2) with (Z.abs i) by lia. lia.
Qed.

Lemma write_z_long_ok i : Z.abs i < 2 ^ 63 -> exists bs, write_z_long i = Ok bs.
Proof.
  intros H. unfold write_z_long. rewrite Z.shiftr_div_pow2 by lia.
  set (zz := 2 * Z.abs i + (if i <? 0 then 1 else 0)).
  assert (0 <= zz < 2 ^ 64) as Hz.
  { change (2 ^ 64) with 18446744073709551616. change (2 ^ 63) with 9223372036854775808 in H.
    unfold zz; destruct (i <? 0); lia. }
  rewrite Z.div_small by lia. cbn [Z.ltb Z.compare]. apply write_v_int_total. lia.
Qed.

Lemma write_z_long_raise i : 2 ^ 63 <= Z.abs i -> write_z_long i = Raise EValue.
Proof.
  intros H. unfold write_z_long. rewrite Z.shiftr_div_pow2 by lia.
  set (zz := 2 * Z.abs i + (if i <? 0 then 1 else 0)).
  assert (2 ^ 64 <= zz) as Hz.
  { change (2 ^ 64) with 18446744073709551616. change (2 ^ 63) with 9223372036854775808 in H.
    unfold zz; destruct (i <? 0); lia. }
  replace (0 <? zz / 2 ^ 64) with true; auto. symmetry.
  apply Z.ltb_lt. apply Z.div_str_pos. split; auto. reflexivity.
Qed.

(** ** Lengths in practice fit: [zlen] of anything below 2^35 *)
Lemma array_size_roundtrip n bs s :
  0 <= n <= 2 ^ 31 -> write_v_int n = Ok bs -> read_array_size (bs ++ s) = Ok (n, s).
Proof.
  intros Hn H. unfold read_array_size.
  rewrite (rbind_step _ _ _ _ _ n s).
  - replace (2 ^ 31 <? n) with false by lia. reflexivity.
  - apply v_int_roundtrip; auto. change (2 ^ 35) with 34359738368.
    change (2 ^ 31) with 2147483648 in Hn. lia.
Qed.

(** ** byte arrays and strings *)
Definition fits (b : bytes) : Prop := zlen b <= 2 ^ 31.

Lemma byte_array_roundtrip b bs s :
  fits b -> write_byte_array b = Ok bs -> read_byte_array (bs ++ s) = Ok (b, s).
Proof.
  unfold fits, write_byte_array, read_byte_array. intros Hf H. winv.
  pose proof (zlen_nonneg _ b). rewrite app_nil_r, <- app_assoc.
  rewrite (rbind_step _ _ _ _ _ (zlen b) (b ++ s)) by (apply array_size_roundtrip; auto; lia).
  destruct (0 <? zlen b) eqn:E.
  - apply read_bytes_app.
  - assert (b = []) as -> by (apply zlen_0; lia). reflexivity.
Qed.

(** The encoding of a string fits the reader's limit. *)
Definition str_fits (s : pystr) : Prop := forall b, utf8_encode s = Ok b -> zlen b <= 2 ^ 31.

Lemma string_roundtrip x bs s :
  str_fits x -> write_string x = Ok bs -> read_string (bs ++ s) = Ok (x, s).
Proof.
  unfold str_fits, write_string, read_string. intros Hf H. winv.
  specialize (Hf _ Ha). pose proof (zlen_nonneg _ a).
  assert (w0 = a) as ->.
  { destruct (0 <? zlen a) eqn:E in *; winv; auto.
    symmetry. apply zlen_0. lia. }
  rewrite app_nil_r, <- app_assoc.
  rewrite (rbind_step _ _ _ _ _ (zlen a) (a ++ s)) by (apply array_size_roundtrip; auto; lia).
  rewrite (rbind_step _ _ _ _ _ _ _ (read_bytes_app a s)).
  unfold rlift. rewrite (utf8_decode_encode _ _ Ha). reflexivity.
Qed.

Lemma write_string_form x bs :
  write_string x = Ok bs ->
  exists e l, utf8_encode x = Ok e /\ write_v_int (zlen e) = Ok l /\ bs = l ++ e.
Proof.
  unfold write_string. intros H. winv. exists a, w. repeat split; auto.
  rewrite app_nil_r. f_equal. destruct (0 <? zlen a) eqn:E; winv; auto.
  symmetry. apply zlen_0. pose proof (zlen_nonneg _ a). lia.
Qed.

Lemma write_string_total x e : utf8_encode x = Ok e -> exists bs, write_string x = Ok bs.
Proof.
  intros H. unfold write_string. rewrite H. cbn [bind].
  destruct (write_v_int_total (zlen e) (zlen_nonneg _ e)) as [l Hl].
  exists (l ++ (if 0 <? zlen e then e else []) ++ []). cbn [wcat]. rewrite Hl.
  destruct (0 <? zlen e); reflexivity.
Qed.

(** ** Sequences *)
Definition codec {A} (w : A -> res bytes) (r : reader A) (P : A -> Prop) : Prop :=
  forall a bs s, P a -> w a = Ok bs -> r (bs ++ s) = Ok (a, s).

Lemma string_codec : codec write_string read_string str_fits.
Proof. intros a bs s. apply string_roundtrip. Qed.

Lemma seq_roundtrip A (w : A -> res bytes) r P (Hc : codec w r P) l : forall bs s,
  Forall P l -> wcat (map w l) = Ok bs -> read_n r (length l) (bs ++ s) = Ok (l, s).
Proof.
  induction l as [|a l IH]; intros bs s HP H; cbn [map] in H; winv.
  - reflexivity.
  - inversion HP as [|? ? H1 H2]; subst. cbn [read_n length]. rewrite <- app_assoc.
    rewrite (rbind_step _ _ _ _ _ a (bs0 ++ s)) by (apply Hc; auto).
    rewrite (rbind_step _ _ _ _ _ l s) by (apply IH; auto). reflexivity.
Qed.

Lemma zlen_to_nat A (l : list A) : Z.to_nat (zlen l) = length l.
Proof. unfold zlen. apply Nat2Z.id. Qed.

Definition strs_fit (a : list pystr) : Prop := zlen a <= 2 ^ 31 /\ Forall str_fits a.

Lemma string_array_codec : codec write_string_array read_string_array strs_fit.
Proof.
  unfold codec, strs_fit, write_string_array, read_string_array.
  intros a bs s [Hn Hf] H. winv. rewrite <- app_assoc.
  pose proof (zlen_nonneg _ a).
  rewrite (rbind_step _ _ _ _ _ (zlen a) (bs0 ++ s)) by (apply array_size_roundtrip; auto; lia).
  destruct (zlen a =? 0) eqn:E.
  - assert (a = []) as -> by (apply zlen_0; lia). cbn [map] in Hbs. winv. reflexivity.
  - rewrite zlen_to_nat. eapply seq_roundtrip; eauto using string_codec.
Qed.

Lemma pair_codec V (w : V -> res bytes) r (P : V -> Prop) : codec w r P ->
  codec (fun kv => wcat [write_string (fst kv); w (snd kv)]) (read_pair r)
        (fun kv => str_fits (fst kv) /\ P (snd kv)).
Proof.
  intros Hc [k v] bs s [Hk Hv] H. cbn [fst snd] in *. winv.
  unfold read_pair. rewrite app_nil_r, <- app_assoc.
  rewrite (rbind_step _ _ _ _ _ k (w1 ++ s)) by (apply string_roundtrip; auto).
  rewrite (rbind_step _ _ _ _ _ v s) by (apply Hc; auto). reflexivity.
Qed.

(** A Python dict of at most 2^35-1 entries. *)
Definition dict_fits {V} (P : V -> Prop) (d : sdict V) : Prop :=
  zlen d < 2 ^ 35 /\ NoDup (map fst d) /\ Forall (fun kv => str_fits (fst kv) /\ P (snd kv)) d.

Lemma dict_of_pairs_NoDup V (d : sdict V) : NoDup (map fst d) -> dict_of_pairs d = d.
Proof. intros H. unfold dict_of_pairs. rewrite (dict_fold_new _ streqb_eq); auto. Qed.

Lemma dict_codec V (w : V -> res bytes) r P : codec w r P ->
  codec (fun d => wcat (write_v_int (zlen d)
           :: map (fun kv => wcat [write_string (fst kv); w (snd kv)]) d))
        (read_dict r) (dict_fits P).
Proof.
  intros Hc d bs s (Hn & Hd & Hf) H. winv. unfold read_dict. rewrite <- app_assoc.
  pose proof (zlen_nonneg _ d).
  rewrite (rbind_step _ _ _ _ _ (zlen d) (bs0 ++ s)) by (apply v_int_roundtrip; auto; lia).
  destruct (zlen d =? 0) eqn:E.
  - assert (d = []) as -> by (apply zlen_0; lia). cbn [map] in Hbs. winv. reflexivity.
  - rewrite zlen_to_nat.
    rewrite (rbind_step _ _ _ _ _ d s) by
      (eapply seq_roundtrip; eauto; apply pair_codec; auto).
    unfold rret. rewrite dict_of_pairs_NoDup; auto.
Qed.

Lemma string_dict_codec :
  codec write_string_to_string_dict read_string_to_string_dict (dict_fits str_fits).
Proof. exact (dict_codec _ _ _ _ string_codec). Qed.

Lemma string_array_dict_codec :
  codec write_string_to_string_array_dict read_string_to_string_array_dict (dict_fits strs_fit).
Proof. exact (dict_codec _ _ _ _ string_array_codec). Qed.

(** ** sets: values are read back up to iteration order *)
Definition is_set_order (so : set_order) : Prop := forall l, Permutation (so l) l.

Lemma string_set_roundtrip so a bs s :
  strs_fit a -> NoDup a -> write_string_set a = Ok bs ->
  read_string_set so (bs ++ s) = Ok (so a, s).
Proof.
  intros Hf Hn H. unfold read_string_set.
  rewrite (rbind_step _ _ _ _ _ a s) by (apply string_array_codec; auto).
  unfold rret. rewrite set_of_list_NoDup; auto.
Qed.

(** General version: the reader returns [f a] for [a]. *)
Lemma seq_roundtrip_f A B (w : A -> res bytes) (r : reader B) (f : A -> B) (P : A -> Prop) :
  (forall a bs s, P a -> w a = Ok bs -> r (bs ++ s) = Ok (f a, s)) ->
  forall l bs s, Forall P l -> wcat (map w l) = Ok bs ->
  read_n r (length l) (bs ++ s) = Ok (map f l, s).
Proof.
  intros Hc. induction l as [|a l IH]; intros bs s HP H; cbn [map] in H; winv.
  - reflexivity.
  - inversion HP as [|? ? H1 H2]; subst. cbn [read_n length map]. rewrite <- app_assoc.
    rewrite (rbind_step _ _ _ _ _ (f a) (bs0 ++ s)) by (apply Hc; auto).
    rewrite (rbind_step _ _ _ _ _ (map f l) s) by (apply IH; auto). reflexivity.
Qed.

Lemma set_dict_roundtrip so d bs s :
  dict_fits (fun a => strs_fit a /\ NoDup a) d ->
  write_string_to_string_set_dict d = Ok bs ->
  read_string_to_string_set_dict so (bs ++ s) = Ok (map (fun kv => (fst kv, so (snd kv))) d, s).
Proof.
  intros (Hn & Hd & Hf) H. unfold write_string_to_string_set_dict in H. winv.
  unfold read_string_to_string_set_dict, read_dict. rewrite <- app_assoc.
  pose proof (zlen_nonneg _ d).
  rewrite (rbind_step _ _ _ _ _ (zlen d) (bs0 ++ s)) by (apply v_int_roundtrip; auto; lia).
  destruct (zlen d =? 0) eqn:E.
  - assert (d = []) as -> by (apply zlen_0; lia). cbn [map] in Hbs. winv. reflexivity.
  - rewrite zlen_to_nat.
    rewrite (rbind_step _ _ _ _ _ (map (fun kv => (fst kv, so (snd kv))) d) s).
    + unfold rret. rewrite dict_of_pairs_NoDup; auto. rewrite map_map. cbn [fst]. exact Hd.
    + eapply seq_roundtrip_f; [|eassumption|eassumption].
      intros [k v] bs1 s1 (Hk & Hv & Hvn) H1. cbn [fst snd] in *. winv.
      unfold read_pair. rewrite app_nil_r, <- app_assoc.
      rewrite (rbind_step _ _ _ _ _ k (w1 ++ s1)) by (apply string_roundtrip; auto).
      rewrite (rbind_step _ _ _ _ _ (so v) s1) by (apply string_set_roundtrip; auto).
      reflexivity.
Qed.
