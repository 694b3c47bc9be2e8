(** * The SDK follows the wire format: primitive types *)
From Coq Require Import ZArith List Bool Lia ZifyBool Permutation.
From Coq Require Import Strings.Byte.
From Verif Require Import Py Stream Version Frame Proto Messages Rest Settings PyFacts Utf8Facts
  StreamFacts StreamFacts2 Spec SpecFacts Wire MsgFacts.
Import ListNotations.
Open Scope list_scope.
Open Scope Z_scope.
Ltac Zify.zify_post_hook ::= Z.to_euclidean_division_equations.

(** ** parts *)
Lemma parts_cons_inv P l bs : parts (P :: l) bs -> exists a b, bs = a ++ b /\ P a /\ parts l b.
Proof. intros H. inversion H; subst. eauto. Qed.
Lemma parts_nil_inv bs : parts [] bs -> bs = [].
Proof. intros H. inversion H. reflexivity. Qed.
Lemma parts_one (P : bytes -> Prop) a : P a -> parts [P] a.
Proof. intros H. rewrite <- (app_nil_r a). constructor; [exact H|constructor]. Qed.
Lemma wcat_parts ws Ps :
  Forall2 (fun w P => exists b, w = Ok b /\ P b) ws Ps -> exists bs, wcat ws = Ok bs /\ parts Ps bs.
Proof.
  induction 1 as [|w P ws Ps (b & W & Hb) _ (bs & Ws & Hbs)]; [exists []; split; [reflexivity|constructor]|].
  exists (b ++ bs). split; [apply wcat_cons_eq; assumption|constructor; assumption].
Qed.
(** open [parts] in a hypothesis *)
Ltac parts_in H := let a := fresh "a" in let b := fresh "b" in let P := fresh "P" in
  first [ apply parts_nil_inv in H; subst
        | apply parts_cons_inv in H as (a & b & -> & P & H); parts_in H ].

(** ** vInts *)
Lemma leb128_range bs i : leb128 bs i -> 0 <= i < 128 ^ zlen bs.
Proof.
  induction 1 as [b Hb|b bs i Hb H IH].
  - pose proof (b2z_range b). change (zlen [b]) with 1. lia.
  - rewrite zlen_cons, Z.pow_add_r by (pose proof (zlen_nonneg _ bs); lia).
    pose proof (b2z_range b). change (128 ^ 1) with 128. lia.
Qed.
Lemma vgroups_leb k : forall bs i s sh acc fin,
  0 <= sh -> 0 <= acc < 2 ^ sh -> leb128 bs i ->
  ((length bs <= k)%nat -> vgroups k sh acc fin (bs ++ s) = Ok (acc + i * 2 ^ sh, s)) /\
  ((k < length bs)%nat -> exists lo hi bs', vgroups k sh acc fin (bs ++ s) = fin (acc + lo * 2 ^ sh) (bs' ++ s) /\
     leb128 bs' hi /\ i = lo + hi * 2 ^ (7 * Z.of_nat k) /\ 0 <= lo < 2 ^ (7 * Z.of_nat k) /\
     (length bs = k + length bs')%nat).
Proof.
  induction k as [|k IH]; intros bs i s sh acc fin Hsh Hacc Hl.
  { split; [destruct Hl; cbn [length]; lia|]. intros _. exists 0, i, bs. change (2 ^ (7 * Z.of_nat 0)) with 1.
    cbn [vgroups]. replace (acc + 0 * 2 ^ sh) with acc by lia. repeat split; auto; lia. }
  destruct Hl as [b Hb|b bs i Hb Hl].
  - split; [intros _|cbn [length]; lia]. cbn [vgroups app].
    rewrite (rbind_step _ _ _ _ _ _ _ (read_byte_cons _ _)). cbv zeta.
    rewrite sbyte_land_7f, sbyte_land_80. pose proof (b2z_range b).
    replace (b2z b <? 128) with true by lia. unfold rret.
    rewrite (Z.mod_small (b2z b) 128) by lia. rewrite lor_shiftl_add by lia. reflexivity.
  - pose proof (b2z_range b) as Rb.
    assert (E : forall s', vgroups (S k) sh acc fin (b :: s') = vgroups k (sh + 7) (acc + (b2z b - 128) * 2 ^ sh) fin s').
    { intros s'. cbn [vgroups]. rewrite (rbind_step _ _ _ _ _ _ _ (read_byte_cons _ _)). cbv zeta.
      rewrite sbyte_land_7f, sbyte_land_80. replace (b2z b <? 128) with false by lia.
      replace (b2z b mod 128) with (b2z b - 128) by lia. rewrite lor_shiftl_add by lia. reflexivity. }
    cbn [app length]. rewrite E.
    set (Q := 2 ^ sh) in *.
    assert (HQ : 0 < Q) by (unfold Q; apply Z.pow_pos_nonneg; lia).
    assert (HQ7 : 2 ^ (sh + 7) = Q * 128) by (unfold Q; rewrite Z.pow_add_r by lia; reflexivity).
    destruct (IH bs i s (sh + 7) (acc + (b2z b - 128) * Q) fin) as [IH1 IH2]; auto; try lia.
    { rewrite HQ7. clearbody Q. nia. }
    rewrite HQ7 in IH1, IH2. split.
    + intros Hk. rewrite IH1 by lia. do 2 f_equal. ring.
    + intros Hk. destruct IH2 as (lo & hi & bs' & V & L & Ei & Hlo & Hn); [lia|].
      exists (b2z b - 128 + 128 * lo), hi, bs'. rewrite V. split; [f_equal; ring|]. split; [exact L|].
      replace (7 * Z.of_nat (S k)) with (7 + 7 * Z.of_nat k) by lia. rewrite Z.pow_add_r by lia.
      change (2 ^ 7) with 128. set (P := 2 ^ (7 * Z.of_nat k)) in *. split; [subst i; ring|]. split; lia.
Qed.
Lemma vgroups_only k : forall s n s' sh acc fin, 0 <= sh -> 0 <= acc < 2 ^ sh ->
  (forall a s n s', fin a s = Ok (n, s') -> exists p, s = p ++ s') ->
  vgroups k sh acc fin s = Ok (n, s') -> s' <> [] ->
  (exists bs i, s = bs ++ s' /\ leb128 bs i /\ n = acc + i * 2 ^ sh /\ (length bs <= k)%nat) \/
  (exists p lo s1, s = p ++ s1 /\ length p = k /\ fin (acc + lo * 2 ^ sh) s1 = Ok (n, s') /\
     0 <= lo < 2 ^ (7 * Z.of_nat k) /\
     forall bs hi, leb128 bs hi -> leb128 (p ++ bs) (lo + hi * 2 ^ (7 * Z.of_nat k))).
Proof.
  induction k as [|k IH]; intros s n s' sh acc fin Hsh Hacc Hfin H Hne.
  { right. exists [], 0, s. change (2 ^ (7 * Z.of_nat 0)) with 1. cbn [vgroups app length] in *.
    replace (acc + 0 * 2 ^ sh) with acc by lia. repeat split; auto; try lia.
    intros bs hi L. replace (0 + hi * 1) with hi by lia. exact L. }
  assert (Hloc : forall k sh acc s n s', vgroups k sh acc fin s = Ok (n, s') -> exists p, s = p ++ s').
  { clear - Hfin. induction k as [|k IH]; intros sh acc s n s' H; cbn [vgroups] in H; [apply (Hfin _ _ _ _ H)|].
    apply rbind_ok in H as (b & s1 & R & H). destruct (local_read_byte _ _ _ R) as (p & -> & _).
    destruct (Z.land b 128 =? 0).
    - apply Ok_inj, pair_equal_spec in H as [_ <-]. eauto.
    - apply IH in H as (q & ->). exists (p ++ q). apply app_assoc. }
  destruct s as [|b s].
  { destruct (Hloc _ _ _ _ _ _ H) as (p & Hp). symmetry in Hp. apply app_eq_nil in Hp as [_ ->]. contradiction. }
  cbn [vgroups] in H. rewrite (rbind_step _ _ _ _ _ _ _ (read_byte_cons _ _)) in H. cbv zeta in H.
  rewrite sbyte_land_7f, sbyte_land_80 in H. pose proof (b2z_range b) as Rb.
  rewrite lor_shiftl_add in H by lia. destruct (Z.ltb_spec (b2z b) 128) as [Hb|Hb].
  - left. apply Ok_inj, pair_equal_spec in H as [<- <-]. exists [b], (b2z b).
    rewrite Z.mod_small by lia. repeat split; auto; [constructor; exact Hb|cbn [length]; lia].
  - replace (b2z b mod 128) with (b2z b - 128) in H by lia.
    set (Q := 2 ^ sh) in *.
    assert (HQ : 0 < Q) by (unfold Q; apply Z.pow_pos_nonneg; lia).
    assert (HQ7 : 2 ^ (sh + 7) = Q * 128) by (unfold Q; rewrite Z.pow_add_r by lia; reflexivity).
    apply IH in H; auto; try lia; [|rewrite HQ7; clearbody Q; nia].
    rewrite HQ7 in H. destruct H as [(bs & i & -> & L & -> & Hn)|(p & lo & s1 & -> & Hp & F & Hlo & G)].
    + left. exists (b :: bs), (b2z b - 128 + 128 * i). split; [reflexivity|]. split; [constructor; assumption|].
      split; [ring|cbn [length]; lia].
    + right. exists (b :: p), (b2z b - 128 + 128 * lo), s1. split; [reflexivity|]. cbn [length]. split; [lia|].
      split; [rewrite <- F; f_equal; ring|].
      replace (7 * Z.of_nat (S k)) with (7 + 7 * Z.of_nat k) by lia. rewrite Z.pow_add_r by lia.
      change (2 ^ 7) with 128. set (P := 2 ^ (7 * Z.of_nat k)) in *. split; [lia|].
      intros bs hi L. replace (b2z b - 128 + 128 * lo + hi * (128 * P)) with (b2z b - 128 + 128 * (lo + hi * P)) by ring.
      cbn [app]. constructor; [exact Hb|apply G, L].
Qed.

Lemma leb128_cons_inv b bs i : leb128 (b :: bs) i ->
  (bs = [] /\ i = b2z b /\ b2z b < 128) \/ (128 <= b2z b /\ exists j, leb128 bs j /\ i = b2z b - 128 + 128 * j).
Proof. intros H. inversion H; subst; [left; auto|right; eauto]. Qed.
Lemma leb128_nonempty bs i : leb128 bs i -> bs <> [].
Proof. destruct 1; discriminate. Qed.

Lemma v_int_reads strict : reads read_v_int (w_vint strict) (fun _ => True).
Proof.
  intros i bs s _ (L & Hn & _). rewrite read_v_int_groups.
  destruct (vgroups_leb 4 bs i s 0 0 fin_int) as [H1 H2]; auto; try lia.
  change (2 ^ 0) with 1 in *. change (2 ^ (7 * Z.of_nat 4)) with (2 ^ 28) in *. unfold zlen in Hn.
  destruct (le_lt_dec (length bs) 4) as [Hs|Hb].
  - rewrite H1 by exact Hs. do 2 f_equal. lia.
  - destruct (H2 Hb) as (lo & hi & bs' & V & L' & E & Hlo & Hl). rewrite V. clear V H1 H2.
    destruct bs' as [|b [|? ?]]; [apply leb128_nonempty in L'; contradiction| |cbn [length] in Hl; lia].
    apply leb128_cons_inv in L' as [(_ & -> & Hb')|(_ & j & L' & _)]; [|apply leb128_nonempty in L'; contradiction].
    pose proof (b2z_range b). unfold fin_int. cbn [app].
    rewrite (rbind_step _ _ _ _ _ _ _ (read_byte_cons _ _)).
    rewrite sbyte_land_7f, sbyte_land_80. replace (b2z b <? 128) with true by lia. cbn [negb]. unfold rret.
    rewrite (Z.mod_small (b2z b)) by lia. rewrite lor_shiftl_add by lia. do 2 f_equal. lia.
Qed.
Lemma fin_int_suffix a s n s' : fin_int a s = Ok (n, s') -> exists p, s = p ++ s'.
Proof.
  unfold fin_int. intros H. apply rbind_ok in H as (b & s1 & R & H).
  destruct (local_read_byte _ _ _ R) as (p & -> & _). destruct (negb _); [discriminate|].
  apply Ok_inj, pair_equal_spec in H as [_ <-]. eauto.
Qed.
Lemma v_int_only : reads_only read_v_int (w_vint false).
Proof.
  intros s n s' H Hne. rewrite read_v_int_groups in H.
  apply vgroups_only in H; auto; try lia; [|apply fin_int_suffix].
  change (2 ^ 0) with 1 in *. change (2 ^ (7 * Z.of_nat 4)) with (2 ^ 28) in *.
  destruct H as [(bs & i & -> & L & -> & Hn)|(p & lo & s1 & -> & Hp & F & Hlo & G)].
  - exists bs. split; [reflexivity|]. split; [replace (0 + i * 1) with i by lia; exact L|].
    split; [unfold zlen; lia|exact I].
  - pose proof F as F'. apply fin_int_suffix in F' as (q & ->). unfold fin_int in F.
    apply rbind_ok in F as (b & s2 & R & F). destruct q as [|c q].
    { destruct s' as [|c s']; [contradiction|]. cbn [app] in R. rewrite read_byte_cons in R.
      apply Ok_inj, pair_equal_spec in R as [<- <-]. destruct (negb _); [discriminate|].
      apply Ok_inj, pair_equal_spec in F as [_ F]. apply (f_equal (@length _)) in F. cbn in F. lia. }
    cbn [app] in R. rewrite read_byte_cons in R. apply Ok_inj, pair_equal_spec in R as [<- <-].
    rewrite sbyte_land_7f, sbyte_land_80 in F. destruct (Z.ltb_spec (b2z c) 128) as [Hc|Hc]; [|discriminate].
    cbn [negb] in F. apply Ok_inj, pair_equal_spec in F as [<- F].
    assert (q = []) as -> by (apply (app_inv_tail s'); exact F).
    exists (p ++ [c]). split; [rewrite <- app_assoc; reflexivity|]. pose proof (b2z_range c).
    rewrite (Z.mod_small (b2z c)) by lia. rewrite lor_shiftl_add by lia. split.
    + replace (0 + lo * 1 + b2z c * 2 ^ 28) with (lo + b2z c * 2 ^ 28) by lia. apply G. constructor. exact Hc.
    + split; [|exact I]. rewrite zlen_app. unfold zlen. cbn [length]. lia.
Qed.

Lemma v_long_reads strict : reads read_v_long (w_vlong strict) (fun _ => True).
Proof.
  intros i bs s _ (L & Hi & Hn & _). rewrite read_v_long_groups.
  destruct (vgroups_leb 9 bs i s 0 0 fin_long) as [H1 H2]; auto; try lia.
  change (2 ^ 0) with 1 in *. change (2 ^ (7 * Z.of_nat 9)) with (2 ^ 63) in *. unfold zlen in Hn.
  destruct (le_lt_dec (length bs) 9) as [Hs|Hb].
  - rewrite H1 by exact Hs. do 2 f_equal. lia.
  - destruct (H2 Hb) as (lo & hi & bs' & V & L' & E & Hlo & Hl). rewrite V. clear V H1 H2.
    destruct bs' as [|b [|? ?]]; [apply leb128_nonempty in L'; contradiction| |cbn [length] in Hl; lia].
    apply leb128_cons_inv in L' as [(_ & -> & Hb')|(_ & j & L' & _)]; [|apply leb128_nonempty in L'; contradiction].
    pose proof (b2z_range b). unfold fin_long. cbn [app].
    rewrite (rbind_step _ _ _ _ _ _ _ (read_byte_cons _ _)). rewrite sbyte_small by exact Hb'.
    assert (b2z b < 2) by (change (2 ^ 64) with (2 * 2 ^ 63) in Hi; lia).
    replace (negb (b2z b =? 0) && negb (b2z b =? 1)) with false by lia. unfold rret.
    rewrite lor_shiftl_add by lia. do 2 f_equal. lia.
Qed.
Lemma fin_long_suffix a s n s' : fin_long a s = Ok (n, s') -> exists p, s = p ++ s'.
Proof.
  unfold fin_long. intros H. apply rbind_ok in H as (b & s1 & R & H).
  destruct (local_read_byte _ _ _ R) as (p & -> & _). destruct (_ && _); [discriminate|].
  apply Ok_inj, pair_equal_spec in H as [_ <-]. eauto.
Qed.
Lemma sbyte_01 c : sbyte c = 0 \/ sbyte c = 1 -> sbyte c = b2z c /\ b2z c < 128.
Proof. destruct c; vm_compute; intuition discriminate. Qed.
Lemma v_long_only : reads_only read_v_long (w_vlong false).
Proof.
  intros s n s' H Hne. rewrite read_v_long_groups in H.
  apply vgroups_only in H; auto; try lia; [|apply fin_long_suffix].
  change (2 ^ 0) with 1 in *. change (2 ^ (7 * Z.of_nat 9)) with (2 ^ 63) in *.
  destruct H as [(bs & i & -> & L & -> & Hn)|(p & lo & s1 & -> & Hp & F & Hlo & G)].
  - exists bs. split; [reflexivity|]. replace (0 + i * 1) with i by lia. split; [exact L|].
    pose proof (leb128_range _ _ L) as [_ Hi]. split; [|split; [unfold zlen; lia|exact I]].
    eapply Z.lt_le_trans; [exact Hi|]. transitivity (128 ^ 9); [|vm_compute; discriminate].
    apply Z.pow_le_mono_r; unfold zlen; lia.
  - pose proof F as F'. apply fin_long_suffix in F' as (q & ->). unfold fin_long in F.
    apply rbind_ok in F as (b & s2 & R & F). destruct q as [|c q].
    { destruct s' as [|c s']; [contradiction|]. cbn [app] in R. rewrite read_byte_cons in R.
      apply Ok_inj, pair_equal_spec in R as [<- <-]. destruct (_ && _); [discriminate|].
      apply Ok_inj, pair_equal_spec in F as [_ F]. apply (f_equal (@length _)) in F. cbn in F. lia. }
    cbn [app] in R. rewrite read_byte_cons in R. apply Ok_inj, pair_equal_spec in R as [<- <-].
    destruct (negb (sbyte c =? 0) && negb (sbyte c =? 1)) eqn:Ec; [discriminate|].
    assert (C : sbyte c = 0 \/ sbyte c = 1) by lia. pose proof (sbyte_01 c C) as [Es Hc]. rewrite Es in *.
    apply Ok_inj, pair_equal_spec in F as [<- F].
    assert (q = []) as -> by (apply (app_inv_tail s'); exact F).
    exists (p ++ [c]). split; [rewrite <- app_assoc; reflexivity|].
    rewrite lor_shiftl_add by lia. replace (0 + lo * 1 + b2z c * 2 ^ 63) with (lo + b2z c * 2 ^ 63) by lia. split.
    + apply G. constructor. exact Hc.
    + change (2 ^ 64) with (2 * 2 ^ 63). split; [lia|]. split; [|exact I].
      rewrite zlen_app. unfold zlen. cbn [length]. lia.
Qed.

(** writers *)
Lemma write_v_int_format i : 0 <= i -> exists bs, write_v_int i = Ok bs /\ leb128 bs i /\ shortest bs /\
  forall k, 1 <= k -> i < 128 ^ k -> zlen bs <= k.
Proof.
  intros Hi. destruct (write_v_int_leb i Hi) as (bs & W & L). exists bs. split; [exact W|]. split; [exact L|].
  split; [|intros k; rewrite <- (v_int_size_correct _ _ W); apply v_int_size_least, Hi].
  revert bs W L. revert i Hi. apply (vint_ind (fun i => forall bs, write_v_int i = Ok bs -> leb128 bs i -> shortest bs)).
  - intros i Hi bs W _. rewrite write_v_int_small in W by exact Hi. apply Ok_inj in W. subst bs. intros _. reflexivity.
  - intros i Hi IH bs W L. rewrite write_v_int_big in W by exact Hi. apply bind_ok in W as (l & W & E).
    apply Ok_inj in E. subst bs. inversion L as [b Hb Eb|b l' j Hb L' Eb]; subst.
    { exfalso. destruct (write_v_int_leb (i / 128)) as (l' & W' & L''); [lia|]. rewrite W in W'. apply Ok_inj in W'. subst l'.
      inversion L''. }
    rewrite b2z_z2b_small in * by lia. intros Hz. exfalso.
    assert (Ej : j = i / 128) by lia. rewrite Ej in L'. specialize (IH l W L').
    assert (Hl : forall c, last (c :: l) x00 = last l x00)
      by (apply leb128_nonempty in L'; destruct l; [contradiction|reflexivity]).
    rewrite Hl in Hz. specialize (IH Hz). destruct l as [|c [|? ?]]; [discriminate| |rewrite !zlen_cons in IH; pose proof (zlen_nonneg _ l); lia].
    cbn in Hz. subst c. inversion L' as [c Hc E|c l' j' Hc L'' E]; subst; [|inversion L''].
    change (b2z x00) with 0 in *. lia.
Qed.
Lemma v_int_writes strict : writes write_v_int (w_vint strict) (fun i => 0 <= i < 2 ^ 35).
Proof.
  intros i Hi. destruct (write_v_int_format i) as (bs & W & L & S & K); [lia|]. exists bs. split; [exact W|].
  split; [exact L|]. split; [apply (K 5); [lia|]; change (128 ^ 5) with (2 ^ 35); lia|]. destruct strict; [exact S|exact I].
Qed.
Lemma v_long_writes strict : writes write_v_long (w_vlong strict) (fun i => 0 <= i < 2 ^ 64).
Proof.
  intros i Hi. destruct (write_v_int_format i) as (bs & W & L & S & K); [lia|]. exists bs. split; [exact W|].
  split; [exact L|]. split; [lia|]. split; [|destruct strict; [exact S|exact I]].
  apply (K 10); [lia|]. eapply Z.lt_trans; [apply Hi|]. vm_compute. reflexivity.
Qed.
