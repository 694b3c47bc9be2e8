(** * The stream model meets the specifications of Spec.v *)
From Coq Require Import ZArith List Bool Lia ZifyBool Permutation.
From Coq Require Import Strings.Byte.
From Verif Require Import Py Stream PyFacts Utf8Facts StreamFacts StreamFacts2 Spec.
Import ListNotations.
Open Scope Z_scope.
Ltac Zify.zify_post_hook ::= Z.div_mod_to_equations.

(** ** combinators *)
Lemma survives_codec A (w : A -> res bytes) r P : survives w r P ->
  forall a bs s, P a -> w a = Ok bs -> r (bs ++ s) = Ok (a, s).
Proof.
  intros H a bs s Ha Hw. destruct (H a Ha) as [bs' [Hw' Hr]].
  rewrite Hw' in Hw. apply Ok_inj in Hw. subst. apply Hr.
Qed.

Lemma codec_survives A (w : A -> res bytes) r (P : A -> Prop) :
  (forall a, P a -> exists bs, w a = Ok bs) -> codec w r P -> survives w r P.
Proof.
  intros Ht Hc a Ha. destruct (Ht a Ha) as [bs Hw]. exists bs. split; [exact Hw|].
  intros s. apply Hc; assumption.
Qed.

Lemma survives_weaken A (w : A -> res bytes) r (P Q : A -> Prop) :
  (forall a, Q a -> P a) -> survives w r P -> survives w r Q.
Proof. intros H S a Ha. apply S, H, Ha. Qed.

Lemma wcat_total l : Forall (fun w => exists b, w = Ok b) l -> exists b, wcat l = Ok b.
Proof.
  induction 1 as [|w l [b Hb] Hl [b' IH]]; [exists []; reflexivity|].
  exists (b ++ b'). cbn [wcat]. rewrite Hb. cbn [bind]. rewrite IH. reflexivity.
Qed.

(** ** integers *)
Lemma be_value_app a b : be_value (a ++ b) = be_value a * 256 ^ zlen b + be_value b.
Proof.
  induction a as [|x a IH]; [reflexivity|]. cbn [be_value app]. rewrite IH, zlen_app.
  rewrite Z.pow_add_r by (unfold zlen; lia). ring.
Qed.
Lemma be_value_bytes n v : be_value (be_bytes n v) = v mod 256 ^ Z.of_nat n.
Proof.
  revert v. induction n as [|n IH]; intros v.
  - cbn. rewrite Z.mod_1_r. reflexivity.
  - cbn [be_bytes]. rewrite be_value_app, IH.
    change (zlen [z2b v]) with 1. cbn [be_value]. change (zlen (@nil byte)) with 0.
    rewrite Z.pow_0_r, Z.mul_1_r, Z.add_0_r, Z.pow_1_r.
    replace (b2z (z2b v)) with (v mod 256).
    2:{ symmetry. apply b2z_z2b. }
    rewrite Nat2Z.inj_succ, Z.pow_succ_r by lia.
    rewrite Z.rem_mul_r by (try lia; apply Z.pow_pos_nonneg; lia). ring.
Qed.

Lemma twos_complement_gen n w r :
  (0 < n)%nat -> (forall i, w i = to_bytes_signed n i) ->
  (forall i bs s, w i = Ok bs -> r (bs ++ s) = Ok (i, s)) ->
  twos_complement n w r.
Proof.
  intros Hn Hw Hr i. split.
  - intros Hi.
    assert (E : w i = Ok (be_bytes n (i mod 2 ^ (8 * Z.of_nat n)))).
    { rewrite Hw. unfold to_bytes_signed.
      replace (2 * 2 ^ (8 * Z.of_nat n - 1)) with (2 ^ (8 * Z.of_nat n)).
      2:{ replace (8 * Z.of_nat n) with (Z.succ (8 * Z.of_nat n - 1)) at 1 by lia.
          rewrite Z.pow_succ_r by lia. reflexivity. }
      destruct (Z.leb_spec (- 2 ^ (8 * Z.of_nat n - 1)) i); [|lia].
      destruct (Z.ltb_spec i (2 ^ (8 * Z.of_nat n - 1))); [|lia]. reflexivity. }
    eexists. split; [exact E|]. split; [apply be_bytes_length|]. split.
    + rewrite be_value_bytes. rewrite <- (Z.pow_mul_r 2 8) by lia.
      change (2 ^ 8) with 256. rewrite Z.mod_mod; [reflexivity|].
      apply Z.pow_nonzero; lia.
    + intros s. apply Hr. exact E.
  - intros Hi. rewrite Hw. unfold to_bytes_signed.
    destruct (Z.leb_spec (- 2 ^ (8 * Z.of_nat n - 1)) i); [|reflexivity].
    destruct (Z.ltb_spec i (2 ^ (8 * Z.of_nat n - 1))); [|reflexivity]. lia.
Qed.

Lemma fixed_width_ints :
  twos_complement 1 write_byte read_byte /\
  twos_complement 4 write_int read_int /\
  twos_complement 8 write_long read_long.
Proof.
  split; [|split]; apply twos_complement_gen; try lia; try reflexivity.
  - apply byte_roundtrip. - apply int_roundtrip. - apply long_roundtrip.
Qed.

Lemma write_v_int_leb i : 0 <= i -> exists bs, write_v_int i = Ok bs /\ leb128 bs i.
Proof.
  revert i. apply vint_ind.
  - intros i Hi. rewrite write_v_int_small by exact Hi. eexists. split; [reflexivity|].
    assert (E : b2z (z2b i) = i) by (apply b2z_z2b_small; lia).
    rewrite <- E at 2. constructor. lia.
  - intros i Hi [bs [Hw Hl]]. rewrite write_v_int_big by exact Hi. rewrite Hw.
    eexists. split; [reflexivity|].
    assert (E : b2z (z2b (i mod 128 + 128)) = i mod 128 + 128) by (apply b2z_z2b_small; lia).
    replace i with (b2z (z2b (i mod 128 + 128)) - 128 + 128 * (i / 128)) at 2 by lia.
    constructor; [lia|exact Hl].
Qed.

Lemma v_int_wire i : 0 <= i ->
  exists bs, write_v_int i = Ok bs /\ leb128 bs i /\
    forall s, (i < 2 ^ 35 -> read_v_int (bs ++ s) = Ok (i, s)) /\
              (2 ^ 35 <= i -> exists e, read_v_int (bs ++ s) = Raise e).
Proof.
  intros Hi. destruct (write_v_int_leb i Hi) as [bs [Hw Hl]].
  exists bs. split; [exact Hw|]. split; [exact Hl|]. intros s. split; intros H.
  - apply v_int_roundtrip; [lia|exact Hw].
  - exists EGeneric. apply v_int_reject with i; assumption.
Qed.

Lemma v_long_wire i : 0 <= i ->
  exists bs, write_v_long i = Ok bs /\ leb128 bs i /\
    forall s, (i < 2 ^ 64 -> read_v_long (bs ++ s) = Ok (i, s)) /\
              (2 ^ 64 <= i -> exists e, read_v_long (bs ++ s) = Raise e).
Proof.
  intros Hi. destruct (write_v_int_leb i Hi) as [bs [Hw Hl]].
  exists bs. split; [exact Hw|]. split; [exact Hl|]. intros s. split; intros H.
  - apply v_long_roundtrip; [lia|exact Hw].
  - exists EGeneric. apply v_long_reject with i; assumption.
Qed.

(** the encoding is canonical: distinct numbers get distinct bytes, and no encoding is a
    proper prefix of another *)
Lemma leb128_prefix_free a i b j s t : leb128 a i -> leb128 b j -> a ++ s = b ++ t -> a = b /\ i = j.
Proof.
  intros Ha. revert b j. induction Ha as [x Hx|x a i Hx Ha IH]; intros b j Hb E;
    inversion Hb as [y Hy|y b' j' Hy Hb']; subst; cbn [app] in E.
  - injection E as -> _. split; reflexivity.
  - injection E as -> _. lia.
  - injection E as -> _. lia.
  - injection E as -> E. destruct (IH _ _ Hb' E) as [-> ->]. split; reflexivity.
Qed.

Lemma z_long_wire i :
  (Z.abs i < 2 ^ 63 -> exists bs, write_z_long i = Ok bs /\
                       forall s, read_z_long (bs ++ s) = Ok (i, s)) /\
  (2 ^ 63 <= Z.abs i -> write_z_long i = Raise EValue).
Proof.
  split; intros H.
  - destruct (write_z_long_ok i H) as [bs Hw]. exists bs. split; [exact Hw|].
    intros s. apply z_long_roundtrip, Hw.
  - apply write_z_long_raise, H.
Qed.

Lemma z_long_not_zigzag : exists i, - 2 ^ 63 <= i < 2 ^ 63 /\
  write_z_long i <> write_v_long (zigzag i).
Proof. exists (-1). split; [lia|]. vm_compute. discriminate. Qed.

Lemma z_long_read_zigzag i : - 2 ^ 63 <= i < 2 ^ 63 ->
  exists bs, write_v_long (zigzag i) = Ok bs /\
    forall s, read_z_long (bs ++ s) = Ok (if i <? 0 then i + 1 else i, s).
Proof.
  intros Hi. unfold zigzag.
  assert (Hz : 0 <= (if i <? 0 then -2 * i - 1 else 2 * i) < 2 ^ 64)
    by (destruct (Z.ltb_spec i 0); lia).
  destruct (write_v_int_leb _ (proj1 Hz)) as [bs [Hw _]]. exists bs. split; [exact Hw|].
  intros s. unfold read_z_long. rewrite rbind_step with (1 := v_long_roundtrip _ bs s Hz Hw).
  unfold rret. f_equal. f_equal.
  change (Z.land ?a 1) with (Z.land a (Z.ones 1)). rewrite Z.land_ones, Z.shiftr_div_pow2 by lia.
  change (2 ^ 1) with 2.
  destruct (Z.ltb_spec i 0).
  - replace ((-2 * i - 1) mod 2) with 1 by lia. cbn [Z.eqb]. lia.
  - replace ((2 * i) mod 2) with 0 by lia. cbn [Z.eqb]. lia.
Qed.

Lemma z_long_nonneg_zigzag i : 0 <= i < 2 ^ 63 -> write_z_long i = write_v_long (zigzag i).
Proof.
  intros Hi. unfold write_z_long, zigzag. destruct (Z.ltb_spec i 0); [lia|].
  rewrite Z.abs_eq by lia. rewrite Z.shiftr_div_pow2 by lia.
  replace ((2 * i + 0) / 2 ^ 64) with 0 by (symmetry; apply Z.div_small; lia).
  cbn [Z.ltb Z.compare]. f_equal. lia.
Qed.

(** ** text *)
Lemma scalar_is_scalar c : scalar c <-> is_scalar c.
Proof. reflexivity. Qed.

Lemma utf8_enc1_char c bs : utf8_enc1 c = Ok bs -> utf8_char c (map b2z bs).
Proof.
  unfold utf8_enc1.
  destruct (Z.ltb_spec c 0) as [?|H0]; [discriminate|].
  destruct (Z.ltb_spec c 0x80).
  { intros E; apply Ok_inj in E; subst. cbn [map]. rewrite b2z_z2b_small by lia. constructor; lia. }
  destruct (Z.ltb_spec c 0x800).
  { intros E; apply Ok_inj in E; subst. cbn [map]. rewrite !b2z_z2b_small by lia.
    replace c with (c / 64 * 0x40 + c mod 64) at 1 by lia. constructor; lia. }
  destruct (Z.ltb_spec c 0x10000).
  { destruct (Z.leb_spec 0xD800 c), (Z.ltb_spec c 0xE000); cbn [andb];
      intros E; try discriminate; apply Ok_inj in E; subst; cbn [map];
      rewrite !b2z_z2b_small by lia;
      replace c with (c / 4096 * 0x1000 + (c / 64) mod 64 * 0x40 + c mod 64) at 1 by lia;
      constructor; unfold scalar; lia. }
  destruct (Z.ltb_spec c 0x110000); [|discriminate].
  intros E; apply Ok_inj in E; subst; cbn [map]. rewrite !b2z_z2b_small by lia.
  replace c with (c / 262144 * 0x40000 + (c / 4096) mod 64 * 0x1000
                  + (c / 64) mod 64 * 0x40 + c mod 64) at 1 by lia.
  constructor; lia.
Qed.

Lemma z2b_b2z_eq b z : b2z b = z -> z2b z = b.
Proof. apply b_eq. Qed.

Lemma utf8_char_enc1 c bs : utf8_char c (map b2z bs) -> utf8_enc1 c = Ok bs.
Proof.
  intros H. remember (map b2z bs) as l eqn:El.
  assert (Eb : forall l', map b2z bs = l' -> bs = map z2b l').
  { intros l' <-. rewrite map_map. rewrite <- map_id at 1. apply map_ext.
    intros b. symmetry. apply z2b_b2z_eq. reflexivity. }
  unfold utf8_enc1.
  inversion H; subst c l; apply Eb in El || match goal with E : _ = map b2z bs |- _ =>
     symmetry in E; apply Eb in E end; subst bs; cbn [map] in *; unfold scalar in *.
  - ifs. reflexivity.
  - ifs. repeat f_equal; lia.
  - destruct (Z.ltb_spec (z * 4096 + y * 64 + x) 0); [lia|].
    destruct (Z.ltb_spec (z * 4096 + y * 64 + x) 128); [lia|].
    destruct (Z.ltb_spec (z * 4096 + y * 64 + x) 2048); [lia|].
    destruct (Z.ltb_spec (z * 4096 + y * 64 + x) 65536); [|lia].
    destruct (Z.leb_spec 55296 (z * 4096 + y * 64 + x)),
             (Z.ltb_spec (z * 4096 + y * 64 + x) 57344); try lia; cbn [andb];
    repeat f_equal; lia.
  - destruct (Z.ltb_spec (u * 262144 + z * 4096 + y * 64 + x) 0); [lia|].
    destruct (Z.ltb_spec (u * 262144 + z * 4096 + y * 64 + x) 128); [lia|].
    destruct (Z.ltb_spec (u * 262144 + z * 4096 + y * 64 + x) 2048); [lia|].
    destruct (Z.ltb_spec (u * 262144 + z * 4096 + y * 64 + x) 65536); [lia|].
    destruct (Z.ltb_spec (u * 262144 + z * 4096 + y * 64 + x) 1114112); [|lia].
    repeat f_equal; lia.
Qed.

Lemma utf8_encode_cons c t : utf8_encode (c :: t) =
  (a <- utf8_enc1 c ;; b <- utf8_encode t ;; Ok (a ++ b)).
Proof. reflexivity. Qed.

Lemma is_utf8_encode x e : is_utf8 x e <-> utf8_encode x = Ok e.
Proof.
  unfold is_utf8. split.
  - revert e. induction x as [|c x IH]; intros e H.
    + inversion H as [E|]. destruct e; [reflexivity|discriminate].
    + inversion H as [|c' bs t bt Hc Ht E1 E2]. subst.
      symmetry in E2. destruct (map_eq_app _ _ _ _ E2) as [e1 [e2 [-> [<- <-]]]].
      rewrite utf8_encode_cons. rewrite (utf8_char_enc1 _ _ Hc). cbn [bind].
      rewrite (IH _ Ht). reflexivity.
  - revert e. induction x as [|c x IH]; intros e H.
    + apply Ok_inj in H. subst. constructor.
    + rewrite utf8_encode_cons in H.
      destruct (utf8_enc1 c) as [a|] eqn:Ea; [|discriminate]. cbn [bind] in H.
      destruct (utf8_encode x) as [b|] eqn:Eb; [|discriminate]. cbn [bind] in H.
      apply Ok_inj in H. subst. rewrite map_app. constructor.
      * apply utf8_enc1_char, Ea.
      * apply IH. reflexivity.
Qed.

Lemma text_ok_fits x : text_ok x -> str_fits x /\ exists bs, write_string x = Ok bs.
Proof.
  intros [e [He Hl]]. apply is_utf8_encode in He. split.
  - intros b Hb. rewrite He in Hb. apply Ok_inj in Hb. subst. exact Hl.
  - apply write_string_total with e, He.
Qed.

Lemma string_survives : survives write_string read_string text_ok.
Proof.
  apply codec_survives.
  - intros a H. apply text_ok_fits, H.
  - intros a bs s H. apply string_codec. apply text_ok_fits, H.
Qed.

Lemma string_wire x e : is_utf8 x e -> zlen e <= 2 ^ 31 ->
  exists l, leb128 l (zlen e) /\ write_string x = Ok (l ++ e) /\
    forall s, read_string ((l ++ e) ++ s) = Ok (x, s).
Proof.
  intros He Hl. assert (Hx : text_ok x) by (exists e; split; assumption).
  destruct (string_survives x Hx) as [bs [Hw Hr]].
  destruct (write_string_form x bs Hw) as [e' [l [He' [Hl' ->]]]].
  apply is_utf8_encode in He. rewrite He in He'. apply Ok_inj in He'. subst e'.
  exists l. split; [|split; [exact Hw|exact Hr]].
  destruct (write_v_int_leb (zlen e)) as [l' [Hw' Hleb]]; [unfold zlen; lia|].
  rewrite Hl' in Hw'. apply Ok_inj in Hw'. subst. exact Hleb.
Qed.

Lemma string_not_encodable x : Exists (fun c => ~ scalar c) x -> write_string x = Raise EUnicode.
Proof.
  intros H. unfold write_string.
  destruct (utf8_encode x) as [e|e] eqn:E.
  - exfalso. assert (F : Forall is_scalar x) by (apply utf8_encode_scalar; exists e; exact E).
    apply Exists_exists in H. destruct H as [c [Hin Hc]]. apply Hc.
    rewrite Forall_forall in F. apply F, Hin.
  - apply utf8_encode_raise in E. subst. reflexivity.
Qed.

Lemma scalar_text x : Forall scalar x <-> exists e, is_utf8 x e.
Proof.
  rewrite <- (utf8_encode_scalar x). split; intros [e H]; exists e; apply is_utf8_encode, H.
Qed.

Lemma vgroups_nonneg k : forall sh acc fin s n t, 0 <= acc ->
  (forall acc s n t, 0 <= acc -> fin acc s = Ok (n, t) -> 0 <= n) ->
  vgroups k sh acc fin s = Ok (n, t) -> 0 <= n.
Proof.
  induction k as [|k IH]; intros sh acc fin s n0 t0 Ha Hf H; [eapply Hf; eassumption|].
  cbn [vgroups] in H. apply rbind_ok in H. destruct H as [b [s1 [_ H]]].
  assert (Hl : 0 <= Z.lor acc (Z.shiftl (Z.land b 127) sh)).
  { apply Z.lor_nonneg. split; [exact Ha|]. apply Z.shiftl_nonneg.
    apply Z.land_nonneg. right. lia. }
  cbv zeta in H. destruct (Z.land b 128 =? 0).
  - apply Ok_inj in H. apply pair_equal_spec in H; destruct H as [<- <-]. exact Hl.
  - eapply IH; [exact Hl|exact Hf|exact H].
Qed.
Lemma read_v_int_nonneg s n t : read_v_int s = Ok (n, t) -> 0 <= n.
Proof.
  rewrite read_v_int_groups. intros H. eapply vgroups_nonneg; [| |exact H]; [lia|].
  intros acc s0 n0 t0 Ha H0. unfold fin_int in H0. apply rbind_ok in H0.
  destruct H0 as [b [s1 [_ H0]]]. destruct (negb _); [discriminate|].
  apply Ok_inj in H0. apply pair_equal_spec in H0; destruct H0 as [<- <-].
  apply Z.lor_nonneg. split; [exact Ha|]. apply Z.shiftl_nonneg.
  apply Z.land_nonneg. right. lia.
Qed.
Lemma read_array_size_range s n t : read_array_size s = Ok (n, t) -> 0 <= n <= 2 ^ 31.
Proof.
  unfold read_array_size. intros H. apply rbind_ok in H. destruct H as [m [s1 [H1 H]]].
  destruct (Z.ltb_spec (2 ^ 31) m) as [|Hm]; [discriminate|].
  apply Ok_inj in H. apply pair_equal_spec in H; destruct H as [<- <-]. apply read_v_int_nonneg in H1. lia.
Qed.

Lemma read_string_utf8 s x s' : read_string s = Ok (x, s') ->
  exists n e, read_array_size s = Ok (n, e ++ s') /\ is_utf8 x e /\ zlen e <= n
              /\ (s' <> [] -> zlen e = n).
Proof.
  unfold read_string. intros H.
  apply rbind_ok in H. destruct H as [n [s1 [H1 H]]].
  apply rbind_ok in H. destruct H as [b [s2 [H2 H]]].
  unfold rlift in H. destruct (utf8_decode b) as [y|] eqn:E; [|discriminate].
  apply Ok_inj in H. injection H as -> ->.
  pose proof (read_array_size_range _ _ _ H1) as Hn.
  exists n, b. unfold read_bytes in H2. apply Ok_inj in H2.
  unfold bio_read in H2. destruct (Z.ltb_spec n 0); [lia|]. apply pair_equal_spec in H2; destruct H2 as [<- <-].
  rewrite takeZ_dropZ. split; [exact H1|]. split.
  - apply is_utf8_encode, utf8_encode_decode, E.
  - pose proof (takeZ_zlen _ n s1 (proj1 Hn)) as Hz. split; [lia|].
    intros Hne. enough (n <= zlen s1) by lia.
    destruct (Z.le_gt_cases n (zlen s1)) as [|G]; [assumption|]. exfalso. apply Hne.
    assert (Ed : zlen (takeZ n s1) = zlen s1) by lia.
    pose proof (takeZ_dropZ _ n s1) as Ed2. apply (f_equal zlen) in Ed2.
    rewrite zlen_app in Ed2. destruct (dropZ n s1); [reflexivity|].
    rewrite zlen_cons in Ed2. pose proof (zlen_nonneg _ l). lia.
Qed.

(** ** collections *)
Lemma texts_total l : Forall text_ok l -> Forall (fun w => exists b, w = Ok b) (map write_string l).
Proof.
  intros H. apply Forall_map. eapply Forall_impl; [|exact H]. intros x Hx. apply text_ok_fits, Hx.
Qed.
Lemma texts_ok_fit l : texts_ok l -> strs_fit l.
Proof.
  intros [H1 H2]. split; [exact H1|]. eapply Forall_impl; [|exact H2].
  intros x Hx. apply text_ok_fits, Hx.
Qed.
Lemma string_array_total l : Forall text_ok l -> exists bs, write_string_array l = Ok bs.
Proof.
  intros H. apply wcat_total. constructor; [|apply texts_total, H].
  apply write_v_int_total. apply zlen_nonneg.
Qed.
Lemma string_array_survives : survives write_string_array read_string_array texts_ok.
Proof.
  apply codec_survives.
  - intros a [_ H]. apply string_array_total, H.
  - intros a bs s H. apply string_array_codec, texts_ok_fit, H.
Qed.

Lemma dict_total V (w : V -> res bytes) (P : V -> Prop) d :
  (forall a, P a -> exists bs, w a = Ok bs) ->
  Forall (fun kv => text_ok (fst kv) /\ P (snd kv)) d ->
  exists bs, wcat (write_v_int (zlen d)
           :: map (fun kv => wcat [write_string (fst kv); w (snd kv)]) d) = Ok bs.
Proof.
  intros Hw Hd. apply wcat_total. constructor; [apply write_v_int_total, zlen_nonneg|].
  apply Forall_map. eapply Forall_impl; [|exact Hd]. intros [k v] [Hk Hv].
  apply wcat_total. repeat constructor.
  - apply text_ok_fits, Hk. - apply Hw, Hv.
Qed.
Lemma dict_ok_fits V (P Q : V -> Prop) d : (forall v, P v -> Q v) -> dict_ok P d -> dict_fits Q d.
Proof.
  intros H [H1 [H2 H3]]. split; [exact H1|]. split; [exact H2|].
  eapply Forall_impl; [|exact H3]. intros kv [Hk Hv]. split; [apply text_ok_fits, Hk|apply H, Hv].
Qed.
Lemma string_dict_survives :
  survives write_string_to_string_dict read_string_to_string_dict (dict_ok text_ok).
Proof.
  apply codec_survives.
  - intros d [_ [_ H]]. apply dict_total with text_ok; [|exact H]. intros a Ha. apply text_ok_fits, Ha.
  - intros d bs s H. apply string_dict_codec. revert H. apply dict_ok_fits.
    intros v Hv. apply text_ok_fits, Hv.
Qed.
Lemma string_array_dict_survives :
  survives write_string_to_string_array_dict read_string_to_string_array_dict (dict_ok texts_ok).
Proof.
  apply codec_survives.
  - intros d [_ [_ H]]. apply dict_total with texts_ok; [|exact H].
    intros a [_ Ha]. apply string_array_total, Ha.
  - intros d bs s H. apply string_array_dict_codec. revert H. apply dict_ok_fits, texts_ok_fit.
Qed.

Lemma string_set_survives so : set_order_ok so ->
  survives_upto (@Permutation pystr) write_string_set (read_string_set so) set_ok.
Proof.
  intros Hso a [Ha Hnd].
  destruct (string_array_total a (proj2 Ha)) as [bs Hw]. exists bs. split; [exact Hw|].
  intros s. exists (so a). split; [|apply Permutation_sym, Hso].
  apply string_set_roundtrip; [apply texts_ok_fit, Ha|exact Hnd|exact Hw].
Qed.
Lemma set_dict_same so d : set_order_ok so ->
  same_set_dict d (map (fun kv => (fst kv, so (snd kv))) d).
Proof.
  intros Hso. unfold same_set_dict. induction d as [|kv d IH]; cbn [map]; constructor; [|exact IH].
  cbn [fst snd]. split; [reflexivity|]. apply Permutation_sym, Hso.
Qed.
Lemma string_set_dict_survives so : set_order_ok so ->
  survives_upto same_set_dict write_string_to_string_set_dict
    (read_string_to_string_set_dict so) (dict_ok set_ok).
Proof.
  intros Hso d Hd.
  assert (Hw : exists bs, write_string_to_string_set_dict d = Ok bs).
  { apply dict_total with (P := set_ok); [|apply Hd]. intros a [[_ Ha] _].
    apply string_array_total, Ha. }
  destruct Hw as [bs Hw]. exists bs. split; [exact Hw|]. intros s.
  eexists. split; [|apply set_dict_same, Hso].
  apply set_dict_roundtrip; [|exact Hw]. revert Hd. apply dict_ok_fits.
  intros v [Hv Hn]. split; [apply texts_ok_fit, Hv|exact Hn].
Qed.

(** ** generic values *)
Lemma generic_ok_supported v : generic_ok v -> supported v.
Proof.
  induction v as [| | | | |l IH|] using pyval_ind'; intros H; inversion H; subst; constructor; auto.
  - apply text_ok_fits. assumption.
  - match goal with F : Forall generic_ok l |- _ => revert F end. clear H. revert IH.
    intros IHl F. apply Forall_forall. intros x Hx. rewrite Forall_forall in IHl, F. auto.
Qed.
Lemma generic_ok_writable v : generic_ok v -> writable v.
Proof.
  induction v as [| | | | |l IH|] using pyval_ind'; intros H; inversion H; subst; constructor; auto.
  - match goal with F : text_ok _ |- _ => destruct F as [e [He _]] end.
    apply (scalar_text s). exists e. exact He.
  - match goal with F : Forall generic_ok l |- _ => revert F end. clear H. revert IH.
    intros IHl F. apply Forall_forall. intros x Hx. rewrite Forall_forall in IHl, F. auto.
Qed.
Lemma nested_vdepth v : forall n, nested v n -> (vdepth v <= n)%nat.
Proof.
  induction v as [| | | | |l IH|] using pyval_ind'; intros n H; cbn [vdepth]; try lia.
  inversion H as [v' n' Hv|l' n' Hl]; subst; [exfalso; apply (Hv l); reflexivity|].
  apply le_n_S. clear H. induction IH as [|x l Hx Hf IHl]; cbn [fold_right]; [lia|].
  inversion Hl; subst. specialize (IHl H2). specialize (Hx _ H1). lia.
Qed.
Lemma generic_survives n f : (n < f)%nat ->
  survives write_generic_value (read_generic_value f) (fun v => generic_ok v /\ nested v n).
Proof.
  intros Hf. apply codec_survives.
  - intros v [Hv _]. apply write_generic_total, generic_ok_writable, Hv.
  - intros v bs s [Hv Hn]. apply generic_roundtrip; [apply generic_ok_supported, Hv|].
    apply nested_vdepth in Hn. lia.
Qed.

(** ** all readers *)
Lemma stream_reader_local A (r : reader A) : stream_reader A r -> local r.
Proof.
  destruct 1; first [ solve [auto with local] | apply local_read_generic_value
    | apply local_read_optional_boolean | apply local_read_optional_int
    | apply local_read_optional_v_long | apply local_read_optional_long
    | apply local_read_optional_string | apply local_read_optional_string_array
    | apply local_read_string_to_string_dict | apply local_read_string_to_string_array_dict
    | apply local_read_string_to_string_set_dict | apply local_read_array_size | apply local_read_z_long | apply local_read_enum ].
Qed.
Lemma readers_move_forward A (r : reader A) : stream_reader A r ->
  forall s a s', r s = Ok (a, s') ->
  exists p, s = p ++ s' /\ (s' <> [] -> forall t, r (p ++ t) = Ok (a, t)).
Proof. intros H. exact (stream_reader_local A r H). Qed.
Lemma truncation_partial A (r : reader A) : stream_reader A r ->
  forall a bs q q2, r bs = Ok (a, []) -> bs = q ++ q2 -> q2 <> [] ->
  (exists e, r q = Raise e) \/ (exists a', r q = Ok (a', [])).
Proof.
  intros Hr a bs q q2 H1 H2 H3. destruct (r q) as [[a' s']|e] eqn:E; [right|left; eauto].
  pose proof (truncated A r a bs q q2 (stream_reader_local A r Hr) H1 H2 H3 a' s' E) as Es.
  subst s'. exists a'. reflexivity.
Qed.
Lemma truncation_refuted :
  ~ (forall A (r : reader A), stream_reader A r ->
     forall a bs q q2, r bs = Ok (a, []) -> bs = q ++ q2 -> q2 <> [] -> exists e, r q = Raise e).
Proof.
  intros H. destruct (H _ read_string sr_string [97] [x01; x61] [x01] [x61]) as [e He].
  - reflexivity. - reflexivity. - discriminate. - vm_compute in He. discriminate.
Qed.

(** ** generic values that cannot be written *)
Lemma generic_silent_refuted :
  ~ (forall v, (exists e, write_generic_value v = Raise e) \/
               (exists bs, write_generic_value v = Ok bs /\
                  exists f, read_generic_value f bs = Ok (v, []))).
Proof.
  intros H. destruct (H (VOther true ([49; 46; 53]))) as [[e He]|[bs [Hw [f Hr]]]]; [discriminate|].
  apply Ok_inj in Hw. subst. destruct f; discriminate.
Qed.
Lemma write_other v bs : write_generic_value v = Ok bs -> encodable v.
Proof.
  revert bs. induction v as [|b|x|i|b|l IH|t r] using pyval_ind'; intros bs H;
  cbn [write_generic_value] in H; winv; try constructor.
  - apply write_string_form in Hw0 as (e & y & He & _). apply utf8_encode_scalar; eauto.
  - unfold write_long in Hw0. apply to_bytes_signed_ok in Hw0 as [Hr _]; [exact Hr|lia].
  - match goal with Hx : wcat (map _ l) = Ok ?b |- _ => clear - IH Hx; revert b Hx end.
    induction l as [|v l IHl]; intros bs0 Hb; [constructor|].
    cbn [map] in Hb. winv. inversion IH; subst. constructor; eauto.
Qed.
Lemma encodable_written v : encodable v -> exists bs, write_generic_value v = Ok bs.
Proof.
  induction v as [|b|x|i|b|l IH|t r] using pyval_ind'; intros Hw; inversion Hw; subst;
    try (apply write_generic_total; constructor; assumption); [|exists []; reflexivity].
  destruct (write_v_int_total (zlen l) (zlen_nonneg _ l)) as [x Hx].
  assert (exists y, wcat (map write_generic_value l) = Ok y) as [y Hy].
  { clear Hw Hx. induction l as [|v l IHl]; [exists []; reflexivity|].
    inversion IH as [|? ? I1 I2]; subst. inversion H0 as [|? ? W1 W2]; subst.
    destruct (I1 W1) as [b1 Hb1]. destruct (IHl I2 W2) as [b2 Hb2].
    exists (b1 ++ b2). cbn [map wcat]. rewrite Hb1, Hb2. reflexivity. }
  cbn [write_generic_value]. eexists. apply wcat2; [reflexivity|]. cbn [wcat]. rewrite Hx, Hy. reflexivity.
Qed.
Lemma generic_ok_iff v : plain v -> encodable v -> sized v -> generic_ok v.
Proof.
  induction v as [|b|x|i|b|l IH|t r] using pyval_ind'; intros P C Z; inversion P; inversion C; inversion Z; subst;
    constructor; try assumption.
  - match goal with F : Forall scalar x |- _ => destruct (proj1 (scalar_text x) F) as [e He] end. exists e. split; auto.
  - match goal with FA : Forall plain l, FB : Forall encodable l, FC : Forall sized l |- _ =>
      clear - IH FA FB FC; revert FA FB FC end.
    induction l as [|v l IHl]; intros FA FB FC; [constructor|]. apply Forall_cons_iff in IH as [I1 I2].
    apply Forall_cons_iff in FA as [A1 A2]. apply Forall_cons_iff in FB as [B1 B2]. apply Forall_cons_iff in FC as [D1 D2].
    constructor; auto.
Qed.
Lemma nested_enough v : exists n, nested v n.
Proof.
  induction v as [|b|x|i|b|l IH|t r] using pyval_ind'; try (exists 0%nat; apply nest_flat; discriminate).
  assert (M : forall v n m, nested v n -> (n <= m)%nat -> nested v m).
  { clear. intros v. induction v as [|b|x|i|b|l IH|t r] using pyval_ind'; intros n m H L; try (apply nest_flat; discriminate).
    inversion H as [? ? F|? k F]; subst; [exfalso; apply (F l); reflexivity|].
    destruct m as [|m]; [lia|]. apply nest_list. apply Forall_forall. intros y Hy. rewrite Forall_forall in IH, F.
    apply (IH y Hy k); [auto|lia]. }
  assert (exists n, Forall (fun x => nested x n) l) as [n Hn].
  { induction IH as [|v l [a Ha] _ [b Hb]]; [exists 0%nat; constructor|]. exists (Nat.max a b). constructor.
    - apply (M _ _ _ Ha). lia.
    - eapply Forall_impl; [|exact Hb]. cbn. intros y Hy. apply (M _ _ _ Hy). lia. }
  exists (S n). apply nest_list, Hn.
Qed.
Lemma generic_rejects v : plain v -> sized v ->
  (exists e, write_generic_value v = Raise e) \/
  (exists bs, write_generic_value v = Ok bs /\ exists f, read_generic_value f bs = Ok (v, [])).
Proof.
  intros P Z. destruct (write_generic_value v) as [bs|e] eqn:E; [right|left; eauto].
  exists bs. split; [reflexivity|]. destruct (nested_enough v) as [n N].
  destruct (generic_survives n (S n) (Nat.lt_succ_diag_r n) v) as (bs' & W & R).
  { split; [|exact N]. apply generic_ok_iff; try assumption. apply write_other with bs, E. }
  rewrite E in W. apply Ok_inj in W. subst bs'. exists (S n). rewrite <- (app_nil_r bs). apply R.
Qed.

(** ** negative vInts, amplification *)
Lemma v_int_negative i : i < 0 ->
  (-128 <= i -> exists b, write_v_int i = Ok [b] /\ 128 <= b2z b) /\
  (i < -128 -> write_v_int i = Raise EOverflow).
Proof.
  intros Hi. unfold write_v_int. destruct (Z.ltb_spec i 128); [|lia].
  unfold write_byte, to_bytes_signed. change (2 ^ (8 * Z.of_nat 1 - 1)) with 128.
  split; intros Hl.
  - destruct (Z.leb_spec (- (128)) i); [|lia]. destruct (Z.ltb_spec i 128); [|lia].
    cbn [andb be_bytes app]. eexists. split; [reflexivity|]. rewrite b2z_z2b. lia.
  - destruct (Z.leb_spec (- (128)) i); [lia|]. reflexivity.
Qed.
Lemma v_int_negative_refuted : ~ (forall i, i < 0 -> exists e, write_v_int i = Raise e).
Proof. intros H. destruct (H (-1)) as [e He]; [lia|]. discriminate. Qed.
Lemma read_string_nil : read_string [] = Ok ([], []).
Proof. reflexivity. Qed.
Lemma read_n_nil n : read_n read_string n [] = Ok (repeat [] n, []).
Proof.
  induction n as [|n IH]; [reflexivity|]. cbn [read_n repeat].
  rewrite (rbind_step _ _ _ _ _ _ _ read_string_nil).
  rewrite (rbind_step _ _ _ _ _ _ _ IH). reflexivity.
Qed.
Lemma amplification n : 0 < n <= 2 ^ 31 -> exists bs, leb128 bs n /\
  read_string_array bs = Ok (repeat [] (Z.to_nat n), []).
Proof.
  intros Hn. destruct (write_v_int_leb n) as [bs [Hw Hl]]; [lia|]. exists bs. split; [exact Hl|].
  unfold read_string_array.
  assert (Hr : read_array_size bs = Ok (n, [])).
  { rewrite <- (app_nil_r bs). apply array_size_roundtrip; [lia|exact Hw]. }
  rewrite (rbind_step _ _ _ _ _ _ _ Hr).
  destruct (Z.eqb_spec n 0); [lia|]. apply read_n_nil.
Qed.

Lemma no_amplification_bound :
  ~ (forall s l s', read_string_array s = Ok (l, s') -> (length l <= length s)%nat).
Proof.
  intros H. specialize (H [x80; x02] (repeat [] 256) [] eq_refl).
  rewrite repeat_length in H. cbn in H. lia.
Qed.

(** text is never longer than the bytes it came from *)
Lemma utf8_chars x e : is_utf8 x e -> zlen x <= zlen e.
Proof.
  unfold is_utf8. intros H. assert (zlen x <= zlen (map b2z e)); [|unfold zlen in *; rewrite map_length in *; lia].
  induction H as [|c bs t bt Hc _ IH]; [reflexivity|]. rewrite zlen_cons, zlen_app.
  assert (1 <= zlen bs) by (destruct Hc; unfold zlen; cbn; lia). lia.
Qed.
Lemma not_nil {A B} (s : list A) (t : list B) : t <> [] -> zlen t <= zlen s -> s <> [].
Proof. intros H L ->. destruct t; [congruence|]. rewrite zlen_cons in L. pose proof (zlen_nonneg _ t). change (zlen (@nil A)) with 0 in L. lia. Qed.
Lemma array_size_takes s n s' : read_array_size s = Ok (n, s') -> zlen s' <= zlen s /\ (s <> [] -> zlen s' + 1 <= zlen s).
Proof.
  intros H. destruct (local_read_array_size s n s' H) as (p & -> & L). rewrite zlen_app.
  split; [pose proof (zlen_nonneg _ p); lia|]. intros Hs.
  destruct p as [|b p]; [|rewrite zlen_cons; pose proof (zlen_nonneg _ p); lia].
  cbn [app] in *. specialize (L Hs [x01]). destruct s' as [|b t]; [congruence|]. vm_compute in L. discriminate.
Qed.
Lemma string_takes s x s' : read_string s = Ok (x, s') ->
  zlen x + zlen s' <= zlen s /\ (s' <> [] -> 1 + zlen x + zlen s' <= zlen s).
Proof.
  intros H. apply read_string_utf8 in H as (n & e & Hn & He & _ & _). apply utf8_chars in He.
  apply array_size_takes in Hn as [H1 H2]. rewrite zlen_app in *. split; [lia|]. intros Hs.
  pose proof (zlen_nonneg _ e). assert (M : zlen s' <= zlen s) by lia. specialize (H2 (not_nil s s' Hs M)). lia.
Qed.
Lemma strings_take k : forall s l s', read_n read_string k s = Ok (l, s') ->
  zlen (concat l) + zlen s' <= zlen s /\ (s' <> [] -> zlen l + zlen (concat l) + zlen s' <= zlen s).
Proof.
  induction k as [|k IH]; intros s l s' H; cbn [read_n] in H.
  - apply Ok_inj, pair_equal_spec in H as [<- <-]. cbn. lia.
  - unfold rbind in H. destruct (read_string s) as [[x s1]|] eqn:E; [|discriminate].
    destruct (read_n read_string k s1) as [[l1 s2]|] eqn:E1; [|discriminate].
    apply Ok_inj, pair_equal_spec in H as [<- <-].
    apply string_takes in E as [A1 A2]. apply IH in E1 as [B1 B2].
    cbn [concat]. rewrite zlen_app, zlen_cons. split; [lia|]. intros Hs. specialize (B2 Hs).
    pose proof (zlen_nonneg _ (concat l1)). assert (M : zlen s2 <= zlen s1) by lia. specialize (A2 (not_nil s1 s2 Hs M)). lia.
Qed.
Lemma string_array_takes s l s' : read_string_array s = Ok (l, s') ->
  zlen (concat l) + zlen s' <= zlen s /\ (s' <> [] -> 1 + zlen l + zlen (concat l) + zlen s' <= zlen s).
Proof.
  unfold read_string_array, rbind. destruct (read_array_size s) as [[n s1]|] eqn:E; [|discriminate]. intros H.
  apply array_size_takes in E as [A1 A2].
  pose proof (fun H1 H2 => not_nil s s' H1 H2) as N.
  destruct (n =? 0).
  - apply Ok_inj, pair_equal_spec in H as [<- <-]. cbn [concat]. change (zlen (@nil Z)) with 0. change (zlen (@nil pystr)) with 0.
    split; [lia|]. intros Hs. specialize (N Hs). assert (zlen s1 <= zlen s) by lia. specialize (A2 (N H)). lia.
  - apply strings_take in H as [B1 B2]. pose proof (zlen_nonneg _ (concat l)). split; [lia|]. intros Hs. specialize (B2 Hs).
    assert (M : zlen s' <= zlen s) by lia. specialize (A2 (N Hs M)). lia.
Qed.
