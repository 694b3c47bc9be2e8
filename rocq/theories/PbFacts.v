(** * Any protobuf encoding is read, and nothing else (C77) *)
From Coq Require Import ZArith List Bool Lia ZifyBool.
From Coq Require Import Strings.Byte.
From Verif Require Import Py Stream Proto Messages Spec Wire PyFacts Utf8Facts StreamFacts SpecFacts ProtoFacts WireFacts WireFacts2 WireFacts3 WireFacts4.
Import ListNotations.
Open Scope Z_scope.

(** ** varints *)
Lemma pb_leb_read bs v : leb128 bs v -> forall f sh acc s, 0 <= sh -> zlen bs <= Z.of_nat f ->
  pb_read_varint f sh acc (bs ++ s) = Ok ((acc + v * 2 ^ sh) mod 2 ^ 64, s).
Proof.
  induction 1 as [b Hb|b bs i Hb L IH]; intros f sh acc s Hs Hf; pose proof (b2z_range b).
  - destruct f as [|f]; [unfold zlen in Hf; cbn [length] in Hf; lia|]. cbn [app pb_read_varint].
    destruct (Z.ltb_spec (b2z b) 128); [|lia]. rewrite (Z.mod_small (b2z b)) by lia. reflexivity.
  - rewrite zlen_cons in Hf. destruct f as [|f]; [pose proof (zlen_nonneg _ bs); lia|].
    cbn [app pb_read_varint]. destruct (Z.ltb_spec (b2z b) 128); [lia|].
    rewrite IH by lia. do 3 f_equal.
    replace (b2z b mod 128) with (b2z b - 128)
      by (apply (Z.mod_unique (b2z b) 128 1); lia).
    rewrite (Z.pow_add_r 2 sh 7) by lia. change (2 ^ 7) with 128. ring.
Qed.
Lemma pb_leb_only f : forall sh acc s n s', 0 <= sh -> pb_read_varint f sh acc s = Ok (n, s') ->
  exists bs v, s = bs ++ s' /\ leb128 bs v /\ zlen bs <= Z.of_nat f /\ n = (acc + v * 2 ^ sh) mod 2 ^ 64.
Proof.
  induction f as [|f IH]; intros sh acc s n s' Hs H; cbn [pb_read_varint] in H; [discriminate|].
  destruct s as [|b t]; [discriminate|]. pose proof (b2z_range b).
  destruct (Z.ltb_spec (b2z b) 128) as [Hb|Hb].
  - apply Ok_inj, pair_equal_spec in H as [<- <-]. exists [b], (b2z b).
    split; [reflexivity|]. split; [constructor; lia|]. split; [change (zlen [b]) with 1; lia|].
    rewrite (Z.mod_small (b2z b)) by lia. reflexivity.
  - apply IH in H as (bs & v & -> & L & Z & ->); [|lia]. exists (b :: bs), (b2z b - 128 + 128 * v).
    split; [reflexivity|]. split; [constructor; assumption|]. split; [rewrite zlen_cons; lia|].
    f_equal. replace (b2z b mod 128) with (b2z b - 128)
      by (apply (Z.mod_unique (b2z b) 128 1); lia).
    rewrite (Z.pow_add_r 2 sh 7) by lia. change (2 ^ 7) with 128. ring.
Qed.
Lemma vint_below strict n bs : w_vint strict n bs -> 0 <= n < 2 ^ 35.
Proof.
  intros (L & Z & _). apply leb128_range in L. split; [lia|].
  apply (Z.lt_le_trans _ (128 ^ zlen bs)); [lia|]. change (2 ^ 35) with (128 ^ 5).
  apply Z.pow_le_mono_r; lia.
Qed.
Lemma small_read n bs s : w_vint false n bs -> pb_read_varint 5 0 0 (bs ++ s) = Ok (n, s).
Proof.
  intros V. pose proof (vint_below _ _ _ V). destruct V as (L & Z & _).
  rewrite (pb_leb_read bs n L) by (change (Z.of_nat 5) with 5; lia).
  rewrite Z.mul_1_r, Z.add_0_l, Z.mod_small; [reflexivity|]. change (2 ^ 64) with (2 ^ 35 * 2 ^ 29). lia.
Qed.
Lemma small_only n s s' : pb_read_varint 5 0 0 s = Ok (n, s') -> exists bs, s = bs ++ s' /\ w_vint false n bs.
Proof.
  intros H. apply pb_leb_only in H as (bs & v & -> & L & Z & ->); [|lia]. exists bs. split; [reflexivity|].
  change (Z.of_nat 5) with 5 in Z.
  assert (V : w_vint false v bs) by (split; [exact L|split; [exact Z|exact I]]).
  pose proof (vint_below _ _ _ V). rewrite Z.mul_1_r, Z.add_0_l, Z.mod_small; [exact V|].
  change (2 ^ 64) with (2 ^ 35 * 2 ^ 29). lia.
Qed.
Lemma tag_read n bs s : w_vint false n bs -> n < 2 ^ 32 -> pb_read_tag (bs ++ s) = Ok (n, s).
Proof. intros V H. unfold pb_read_tag. rewrite (small_read n) by exact V. destruct (Z.ltb_spec n (2 ^ 32)); [reflexivity|lia]. Qed.
Lemma size_read n bs s : w_vint false n bs -> n < 2 ^ 31 -> pb_read_size (bs ++ s) = Ok (n, s).
Proof. intros V H. unfold pb_read_size. rewrite (small_read n) by exact V. destruct (Z.ltb_spec n (2 ^ 31)); [reflexivity|lia]. Qed.
Lemma tag_only n s s' : pb_read_tag s = Ok (n, s') -> 0 <= n < 2 ^ 32 /\ exists bs, s = bs ++ s' /\ w_vint false n bs.
Proof.
  unfold pb_read_tag. destruct (pb_read_varint 5 0 0 s) as [[m t]|] eqn:E; [|discriminate].
  destruct (Z.ltb_spec m (2 ^ 32)); [|discriminate]. intros H'. apply Ok_inj, pair_equal_spec in H' as [<- <-].
  apply small_only in E as (bs & -> & V). pose proof (vint_below _ _ _ V). split; [lia|]. eauto.
Qed.
Lemma size_only n s s' : pb_read_size s = Ok (n, s') -> 0 <= n < 2 ^ 31 /\ exists bs, s = bs ++ s' /\ w_vint false n bs.
Proof.
  unfold pb_read_size. destruct (pb_read_varint 5 0 0 s) as [[m t]|] eqn:E; [|discriminate].
  destruct (Z.ltb_spec m (2 ^ 31)); [|discriminate]. intros H'. apply Ok_inj, pair_equal_spec in H' as [<- <-].
  apply small_only in E as (bs & -> & V). pose proof (vint_below _ _ _ V). split; [lia|]. eauto.
Qed.
Lemma take_only n s b s' : 0 <= n -> pb_take n s = Ok (b, s') -> s = b ++ s' /\ zlen b = n.
Proof.
  unfold pb_take. intros Hn. destruct (Z.ltb_spec (zlen s) n); [discriminate|]. intros E.
  apply Ok_inj, pair_equal_spec in E as [<- <-]. split; [symmetry; apply takeZ_dropZ|]. rewrite takeZ_zlen; lia.
Qed.

(** ** fields *)
Lemma item_read f bs s : pb_item f bs -> pb_read_field (bs ++ s) = Ok (f, s).
Proof.
  destruct f as [num v]. unfold pb_item. cbn [fst snd]. intros [Hn P]. unfold pb_read_field.
  assert (T : forall w bs s, 0 <= w < 8 -> w_vint false (num * 8 + w) bs ->
    pb_read_tag (bs ++ s) = Ok (num * 8 + w, s) /\ (num * 8 + w) / 8 = num /\ (num * 8 + w) mod 8 = w).
  { intros w b t Hw V. split; [apply tag_read; [exact V|lia]|]. split.
    - rewrite Z.div_add_l by lia. rewrite Z.div_small; lia.
    - rewrite Z.add_comm, Z.mod_add by lia. apply Z.mod_small; lia. }
  assert (N : (num =? 0) = false) by (apply Z.eqb_neq; lia).
  destruct v as [n|b|b].
  - apply parts_cons_inv in P as (a & r & -> & V & P). apply parts_cons_inv in P as (c & r' & -> & (x & L & Z & ->) & P).
    apply parts_nil_inv in P. subst r'. rewrite app_nil_r, <- app_assoc.
    rewrite <- (Z.add_0_r (num * 8)) in V. destruct (T 0 a (c ++ s) ltac:(lia) V) as (-> & -> & ->). rewrite N.
    change (0 =? 0) with true. cbn match. rewrite (pb_leb_read c x L) by (change (Z.of_nat 10) with 10; lia).
    rewrite Z.mul_1_r, Z.add_0_l. reflexivity.
  - destruct P as [[Z P]|[Z P]]; apply parts_cons_inv in P as (a & r & -> & V & P); apply parts_cons_inv in P as (c & r' & -> & P' & P);
      apply parts_nil_inv in P; unfold exactly in P'; subst r' c; rewrite app_nil_r, <- app_assoc;
      [destruct (T 1 a (b ++ s) ltac:(lia) V) as (-> & -> & ->)|destruct (T 5 a (b ++ s) ltac:(lia) V) as (-> & -> & ->)]; rewrite N.
    + change (1 =? 0) with false. change (1 =? 1) with true. cbn match. rewrite <- Z, pb_take_app. reflexivity.
    + change (5 =? 0) with false. change (5 =? 1) with false. change (5 =? 2) with false. change (5 =? 5) with true. cbn match.
      rewrite <- Z, pb_take_app. reflexivity.
  - destruct P as [Z P]. apply parts_cons_inv in P as (a & r & -> & V & P). apply parts_cons_inv in P as (c & r' & -> & V' & P).
    apply parts_cons_inv in P as (d & r & -> & P' & P). apply parts_nil_inv in P. unfold exactly in P'. subst r d.
    rewrite app_nil_r, <- !app_assoc. destruct (T 2 a (c ++ b ++ s) ltac:(lia) V) as (-> & -> & ->). rewrite N.
    change (2 =? 0) with false. change (2 =? 1) with false. change (2 =? 2) with true. cbn match.
    rewrite (size_read (zlen b)) by assumption. rewrite pb_take_app. reflexivity.
Qed.
Lemma item_only f s s' : pb_read_field s = Ok (f, s') -> exists bs, s = bs ++ s' /\ pb_item f bs.
Proof.
  unfold pb_read_field. destruct (pb_read_tag s) as [[tag t]|] eqn:E; [|discriminate].
  apply tag_only in E as (Ht & a & -> & V).
  destruct (Z.eqb_spec (tag / 8) 0) as [|Hn]; [discriminate|].
  assert (R : 1 <= tag / 8 < 2 ^ 29).
  { pose proof (Z.div_pos tag 8 ltac:(lia) ltac:(lia)). split; [lia|].
    apply Z.div_lt_upper_bound; [lia|]. change (8 * 2 ^ 29) with (2 ^ 32). lia. }
  pose proof (Z.div_mod tag 8 ltac:(lia)) as D. rewrite (Z.mul_comm 8) in D.
  destruct (Z.eqb_spec (tag mod 8) 0) as [W|_]; [|destruct (Z.eqb_spec (tag mod 8) 1) as [W|_];
    [|destruct (Z.eqb_spec (tag mod 8) 2) as [W|_]; [|destruct (Z.eqb_spec (tag mod 8) 5) as [W|_]; [|discriminate]]]];
    rewrite W in D; set (num := tag / 8) in *; clearbody num; subst tag; clear W Ht Hn.
  - destruct (pb_read_varint 10 0 0 t) as [[n u]|] eqn:E; [|discriminate]. intros H. apply Ok_inj, pair_equal_spec in H as [<- <-].
    apply pb_leb_only in E as (bs & v & -> & L & Z & ->); [|lia]. change (Z.of_nat 10) with 10 in Z.
    exists (a ++ bs). split; [apply app_assoc|]. split; [exact R|]. cbn [fst snd].
    rewrite Z.add_0_r in V. constructor; [exact V|]. apply parts_one.
    exists v. split; [exact L|]. split; [exact Z|]. rewrite Z.mul_1_r, Z.add_0_l. reflexivity.
  - destruct (pb_take 8 t) as [[n u]|] eqn:E; [|discriminate]. intros H. apply Ok_inj, pair_equal_spec in H as [<- <-].
    apply take_only in E as (-> & Z); [|lia]. exists (a ++ n). split; [apply app_assoc|]. split; [exact R|]. cbn [fst snd].
    left. split; [exact Z|]. constructor; [exact V|]. apply parts_one. reflexivity.
  - destruct (pb_read_size t) as [[n u]|] eqn:E; [|discriminate]. apply size_only in E as (Hn & c & -> & V').
    destruct (pb_take n u) as [[b w]|] eqn:E; [|discriminate]. intros H. apply Ok_inj, pair_equal_spec in H as [<- <-].
    apply take_only in E as (-> & <-); [|lia]. exists (a ++ c ++ b). split; [rewrite <- !app_assoc; reflexivity|].
    split; [exact R|]. cbn [fst snd]. split; [lia|].
    constructor; [exact V|]. constructor; [exact V'|]. apply parts_one. reflexivity.
  - destruct (pb_take 4 t) as [[n u]|] eqn:E; [|discriminate]. intros H. apply Ok_inj, pair_equal_spec in H as [<- <-].
    apply take_only in E as (-> & Z); [|lia]. exists (a ++ n). split; [apply app_assoc|]. split; [exact R|]. cbn [fst snd].
    right. split; [exact Z|]. constructor; [exact V|]. apply parts_one. reflexivity.
Qed.
Lemma item_nonempty f bs : pb_item f bs -> bs <> [].
Proof.
  intros P E. subst bs. pose proof (item_read f [] [] P) as H. discriminate H.
Qed.
Lemma message_read fs : forall bs, pb_message fs bs -> forall fuel, (length bs <= fuel)%nat -> pb_fields fuel bs = Ok fs.
Proof.
  unfold pb_message. induction fs as [|f fs IH]; intros bs P fuel Hl; cbn [map] in P.
  - apply parts_nil_inv in P. subst bs. destruct fuel; reflexivity.
  - apply parts_cons_inv in P as (a & b & -> & Pf & P). pose proof (item_nonempty f a Pf) as Ha.
    rewrite app_length in Hl. assert (0 < length a)%nat by (destruct a; [contradiction|cbn; lia]).
    destruct fuel as [|fuel]; [lia|].
    destruct (a ++ b) as [|x t] eqn:E; [apply app_eq_nil in E as [-> _]; contradiction|].
    cbn [pb_fields]. rewrite <- E. rewrite (item_read f a b Pf). rewrite (IH b P) by lia. reflexivity.
Qed.
Lemma message_only fuel : forall s fs, pb_fields fuel s = Ok fs -> pb_message fs s.
Proof.
  unfold pb_message. induction fuel as [|fuel IH]; intros s fs H; (destruct s as [|x t]; [cbn in H; apply Ok_inj in H; subst fs; constructor|]);
    cbn [pb_fields] in H; [discriminate|].
  destruct (pb_read_field (x :: t)) as [[f s']|] eqn:E; [|discriminate].
  unfold rmap in H. destruct (pb_fields fuel s') as [gs|] eqn:E'; [|discriminate]. apply Ok_inj in H. subst fs.
  apply item_only in E as (bs & -> & P). cbn [map]. constructor; [exact P|]. apply IH, E'.
Qed.
Lemma message_iff fs b : pb_parse b = Ok fs <-> pb_message fs b.
Proof.
  split; [apply message_only|]. intros P. apply (message_read fs b P). lia.
Qed.

(** ** what the fields mean *)
Lemma Forall2_cons_iff A B (R : A -> B -> Prop) a l b m : Forall2 R (a :: l) (b :: m) <-> R a b /\ Forall2 R l m.
Proof. split; [intros H; inversion H; auto|intros []; constructor; assumption]. Qed.
Lemma pb_str_iff b x : pb_str b = Ok x <-> is_utf8 x b.
Proof.
  rewrite is_utf8_encode. unfold pb_str. split.
  - destruct (utf8_decode b) as [y|] eqn:E; [|discriminate]. intros H. apply Ok_inj in H. subst y.
    apply utf8_encode_decode, E.
  - intros H. rewrite (utf8_decode_encode x b H). reflexivity.
Qed.
Lemma last_cons A (a : A) l d : last (a :: l) d = last l a.
Proof.
  revert a d. induction l as [|b l IH]; intros a d; [reflexivity|].
  change (last (a :: b :: l) d) with (last (b :: l) d). rewrite (IH b d), (IH b a). reflexivity.
Qed.
Lemma last_app A (l1 l2 : list A) d : last (l1 ++ l2) d = last l2 (last l1 d).
Proof.
  revert d. induction l1 as [|a l1 IH]; intros d; [reflexivity|]. cbn [app]. rewrite !last_cons. apply IH.
Qed.
Lemma blobs_app n f g : blobs n (f ++ g) = blobs n f ++ blobs n g.
Proof. apply flat_map_app. Qed.

Lemma merge_identity_iff fs : forall u x, merge_identity u fs = Ok x <-> exists l, pb_texts 1 fs l /\ x = last l u.
Proof.
  unfold pb_texts. induction fs as [|[k v] fs IH]; intros u x; cbn [merge_identity blobs flat_map].
  - split.
    + intros H. apply Ok_inj in H. subst x. exists []. split; [constructor|reflexivity].
    + intros (l & F & ->). inversion F. reflexivity.
  - fold (blobs 1 fs). cbn [fst snd]. destruct v as [n|b|b]; [apply IH|apply IH|].
    destruct (k =? 1); [|apply IH]. cbn [app]. split.
    + intros H. apply bind_ok in H as (y & Hy & H). apply IH in H as (l & F & ->).
      exists (y :: l). split; [constructor; [apply pb_str_iff, Hy|exact F]|symmetry; apply last_cons].
    + intros (l & F & ->). destruct l as [|y l]; [inversion F|]. apply Forall2_cons_iff in F as [Hy F].
      apply pb_str_iff in Hy. rewrite Hy. cbn [bind]. apply IH. exists l. split; [exact F|apply last_cons].
Qed.

Definition idf (o : option pystr) (bl : list bytes) (o' : option pystr) : Prop :=
  (bl = [] /\ o' = o) \/
  (bl <> [] /\ exists gs l, Forall2 pb_message gs bl /\ pb_texts 1 (concat gs) l /\ o' = Some (last l (opt_str o))).
Lemma idf_cons o b bl o' : idf o (b :: bl) o' <->
  exists g u, pb_parse b = Ok g /\ merge_identity (opt_str o) g = Ok u /\ idf (Some u) bl o'.
Proof.
  split.
  - intros [[? _]|(_ & gs & l & F & T & ->)]; [discriminate|]. destruct gs as [|g gs]; [inversion F|].
    apply Forall2_cons_iff in F as [Hg F]. cbn [concat] in T. unfold pb_texts in T. rewrite blobs_app in T.
    apply Forall2_app_inv_r in T as (l1 & l2 & T1 & T2 & ->).
    exists g, (last l1 (opt_str o)). split; [apply message_iff, Hg|]. split; [apply merge_identity_iff; exists l1; split; [exact T1|reflexivity]|].
    rewrite last_app. destruct bl as [|c bl].
    + left. split; [reflexivity|]. inversion F; subst gs. cbn [concat blobs flat_map] in T2. inversion T2. reflexivity.
    + right. split; [discriminate|]. exists gs, l2. split; [exact F|]. split; [exact T2|reflexivity].
  - intros (g & u & Hg & Hu & H). apply message_iff in Hg. apply merge_identity_iff in Hu as (l1 & T1 & ->).
    right. split; [discriminate|]. destruct H as [[-> ->]|(_ & gs & l2 & F & T2 & ->)].
    + exists [g], l1. split; [repeat constructor; exact Hg|]. cbn [concat]. rewrite app_nil_r. split; [exact T1|reflexivity].
    + exists (g :: gs), (l1 ++ l2). split; [constructor; assumption|]. cbn [concat]. split.
      * unfold pb_texts. rewrite blobs_app. apply Forall2_app; assumption.
      * rewrite last_app. reflexivity.
Qed.
Lemma idf_is fs o : idf None (blobs 1 fs) o <-> pb_identity_is fs o.
Proof.
  unfold idf, pb_identity_is. cbn [opt_str]. split.
  - intros [[H ->]|(H & gs & l & F & T & ->)]; [exact H|]. split; [exact H|]. exists gs, l. auto.
  - destruct o as [u|].
    + intros (H & gs & l & F & T & ->). right. split; [exact H|]. exists gs, l. auto.
    + intros H. left. auto.
Qed.

Lemma merge_ext_iff fs : forall o ty r, merge_ext_request (mkER o ty) fs = Ok r <->
  idf o (blobs 1 fs) (er_identity r) /\ er_type r = last (map to_int32 (numbers 2 fs)) ty.
Proof.
  induction fs as [|[k v] fs IH]; intros o ty r; cbn [merge_ext_request].
  - cbn [blobs numbers flat_map map last]. split.
    + intros H. apply Ok_inj in H. subst r. cbn. split; [left; auto|reflexivity].
    + intros [[[_ H]|[H _]] E]; [|contradiction]. destruct r; cbn in *. congruence.
  - cbn [blobs numbers flat_map fst snd]. fold (blobs 1 fs). fold (numbers 2 fs).
    destruct v as [n|b|b].
    + destruct (k =? 2); [|apply IH]. rewrite IH. cbn [app map]. rewrite last_cons. reflexivity.
    + apply IH.
    + destruct (k =? 1); [|apply IH]. cbn [app er_identity er_type]. rewrite idf_cons. split.
      * intros H. apply bind_ok in H as (g & Hg & H). apply bind_ok in H as (u & Hu & H). apply IH in H as [H E].
        split; [exists g, u; auto|exact E].
      * intros [(g & u & Hg & Hu & H) E]. rewrite Hg. cbn [bind]. rewrite Hu. cbn [bind]. apply IH. auto.
Qed.
Lemma to_int32_iff n t : t = to_int32 n <-> - 2 ^ 31 <= t < 2 ^ 31 /\ exists k, n = t + k * 2 ^ 32.
Proof.
  unfold to_int32. change (2 ^ 32) with (2 * 2 ^ 31). set (p := 2 ^ 31). assert (Hp : 0 < p) by reflexivity. clearbody p.
  pose proof (Z.div_mod n (2 * p) ltac:(lia)) as D. pose proof (Z.mod_pos_bound n (2 * p) ltac:(lia)) as B. split.
  - intros ->. destruct (Z.leb_spec p (n mod (2 * p))).
    + split; [lia|]. exists (n / (2 * p) + 1). rewrite D at 1. ring.
    + split; [lia|]. exists (n / (2 * p)). rewrite D at 1. ring.
  - intros (R & k & ->). rewrite Z.mod_add by lia. destruct (Z_lt_le_dec t 0).
    + replace (t mod (2 * p)) with (t + 2 * p) by (rewrite <- (Z.mod_add t 1) by lia; symmetry; rewrite Z.mod_small; lia).
      destruct (Z.leb_spec p (t + 2 * p)); lia.
    + rewrite Z.mod_small by lia. destruct (Z.leb_spec p t); lia.
Qed.
Lemma last_map A B (f : A -> B) l d : last (map f l) (f d) = f (last l d).
Proof. revert d. induction l as [|a l IH]; intros d; [reflexivity|]. cbn [map]. rewrite !last_cons. apply IH. Qed.
Lemma parse_ext_iff b r : parse_ext_request b = Ok r <-> any_ext_request r b.
Proof.
  unfold parse_ext_request, any_ext_request.
  assert (E : forall fs, merge_ext_request (mkER None 0) fs = Ok r <-> pb_identity_is fs (er_identity r) /\ pb_enum_is 2 fs (er_type r)).
  { intros fs. rewrite merge_ext_iff, idf_is. unfold pb_enum_is. rewrite <- to_int32_iff.
    change 0 with (to_int32 0) at 1. rewrite last_map. reflexivity. }
  split.
  - intros H. apply bind_ok in H as (fs & Hf & H). exists fs. split; [apply message_iff, Hf|apply E, H].
  - intros (fs & Hf & H). apply message_iff in Hf. rewrite Hf. cbn [bind]. apply E, H.
Qed.

Lemma merge_actions_iff fs : forall o a d r, merge_rest_actions (mkRRA o a d) fs = Ok r <->
  idf o (blobs 1 fs) (rra_identity r) /\ (exists a', pb_texts 2 fs a' /\ rra_actions r = a ++ a') /\
  (exists d', pb_texts 3 fs d' /\ rra_deprecated r = d ++ d').
Proof.
  unfold pb_texts. induction fs as [|[k v] fs IH]; intros o a d r; cbn [merge_rest_actions].
  - cbn [blobs flat_map]. split.
    + intros H. apply Ok_inj in H. subst r. cbn. split; [left; auto|]. split; exists []; (split; [constructor|symmetry; apply app_nil_r]).
    + intros ([[_ H]|[H _]] & (a' & Fa & Ea) & (d' & Fd & Ed)); [|contradiction].
      inversion Fa; subst a'. inversion Fd; subst d'. rewrite app_nil_r in *. destruct r; cbn in *. congruence.
  - cbn [blobs flat_map fst snd]. fold (blobs 1 fs) (blobs 2 fs) (blobs 3 fs).
    destruct v as [n|b|b]; [apply IH|apply IH|].
    destruct (Z.eqb_spec k 1) as [->|N1]; [|destruct (Z.eqb_spec k 2) as [->|N2]; [|destruct (Z.eqb_spec k 3) as [->|N3]; [|apply IH]]].
    + change (1 =? 2) with false. change (1 =? 3) with false. cbn [app rra_identity rra_actions rra_deprecated]. rewrite idf_cons. split.
      * intros H. apply bind_ok in H as (g & Hg & H). apply bind_ok in H as (u & Hu & H). apply IH in H as (H & E).
        split; [exists g, u; auto|exact E].
      * intros [(g & u & Hg & Hu & H) E]. rewrite Hg. cbn [bind]. rewrite Hu. cbn [bind]. apply IH. auto.
    + change (2 =? 3) with false. cbn [app rra_identity rra_actions rra_deprecated]. split.
      * intros H. apply bind_ok in H as (x & Hx & H). apply IH in H as (H & (a' & Fa & Ea) & D). split; [exact H|]. split; [|exact D].
        exists (x :: a'). split; [constructor; [apply pb_str_iff, Hx|exact Fa]|]. rewrite Ea, <- app_assoc. reflexivity.
      * intros (H & (a' & Fa & Ea) & D). destruct a' as [|x a']; [inversion Fa|]. apply Forall2_cons_iff in Fa as [Hx Fa].
        apply pb_str_iff in Hx. rewrite Hx. cbn [bind]. apply IH. split; [exact H|]. split; [|exact D].
        exists a'. split; [exact Fa|]. rewrite Ea, <- app_assoc. reflexivity.
    + cbn [app rra_identity rra_actions rra_deprecated]. split.
      * intros H. apply bind_ok in H as (x & Hx & H). apply IH in H as (H & A & (d' & Fd & Ed)). split; [exact H|]. split; [exact A|].
        exists (x :: d'). split; [constructor; [apply pb_str_iff, Hx|exact Fd]|]. rewrite Ed, <- app_assoc. reflexivity.
      * intros (H & A & (d' & Fd & Ed)). destruct d' as [|x d']; [inversion Fd|]. apply Forall2_cons_iff in Fd as [Hx Fd].
        apply pb_str_iff in Hx. rewrite Hx. cbn [bind]. apply IH. split; [exact H|]. split; [exact A|].
        exists d'. split; [exact Fd|]. rewrite Ed, <- app_assoc. reflexivity.
Qed.
Lemma parse_actions_iff b r : parse_rest_actions b = Ok r <-> any_rest_actions r b.
Proof.
  unfold parse_rest_actions, any_rest_actions.
  assert (E : forall fs, merge_rest_actions (mkRRA None [] []) fs = Ok r <->
    pb_identity_is fs (rra_identity r) /\ pb_texts 2 fs (rra_actions r) /\ pb_texts 3 fs (rra_deprecated r)).
  { intros fs. rewrite merge_actions_iff, idf_is. cbn [app]. split.
    - intros (I & (a & A & ->) & (d & D & ->)). auto.
    - intros (I & A & D). split; [exact I|]. split; eexists; (split; [eassumption|reflexivity]). }
  split.
  - intros H. apply bind_ok in H as (fs & Hf & H). exists fs. split; [apply message_iff, Hf|apply E, H].
  - intros (fs & Hf & H). apply message_iff in Hf. rewrite Hf. cbn [bind]. apply E, H.
Qed.

(** ** the requests that carry them *)
Lemma embedded_reads A M (parse : bytes -> res M) (mk : task_id -> M -> A) (F : fmt M) strict :
  (forall b m, F m b -> parse b = Ok m) ->
  forall t m b bs s, F m b -> parts [w_task strict t; w_vint strict (zlen b); exactly b] bs ->
    (t <~ read_transport_request ;; k <~ read_v_int ;; b <~ read_bytes k ;; m <~ rlift (parse b) ;; rret (mk t m)) (bs ++ s)
    = Ok (mk t m, s).
Proof.
  intros HP t m b bs s Hm P. apply parts_cons_inv in P as (a & r & -> & T & P). apply parts_cons_inv in P as (c & r' & -> & V & P).
  apply parts_cons_inv in P as (d & r & -> & P' & P). apply parts_nil_inv in P. unfold exactly in P'. subst r d.
  rewrite app_nil_r, <- !app_assoc. unfold rbind at 1. rewrite (task_reads strict t a _ I T).
  unfold rbind at 1. rewrite (v_int_reads strict _ c _ I V).
  unfold rbind at 1. rewrite read_bytes_app_n by reflexivity.
  unfold rbind, rlift. rewrite (HP b m Hm). reflexivity.
Qed.
Lemma embedded_only A M (parse : bytes -> res M) (mk : task_id -> M -> A) (F : fmt M) :
  (forall b m, parse b = Ok m -> F m b) ->
  forall s x s', (t <~ read_transport_request ;; k <~ read_v_int ;; b <~ read_bytes k ;; m <~ rlift (parse b) ;; rret (mk t m)) s
    = Ok (x, s') -> s' <> [] ->
  exists t m b bs, x = mk t m /\ F m b /\ s = bs ++ s' /\ parts [w_task false t; w_vint false (zlen b); exactly b] bs.
Proof.
  intros HP s x s' H Hne. apply rbind_ok in H as (t & s1 & H1 & H). apply rbind_ok in H as (k & s2 & H2 & H).
  apply rbind_ok in H as (b & s3 & H3 & H). unfold rbind, rlift in H. destruct (parse b) as [m|] eqn:Em; [|discriminate].
  cbn in H. apply Ok_inj, pair_equal_spec in H as [<- <-].
  apply bytes_only in H3 as (bb & -> & -> & Zb); [exact Hne|].
  apply v_int_only in H2 as (c & -> & V); [apply app_ne, Hne|].
  apply task_only in H1 as (a & -> & T); [apply app_ne, app_ne, Hne|].
  exists t, m, b, (a ++ c ++ b). split; [reflexivity|]. split; [apply HP, Em|]. split; [rewrite <- !app_assoc; reflexivity|].
  rewrite <- Zb in V. constructor; [exact T|]. constructor; [exact V|]. apply parts_one. reflexivity.
Qed.
Lemma any_ext_reads strict : reads read_ext_transport_request (w_any_ext_request strict) (fun _ => True).
Proof.
  intros [t m] bs s _ (b & Hm & P). cbn [etr_er etr_task] in *.
  apply (embedded_reads _ _ parse_ext_request mkETR any_ext_request strict) with (b := b); [intros c m'; apply parse_ext_iff|exact Hm|exact P].
Qed.
Lemma any_ext_only : reads_only read_ext_transport_request (w_any_ext_request false).
Proof.
  intros s x s' H Hne. apply (embedded_only _ _ parse_ext_request mkETR any_ext_request) in H as (t & m & b & bs & -> & Hm & -> & P);
    [|intros c m'; apply parse_ext_iff|exact Hne].
  exists bs. split; [reflexivity|]. exists b. split; assumption.
Qed.
Lemma any_register_reads strict : reads read_register_request (w_any_register_request strict) (fun _ => True).
Proof.
  intros [t m] bs s _ (b & Hm & P). cbn [rrr_rra rrr_task] in *.
  apply (embedded_reads _ _ parse_rest_actions mkRRR any_rest_actions strict) with (b := b); [intros c m'; apply parse_actions_iff|exact Hm|exact P].
Qed.
Lemma any_register_only : reads_only read_register_request (w_any_register_request false).
Proof.
  intros s x s' H Hne. apply (embedded_only _ _ parse_rest_actions mkRRR any_rest_actions) in H as (t & m & b & bs & -> & Hm & -> & P);
    [|intros c m'; apply parse_actions_iff|exact Hne].
  exists bs. split; [reflexivity|]. exists b. split; assumption.
Qed.
