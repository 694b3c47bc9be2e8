(** * Facts about message envelopes *)
From Coq Require Import ZArith List Bool Lia ZifyBool Permutation.
From Coq Require Import Strings.Byte.
From Verif Require Import Py Stream Version Frame PyFacts Utf8Facts StreamFacts StreamFacts2 Spec SpecFacts VersionFacts.
Import ListNotations.
Open Scope Z_scope.
Ltac Zify.zify_post_hook ::= idtac.

(** ** header *)
Lemma twos_use n w r i : twos_complement n w r ->
  - 2 ^ (8 * Z.of_nat n - 1) <= i < 2 ^ (8 * Z.of_nat n - 1) ->
  exists bs, w i = Ok bs /\ length bs = n /\ be_value bs = i mod 2 ^ (8 * Z.of_nat n)
                /\ forall s, r (bs ++ s) = Ok (i, s).
Proof. intros H Hi. apply (proj1 (H i) Hi). Qed.

Lemma header_wire h : header_ok h ->
  exists sz id st ver vhs,
    write_header h = Ok (h_prefix h ++ sz ++ id ++ st ++ ver ++ vhs) /\
    length sz = 4%nat /\ length id = 8%nat /\ length st = 1%nat /\ length ver = 4%nat /\ length vhs = 4%nat /\
    be_value sz = h_size h mod 2 ^ 32 /\ be_value id = h_id h mod 2 ^ 64 /\
    be_value st = h_status h mod 2 ^ 8 /\ (forall v, h_version h = HVer v -> be_value ver = vid v) /\
    be_value vhs = h_vhs h mod 2 ^ 32 /\
    forall s, read_header ((h_prefix h ++ sz ++ id ++ st ++ ver ++ vhs) ++ s) = Ok (h, s).
Proof.
  intros (Hp & H1 & H2 & H3 & H4 & v & Hv & H5).
  destruct fixed_width_ints as (T1 & T4 & T8).
  destruct (twos_use 4 _ _ (h_size h) T4 H1) as (sz & W1 & L1 & V1 & R1).
  destruct (twos_use 8 _ _ (h_id h) T8 H2) as (id & W2 & L2 & V2 & R2).
  destruct (twos_use 1 _ _ (h_status h) T1 H3) as (st & W3 & L3 & V3 & R3).
  destruct (twos_use 4 _ _ (h_vhs h) T4 H4) as (vhs & W4 & L4 & V4 & R4).
  destruct (version_bytes_ok v H5) as (ver & W5 & L5 & V5 & R5).
  exists sz, id, st, ver, vhs. split.
  { unfold write_header. rewrite W1, W2, W3, W4, Hv. cbn [hver_bytes]. rewrite W5. cbn [wcat bind].
    rewrite app_nil_r. reflexivity. }
  repeat (split; [first [assumption | intros v' Hv'; rewrite Hv in Hv'; congruence]|]).
  intros s. unfold read_header. rewrite <- !app_assoc.
  rewrite (rbind_step _ _ _ _ _ _ _ (read_bytes_app_n 2 (h_prefix h) _ ltac:(unfold zlen; lia))).
  rewrite (rbind_step _ _ _ _ _ _ _ (R1 _)), (rbind_step _ _ _ _ _ _ _ (R2 _)),
    (rbind_step _ _ _ _ _ _ _ (R3 _)).
  rewrite (rbind_step _ _ _ _ _ _ _ (read_bytes_app_n 4 ver _ ltac:(unfold zlen; lia))).
  rewrite (rbind_step _ _ _ _ _ _ _ (R4 _)). rewrite R5. unfold rret. rewrite <- Hv. destruct h; reflexivity.
Qed.
Lemma header_23 h bs : header_ok h -> write_header h = Ok bs -> zlen bs = 23.
Proof.
  intros H Hw. pose proof (proj1 H) as Hp.
  destruct (header_wire h H) as (a & b & c & d & e & W & L1 & L2 & L3 & L4 & L5 & _).
  rewrite W in Hw. apply Ok_inj in Hw. subst. unfold zlen. rewrite !app_length. lia.
Qed.
Lemma to_bytes_signed_range n i bs : to_bytes_signed n i = Ok bs ->
  - 2 ^ (8 * Z.of_nat n - 1) <= i < 2 ^ (8 * Z.of_nat n - 1).
Proof.
  unfold to_bytes_signed. destruct (Z.leb_spec (- 2 ^ (8 * Z.of_nat n - 1)) i); [|discriminate].
  destruct (Z.ltb_spec i (2 ^ (8 * Z.of_nat n - 1))); [|discriminate]. intros _. split; assumption.
Qed.
Lemma header_written_ok h v bs : length (h_prefix h) = 2%nat -> h_version h = HVer v ->
  write_header h = Ok bs -> header_ok h.
Proof.
  intros Hp Hv H. unfold write_header in H. rewrite Hv in H. winv.
  cbn [hver_bytes] in *.
  match goal with H : version_to_bytes _ = Ok _ |- _ => apply to_bytes_unsigned_ok in H; destruct H as (? & _) end.
  repeat match goal with
  | H : write_int _ = Ok _ |- _ => apply to_bytes_signed_range in H
  | H : write_long _ = Ok _ |- _ => apply to_bytes_signed_range in H
  | H : write_byte _ = Ok _ |- _ => apply to_bytes_signed_range in H
  end.
  repeat split; try assumption; try (match goal with |- _ <= _ => cbn in *; lia | |- _ < _ => cbn in *; lia end).
  exists v. split; [assumption|]. cbn in *. lia.
Qed.

(** ** status flags *)
Definition fmask (f : flag) : Z :=
  match f with Response => 1 | Error => 2 | Compress => 4 | Handshake => 8 end.
Definition fbit (f : flag) : Z :=
  match f with Response => 0 | Error => 1 | Compress => 2 | Handshake => 3 end.
Lemma flag_get_bit f h : flag_get f h = Z.testbit (h_status h) (fbit f).
Proof.
  assert (E : flag_get f h = negb (Z.land (h_status h) (2 ^ fbit f) =? 0)).
  { destruct f; reflexivity. }
  rewrite E. clear E. assert (Hb : 0 <= fbit f) by (destruct f; cbn; lia).
  destruct (Z.testbit (h_status h) (fbit f)) eqn:E.
  - apply negb_true_iff, Z.eqb_neq. intros H.
    assert (B := f_equal (fun x => Z.testbit x (fbit f)) H). cbn beta in B.
    rewrite Z.land_spec, E, Z.bits_0, Z.pow2_bits_true in B by lia. discriminate.
  - apply negb_false_iff, Z.eqb_eq. apply Z.bits_inj'. intros i Hi.
    rewrite Z.land_spec, Z.pow2_bits_eqb, Z.bits_0 by lia.
    destruct (Z.eqb_spec (fbit f) i) as [<-|]; [rewrite E; reflexivity|apply andb_false_r].
Qed.
Lemma flag_set_status f h v : flag_set f h v = with_status h (set_status (h_status h) (2 ^ fbit f) v).
Proof. destruct f; reflexivity. Qed.
Lemma flag_set_bit f h v i : 0 <= i ->
  Z.testbit (h_status (flag_set f h v)) i = if i =? fbit f then v else Z.testbit (h_status h) i.
Proof.
  intros Hi. assert (Hb : 0 <= fbit f) by (destruct f; cbn; lia).
  rewrite flag_set_status. unfold with_status, set_status. cbn [h_status].
  destruct v.
  - rewrite Z.lor_spec, Z.pow2_bits_eqb by lia. rewrite (Z.eqb_sym (fbit f)).
    destruct (i =? fbit f); [apply orb_true_r|apply orb_false_r].
  - rewrite <- Z.ldiff_land, Z.ldiff_spec, Z.pow2_bits_eqb by lia. rewrite (Z.eqb_sym (fbit f)).
    destruct (i =? fbit f); [apply andb_false_r|apply andb_true_r].
Qed.
Lemma fbit_inj f g : fbit f = fbit g -> f = g.
Proof. destruct f, g; cbn; congruence. Qed.
Lemma flag_get_set f g h v : flag_get g (flag_set f h v) = v /\ f = g \/
  flag_get g (flag_set f h v) = flag_get g h /\ f <> g.
Proof.
  rewrite !flag_get_bit, flag_set_bit by (destruct g; cbn; lia).
  destruct (Z.eqb_spec (fbit g) (fbit f)) as [E|E].
  - left. split; [reflexivity|]. symmetry. apply fbit_inj, E.
  - right. split; [reflexivity|]. intros ->. apply E. reflexivity.
Qed.
Lemma flag_set_rest f h v : let h' := flag_set f h v in
  h_prefix h' = h_prefix h /\ h_size h' = h_size h /\ h_id h' = h_id h /\
  h_version h' = h_version h /\ h_vhs h' = h_vhs h.
Proof. destruct f; cbn; auto. Qed.
(** signed byte range by bits: all bits from 7 on are equal *)
Lemma byte_range_bits s : (- 2 ^ 7 <= s < 2 ^ 7) <-> (forall i, 7 <= i -> Z.testbit s i = Z.testbit s 7).
Proof.
  assert (D : forall i, 0 <= i -> Z.testbit s (i + 7) = Z.testbit (s / 2 ^ 7) i).
  { intros i Hi. rewrite <- Z.shiftr_div_pow2, Z.shiftr_spec by lia. reflexivity. }
  assert (R : (- 2 ^ 7 <= s < 2 ^ 7) <-> (s / 2 ^ 7 = 0 \/ s / 2 ^ 7 = -1)).
  { change (2 ^ 7) with 128. Ltac Zify.zify_post_hook ::= Z.div_mod_to_equations. lia. }
  rewrite R. split.
  - intros H i Hi. pose proof (D 0 ltac:(lia)) as D0. change (0 + 7) with 7 in D0.
    rewrite D0. replace i with (i - 7 + 7) by lia. rewrite D by lia. destruct H as [-> | ->]; rewrite ?Z.bits_0, ?Z.bits_m1 by lia; reflexivity.
  - intros H. destruct (Z.testbit s 7) eqn:E.
    + right. apply Z.bits_inj'. intros i Hi. rewrite Z.bits_m1, <- D by lia. apply H. lia.
    + left. apply Z.bits_inj'. intros i Hi. rewrite Z.bits_0, <- D by lia. apply H. lia.
Qed.
Ltac Zify.zify_post_hook ::= idtac.
Lemma flag_set_range f h v : - 2 ^ 7 <= h_status h < 2 ^ 7 ->
  - 2 ^ 7 <= h_status (flag_set f h v) < 2 ^ 7.
Proof.
  rewrite !byte_range_bits. intros H i Hi.
  assert (fbit f < 7) by (destruct f; cbn; lia).
  rewrite !flag_set_bit by lia.
  destruct (Z.eqb_spec i (fbit f)); [lia|]. destruct (Z.eqb_spec 7 (fbit f)); [lia|]. apply H, Hi.
Qed.

(** any sequence of assignments *)
Definition flag_eqb (f g : flag) : bool := fbit f =? fbit g.
Lemma flag_eqb_eq f g : flag_eqb f g = true <-> f = g.
Proof.
  unfold flag_eqb. rewrite Z.eqb_eq. split; [apply fbit_inj|congruence].
Qed.
Lemma assigns_last h l g v : ~ In g (map fst l) ->
  forall l0, flag_get g (fold_left assign (l0 ++ (g, v) :: l) h) = v.
Proof.
  intros Hn l0. rewrite fold_left_app. cbn [fold_left]. generalize (fold_left assign l0 h). intros h0.
  unfold assign at 2. cbn [fst snd].
  assert (E : flag_get g (flag_set g h0 v) = v)
    by (destruct (flag_get_set g g h0 v) as [[? _]|[_ C]]; [assumption|contradiction C; reflexivity]).
  revert E. generalize (flag_set g h0 v). clear h0 l0. induction l as [|[f w] l IH]; intros h0 E.
  - exact E.
  - cbn [fold_left]. apply IH; [intros C; apply Hn; right; exact C|].
    unfold assign. cbn [fst snd].
    destruct (flag_get_set f g h0 w) as [[_ ->]|[-> _]]; [|exact E].
    exfalso. apply Hn. left. reflexivity.
Qed.
Lemma assigns_none h l g : ~ In g (map fst l) -> flag_get g (fold_left assign l h) = flag_get g h.
Proof.
  revert h. induction l as [|[f w] l IH]; intros h Hn; [reflexivity|].
  cbn [fold_left]. rewrite IH by (intros C; apply Hn; right; exact C).
  unfold assign. cbn [fst snd].
  destruct (flag_get_set f g h w) as [[_ ->]|[-> _]]; [|reflexivity].
  exfalso. apply Hn. left. reflexivity.
Qed.
Lemma assigns_rest h l : let h' := fold_left assign l h in
  h_prefix h' = h_prefix h /\ h_size h' = h_size h /\ h_id h' = h_id h /\
  h_version h' = h_version h /\ h_vhs h' = h_vhs h /\
  (- 2 ^ 7 <= h_status h < 2 ^ 7 -> - 2 ^ 7 <= h_status h' < 2 ^ 7).
Proof.
  revert h. induction l as [|[f w] l IH]; intros h; [cbn; tauto|].
  intros h'. cbn [fold_left] in h'. destruct (IH (assign h (f, w))) as (H1 & H2 & H3 & H4 & H5 & H6).
  fold h' in H1, H2, H3, H4, H5, H6.
  destruct (flag_set_rest f h w) as (G1 & G2 & G3 & G4 & G5).
  unfold assign in *. cbn [fst snd] in *.
  rewrite H1, H2, H3, H4, H5. repeat (split; [congruence|]).
  intros Hr. apply H6, flag_set_range, Hr.
Qed.

(** ** request ids *)
Definition draws (rid : option Z) : bool := match rid with Some i => i =? 0 | None => true end.
Lemma pick_id_spec rid n : pick_id rid n =
  if draws rid then (Ok n, n + 1) else (Ok (match rid with Some i => i | None => 0 end), n).
Proof. destruct rid as [i|]; cbn; [destruct (i =? 0)|]; reflexivity. Qed.

Lemma make_outbound c v st rid msg f a n :
  let (r, n') := new_outbound c v st rid msg f a n in
  n' = (if draws rid then n + 1 else n) /\
  forall o, r = Ok o -> h_id (o_hdr o) = (if draws rid then n else match rid with Some i => i | None => 0 end).
Proof.
  unfold new_outbound, new_header, ibind. rewrite pick_id_spec.
  destruct (draws rid); cbn [iret ilift];
  (destruct (ctx_size _) as [sz|e]; cbn [ilift]; [|split; [reflexivity|discriminate]]);
  (destruct msg as [[b|e]|]; cbn [ilift iret]; (split; [reflexivity|intros o Ho; try discriminate; apply Ok_inj in Ho; subst o; reflexivity])).
Qed.
Lemma set_flags_id o hs cp : h_id (o_hdr (set_flags o hs cp)) = h_id (o_hdr o).
Proof. destruct hs, cp; reflexivity. Qed.
Lemma make_id m n : let (r, n') := make m n in
  n' = (if draws (making_id m) then n + 1 else n) /\
  forall h, r = Ok h ->
    h_id h = (if draws (making_id m) then n else match making_id m with Some i => i | None => 0 end).
Proof.
  destruct m as [p rid st v sz vhs|c f msg v a rid hs cp|c f msg v rid hs cp]; cbn [make making_id].
  - unfold new_header, ibind. rewrite pick_id_spec. destruct (draws rid); (split; [reflexivity|]);
      intros h Hh; apply Ok_inj in Hh; subst h; reflexivity.
  - unfold new_request, ibind at 1 2. pose proof (make_outbound c v 0 rid msg f a n) as M.
    unfold ibind at 1. destruct (new_outbound c v 0 rid msg f a n) as [[o|e] n']; destruct M as [M1 M2];
      [|split; [exact M1|discriminate]].
    unfold ibind, ilift. destruct (request_variable_bytes f a) as [vb|e]; [|split; [exact M1|discriminate]].
    cbn [iret]. split; [exact M1|]. intros h Hh. apply Ok_inj in Hh. subst h.
    rewrite set_flags_id. apply (M2 o eq_refl).
  - unfold new_response, ibind. pose proof (make_outbound c v STATUS_REQRES rid msg f [] n) as M.
    destruct (new_outbound c v STATUS_REQRES rid msg f [] n) as [[o|e] n']; destruct M as [M1 M2];
      [|split; [exact M1|discriminate]].
    cbn [iret]. split; [exact M1|]. intros h Hh. apply Ok_inj in Hh. subst h.
    rewrite set_flags_id. apply (M2 o eq_refl).
Qed.
Definition drawing (m : making) : bool := draws (making_id m).
Lemma make_all_nth l : forall n k m h,
  nth_error l k = Some m -> nth_error (make_all l n) k = Some (Ok h) ->
  h_id h = match making_id m with
           | Some i => if i =? 0 then n + zlen (filter drawing (firstn k l)) else i
           | None => n + zlen (filter drawing (firstn k l))
           end.
Proof.
  induction l as [|m0 l IH]; intros n k m h Hk Hr; [destruct k; discriminate|].
  cbn [make_all] in Hr. pose proof (make_id m0 n) as M.
  destruct (make m0 n) as [r n']. destruct M as [M1 M2].
  destruct k as [|k].
  - cbn in Hk, Hr. injection Hk as ->. injection Hr as ->.
    rewrite (M2 h eq_refl). unfold zlen. cbn. destruct (making_id m) as [i|]; cbn; [destruct (i =? 0)|]; lia.
  - cbn [nth_error] in Hk, Hr. rewrite (IH n' k m h Hk Hr). cbn [firstn filter].
    subst n'. change (draws (making_id m0)) with (drawing m0). destruct (drawing m0); [|reflexivity].
    unfold zlen. cbn [length]. destruct (making_id m) as [i|]; [destruct (i =? 0)|]; lia.
Qed.
Lemma make_all_increasing l n i j mi mj hi hj : (i < j)%nat ->
  nth_error l i = Some mi -> nth_error l j = Some mj -> making_id mi = None -> making_id mj = None ->
  nth_error (make_all l n) i = Some (Ok hi) -> nth_error (make_all l n) j = Some (Ok hj) ->
  n <= h_id hi < h_id hj.
Proof.
  intros Hij Hi Hj Ni Nj Ri Rj.
  rewrite (make_all_nth l n i mi hi Hi Ri), (make_all_nth l n j mj hj Hj Rj), Ni, Nj.
  assert (E : exists t, firstn j l = firstn i l ++ mi :: t).
  { clear Hj Ri Rj. revert i j Hij Hi. induction l as [|x l IH]; intros i j Hij Hi; [destruct i; discriminate|].
    destruct j as [|j]; [lia|]. destruct i as [|i].
    - cbn in Hi. injection Hi as ->. exists (firstn j l). reflexivity.
    - cbn in Hi. destruct (IH i j ltac:(lia) Hi) as [t Et]. exists t. cbn [firstn app]. rewrite Et. reflexivity. }
  destruct E as [t ->]. rewrite filter_app. cbn [filter].
  assert (D : drawing mi = true) by (unfold drawing; rewrite Ni; reflexivity).
  rewrite D, zlen_app. unfold zlen. cbn [length]. lia.
Qed.
Lemma make_keeps_id m n h n' i : making_id m = Some i -> i <> 0 -> make m n = (Ok h, n') -> h_id h = i /\ n' = n.
Proof.
  intros Hm Hi H. pose proof (make_id m n) as M. rewrite H, Hm in M. destruct M as [M1 M2].
  specialize (M2 h eq_refl). cbn in M1, M2. destruct (Z.eqb_spec i 0); [contradiction|]. auto.
Qed.
Lemma make_drops_zero :
  ~ (forall m n h n' i, making_id m = Some i -> make m n = (Ok h, n') -> h_id h = i).
Proof.
  intros H. specialize (H (MkHeader ES (Some 0) 0 HNone 0 0) 5 (mkHeader ES 0 5 0 HNone 0) 6 0 eq_refl eq_refl).
  discriminate.
Qed.

(** ** sizes *)
Definition agree (sz : res Z) (w : res bytes) (P : Prop) : Prop :=
  forall n bs, sz = Ok n -> w = Ok bs -> n <= zlen bs /\ (n = zlen bs <-> P).

Lemma agree_nil : agree (sum_res []) (wcat []) True.
Proof. intros n bs Hn Hb. apply Ok_inj in Hn, Hb. subst. cbn. split; [lia|tauto]. Qed.
Lemma agree_cons s w P ss ws Q : agree s w P -> agree (sum_res ss) (wcat ws) Q ->
  agree (sum_res (s :: ss)) (wcat (w :: ws)) (P /\ Q).
Proof.
  intros H1 H2 n bs Hn Hb. cbn [sum_res] in Hn. winv.
  destruct (H1 _ _ Ha Hw) as [L1 E1]. destruct (H2 _ _ Ha0 Hbs) as [L2 E2].
  rewrite zlen_app. split; [lia|]. rewrite <- E1, <- E2. lia.
Qed.
Lemma agree_map A (f : A -> res Z) (g : A -> res bytes) (P : A -> Prop) l :
  (forall a, agree (f a) (g a) (P a)) -> agree (sum_res (map f l)) (wcat (map g l)) (Forall P l).
Proof.
  intros H. induction l as [|a l IH]; cbn [map].
  - intros n bs Hn Hb. destruct (agree_nil n bs Hn Hb) as [L E]. split; [exact L|].
    split; [constructor|intros _; apply E, I].
  - intros n bs Hn Hb. destruct (agree_cons _ _ _ _ _ _ (H a) IH n bs Hn Hb) as [L E].
    split; [exact L|]. rewrite E. split; [intros [? ?]; constructor; assumption|].
    intros F; inversion F; auto.
Qed.
Lemma agree_iff s w P Q : (P <-> Q) -> agree s w P -> agree s w Q.
Proof. intros H A n bs Hn Hb. destruct (A n bs Hn Hb). split; [assumption|tauto]. Qed.
Lemma agree_v_int i : agree (Ok (v_int_size i)) (write_v_int i) True.
Proof.
  intros n bs Hn Hb. apply Ok_inj in Hn. subst n. apply v_int_size_correct in Hb.
  split; [lia|tauto].
Qed.
Lemma v_int_size_mono a b : 0 <= a <= b -> v_int_size a <= v_int_size b.
Proof.
  intros H. destruct (v_int_size_least a) as (_ & _ & L); [lia|].
  destruct (v_int_size_least b) as (B1 & B2 & _); [lia|]. apply L; lia.
Qed.
Lemma utf8_enc1_nonempty c b : utf8_enc1 c = Ok b -> 1 <= zlen b.
Proof.
  unfold utf8_enc1. repeat (match goal with |- context [if ?x then _ else _] => destruct x end); intros H; try discriminate;
  apply Ok_inj in H; subst; vm_compute; discriminate.
Qed.
Lemma utf8_encode_longer x e : utf8_encode x = Ok e -> zlen x <= zlen e.
Proof.
  revert e. unfold utf8_encode. induction x as [|c x IH]; intros e H; cbn [map] in H; winv; [cbn; lia|].
  apply utf8_enc1_nonempty in Hw. apply IH in Hbs. rewrite zlen_app, zlen_cons. lia.
Qed.
Lemma v_int_size_digits a b : 0 <= a -> 0 <= b ->
  (v_int_size a = v_int_size b <-> forall k, 1 <= k -> (a < 128 ^ k <-> b < 128 ^ k)).
Proof.
  intros Ha Hb. destruct (v_int_size_least a Ha) as (A1 & A2 & A3). destruct (v_int_size_least b Hb) as (B1 & B2 & B3). split.
  - intros E k Hk.
    assert (P : forall i j, 1 <= j <= k -> i < 128 ^ j -> i < 128 ^ k).
    { intros i j Hj Hi. apply Z.lt_le_trans with (1 := Hi). apply Z.pow_le_mono_r; lia. }
    split; intros H.
    + apply (P b (v_int_size b)); [rewrite <- E; split; [lia|]; apply A3; assumption|assumption].
    + apply (P a (v_int_size a)); [rewrite E; split; [lia|]; apply B3; assumption|assumption].
  - intros H. apply Z.le_antisymm; [apply A3; [lia|]; apply H; [lia|assumption]|apply B3; [lia|]; apply H; [lia|assumption]].
Qed.
Lemma length_prefix_size x : length_prefix_ok x <-> forall e, is_utf8 x e -> v_int_size (zlen x) = v_int_size (zlen e).
Proof.
  split.
  - intros H e He. apply (v_int_size_digits _ _ (zlen_nonneg _ x) (zlen_nonneg _ e)). intros k Hk. apply H; assumption.
  - intros H e k He Hk. apply (v_int_size_digits _ _ (zlen_nonneg _ x) (zlen_nonneg _ e)); [apply H, He|exact Hk].
Qed.
Lemma agree_string x : agree (str_size x) (write_string x) (length_prefix_ok x).
Proof.
  intros n bs Hn Hb. unfold str_size, utf8_len in Hn.
  apply write_string_form in Hb as (e & l & He & Hl & ->). rewrite He in Hn. cbn [rmap] in Hn.
  apply Ok_inj in Hn. subst n. apply v_int_size_correct in Hl. rewrite zlen_app.
  pose proof (v_int_size_mono (zlen x) (zlen e)
    (conj (zlen_nonneg _ x) (utf8_encode_longer x e He))).
  split; [lia|]. rewrite length_prefix_size. split.
  - intros H1 e' He'. apply is_utf8_encode in He'. rewrite He in He'. apply Ok_inj in He'. subst e'. lia.
  - intros H1. specialize (H1 e (proj2 (is_utf8_encode x e) He)). lia.
Qed.
Lemma agree_ctx c : agree (ctx_size c) (write_ctx c) (Forall length_prefix_ok (ctx_strings c)).
Proof.
  unfold ctx_size, write_ctx.
  eapply agree_iff; [|apply agree_cons; [|apply agree_cons; [|apply agree_nil]]].
  2: { apply agree_cons; [apply agree_v_int|].
       apply (agree_map _ _ _ (fun kv => length_prefix_ok (fst kv) /\ length_prefix_ok (snd kv) /\ True)).
       intros kv. apply agree_cons; [apply agree_string|]. apply agree_cons; [apply agree_string|apply agree_nil]. }
  2: { apply agree_cons; [apply agree_v_int|].
       apply (agree_map _ _ _ (fun kv => length_prefix_ok (fst kv) /\ True /\ Forall length_prefix_ok (snd kv))).
       intros kv.
       assert (A : agree (sum_res (Ok (v_int_size (zlen (snd kv))) :: map str_size (snd kv)))
                    (write_string_array (snd kv)) (True /\ Forall length_prefix_ok (snd kv)))
         by (apply agree_cons; [apply agree_v_int|apply agree_map, agree_string]).
       intros n bs Hn Hb. apply bind_ok in Hn as (a & Ha & Hn).
       apply bind_ok in Hn as (b & Hb' & Hn). apply Ok_inj in Hn. subst n.
       apply wcat_cons_ok in Hb as (w & bs1 & Hw & Hb & ->).
       apply wcat_cons_ok in Hb as (w0 & bs2 & Hw0 & Hb & ->). apply wcat_nil_ok in Hb as ->.
       destruct (agree_string (fst kv) a w Ha Hw) as [L1 E1].
       destruct (A b w0 Hb' Hw0) as [L2 E2]. rewrite !zlen_app. change (zlen (@nil byte)) with 0.
       split; [lia|]. rewrite <- E1, <- E2. lia. }
  unfold ctx_strings. rewrite Forall_app, !Forall_flat_map.
  assert (X : forall A (P Q : A -> Prop) l, (forall a, P a <-> Q a) -> Forall P l <-> Forall Q l).
  { intros A P Q l H. rewrite !Forall_forall. firstorder. }
  rewrite (X _ (fun kv : pystr * pystr => length_prefix_ok (fst kv) /\ length_prefix_ok (snd kv) /\ True)
     (fun kv => Forall length_prefix_ok [fst kv; snd kv])).
  2: { intros kv. rewrite !Forall_cons_iff. intuition constructor. }
  rewrite (X _ (fun kv : pystr * list pystr => length_prefix_ok (fst kv) /\ True /\ Forall length_prefix_ok (snd kv))
     (fun kv => Forall length_prefix_ok (fst kv :: snd kv))).
  2: { intros kv. rewrite Forall_cons_iff. tauto. }
  tauto.
Qed.
Lemma length_prefix_ascii x : Forall (fun c => 0 <= c < 128) x -> length_prefix_ok x.
Proof.
  intros H. apply length_prefix_size. intros e He. apply is_utf8_encode in He. f_equal. revert e He. unfold utf8_encode.
  induction H as [|c x Hc Hx IH]; intros e He; cbn [map] in He; winv; [reflexivity|].
  rewrite zlen_cons, zlen_app, (IH _ Hbs).
  unfold utf8_enc1 in Hw. destruct (Z.ltb_spec c 0); [lia|]. destruct (Z.ltb_spec c 0x80); [|lia].
  apply Ok_inj in Hw. subst. reflexivity.
Qed.
Lemma length_prefix_short x e : is_utf8 x e -> zlen e < 128 -> length_prefix_ok x.
Proof.
  intros H1 H2. apply length_prefix_size. intros e' H'. apply is_utf8_encode in H1, H'. rewrite H1 in H'. apply Ok_inj in H'. subst e'.
  apply utf8_encode_longer in H1. rewrite !v_int_size_small by lia. reflexivity.
Qed.

(** ** frames *)
Definition frame_inv (o : outbound) : Prop :=
  length (h_prefix (o_hdr o)) = 2%nat /\ (exists v, h_version (o_hdr o) = HVer v) /\
  exists sz, ctx_size (o_ctx o) = Ok sz /\
    h_size (o_hdr o) = 17 + sz + opt_len (o_var o) + opt_len (o_msg o) /\
    h_vhs (o_hdr o) = sz + opt_len (o_var o).
Lemma new_outbound_inv c v st rid msg f a n o n' :
  new_outbound c (HVer v) st rid msg f a n = (Ok o, n') ->
  frame_inv o /\ h_version (o_hdr o) = HVer v /\ h_status (o_hdr o) = st /\
  o_ctx o = (match c with Some c => c | None => empty_ctx end) /\
  o_var o = None /\ o_features o = f /\ o_action o = a /\
  match msg with Some r => exists b, r = Ok b /\ o_msg o = Some b | None => o_msg o = None end.
Proof.
  unfold new_outbound, new_header, ibind. rewrite pick_id_spec.
  set (c' := match c with Some c => c | None => empty_ctx end).
  destruct (draws rid); cbn [iret ilift];
  (destruct (ctx_size c') as [sz|e] eqn:Es; cbn [ilift]; [|discriminate]);
  (destruct msg as [[b|e]|]; cbn [ilift iret]; [|discriminate|]);
  intros H; apply pair_equal_spec in H; destruct H as [H _]; apply Ok_inj in H; subst o;
  unfold frame_inv, with_sizes; cbn [o_hdr o_ctx o_var o_msg o_features o_action h_prefix h_version h_size h_vhs h_status opt_len];
  (split; [split; [reflexivity|split; [eauto|exists sz; unfold MESSAGE_SIZE; repeat split; first [assumption|lia]]]|]);
  repeat (split; [reflexivity|]); eauto.
Qed.
Lemma edit_inv o e : frame_inv o -> frame_inv (apply_edit o e).
Proof.
  intros (H1 & H2 & sz & H3 & H4 & H5). destruct e as [b|b|f v]; cbn [apply_edit].
  - unfold set_message_bytes, with_sizes, frame_inv.
    cbn [o_hdr o_ctx o_var o_msg h_prefix h_version h_size h_vhs].
    split; [assumption|split; [assumption|]]. exists sz. repeat split; [assumption| |assumption].
    rewrite H4. cbn [opt_len]. lia.
  - unfold set_variable_bytes, with_sizes, frame_inv.
    cbn [o_hdr o_ctx o_var o_msg h_prefix h_version h_size h_vhs].
    split; [assumption|split; [assumption|]]. exists sz. repeat split; [assumption| |];
    rewrite ?H4, ?H5; cbn [opt_len]; lia.
  - unfold with_hdr, frame_inv. cbn [o_hdr o_ctx o_var o_msg].
    destruct (flag_set_rest f (o_hdr o) v) as (G1 & G2 & G3 & G4 & G5).
    rewrite G1, G2, G4, G5. split; [assumption|split; [assumption|]]. exists sz. auto.
Qed.
Lemma edits_inv es o : frame_inv o -> frame_inv (fold_left apply_edit es o).
Proof. revert o. induction es as [|e es IH]; intros o H; [exact H|]. apply IH, edit_inv, H. Qed.
Lemma set_flags_edits o hs cp : set_flags o hs cp =
  fold_left apply_edit ((if hs then [EditFlag Handshake true] else []) ++
                        (if cp then [EditFlag Compress true] else [])) o.
Proof. destruct hs, cp, o; reflexivity. Qed.
Lemma constructed_inv o : constructed o -> frame_inv o.
Proof.
  destruct 1 as [c f msg v a rid hs cp n o n' H|c f msg v rid hs cp n o n' H].
  - unfold new_request, ibind in H.
    destruct (new_outbound c (HVer v) 0 rid msg f a n) as [[o1|] n1] eqn:E; [|discriminate].
    destruct (request_variable_bytes f a) as [vb|]; cbn [ilift iret] in H; [|discriminate].
    apply pair_equal_spec in H; destruct H as [H _]; apply Ok_inj in H; subst o.
    rewrite set_flags_edits. apply edits_inv. change (frame_inv (apply_edit o1 (EditVariable vb))).
    apply edit_inv. eapply new_outbound_inv; eassumption.
  - unfold new_response, ibind in H.
    destruct (new_outbound c (HVer v) STATUS_REQRES rid msg f [] n) as [[o1|] n1] eqn:E; [|discriminate].
    cbn [ilift iret] in H.
    apply pair_equal_spec in H; destruct H as [H _]; apply Ok_inj in H; subst o.
    rewrite set_flags_edits. apply edits_inv. eapply new_outbound_inv; eassumption.
Qed.
Lemma frame_written o bs : frame_inv o -> write_outbound o = Ok bs ->
  header_ok (o_hdr o) /\ exists hdr cb sz, write_header (o_hdr o) = Ok hdr /\ zlen hdr = 23 /\
    write_ctx (o_ctx o) = Ok cb /\ ctx_size (o_ctx o) = Ok sz /\
    bs = hdr ++ cb ++ opt_bytes (o_var o) ++ opt_bytes (o_msg o) /\
    h_size (o_hdr o) - (zlen bs - 6) = sz - zlen cb /\
    h_vhs (o_hdr o) = sz + opt_len (o_var o).
Proof.
  intros (H1 & [v H2] & sz & H3 & H4 & H5) Hw. unfold write_outbound in Hw.
  apply wcat_cons_ok in Hw as (hdr & b1 & Hh & Hw & ->).
  apply wcat_cons_ok in Hw as (cb & b2 & Hc & Hw & ->).
  apply wcat_cons_ok in Hw as (vb & b3 & Hv & Hw & ->). apply Ok_inj in Hv. subst vb.
  apply wcat_cons_ok in Hw as (mb & b4 & Hm & Hw & ->). apply Ok_inj in Hm. subst mb.
  apply wcat_nil_ok in Hw as ->. rewrite app_nil_r.
  pose proof (header_written_ok _ v _ H1 H2 Hh) as Hok. split; [exact Hok|].
  pose proof (header_23 _ _ Hok Hh) as H23.
  exists hdr, cb, sz. repeat (split; [first [assumption|reflexivity]|]).
  split; [|exact H5]. rewrite !zlen_app. rewrite H4, H23.
  unfold opt_bytes. destruct (o_var o), (o_msg o); cbn [opt_len]; change (zlen (@nil byte)) with 0; lia.
Qed.
Lemma lengths_right_iff o bs : frame_inv o -> write_outbound o = Ok bs ->
  (lengths_right o bs <-> Forall length_prefix_ok (ctx_strings (o_ctx o))).
Proof.
  intros Hi Hw. destruct (frame_written o bs Hi Hw) as (_ & hdr & cb & sz & _ & H23 & Hc & Hs & Hb & Hd & Hv).
  destruct (agree_ctx (o_ctx o) sz cb Hs Hc) as [_ E]. rewrite <- E.
  assert (Ev : match o_var o with Some b => zlen b | None => 0 end = opt_len (o_var o)) by reflexivity.
  split.
  - intros [L _]. lia.
  - intros ->. split; [lia|]. exists hdr, cb. repeat (split; [assumption|]). rewrite Ev. exact Hv.
Qed.
Lemma edits_ctx es o : o_ctx (fold_left apply_edit es o) = o_ctx o.
Proof. revert o. induction es as [|[b|b|f v] es IH]; intros o; [reflexivity|..]; cbn [fold_left]; rewrite IH; reflexivity. Qed.
Lemma frame_lengths o es bs : constructed o ->
  write_outbound (fold_left apply_edit es o) = Ok bs ->
  (lengths_right (fold_left apply_edit es o) bs <-> Forall length_prefix_ok (ctx_strings (o_ctx o))).
Proof.
  intros Hc Hw. rewrite <- (edits_ctx es o). apply lengths_right_iff; [|exact Hw].
  apply edits_inv, constructed_inv, Hc.
Qed.
Definition bad_ctx : ctx := mkCtx [([120], repeat 233 64)] [].
Lemma frame_lengths_refuted :
  ~ (forall o bs, constructed o -> write_outbound o = Ok bs -> lengths_right o bs).
Proof.
  intros H.
  destruct (new_response (Some bad_ctx) [] None (HVer (version_of_id 0)) (Some 1) false false 0) as [[o|e] n'] eqn:E;
    [|vm_compute in E; discriminate].
  destruct (write_outbound o) as [bs|e] eqn:W.
  - specialize (H o bs (con_response _ _ _ _ _ _ _ _ _ _ E) W). destruct H as [H _].
    vm_compute in E. injection E as <- <-. vm_compute in W. injection W as <-. vm_compute in H. discriminate.
  - vm_compute in E. injection E as <- <-. vm_compute in W. discriminate.
Qed.

(** ** round trips *)
Lemma ctx_survives so : set_order_ok so -> survives_upto same_ctx write_ctx (read_ctx so) ctx_ok.
Proof.
  intros Hso c [H1 H2].
  destruct (string_dict_survives _ H1) as (b1 & W1 & R1).
  destruct (string_set_dict_survives so Hso _ H2) as (b2 & W2 & R2).
  exists (b1 ++ b2). split.
  { unfold write_ctx. rewrite W1. change (write_string_to_string_array_dict (c_res c)) with (write_string_to_string_set_dict (c_res c)).
    rewrite W2. cbn [wcat bind]. rewrite app_nil_r. reflexivity. }
  intros s. destruct (R2 s) as (d & Rd & Sd). exists (mkCtx (c_req c) d).
  split; [|split; [reflexivity|exact Sd]].
  unfold read_ctx. rewrite <- app_assoc. rewrite (rbind_step _ _ _ _ _ _ _ (R1 _)).
  rewrite (rbind_step _ _ _ _ _ _ _ Rd). reflexivity.
Qed.

Lemma sum_res_perm l l' : Permutation l l' -> forall n, sum_res l = Ok n -> sum_res l' = Ok n.
Proof.
  induction 1 as [|x l l' H IH|x y l|l1 l2 l3 H1 IH1 H2 IH2]; intros n Hn; cbn [sum_res] in *.
  - exact Hn.
  - apply bind_ok in Hn as (a & -> & Hn). apply bind_ok in Hn as (b & Hb & Hn).
    cbn [bind]. rewrite (IH b Hb). exact Hn.
  - destruct y as [a|], x as [b|]; cbn [bind] in *; try discriminate.
    destruct (sum_res l) as [c|]; cbn [bind] in *; [|discriminate].
    apply Ok_inj in Hn. subst. f_equal. lia.
  - apply IH2, IH1, Hn.
Qed.
Lemma forall2_length A B (R : A -> B -> Prop) l l' : Forall2 R l l' -> length l = length l'.
Proof. induction 1; cbn; congruence. Qed.
Lemma same_ctx_size c c' n : same_ctx c c' -> ctx_size c = Ok n -> ctx_size c' = Ok n.
Proof.
  intros [H1 H2] Hn. unfold ctx_size in *. rewrite <- H1.
  apply bind_ok in Hn as (a & Ha & Hn). cbn [sum_res]. rewrite Ha. cbn [bind].
  apply bind_ok in Hn as (b & Hb & Hn). apply bind_ok in Hb as (b' & Hb' & Hb).
  assert (E : string_to_string_collection_dict_size (c_res c') = Ok b').
  { clear - H2 Hb'. unfold string_to_string_collection_dict_size in *.
    set (f := fun kv : pystr * list pystr => sum_res (str_size (fst kv)
                 :: Ok (v_int_size (zlen (snd kv))) :: map str_size (snd kv))) in *.
    unfold same_set_dict in H2.
    assert (Hl : zlen (c_res c') = zlen (c_res c))
      by (unfold zlen; rewrite (forall2_length _ _ _ _ _ H2); reflexivity).
    rewrite Hl. apply bind_ok in Hb' as (b & Hb & E). change (sum_res (map f (c_res c)) = Ok b) in Hb. apply Ok_inj in E. subst b'.
    enough (X : sum_res (map f (c_res c')) = Ok b) by (cbn [sum_res bind]; rewrite X; reflexivity).
    assert (F : forall x y n, fst x = fst y -> Permutation (snd x) (snd y) -> f x = Ok n -> f y = Ok n).
    { intros x y n Hk Hp. unfold f. rewrite Hk.
      replace (zlen (snd y)) with (zlen (snd x)) by (unfold zlen; rewrite (Permutation_length Hp); reflexivity).
      apply sum_res_perm. do 2 constructor. apply Permutation_map, Hp. }
    clearbody f. clear Hl. revert b Hb.
    induction H2 as [|x y l l' [Hk Hp] _ IH]; intros b Hb; [exact Hb|].
    cbn [map] in *. apply bind_ok in Hb as (u & Hu & Hb). apply bind_ok in Hb as (w & Hw & Hb).
    cbn [sum_res]. rewrite (F x y u Hk Hp Hu), (IH w Hw). cbn [bind]. exact Hb. }
  rewrite E. cbn [bind] in Hb |- *. apply Ok_inj in Hb. subst b. exact Hn.
Qed.
Lemma sum_res_nonneg l n : Forall (fun x => forall k, x = Ok k -> 0 <= k) l -> sum_res l = Ok n -> 0 <= n.
Proof.
  revert n. induction l as [|x l IH]; intros n H Hn; cbn [sum_res] in Hn.
  - apply Ok_inj in Hn. lia.
  - apply bind_ok in Hn as (a & Ha & Hn). apply bind_ok in Hn as (b & Hb & Hn). apply Ok_inj in Hn.
    inversion H; subst. specialize (H2 a eq_refl). specialize (IH b H3 Hb). lia.
Qed.
Lemma v_int_size_pos i : 1 <= v_int_size i.
Proof.
  destruct (Z_lt_le_dec i 0); [rewrite v_int_size_small by lia; lia|].
  destruct (v_int_size_least i) as (H & _); assumption.
Qed.
Lemma str_size_nonneg x k : str_size x = Ok k -> 0 <= k.
Proof.
  unfold str_size, utf8_len. intros H. destruct (utf8_encode x) as [e|]; cbn [rmap] in H; [|discriminate].
  apply Ok_inj in H. pose proof (zlen_nonneg _ e). pose proof (v_int_size_pos (zlen x)). lia.
Qed.
Lemma ctx_size_pos c n : ctx_size c = Ok n -> 2 <= n.
Proof.
  intros H. unfold ctx_size in H. cbn [sum_res] in H.
  apply bind_ok in H as (a & Ha & H). apply bind_ok in H as (b & Hb & H). apply Ok_inj in H.
  apply bind_ok in Hb as (b' & Hb' & Hb). cbn [bind] in Hb. apply Ok_inj in Hb.
  unfold string_to_string_dict_size in Ha. unfold string_to_string_collection_dict_size in Hb'.
  apply bind_ok in Ha as (x & Hx & Ha). apply Ok_inj in Ha.
  apply bind_ok in Hb' as (y & Hy & Hb'). apply Ok_inj in Hb'.
  apply sum_res_nonneg in Hx.
  2: { apply Forall_map, Forall_forall. intros kv _ k Hk. apply sum_res_nonneg in Hk; [exact Hk|].
       repeat constructor; intros; eapply str_size_nonneg; eassumption. }
  apply sum_res_nonneg in Hy.
  2: { apply Forall_map, Forall_forall. intros kv _ k Hk. apply sum_res_nonneg in Hk; [exact Hk|].
       constructor; [intros; eapply str_size_nonneg; eassumption|].
       constructor; [intros j Hj; apply Ok_inj in Hj; pose proof (v_int_size_pos (zlen (snd kv))); lia|].
       apply Forall_map, Forall_forall. intros z _ j Hj. eapply str_size_nonneg; eassumption. }
  pose proof (v_int_size_pos (zlen (c_req c))). pose proof (v_int_size_pos (zlen (c_res c))). lia.
Qed.

(** the variable bytes of a request *)
Lemma variable_roundtrip f a vb : texts_ok f -> text_ok a -> request_variable_bytes f a = Ok vb ->
  read_variable vb = Ok (f, a).
Proof.
  intros Hf Ha H. unfold request_variable_bytes in H. winv. unfold read_variable.
  rewrite (rbind_step _ _ _ _ _ _ _ (string_array_codec f w (w0 ++ []) (texts_ok_fit _ Hf) Hw)).
  rewrite (rbind_step _ _ _ _ _ _ _ (string_codec a w0 [] (proj1 (text_ok_fits _ Ha)) Hw0)).
  reflexivity.
Qed.

Lemma frame_read so o bs s vb : set_order_ok so -> frame_inv o -> write_outbound o = Ok bs ->
  ctx_ok (o_ctx o) -> opt_bytes (o_var o) = vb ->
  exists t, read_header (bs ++ s) = Ok (o_hdr o, t) /\
  exists c', same_ctx (o_ctx o) c' /\
    forall req o0, read_outbound so req o0 (o_hdr o) t =
     (if req then fa <~ rlift (read_variable vb) ;;
                  rret (mkOut (o_hdr o) c' (Some vb) (o_msg o0) (fst fa) (snd fa))
      else rret (mkOut (o_hdr o) c' (Some vb) (o_msg o0) (o_features o0) (o_action o0)))
     (opt_bytes (o_msg o) ++ s).
Proof.
  intros Hso Hi Hw Hc Hvb.
  destruct (frame_written o bs Hi Hw) as (Hok & hdr & cb & sz & Hh & H23 & Hcb & Hs & -> & _ & Hv).
  rewrite Hvb.
  destruct (header_wire _ Hok) as (z1 & z2 & z3 & z4 & z5 & Wh & _ & _ & _ & _ & _ & _ & _ & _ & _ & _ & Rh).
  rewrite Wh in Hh. apply Ok_inj in Hh. subst hdr.
  rewrite <- app_assoc.
  eexists. split; [apply Rh|].
  destruct (ctx_survives so Hso _ Hc) as (cb' & Wc & Rc). rewrite Hcb in Wc. apply Ok_inj in Wc. subst cb'.
  rewrite <- !app_assoc.
  destruct (Rc (vb ++ opt_bytes (o_msg o) ++ s)) as (c' & Rc' & Sc).
  exists c'. split; [exact Sc|]. intros req o0. unfold read_outbound.
  rewrite (rbind_step _ _ _ _ _ _ _ Rc').
  pose proof (ctx_size_pos _ _ Hs) as Hpos.
  assert (Ho : opt_len (o_var o) = zlen vb) by (subst vb; destruct (o_var o); reflexivity).
  pose proof (zlen_nonneg _ vb). destruct (Z.ltb_spec 0 (h_vhs (o_hdr o))); [|lia].
  rewrite (same_ctx_size _ _ _ Sc Hs).
  unfold rbind at 1, rlift at 1.
  rewrite (rbind_step _ _ _ _ _ _ _ (read_bytes_app_n (h_vhs (o_hdr o) - sz) vb _ ltac:(lia))).
  destruct req; reflexivity.
Qed.

Lemma set_flags_fields o hs cp : let o' := set_flags o hs cp in
  h_version (o_hdr o') = h_version (o_hdr o) /\ h_size (o_hdr o') = h_size (o_hdr o) /\
  h_vhs (o_hdr o') = h_vhs (o_hdr o) /\ h_prefix (o_hdr o') = h_prefix (o_hdr o) /\
  o_ctx o' = o_ctx o /\ o_var o' = o_var o /\ o_msg o' = o_msg o /\ o_features o' = o_features o /\
  o_action o' = o_action o /\
  h_status (o_hdr o') = (let s := if hs then Z.lor (h_status (o_hdr o)) 8 else h_status (o_hdr o) in
                         if cp then Z.lor s 4 else s).
Proof. destruct hs, cp, o; cbn; auto 12. Qed.

Lemma new_request_fields c f p v a rid hs cp n o n' :
  new_request c f (option_map Ok p) (HVer v) a rid hs cp n = (Ok o, n') ->
  frame_inv o /\ (draws rid = false -> Some (h_id (o_hdr o)) = rid) /\ h_version (o_hdr o) = HVer v /\
  is_request (o_hdr o) = true /\ is_error (o_hdr o) = false /\
  is_handshake (o_hdr o) = hs /\ is_compress (o_hdr o) = cp /\
  o_ctx o = (match c with Some c => c | None => empty_ctx end) /\
  o_msg o = p /\ exists vb, request_variable_bytes f a = Ok vb /\ o_var o = Some vb.
Proof.
  intros H. pose proof (make_id (MkRequest c f (option_map Ok p) (HVer v) a rid hs cp) n) as M.
  cbn [make making_id] in M. unfold ibind at 1 in M. rewrite H in M. cbn [iret] in M.
  destruct M as [_ M]. specialize (M _ eq_refl).
  split; [eapply constructed_inv, con_request; exact H|].
  split. { intros D. rewrite D in M. destruct rid; [congruence|discriminate]. }
  clear M. unfold new_request, ibind in H.
  destruct (new_outbound c (HVer v) 0 rid (option_map Ok p) f a n) as [[o1|] n1] eqn:E; [|discriminate].
  destruct (request_variable_bytes f a) as [vb|]; cbn [ilift iret] in H; [|discriminate].
  apply pair_equal_spec in H; destruct H as [H _]; apply Ok_inj in H; subst o.
  apply new_outbound_inv in E. destruct E as (I & E1 & E2 & E3 & E4 & E5 & E6 & E7).
  set (o2 := set_variable_bytes o1 vb).
  destruct (set_flags_fields o2 hs cp) as (F1 & F2 & F3 & F4 & F5 & F6 & F7 & F8 & F9 & F10).
  rewrite F1, F5, F6, F7. unfold is_request, is_response, is_error, is_handshake, is_compress. rewrite F10.
  assert (S : h_status (o_hdr o2) = 0) by exact E2. rewrite S.
  split; [exact E1|]. destruct hs, cp; (repeat (split; [reflexivity|])); (split; [exact E3|]);
  (split; [|eauto]); cbn; destruct p; cbn in E7; try (destruct E7 as (? & X & Y); apply Ok_inj in X; congruence); exact E7.
Qed.
Lemma new_response_fields c f p v rid hs cp n o n' :
  new_response c f (option_map Ok p) (HVer v) rid hs cp n = (Ok o, n') ->
  frame_inv o /\ (draws rid = false -> Some (h_id (o_hdr o)) = rid) /\ h_version (o_hdr o) = HVer v /\
  is_request (o_hdr o) = false /\ is_error (o_hdr o) = false /\
  is_handshake (o_hdr o) = hs /\ is_compress (o_hdr o) = cp /\
  o_ctx o = (match c with Some c => c | None => empty_ctx end) /\
  o_msg o = p /\ o_var o = None.
Proof.
  intros H. pose proof (make_id (MkResponse c f (option_map Ok p) (HVer v) rid hs cp) n) as M.
  cbn [make making_id] in M. unfold ibind at 1 in M. rewrite H in M. cbn [iret] in M.
  destruct M as [_ M]. specialize (M _ eq_refl).
  split; [eapply constructed_inv, con_response; exact H|].
  split. { intros D. rewrite D in M. destruct rid; [congruence|discriminate]. }
  clear M. unfold new_response, ibind in H.
  destruct (new_outbound c (HVer v) STATUS_REQRES rid (option_map Ok p) f [] n) as [[o1|] n1] eqn:E; [|discriminate].
  cbn [ilift iret] in H.
  apply pair_equal_spec in H; destruct H as [H _]; apply Ok_inj in H; subst o.
  apply new_outbound_inv in E. destruct E as (I & E1 & E2 & E3 & E4 & E5 & E6 & E7).
  destruct (set_flags_fields o1 hs cp) as (F1 & F2 & F3 & F4 & F5 & F6 & F7 & F8 & F9 & F10).
  rewrite F1, F5, F6, F7. unfold is_request, is_response, is_error, is_handshake, is_compress. rewrite F10.
  rewrite E2.
  split; [exact E1|]. destruct hs, cp; (repeat (split; [reflexivity|])); (split; [exact E3|]);
  (split; [|exact E4]); destruct p; cbn in E7; try (destruct E7 as (? & X & Y); apply Ok_inj in X; congruence); exact E7.
Qed.

Lemma request_roundtrip so c f p v a i hs cp n o n' bs s :
  set_order_ok so -> ctx_ok c -> texts_ok f -> text_ok a -> i <> 0 ->
  new_request (Some c) f (option_map Ok p) (HVer v) a (Some i) hs cp n = (Ok o, n') ->
  write_outbound o = Ok bs ->
  exists h t, read_header (bs ++ s) = Ok (h, t) /\
    h_id h = i /\ h_version h = HVer v /\ is_request h = true /\ is_error h = false /\
    is_handshake h = hs /\ is_compress h = cp /\
    forall o0, exists o', read_outbound so true o0 h t = Ok (o', opt_bytes p ++ s) /\
      o_hdr o' = h /\ same_ctx c (o_ctx o') /\ o_features o' = f /\ o_action o' = a.
Proof.
  intros Hso Hc Hf Ha Hi Hn Hw.
  apply new_request_fields in Hn.
  destruct Hn as (I & Hid & Hv & F1 & F2 & F3 & F4 & Hctx & Hmsg & vb & Hvb & Hvar).
  cbn in Hctx.
  destruct (frame_read so o bs s vb Hso I Hw) as (t & Rh & c' & Sc & Ro).
  { rewrite Hctx. exact Hc. } { rewrite Hvar. reflexivity. }
  exists (o_hdr o), t. split; [exact Rh|].
  split. { assert (D : draws (Some i) = false) by (cbn; destruct (Z.eqb_spec i 0); congruence).
           specialize (Hid D). congruence. }
  repeat (split; [assumption|]).
  intros o0. rewrite (Ro true o0). rewrite (variable_roundtrip f a vb Hf Ha Hvb).
  unfold rbind, rlift, rret. rewrite Hmsg. eexists. split; [reflexivity|].
  cbn [o_hdr o_ctx o_features o_action fst snd]. rewrite Hctx in Sc. auto.
Qed.
Lemma response_roundtrip so c f p v i hs cp n o n' bs s :
  set_order_ok so -> ctx_ok c -> i <> 0 ->
  new_response (Some c) f (option_map Ok p) (HVer v) (Some i) hs cp n = (Ok o, n') ->
  write_outbound o = Ok bs ->
  exists h t, read_header (bs ++ s) = Ok (h, t) /\
    h_id h = i /\ h_version h = HVer v /\ is_request h = false /\ is_error h = false /\
    is_handshake h = hs /\ is_compress h = cp /\
    forall o0, exists o', read_outbound so false o0 h t = Ok (o', opt_bytes p ++ s) /\
      o_hdr o' = h /\ same_ctx c (o_ctx o').
Proof.
  intros Hso Hc Hi Hn Hw.
  apply new_response_fields in Hn.
  destruct Hn as (I & Hid & Hv & F1 & F2 & F3 & F4 & Hctx & Hmsg & Hvar).
  cbn in Hctx.
  destruct (frame_read so o bs s [] Hso I Hw) as (t & Rh & c' & Sc & Ro).
  { rewrite Hctx. exact Hc. } { rewrite Hvar. reflexivity. }
  exists (o_hdr o), t. split; [exact Rh|].
  split. { assert (D : draws (Some i) = false) by (cbn; destruct (Z.eqb_spec i 0); congruence).
           specialize (Hid D). congruence. }
  repeat (split; [assumption|]).
  intros o0. rewrite (Ro false o0). unfold rret. rewrite Hmsg. eexists. split; [reflexivity|].
  cbn [o_hdr o_ctx]. rewrite Hctx in Sc. auto.
Qed.

(** ** when frames can be built and written *)
Lemma text_ok_size x : text_ok x -> exists n, str_size x = Ok n.
Proof.
  intros [e [He _]]. apply is_utf8_encode in He. unfold str_size, utf8_len. rewrite He. cbn. eauto.
Qed.
Lemma sum_res_total l : Forall (fun x => exists n, x = Ok n) l -> exists n, sum_res l = Ok n.
Proof.
  induction 1 as [|x l [n ->] _ [m IH]]; [exists 0; reflexivity|].
  cbn [sum_res bind]. rewrite IH. cbn. eauto.
Qed.
Lemma ctx_size_total c : ctx_ok c -> exists n, ctx_size c = Ok n.
Proof.
  intros [(_ & _ & H1) (_ & _ & H2)]. apply sum_res_total.
  constructor; [|constructor; [|constructor]]; apply sum_res_total; (constructor; [eauto|]);
  apply Forall_map; eapply Forall_impl; [|exact H1| |exact H2].
  - intros kv [Ka Kb]. apply sum_res_total. constructor; [apply text_ok_size, Ka|].
    constructor; [apply text_ok_size, Kb|constructor].
  - intros kv [Ka [[_ Kb] _]]. apply sum_res_total. constructor; [apply text_ok_size, Ka|].
    constructor; [eauto|]. apply Forall_map. eapply Forall_impl; [|exact Kb]. apply text_ok_size.
Qed.
Lemma frame_writable o : frame_inv o -> ctx_ok (o_ctx o) ->
  - 2 ^ 63 <= h_id (o_hdr o) < 2 ^ 63 -> - 2 ^ 7 <= h_status (o_hdr o) < 2 ^ 7 ->
  (forall v, h_version (o_hdr o) = HVer v -> 0 <= vid v < 2 ^ 32) ->
  h_size (o_hdr o) < 2 ^ 31 -> exists bs, write_outbound o = Ok bs.
Proof.
  intros (H1 & [v H2] & sz & H3 & H4 & H5) Hc Hid Hst Hver Hsz.
  pose proof (ctx_size_pos _ _ H3) as Hpos.
  assert (Hl : forall b, 0 <= opt_len b) by (intros [b|]; cbn; [apply zlen_nonneg|lia]).
  pose proof (Hl (o_var o)). pose proof (Hl (o_msg o)).
  assert (Hok : header_ok (o_hdr o)).
  { split; [exact H1|]. split; [lia|]. split; [exact Hid|]. split; [exact Hst|]. split; [lia|].
    exists v. split; [exact H2|]. apply Hver, H2. }
  destruct (header_wire _ Hok) as (z1 & z2 & z3 & z4 & z5 & Wh & _).
  destruct (ctx_survives (fun l => l) (fun l => Permutation_refl l) _ Hc) as (cb & Wc & _).
  unfold write_outbound. rewrite Wh, Wc. cbn [wcat bind]. eauto.
Qed.
Lemma set_flags_status_range o hs cp : h_status (o_hdr o) = 0 \/ h_status (o_hdr o) = 1 ->
  - 2 ^ 7 <= h_status (o_hdr (set_flags o hs cp)) < 2 ^ 7.
Proof.
  intros H. destruct (set_flags_fields o hs cp) as (_ & _ & _ & _ & _ & _ & _ & _ & _ & ->).
  destruct H as [-> | ->]; destruct hs, cp; cbn; lia.
Qed.
Lemma new_request_total c f p v a i hs cp n :
  ctx_ok c -> texts_ok f -> text_ok a -> i <> 0 -> - 2 ^ 63 <= i < 2 ^ 63 -> 0 <= vid v < 2 ^ 32 ->
  exists o, new_request (Some c) f (option_map Ok p) (HVer v) a (Some i) hs cp n = (Ok o, n) /\
    (h_size (o_hdr o) < 2 ^ 31 -> exists bs, write_outbound o = Ok bs).
Proof.
  intros Hc Hf Ha Hi Hid Hv.
  destruct (ctx_size_total c Hc) as [sz Hs].
  destruct (string_array_total f (proj2 Hf)) as [fb Hfb].
  destruct (proj2 (text_ok_fits a Ha)) as [ab Hab].
  assert (Hr : exists o, new_request (Some c) f (option_map Ok p) (HVer v) a (Some i) hs cp n = (Ok o, n)).
  { unfold new_request, new_outbound, new_header, pick_id, ibind.
    destruct (Z.eqb_spec i 0); [contradiction|]. cbn [iret ilift].
    rewrite Hs. cbn [ilift]. unfold request_variable_bytes. rewrite Hfb, Hab.
    destruct p; eexists; reflexivity. }
  destruct Hr as [o Ho]. exists o. split; [exact Ho|]. intros Hsz.
  pose proof (new_request_fields _ _ _ _ _ _ _ _ _ _ _ Ho) as (I & Hi' & Hv' & _ & _ & _ & _ & Hctx & _).
  assert (D : draws (Some i) = false) by (cbn; destruct (Z.eqb_spec i 0); congruence).
  specialize (Hi' D). apply frame_writable; try assumption.
  - rewrite Hctx. exact Hc.
  - congruence.
  - unfold new_request, ibind in Ho.
    destruct (new_outbound (Some c) (HVer v) 0 (Some i) (option_map Ok p) f a n) as [[o1|] n1] eqn:E; [|discriminate].
    destruct (request_variable_bytes f a) as [vb|]; cbn [ilift iret] in Ho; [|discriminate].
    apply pair_equal_spec in Ho; destruct Ho as [Ho _]; apply Ok_inj in Ho; subst o.
    apply set_flags_status_range. left. apply new_outbound_inv in E. apply E.
  - intros v' H'. congruence.
Qed.
Lemma new_response_total c f p v i hs cp n :
  ctx_ok c -> i <> 0 -> - 2 ^ 63 <= i < 2 ^ 63 -> 0 <= vid v < 2 ^ 32 ->
  exists o, new_response (Some c) f (option_map Ok p) (HVer v) (Some i) hs cp n = (Ok o, n) /\
    (h_size (o_hdr o) < 2 ^ 31 -> exists bs, write_outbound o = Ok bs).
Proof.
  intros Hc Hi Hid Hv.
  destruct (ctx_size_total c Hc) as [sz Hs].
  assert (Hr : exists o, new_response (Some c) f (option_map Ok p) (HVer v) (Some i) hs cp n = (Ok o, n)).
  { unfold new_response, new_outbound, new_header, pick_id, ibind.
    destruct (Z.eqb_spec i 0); [contradiction|]. cbn [iret ilift].
    rewrite Hs. cbn [ilift]. destruct p; eexists; reflexivity. }
  destruct Hr as [o Ho]. exists o. split; [exact Ho|]. intros Hsz.
  pose proof (new_response_fields _ _ _ _ _ _ _ _ _ _ Ho) as (I & Hi' & Hv' & _ & _ & _ & _ & Hctx & _).
  assert (D : draws (Some i) = false) by (cbn; destruct (Z.eqb_spec i 0); congruence).
  specialize (Hi' D). apply frame_writable; try assumption.
  - rewrite Hctx. exact Hc.
  - congruence.
  - unfold new_response, ibind in Ho.
    destruct (new_outbound (Some c) (HVer v) STATUS_REQRES (Some i) (option_map Ok p) f [] n) as [[o1|] n1] eqn:E; [|discriminate].
    cbn [ilift iret] in Ho.
    apply pair_equal_spec in Ho; destruct Ho as [Ho _]; apply Ok_inj in Ho; subst o.
    apply set_flags_status_range. right. apply new_outbound_inv in E. apply E.
  - intros v' H'. congruence.
Qed.

(** ** the default version *)
Lemma default_header_size n : exists h bs, default_header n = (Ok h, n + 1) /\
  (- 2 ^ 63 <= n < 2 ^ 63 -> write_header h = Ok bs /\ zlen bs = 3000118).
Proof.
  destruct (Z_lt_le_dec n (- 2 ^ 63)) as [L|L]; [|destruct (Z_lt_le_dec n (2 ^ 63)) as [U|U]].
  1,3: exists (mkHeader ES 17 n 0 (HInt CURRENT) 0), []; split; [reflexivity|lia].
  destruct fixed_width_ints as (_ & _ & T8).
  destruct (twos_use 8 _ _ n T8 (conj L U)) as (id & W & Lid & _).
  exists (mkHeader ES 17 n 0 (HInt CURRENT) 0),
    (ES ++ [x00; x00; x00; x11] ++ id ++ [x00] ++ repeat x00 (Z.to_nat CURRENT) ++ [x00; x00; x00; x00]).
  split; [reflexivity|]. intros _. split.
  - unfold write_header. cbn [h_prefix h_size h_id h_status h_version h_vhs hver_bytes]. rewrite W.
    change (bytes_of_int CURRENT) with (@Ok bytes (repeat x00 (Z.to_nat CURRENT))).
    change (write_int 17) with (Ok [x00; x00; x00; x11]). change (write_byte 0) with (Ok [x00]).
    change (write_int 0) with (Ok [x00; x00; x00; x00]).
    generalize (repeat x00 (Z.to_nat CURRENT)). intros r. cbn [wcat bind]. rewrite app_nil_r. reflexivity.
  - unfold zlen. rewrite !app_length, repeat_length, Lid. cbn [length ES].
    assert (0 <= CURRENT) by (unfold CURRENT; lia).
    rewrite !Nat2Z.inj_add, Z2Nat.id by lia. reflexivity.
Qed.
Lemma no_version_raises c f msg a rid hs cp n o n' :
  new_request c f msg HNone a rid hs cp n = (Ok o, n') -> exists e, write_outbound o = Raise e.
Proof.
  intros H. assert (Hv : h_version (o_hdr o) = HNone).
  { unfold new_request, new_outbound, new_header, ibind in H. rewrite pick_id_spec in H.
    destruct (draws rid); cbn [iret ilift] in H;
    (destruct (ctx_size _); cbn [ilift] in H; [|discriminate]);
    (destruct msg as [[b|]|]; cbn [ilift iret] in H; [|discriminate|]);
    (destruct (request_variable_bytes f a); cbn [ilift iret] in H; [|discriminate]);
    apply pair_equal_spec in H; destruct H as [H _]; apply Ok_inj in H; subst o;
    match goal with |- context [set_flags ?o _ _] => destruct (set_flags_fields o hs cp) as (-> & _) end; reflexivity. }
  unfold write_outbound, write_header. rewrite Hv. cbn [hver_bytes].
  destruct (write_int (h_size (o_hdr o))), (write_long (h_id (o_hdr o))), (write_byte (h_status (o_hdr o)));
    cbn; eauto.
Qed.
Lemma default_version_refuted :
  ~ (forall n h n' bs, default_header n = (Ok h, n') -> write_header h = Ok bs -> zlen bs = 23).
Proof.
  intros H. destruct (default_header_size 0) as (h & bs & Hd & Hw).
  destruct (Hw ltac:(lia)) as [W L]. specialize (H 0 h _ bs Hd W). lia.
Qed.

(** ** forms used in the properties *)
Lemma flags_independent h l : let h' := fold_left assign l h in
  (forall l0 g v l1, l = l0 ++ (g, v) :: l1 -> ~ In g (map fst l1) -> flag_get g h' = v) /\
  (forall g, ~ In g (map fst l) -> flag_get g h' = flag_get g h) /\
  is_request h' = negb (flag_get Response h') /\
  h_prefix h' = h_prefix h /\ h_size h' = h_size h /\ h_id h' = h_id h /\
  h_version h' = h_version h /\ h_vhs h' = h_vhs h /\
  (- 2 ^ 7 <= h_status h < 2 ^ 7 -> - 2 ^ 7 <= h_status h' < 2 ^ 7).
Proof.
  intros h'. split; [|split; [|split; [reflexivity|apply assigns_rest]]].
  - intros l0 g v l1 El Hn. unfold h'. rewrite El. apply assigns_last, Hn.
  - intros g Hn. apply assigns_none, Hn.
Qed.
Lemma is_request_flag h v :
  set_is_request h v = set_is_response h (negb v) /\ is_request (set_is_request h v) = v.
Proof.
  split; [reflexivity|]. unfold is_request.
  change (negb (flag_get Response (flag_set Response h (negb v))) = v).
  destruct (flag_get_set Response Response h (negb v)) as [[-> _]|[_ C]]; [apply negb_involutive|contradiction C; reflexivity].
Qed.
Lemma generated_ids :
  (forall l k m h, nth_error l k = Some m -> nth_error (make_all l 0) k = Some (Ok h) ->
     making_id m = None ->
     h_id h = zlen (filter (fun m => match making_id m with Some i => i =? 0 | None => true end)
                           (firstn k l))) /\
  (forall l i j mi mj hi hj, (i < j)%nat ->
     nth_error l i = Some mi -> nth_error l j = Some mj -> making_id mi = None -> making_id mj = None ->
     nth_error (make_all l 0) i = Some (Ok hi) -> nth_error (make_all l 0) j = Some (Ok hj) ->
     0 <= h_id hi < h_id hj).
Proof.
  split.
  - intros l k m h Hk Hr Hm. rewrite (make_all_nth l 0 k m h Hk Hr), Hm. reflexivity.
  - intros l i j mi mj hi hj. apply make_all_increasing.
Qed.
Lemma request_survives so c f p v a i hs cp n :
  set_order_ok so -> ctx_ok c -> texts_ok f -> text_ok a -> i <> 0 ->
  - 2 ^ 63 <= i < 2 ^ 63 -> 0 <= vid v < 2 ^ 32 ->
  exists o, new_request (Some c) f (option_map Ok p) (HVer v) a (Some i) hs cp n = (Ok o, n) /\
  (h_size (o_hdr o) < 2 ^ 31 -> exists bs, write_outbound o = Ok bs /\
  forall s, exists h t, read_header (bs ++ s) = Ok (h, t) /\
    h_id h = i /\ h_version h = HVer v /\ is_request h = true /\ is_error h = false /\
    is_handshake h = hs /\ is_compress h = cp /\
    forall o0, exists o', read_outbound so true o0 h t = Ok (o', opt_bytes p ++ s) /\
      o_hdr o' = h /\ same_ctx c (o_ctx o') /\ o_features o' = f /\ o_action o' = a).
Proof.
  intros Hso Hc Hf Ha Hi Hid Hv.
  destruct (new_request_total c f p v a i hs cp n Hc Hf Ha Hi Hid Hv) as (o & Ho & Hw).
  exists o. split; [exact Ho|]. intros Hs. destruct (Hw Hs) as [bs Hb]. exists bs. split; [exact Hb|].
  intros s. eapply request_roundtrip; eassumption.
Qed.
Lemma response_survives so c f p v i hs cp n :
  set_order_ok so -> ctx_ok c -> i <> 0 ->
  - 2 ^ 63 <= i < 2 ^ 63 -> 0 <= vid v < 2 ^ 32 ->
  exists o, new_response (Some c) f (option_map Ok p) (HVer v) (Some i) hs cp n = (Ok o, n) /\
  (h_size (o_hdr o) < 2 ^ 31 -> exists bs, write_outbound o = Ok bs /\
  forall s, exists h t, read_header (bs ++ s) = Ok (h, t) /\
    h_id h = i /\ h_version h = HVer v /\ is_request h = false /\ is_error h = false /\
    is_handshake h = hs /\ is_compress h = cp /\
    forall o0, exists o', read_outbound so false o0 h t = Ok (o', opt_bytes p ++ s) /\
      o_hdr o' = h /\ same_ctx c (o_ctx o')).
Proof.
  intros Hso Hc Hi Hid Hv.
  destruct (new_response_total c f p v i hs cp n Hc Hi Hid Hv) as (o & Ho & Hw).
  exists o. split; [exact Ho|]. intros Hs. destruct (Hw Hs) as [bs Hb]. exists bs. split; [exact Hb|].
  intros s. eapply response_roundtrip; eassumption.
Qed.
