(** * Facts about the proto3 wire format *)
From Coq Require Import ZArith List Bool Lia ZifyBool.
From Coq Require Import Strings.Byte.
From Verif Require Import Py Proto PyFacts Utf8Facts.
Import ListNotations.
Open Scope Z_scope.

Lemma pb_varint_unfold n : 0 <= n -> pb_varint n =
  if n <? 128 then [z2b n] else z2b (n mod 128 + 128) :: pb_varint (n / 128).
Proof.
  assert (F : forall f1 f2 n, 0 <= n -> (Z.to_nat (Z.log2 n) <= f1)%nat -> (Z.to_nat (Z.log2 n) <= f2)%nat ->
            pb_varint_fuel f1 n = pb_varint_fuel f2 n).
  { induction f1 as [|f1 IH]; intros f2 m Hm H1 H2.
    - assert (L : Z.log2 m = 0) by (pose proof (Z.log2_nonneg m); lia).
      assert (m < 2) by (destruct (Z.eq_dec m 0); [lia|]; apply Z.log2_lt_pow2 in L || (pose proof (Z.log2_spec m ltac:(lia)) as S; rewrite L in S; cbn in S; lia)).
      destruct f2 as [|f2]; cbn [pb_varint_fuel]; [reflexivity|].
      destruct (Z.ltb_spec m 128); [|lia]. rewrite Z.mod_small by lia. reflexivity.
    - cbn [pb_varint_fuel]. destruct (Z.ltb_spec m 128) as [Hs|Hs].
      + destruct f2 as [|f2]; cbn [pb_varint_fuel]; [rewrite Z.mod_small by lia; reflexivity|].
        destruct (Z.ltb_spec m 128); [reflexivity|lia].
      + pose proof (Z.log2_le_mono 128 m Hs) as Hl. change (Z.log2 128) with 7 in Hl.
        assert (Hd : Z.log2 (m / 128) = Z.log2 m - 7)
          by (change 128 with (2 ^ 7); rewrite <- Z.shiftr_div_pow2, Z.log2_shiftr by lia; lia).
        destruct f2 as [|f2]; [lia|]. cbn [pb_varint_fuel].
        destruct (Z.ltb_spec m 128); [lia|]. f_equal. apply IH; [apply Z.div_pos; lia|lia|lia]. }
  intros Hn. destruct (Z.ltb_spec n 128) as [Hs|Hs].
  - unfold pb_varint. destruct (Z.to_nat (Z.log2 n)); cbn [pb_varint_fuel].
    + rewrite Z.mod_small by lia. reflexivity.
    + destruct (Z.ltb_spec n 128); [reflexivity|lia].
  - unfold pb_varint at 1.
    pose proof (Z.log2_le_mono 128 n Hs) as Hl. change (Z.log2 128) with 7 in Hl.
    assert (Hd : Z.log2 (n / 128) = Z.log2 n - 7)
      by (change 128 with (2 ^ 7); rewrite <- Z.shiftr_div_pow2, Z.log2_shiftr by lia; lia).
    destruct (Z.to_nat (Z.log2 n)) as [|f] eqn:E; [lia|]. cbn [pb_varint_fuel].
    destruct (Z.ltb_spec n 128); [lia|]. f_equal. apply F; [apply Z.div_pos; lia|lia|lia].
Qed.

Lemma pb_varint_nonempty n : 0 <= n -> pb_varint n <> [].
Proof. intros H. rewrite pb_varint_unfold by assumption. destruct (n <? 128); discriminate. Qed.

Lemma pb_read_varint_ok f : forall n sh acc s, 0 <= n -> 0 <= sh -> n < 128 ^ Z.of_nat f -> (0 < f)%nat ->
  pb_read_varint f sh acc (pb_varint n ++ s) = Ok ((acc + n * 2 ^ sh) mod 2 ^ 64, s).
Proof.
  induction f as [|f IH]; intros n sh acc s Hn Hsh Hb Hf; [lia|].
  rewrite pb_varint_unfold by assumption. destruct (Z.ltb_spec n 128) as [Hs|Hs].
  - cbn [app pb_read_varint]. rewrite b2z_z2b_small by lia.
    destruct (Z.ltb_spec n 128); [|lia]. rewrite (Z.mod_small n 128) by lia. reflexivity.
  - cbn [app pb_read_varint]. pose proof (Z.mod_pos_bound n 128 ltac:(lia)).
    rewrite b2z_z2b_small by lia. destruct (Z.ltb_spec (n mod 128 + 128) 128); [lia|].
    destruct f as [|f]; [change (128 ^ Z.of_nat 1) with 128 in Hb; lia|].
    rewrite IH; try lia.
    + f_equal. f_equal. f_equal.
      replace ((n mod 128 + 128) mod 128) with (n mod 128)
        by (rewrite <- Z.add_mod_idemp_r, Z.mod_same, Z.add_0_r, Z.mod_mod by lia; reflexivity).
      rewrite (Z.pow_add_r 2 sh 7) by lia. change (2 ^ 7) with 128.
      rewrite (Z.div_mod n 128) at 3 by lia. ring.
    + apply Z.div_lt_upper_bound; [lia|]. rewrite <- Z.pow_succ_r by lia.
      replace (Z.succ (Z.of_nat (S f))) with (Z.of_nat (S (S f))) by lia. exact Hb.
Qed.
Lemma pb_varint_read n s : 0 <= n < 2 ^ 64 -> pb_read_varint 10 0 0 (pb_varint n ++ s) = Ok (n, s).
Proof.
  intros H. rewrite pb_read_varint_ok; try lia.
  - rewrite Z.mul_1_r, Z.add_0_l, Z.mod_small by lia. reflexivity.
Qed.

Lemma pb_tag_read n s : 0 <= n < 2 ^ 32 -> pb_read_tag (pb_varint n ++ s) = Ok (n, s).
Proof.
  intros H. unfold pb_read_tag. rewrite pb_read_varint_ok; try lia.
  rewrite Z.mul_1_r, Z.add_0_l, Z.mod_small by lia. destruct (Z.ltb_spec n (2 ^ 32)); [reflexivity|lia].
Qed.
Lemma pb_size_read n s : 0 <= n < 2 ^ 31 -> pb_read_size (pb_varint n ++ s) = Ok (n, s).
Proof.
  intros H. unfold pb_read_size. rewrite pb_read_varint_ok; try lia.
  rewrite Z.mul_1_r, Z.add_0_l, Z.mod_small by lia. destruct (Z.ltb_spec n (2 ^ 31)); [reflexivity|lia].
Qed.

(** ** fields *)
Definition enc_field (f : Z * pbval) : bytes :=
  match snd f with
  | PVarint n => pb_varint_field (fst f) n
  | PBytes b => pb_bytes_field (fst f) b
  | PFixed b => []
  end.
Definition field_ok (f : Z * pbval) : Prop :=
  1 <= fst f < 16 /\
  match snd f with PVarint n => 0 <= n < 2 ^ 64 | PBytes b => zlen b < 2 ^ 31 | PFixed _ => False end.
Lemma pb_take_app b s : pb_take (zlen b) (b ++ s) = Ok (b, s).
Proof.
  unfold pb_take. rewrite zlen_app. pose proof (zlen_nonneg _ s).
  destruct (Z.ltb_spec (zlen b + zlen s) (zlen b)); [lia|]. rewrite takeZ_app, dropZ_app. reflexivity.
Qed.
Lemma pb_read_field_ok f s : field_ok f -> pb_read_field (enc_field f ++ s) = Ok (f, s).
Proof.
  destruct f as [num v]. unfold field_ok, enc_field. cbn [fst snd]. intros [Hn Hv].
  unfold pb_read_field. destruct v as [n|b|b]; [|contradiction|].
  - unfold pb_varint_field. rewrite <- app_assoc, pb_tag_read by lia.
    rewrite Z.div_mul, Z.mod_mul by lia.
    destruct (Z.eqb_spec num 0); [lia|]. cbn [Z.eqb].
    rewrite pb_varint_read by lia. reflexivity.
  - unfold pb_bytes_field. rewrite <- !app_assoc, pb_tag_read by lia.
    assert (E1 : (num * 8 + 2) / 8 = num) by (rewrite Z.div_add_l by lia; change (2 / 8) with 0; lia).
    assert (E2 : (num * 8 + 2) mod 8 = 2) by (rewrite Z.add_comm, Z.mod_add by lia; reflexivity).
    rewrite E1, E2.
    destruct (Z.eqb_spec num 0); [lia|]. 
    change (2 =? 0) with false. change (2 =? 1) with false. change (2 =? 2) with true. cbn match.
    pose proof (zlen_nonneg _ b).
    rewrite pb_size_read by lia. rewrite pb_take_app. reflexivity.
Qed.
Lemma enc_field_nonempty f : field_ok f -> enc_field f <> [].
Proof.
  destruct f as [num v]. unfold field_ok, enc_field. cbn [fst snd]. intros [Hn Hv] H.
  destruct v as [n|b|b]; [|contradiction|];
  [unfold pb_varint_field in H|unfold pb_bytes_field in H]; apply app_eq_nil in H; destruct H as [H _];
  apply pb_varint_nonempty in H; auto; lia.
Qed.
Lemma pb_fields_ok fs : Forall field_ok fs -> forall fuel, (length (concat (map enc_field fs)) <= fuel)%nat ->
  pb_fields fuel (concat (map enc_field fs)) = Ok fs.
Proof.
  induction 1 as [|f fs Hf Hfs IH]; intros fuel Hl; cbn [map concat].
  - destruct fuel; reflexivity.
  - pose proof (enc_field_nonempty f Hf) as Hne. cbn [map concat] in Hl. rewrite app_length in Hl.
    assert (Hp : (0 < length (enc_field f))%nat) by (destruct (enc_field f); [contradiction|cbn; lia]).
    destruct fuel as [|fuel]; [lia|].
    remember (enc_field f ++ concat (map enc_field fs)) as s eqn:Es.
    destruct s as [|b s]; [apply (f_equal (@length byte)) in Es; rewrite app_length in Es; cbn in Es; lia|].
    cbn [pb_fields]. rewrite Es. rewrite pb_read_field_ok by assumption.
    rewrite IH by lia. reflexivity.
Qed.
Lemma pb_parse_ok fs : Forall field_ok fs -> pb_parse (concat (map enc_field fs)) = Ok fs.
Proof. intros H. apply pb_fields_ok; [exact H|lia]. Qed.

Lemma enc_bytes_field num b : pb_bytes_field num b = enc_field (num, PBytes b).
Proof. reflexivity. Qed.

(** ** the three messages *)
Definition identity_fields (b : bytes) : list (Z * pbval) := if 0 <? zlen b then [(1, PBytes b)] else [].
Lemma ser_identity_fields b : ser_identity b = concat (map enc_field (identity_fields b)).
Proof.
  unfold ser_identity, identity_fields. destruct (0 <? zlen b); [|reflexivity].
  cbn. rewrite app_nil_r. reflexivity.
Qed.
Lemma pb_str_ok x b : utf8_encode x = Ok b -> pb_str b = Ok x.
Proof. intros H. unfold pb_str. rewrite (utf8_decode_encode x b H). reflexivity. Qed.
Lemma utf8_encode_empty x b : utf8_encode x = Ok b -> zlen b <= 0 -> x = [].
Proof.
  intros H Hl. apply utf8_decode_encode in H. destruct b; [|unfold zlen in Hl; cbn in Hl; lia].
  cbn in H. apply Ok_inj in H. congruence.
Qed.
Lemma identity_parse x b : utf8_encode x = Ok b -> zlen b < 2 ^ 31 ->
  exists g, pb_parse (ser_identity b) = Ok g /\ merge_identity [] g = Ok x.
Proof.
  intros H Hl. exists (identity_fields b). rewrite ser_identity_fields. split.
  - apply pb_parse_ok. unfold identity_fields. destruct (0 <? zlen b); repeat constructor; cbn; lia.
  - unfold identity_fields. destruct (Z.ltb_spec 0 (zlen b)); cbn.
    + rewrite (pb_str_ok x b H). reflexivity.
    + rewrite (utf8_encode_empty x b H ltac:(lia)). reflexivity.
Qed.
Lemma to_int32_ok t : - 2 ^ 31 <= t < 2 ^ 31 -> to_int32 (t mod 2 ^ 64) = t.
Proof.
  intros H. unfold to_int32.
  assert (E : (t mod 2 ^ 64) mod 2 ^ 32 = t mod 2 ^ 32).
  { change (2 ^ 64) with (2 ^ 32 * 2 ^ 32). rewrite Z.rem_mul_r by lia.
    rewrite Z.mul_comm, Z.mod_add by lia. apply Z.mod_mod. lia. }
  rewrite E. change (2 ^ 32) with (2 * 2 ^ 31) in *.
  destruct (Z_lt_le_dec t 0).
  - replace (t mod (2 * 2 ^ 31)) with (t + 2 * 2 ^ 31)
      by (rewrite <- (Z.mod_add t 1) by lia; symmetry; apply Z.mod_small; lia).
    destruct (Z.leb_spec (2 ^ 31) (t + 2 * 2 ^ 31)); lia.
  - rewrite Z.mod_small by lia. destruct (Z.leb_spec (2 ^ 31) t); lia.
Qed.

Lemma pb_varint_len n : 0 <= n -> 1 <= zlen (pb_varint n).
Proof.
  intros H. pose proof (pb_varint_nonempty n H). destruct (pb_varint n); [contradiction|].
  unfold zlen. cbn [length]. lia.
Qed.
Lemma ser_identity_len b : zlen b <= zlen (ser_identity b).
Proof.
  unfold ser_identity. pose proof (zlen_nonneg _ b).
  destruct (Z.ltb_spec 0 (zlen b)); [|change (zlen (@nil byte)) with 0; lia].
  unfold pb_bytes_field. rewrite !zlen_app. pose proof (pb_varint_len (1 * 8 + 2) ltac:(lia)).
  pose proof (pb_varint_len (zlen b) ltac:(lia)). lia.
Qed.
Lemma bytes_field_len num b : 0 <= num -> zlen b <= zlen (pb_bytes_field num b).
Proof.
  intros Hn. unfold pb_bytes_field. rewrite !zlen_app. pose proof (zlen_nonneg _ b).
  pose proof (pb_varint_len (num * 8 + 2) ltac:(lia)). pose proof (pb_varint_len (zlen b) ltac:(lia)). lia.
Qed.

Lemma ext_request_parse u t bs : - 2 ^ 31 <= t < 2 ^ 31 ->
  ser_ext_request (mkER u t) = Ok bs -> zlen bs < 2 ^ 31 -> parse_ext_request bs = Ok (mkER u t).
Proof.
  intros Ht H Hl. unfold ser_ext_request in H. cbn [er_identity er_type] in H.
  apply bind_ok in H as (ib & Hi & H). apply Ok_inj in H.
  set (tf := if t =? 0 then [] else [(2, PVarint (t mod 2 ^ 64))]) in *.
  assert (Et : (if t =? 0 then [] else pb_varint_field 2 (t mod 2 ^ 64)) = concat (map enc_field tf)).
  { unfold tf. destruct (t =? 0); [reflexivity|]. cbn. rewrite app_nil_r. reflexivity. }
  assert (Okt : Forall field_ok tf).
  { unfold tf. destruct (t =? 0); repeat constructor; cbn [fst snd]; try lia; apply Z.mod_pos_bound; lia. }
  assert (Mt : forall m, er_type m = 0 -> merge_ext_request m tf = Ok (mkER (er_identity m) t)).
  { intros m Hm. unfold tf. destruct (Z.eqb_spec t 0) as [->|].
    - destruct m; cbn in *; congruence.
    - cbn. rewrite to_int32_ok by assumption. reflexivity. }
  rewrite Et in H. destruct u as [u|].
  - apply bind_ok in Hi as (b & Hb & Hi). apply Ok_inj in Hi. subst ib bs.
    rewrite zlen_app in Hl. pose proof (bytes_field_len 1 (ser_identity b) ltac:(lia)).
    pose proof (ser_identity_len b). pose proof (zlen_nonneg _ (concat (map enc_field tf))).
    unfold parse_ext_request.
    change (pb_bytes_field 1 (ser_identity b) ++ concat (map enc_field tf))
      with (concat (map enc_field ((1, PBytes (ser_identity b)) :: tf))).
    rewrite pb_parse_ok by (constructor; [split; cbn [fst snd]; lia|exact Okt]).
    cbn [bind merge_ext_request]. change (1 =? 1) with true. cbn match. cbn [er_identity opt_str er_type].
    destruct (identity_parse u b Hb ltac:(lia)) as (g & -> & M). cbn [bind]. rewrite M. cbn [bind].
    apply Mt. reflexivity.
  - apply Ok_inj in Hi. subst ib bs. cbn [app]. unfold parse_ext_request.
    rewrite pb_parse_ok by exact Okt. cbn [bind]. apply Mt. reflexivity.
Qed.

Lemma ser_strings_fields num l bs : ser_strings num l = Ok bs ->
  exists es, Forall2 (fun x e => utf8_encode x = Ok e) l es /\ bs = concat (map enc_field (map (fun e => (num, PBytes e)) es)).
Proof.
  unfold ser_strings. revert bs. induction l as [|x l IH]; intros bs H; cbn [map] in H; winv.
  - exists []. split; [constructor|reflexivity].
  - destruct (IH _ Hbs) as (es & F & ->). exists (a :: es). split; [constructor; assumption|]. reflexivity.
Qed.
Lemma concat_enc_len fs f : In f fs -> zlen (enc_field f) <= zlen (concat (map enc_field fs)).
Proof.
  induction fs as [|g fs IH]; intros [].
  - subst g. cbn [map concat]. rewrite zlen_app. pose proof (zlen_nonneg _ (concat (map enc_field fs))). lia.
  - cbn [map concat]. rewrite zlen_app. specialize (IH H). pose proof (zlen_nonneg _ (enc_field g)). lia.
Qed.
Lemma rest_actions_parse m bs : ser_rest_actions m = Ok bs -> zlen bs < 2 ^ 31 ->
  parse_rest_actions bs = Ok m.
Proof.
  destruct m as [u acts dep]. intros H Hl. unfold ser_rest_actions in H.
  cbn [rra_identity rra_actions rra_deprecated] in H.
  apply bind_ok in H as (ib & Hi & H). apply bind_ok in H as (ab & Ha & H).
  apply bind_ok in H as (db & Hd & H). apply Ok_inj in H.
  apply ser_strings_fields in Ha as (ea & Fa & ->). apply ser_strings_fields in Hd as (ed & Fd & ->).
  assert (Eu : exists uf, ib = concat (map enc_field uf) /\
    match u with Some u => exists b, utf8_encode u = Ok b /\ uf = [(1, PBytes (ser_identity b))] | None => uf = [] end).
  { destruct u as [u|].
    - apply bind_ok in Hi as (b & Hb & Hi). apply Ok_inj in Hi. subst ib.
      exists [(1, PBytes (ser_identity b))]. split; [cbn; rewrite app_nil_r; reflexivity|eauto].
    - apply Ok_inj in Hi. subst ib. exists []. auto. }
  destruct Eu as (uf & -> & Hu).
  set (fs := uf ++ map (fun e => (2, PBytes e)) ea ++ map (fun e => (3, PBytes e)) ed).
  assert (Eb : bs = concat (map enc_field fs)).
  { subst bs. unfold fs. rewrite !map_app, !concat_app. reflexivity. }
  assert (Hok : Forall field_ok fs).
  { apply Forall_forall. intros [num v] Hin.
    pose proof (concat_enc_len fs _ Hin) as Hlen. rewrite <- Eb in Hlen.
    assert (C : exists b, v = PBytes b /\ 1 <= num < 16).
    { unfold fs in Hin. rewrite !in_app_iff, !in_map_iff in Hin.
      destruct Hin as [Hin|[(e & [= <- <-] & _)|(e & [= <- <-] & _)]].
      - destruct u as [u|]; [destruct Hu as (b & _ & ->)|subst uf; destruct Hin].
        destruct Hin as [[= <- <-]|[]]. eexists. split; [reflexivity|lia].
      - eexists. split; [reflexivity|lia].
      - eexists. split; [reflexivity|lia]. }
    destruct C as (b & -> & Hn). split; cbn [fst snd]; [exact Hn|].
    unfold enc_field in Hlen. cbn [fst snd] in Hlen. pose proof (bytes_field_len num b ltac:(lia)). lia. }
  unfold parse_rest_actions. rewrite Eb, pb_parse_ok by exact Hok. cbn [bind]. unfold fs.
  assert (M3 : forall m ls es, Forall2 (fun x e => utf8_encode x = Ok e) ls es ->
     merge_rest_actions m (map (fun e => (3, PBytes e)) es)
     = Ok (mkRRA (rra_identity m) (rra_actions m) (rra_deprecated m ++ ls))).
  { intros m ls es F. revert m. induction F as [|x e ls es Hx F IH]; intros m.
    - rewrite app_nil_r. destruct m; reflexivity.
    - cbn [map merge_rest_actions]. change (3 =? 1) with false. change (3 =? 2) with false.
      change (3 =? 3) with true. cbn match. rewrite (pb_str_ok x e Hx). cbn [bind]. rewrite IH.
      cbn [rra_identity rra_actions rra_deprecated]. rewrite <- app_assoc. reflexivity. }
  assert (M2 : forall rest m ls es, Forall2 (fun x e => utf8_encode x = Ok e) ls es ->
     merge_rest_actions m (map (fun e => (2, PBytes e)) es ++ rest)
     = merge_rest_actions (mkRRA (rra_identity m) (rra_actions m ++ ls) (rra_deprecated m)) rest).
  { intros rest m ls es F. revert m. induction F as [|x e ls es Hx F IH]; intros m.
    - rewrite app_nil_r. destruct m; reflexivity.
    - cbn [map app merge_rest_actions]. change (2 =? 1) with false. change (2 =? 2) with true.
      cbn match. rewrite (pb_str_ok x e Hx). cbn [bind]. rewrite IH.
      cbn [rra_identity rra_actions rra_deprecated]. rewrite <- app_assoc. reflexivity. }
  destruct u as [u|].
  - destruct Hu as (b & Hb & ->). cbn [app merge_rest_actions]. change (1 =? 1) with true. cbn match.
    cbn [rra_identity opt_str rra_actions rra_deprecated].
    assert (zlen b < 2 ^ 31).
    { pose proof (ser_identity_len b).
      assert (Hin : In (1, PBytes (ser_identity b)) fs) by (left; reflexivity).
      rewrite Forall_forall in Hok. destruct (Hok _ Hin) as [_ Q]. cbn in Q. lia. }
    destruct (identity_parse u b Hb ltac:(assumption)) as (g & -> & M). cbn [bind]. rewrite M. cbn [bind].
    rewrite (M2 _ _ _ _ Fa). cbn [rra_identity rra_actions rra_deprecated app].
    rewrite (M3 _ _ _ Fd). reflexivity.
  - subst uf. cbn [app]. rewrite (M2 _ _ _ _ Fa). cbn [rra_identity rra_actions rra_deprecated app].
    rewrite (M3 _ _ _ Fd). reflexivity.
Qed.
