(** * Facts about Version *)
From Coq Require Import ZArith List Bool Lia ZifyBool.
From Coq Require Import Strings.Byte.
From Verif Require Import Py Stream Version PyFacts StreamFacts Spec SpecFacts.
Import ListNotations.
Open Scope Z_scope.

Lemma pow2_pos k : 0 <= k -> 0 < 2 ^ k.
Proof. intros. apply Z.pow_pos_nonneg; lia. Qed.

(** the rounding is to nearest *)
Lemma round_half_even_nearest n d : 0 < d -> 2 * Z.abs (round_half_even n d * d - n) <= d.
Proof.
  intros Hd. unfold round_half_even.
  pose proof (Z.div_mod n d ltac:(lia)) as E. pose proof (Z.mod_pos_bound n d Hd) as B.
  set (q := n / d) in *. set (r := n mod d) in *. clearbody q r.
  destruct (Z.ltb_spec (2 * r) d); [nia|]. destruct (Z.ltb_spec d (2 * r)); [nia|].
  destruct (Z.even q); nia.
Qed.
Lemma round_half_even_floor n d : 0 < d -> n / d <= round_half_even n d <= n / d + 1.
Proof.
  intros Hd. unfold round_half_even.
  destruct (2 * (n mod d) <? d); [lia|]. destruct (d <? 2 * (n mod d)); [lia|].
  destruct (Z.even (n / d)); lia.
Qed.
Lemma round_half_even_even n d : 0 < d -> 2 * Z.abs (round_half_even n d * d - n) = d ->
  Z.even (round_half_even n d) = true.
Proof.
  intros Hd. unfold round_half_even.
  pose proof (Z.div_mod n d ltac:(lia)) as E. pose proof (Z.mod_pos_bound n d Hd) as B.
  set (q := n / d) in *. set (r := n mod d) in *. clearbody q r.
  destruct (Z.ltb_spec (2 * r) d); [intros HH; exfalso; nia|].
  destruct (Z.ltb_spec d (2 * r)); [intros HH; exfalso; nia|]. intros _.
  destruct (Z.even q) eqn:Eq; [exact Eq|]. rewrite Z.even_add, Eq. reflexivity.
Qed.

(** [float_div] is the correctly rounded quotient: a 53-bit mantissa, at most half a unit
    in the last place off, an even mantissa if exactly half. *)
Lemma float_div_nearest a b : 0 < a -> 0 < b -> a / b < 2 ^ 53 ->
  let m := fst (float_div a b) in let k := snd (float_div a b) in
  0 <= k -> 2 ^ 52 <= m <= 2 ^ 53 /\ 2 * Z.abs (m * b - a * 2 ^ k) <= b /\
  (2 * Z.abs (m * b - a * 2 ^ k) = b -> Z.even m = true).
Proof.
  intros Ha Hb Hq. unfold float_div. destruct (Z.eqb_spec a 0); [lia|].
  cbn [fst snd].
  pose proof (Z.log2_spec a Ha) as La. pose proof (Z.log2_spec b Hb) as Lb.
  pose proof (Z.log2_nonneg a) as Na. pose proof (Z.log2_nonneg b) as Nb.
  assert (Hlog : Z.log2 a - Z.log2 b <= 53).
  { destruct (Z_le_gt_dec (Z.log2 a - Z.log2 b) 53); [assumption|exfalso].
    assert (2 ^ (Z.log2 b + 54) <= 2 ^ Z.log2 a) by (apply Z.pow_le_mono_r; lia).
    rewrite Z.pow_add_r in H by lia.
    assert (a / b >= 2 ^ 53); [|lia].
    apply Z.le_ge, Z.div_le_lower_bound; [lia|].
    assert (b < 2 * 2 ^ Z.log2 b) by (rewrite <- Z.pow_succ_r by lia; lia).
    change (2 ^ 54) with (2 * 2 ^ 53) in H. nia. }
  set (k0 := 53 - (Z.log2 a - Z.log2 b)).
  set (k := if 2 ^ 53 <=? a * 2 ^ k0 / b then k0 - 1 else k0).
  intros Hk. split; [|split; [apply round_half_even_nearest; lia
                             |intros HH; apply round_half_even_even; lia]].
  pose proof (round_half_even_floor (a * 2 ^ k) b Hb) as F.
  assert (Hk0 : 0 <= k0) by (unfold k0; lia).
  (* bounds on a * 2^k0 / b *)
  assert (Lo : 2 ^ 52 <= a * 2 ^ k0 / b).
  { apply Z.div_le_lower_bound; [lia|].
    assert (b < 2 * 2 ^ Z.log2 b) by (rewrite <- Z.pow_succ_r by lia; lia).
    assert (2 ^ Z.log2 a * 2 ^ k0 = 2 ^ Z.log2 b * 2 ^ 53)
      by (rewrite <- !Z.pow_add_r by lia; f_equal; unfold k0; lia).
    pose proof (pow2_pos k0 Hk0). change (2 ^ 53) with (2 * 2 ^ 52) in H0. nia. }
  assert (Hi : a * 2 ^ k0 / b < 2 ^ 54).
  { apply Z.div_lt_upper_bound; [lia|].
    assert (2 * 2 ^ Z.log2 a * 2 ^ k0 = 2 ^ Z.log2 b * 2 ^ 54).
    { rewrite <- Z.pow_succ_r by lia. rewrite <- !Z.pow_add_r by lia. f_equal. unfold k0. lia. }
    assert (a < 2 * 2 ^ Z.log2 a) by (rewrite <- Z.pow_succ_r by lia; lia).
    pose proof (pow2_pos k0 Hk0). nia. }
  unfold k in *. destruct (Z.leb_spec (2 ^ 53) (a * 2 ^ k0 / b)) as [Hc|Hc].
  - assert (E : a * 2 ^ k0 = 2 * (a * 2 ^ (k0 - 1))).
    { replace k0 with (Z.succ (k0 - 1)) at 1 by lia. rewrite Z.pow_succ_r by lia. ring. }
    rewrite E in Hc, Hi.
    assert (2 ^ 52 <= a * 2 ^ (k0 - 1) / b).
    { apply Z.div_le_lower_bound; [lia|].
      assert (b * 2 ^ 53 <= 2 * (a * 2 ^ (k0 - 1)));
        [|change (2 ^ 53) with (2 * 2 ^ 52) in *; lia].
      pose proof (Z.mul_div_le (2 * (a * 2 ^ (k0 - 1))) b Hb). nia. }
    assert (a * 2 ^ (k0 - 1) / b < 2 ^ 53).
    { apply Z.div_lt_upper_bound; [lia|].
      pose proof (Z.mul_succ_div_gt (2 * (a * 2 ^ (k0 - 1))) b Hb).
      change (2 ^ 54) with (2 * 2 ^ 53) in Hi. nia. }
    lia.
  - lia.
Qed.

(** The digit pairs come out exactly, although computed with floating point *)
Lemma float_digits a b : 0 <= a < 2 ^ 32 -> 100 <= b <= 1000000 ->
  float_mod100_int (float_div a b) = (a / b) mod 100.
Proof.
  intros Ha Hb. unfold float_div. destruct (Z.eqb_spec a 0) as [->|Hn]; [reflexivity|].
  set (k0 := 53 - (Z.log2 a - Z.log2 b)).
  set (k := if 2 ^ 53 <=? a * 2 ^ k0 / b then k0 - 1 else k0).
  unfold float_mod100_int. cbn [fst snd].
  assert (Hl : Z.log2 a <= 31).
  { pose proof (Z.log2_lt_pow2 a 32 ltac:(lia)). lia. }
  assert (Hlb : 6 <= Z.log2 b).
  { change 6 with (Z.log2 100). apply Z.log2_le_mono. lia. }
  assert (Hk : 27 <= k) by (unfold k, k0; destruct (_ <=? _); lia).
  assert (Hp : 2 ^ 27 <= 2 ^ k) by (apply Z.pow_le_mono_r; lia).
  pose proof (round_half_even_floor (a * 2 ^ k) b ltac:(lia)) as F.
  set (m := round_half_even (a * 2 ^ k) b) in *. clearbody m.
  assert (Q : m / 2 ^ k = a / b).
  { symmetry. apply (Z.div_unique_pos m (2 ^ k) (a / b) (m - 2 ^ k * (a / b))); [|lia].
    pose proof (Z.div_mod a b ltac:(lia)) as E. pose proof (Z.mod_pos_bound a b ltac:(lia)) as B.
    set (q := a / b) in *. set (r := a mod b) in *. clearbody q r. split.
    - assert (2 ^ k * q <= a * 2 ^ k / b); [|lia]. apply Z.div_le_lower_bound; [lia|]. nia.
    - assert (a * 2 ^ k / b < (q + 1) * 2 ^ k - 1); [|lia].
      apply Z.div_lt_upper_bound; [lia|]. nia. }
  rewrite (Z.mul_comm 100). rewrite Z.rem_mul_r by lia. rewrite Z.mul_comm, Z.div_add by lia.
  rewrite Z.div_small by (apply Z.mod_pos_bound; lia). rewrite Q. lia.
Qed.

(** ** the marker bit *)
Lemma land_strip n : 0 <= n < 2 ^ 32 -> Z.testbit n 27 = false ->
  Z.land n 0xF7FFFFFF = n /\ Z.land (n + 2 ^ 27) 0xF7FFFFFF = n.
Proof.
  intros Hn Hb.
  assert (E : n + 2 ^ 27 = Z.lor n (2 ^ 27)).
  { rewrite <- Z.lxor_lor, <- Z.add_nocarry_lxor; [reflexivity| |].
    all: apply Z.bits_inj'; intros i Hi; rewrite Z.land_spec, Z.pow2_bits_eqb, Z.bits_0 by lia;
      destruct (Z.eqb_spec 27 i) as [<-|]; [rewrite Hb|rewrite andb_false_r]; reflexivity. }
  assert (M : forall i, 0 <= i -> Z.testbit 0xF7FFFFFF i = (i <? 32) && negb (i =? 27)).
  { intros i Hi.
    change 0xF7FFFFFF with (Z.ldiff (Z.ones 32) (2 ^ 27)).
    rewrite Z.ldiff_spec, Z.testbit_ones_nonneg, Z.pow2_bits_eqb by lia.
    rewrite (Z.eqb_sym 27). reflexivity. }
  assert (H32 : forall i, 32 <= i -> Z.testbit n i = false).
  { intros i Hi. destruct (Z.eq_dec n 0) as [->|]; [apply Z.bits_0|].
    apply Z.bits_above_log2; [lia|].
    pose proof (Z.log2_lt_pow2 n 32 ltac:(lia)). lia. }
  split; [|rewrite E]; apply Z.bits_inj'; intros i Hi; rewrite Z.land_spec, ?Z.lor_spec, M,
    ?Z.pow2_bits_eqb by lia;
    destruct (Z.ltb_spec i 32); cbn [andb]; try (rewrite (H32 i) by lia; rewrite ?andb_false_r; reflexivity);
    destruct (Z.eqb_spec i 27) as [->|]; cbn [negb andb]; rewrite ?Hb, ?andb_false_r, ?andb_true_r; try reflexivity;
    destruct (Z.eqb_spec 27 i); [lia|]; rewrite orb_false_r; reflexivity.
Qed.

Lemma version_pairs n v : 0 <= n < 2 ^ 32 -> Z.testbit n 27 = false ->
  vid v = n \/ vid v = n + 2 ^ 27 ->
  v_major v = n / 1000000 mod 100 /\ v_minor v = n / 10000 mod 100 /\
  v_revision v = n / 100 mod 100 /\ v_build v = n mod 100.
Proof.
  intros Hn Hb Hv. destruct (land_strip n Hn Hb) as [S1 S2].
  assert (S : stripped_id v = n) by (unfold stripped_id; destruct Hv as [->| ->]; assumption).
  unfold v_major, v_minor, v_revision, v_build. rewrite S.
  rewrite !float_digits by lia. auto.
Qed.

Lemma small_bit27 n : 0 <= n < 2 ^ 27 -> Z.testbit n 27 = false.
Proof.
  intros H. destruct (Z.eq_dec n 0) as [->|]; [reflexivity|].
  apply Z.bits_above_log2; [lia|]. apply Z.log2_lt_pow2; lia.
Qed.
Lemma version_of_small n : 0 <= n < 2 ^ 27 -> vid (version_of_id n) = n + 2 ^ 27.
Proof.
  intros H. unfold version_of_id, MASK. cbn [vid]. change 0x08000000 with (2 ^ 27).
  symmetry. apply Z.add_nocarry_lxor.
  apply Z.bits_inj'; intros i Hi; rewrite Z.land_spec, Z.pow2_bits_eqb, Z.bits_0 by lia.
  destruct (Z.eqb_spec 27 i) as [<-|]; [|apply andb_false_r].
  rewrite small_bit27 by assumption. reflexivity.
Qed.
Lemma version_components a b c d :
  0 <= a < 100 -> 0 <= b < 100 -> 0 <= c < 100 -> 0 <= d < 100 ->
  let v := version_of_id (a * 1000000 + b * 10000 + c * 100 + d) in
  v_major v = a /\ v_minor v = b /\ v_revision v = c /\ v_build v = d.
Proof.
  intros Ha Hb Hc Hd. set (n := a * 1000000 + b * 10000 + c * 100 + d). intros v.
  destruct (version_pairs n v) as (-> & -> & -> & ->).
  - unfold n. lia.
  - apply small_bit27. unfold n. lia.
  - right. apply version_of_small. unfold n. lia.
  - unfold n. Ltac Zify.zify_post_hook ::= Z.div_mod_to_equations. lia.
Qed.
Ltac Zify.zify_post_hook ::= idtac.

(** ** wire *)
Lemma lxor_twice a b : Z.lxor (Z.lxor a b) b = a.
Proof. rewrite Z.lxor_assoc, Z.lxor_nilpotent, Z.lxor_0_r. reflexivity. Qed.
Lemma version_codec : codec write_version read_version (fun v => 0 <= vid v < 2 ^ 35).
Proof.
  intros v bs s Hv H. unfold write_version in H. unfold read_version.
  rewrite (rbind_step _ _ _ _ _ _ _ (v_int_roundtrip _ _ s Hv H)).
  unfold version_of_id. rewrite lxor_twice. destruct v; reflexivity.
Qed.
Lemma version_survives : survives write_version read_version (fun v => 0 <= vid v < 2 ^ 35).
Proof.
  intros v Hv. destruct (write_v_int_total (vid v)) as [bs H]; [lia|].
  exists bs. split; [exact H|]. intros s. apply version_codec; assumption.
Qed.
Lemma version_bytes_ok v : 0 <= vid v < 2 ^ 32 ->
  exists bs, version_to_bytes v = Ok bs /\ length bs = 4%nat /\ be_value bs = vid v
             /\ version_from_bytes bs = v.
Proof.
  intros H. unfold version_to_bytes, to_bytes_unsigned.
  change (2 ^ (8 * Z.of_nat 4)) with (2 ^ 32).
  destruct (Z.leb_spec 0 (vid v)); [|lia]. destruct (Z.ltb_spec (vid v) (2 ^ 32)); [|lia].
  eexists. split; [reflexivity|]. split; [apply be_bytes_length|].
  split; [rewrite be_value_bytes; apply Z.mod_small; exact H|].
  unfold version_from_bytes. rewrite from_be_bytes by exact H. destruct v; reflexivity.
Qed.
Lemma version_bytes_out v : ~ 0 <= vid v < 2 ^ 32 -> version_to_bytes v = Raise EOverflow.
Proof.
  intros H. unfold version_to_bytes, to_bytes_unsigned.
  change (2 ^ (8 * Z.of_nat 4)) with (2 ^ 32).
  destruct (Z.leb_spec 0 (vid v)); [|reflexivity].
  destruct (Z.ltb_spec (vid v) (2 ^ 32)); [lia|reflexivity].
Qed.

Lemma mask_bit n : (Z.land n MASK =? 0) = negb (Z.testbit n 27).
Proof.
  unfold MASK. change 0x08000000 with (2 ^ 27).
  destruct (Z.testbit n 27) eqn:E; cbn [negb].
  - apply Z.eqb_neq. intros H. assert (B := f_equal (fun x => Z.testbit x 27) H).
    cbn beta in B. rewrite Z.land_spec, E, Z.bits_0 in B. discriminate B.
  - apply Z.eqb_eq. apply Z.bits_inj'. intros i Hi.
    rewrite Z.land_spec, Z.pow2_bits_eqb, Z.bits_0 by lia.
    destruct (Z.eqb_spec 27 i) as [<-|]; [rewrite E; reflexivity|apply andb_false_r].
Qed.
Lemma bit27_big n : 0 <= n -> Z.testbit n 27 = true -> 2 ^ 27 <= n.
Proof.
  intros Hn Hb. destruct (Z_lt_le_dec n (2 ^ 27)); [|assumption].
  rewrite small_bit27 in Hb by lia. discriminate.
Qed.
Lemma version_size_exact v bs : 0 <= vid v -> write_version v = Ok bs ->
  (version_size v = zlen bs <-> (Z.testbit (vid v) 27 = false \/ vid v < 2 ^ 28)).
Proof.
  intros Hv H. unfold write_version in H. apply v_int_size_correct in H. unfold version_size.
  rewrite mask_bit. destruct (Z.testbit (vid v) 27) eqn:E; cbn [negb].
  - pose proof (bit27_big _ Hv E) as Hb.
    destruct (v_int_size_least (vid v) Hv) as (L1 & L2 & L3). rewrite <- H.
    split.
    + intros H4. right. rewrite <- H4 in L2. exact L2.
    + intros [?|Hs]; [discriminate|].
      pose proof (L3 4 ltac:(lia) Hs) as U.
      destruct (Z_lt_le_dec (v_int_size (vid v)) 4) as [Hl|]; [|lia].
      assert (128 ^ v_int_size (vid v) <= 128 ^ 3) by (apply Z.pow_le_mono_r; lia). lia.
  - rewrite H. split; auto.
Qed.
Lemma version_size_refuted :
  ~ (forall v bs, write_version v = Ok bs -> version_size v = zlen bs).
Proof.
  intros H. specialize (H (version_of_id (2 ^ 28)) [x80; x80; x80; xc0; x01] eq_refl).
  vm_compute in H. discriminate.
Qed.
Lemma version_size_partial :
  (forall n bs, 0 <= n < 2 ^ 27 -> write_version (version_of_id n) = Ok bs ->
     version_size (version_of_id n) = zlen bs) /\
  (forall v bs, 0 <= vid v -> write_version v = Ok bs ->
     (version_size v = zlen bs <-> (Z.testbit (vid v) 27 = false \/ vid v < 2 ^ 28))).
Proof.
  split; [|exact version_size_exact].
  intros n bs Hn H. pose proof (version_of_small n Hn) as E.
  apply version_size_exact; [lia|exact H|]. right. rewrite E. change (2 ^ 28) with (2 * 2 ^ 27). lia.
Qed.
Lemma version_id_marker n : Z.testbit (vid (version_of_id n)) 27 = negb (Z.testbit n 27) /\ forall i, 0 <= i -> i <> 27 -> Z.testbit (vid (version_of_id n)) i = Z.testbit n i.
Proof.
  unfold version_of_id, MASK. cbn [vid]. change 0x08000000 with (2 ^ 27). split.
  - rewrite Z.lxor_spec. change (Z.testbit (2 ^ 27) 27) with true. apply xorb_true_r.
  - intros i Hi Hn. rewrite Z.lxor_spec, Z.pow2_bits_eqb by lia.
    destruct (Z.eqb_spec 27 i); [congruence|]. apply xorb_false_r.
Qed.
