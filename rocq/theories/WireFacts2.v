(** * The SDK follows the wire format: integers, strings, collections, generic values *)
From Coq Require Import ZArith List Bool Lia ZifyBool Permutation.
From Coq Require Import Strings.Byte.
From Verif Require Import Py Stream Version Frame Proto Messages Rest Settings PyFacts Utf8Facts
  StreamFacts StreamFacts2 Spec SpecFacts Wire WireFacts MsgFacts.
Import ListNotations.
Open Scope list_scope.
Open Scope Z_scope.
Ltac Zify.zify_post_hook ::= Z.to_euclidean_division_equations.

Lemma app_ne A (l s : list A) : s <> [] -> l ++ s <> [].
Proof. intros H E. apply app_eq_nil in E as [_ E]. contradiction. Qed.
Ltac ne := repeat apply app_ne; first [assumption|discriminate].
(** one step of a composite reader, and what is known of the step once the rest is known *)
Ltac fwd H R := apply rbind_ok in H as (? & ? & R & H).
Ltac ret H := apply Ok_inj, pair_equal_spec in H as [<- <-].
Ltac back R L := apply L in R as (? & -> & ?); [ne|].
Tactic Notation "backto" hyp(R) constr(L) "as" simple_intropattern(p) :=
  apply L in R as (? & -> & p); [ne|].
Ltac upto R P := rewrite (rbind_step _ _ _ _ _ _ _ R).
Ltac pick := rewrite <- ?app_assoc; reflexivity.
Lemma asm_nil (s' : bytes) : exists bs, s' = bs ++ s' /\ parts [] bs.
Proof. exists []. split; [reflexivity|constructor]. Qed.
Lemma asm_cons (P : bytes -> Prop) a l s s' : P a -> (exists bs, s = bs ++ s' /\ parts l bs) ->
  exists bs, a ++ s = bs ++ s' /\ parts (P :: l) bs.
Proof. intros Ha (bs & -> & H). exists (a ++ bs). split; [apply app_assoc|constructor; assumption]. Qed.
Ltac assemble := repeat (apply asm_cons; [assumption|]); apply asm_nil.

Lemma reads_weaken A r (F : fmt A) (P Q : A -> Prop) : (forall a, Q a -> P a) -> reads r F P -> reads r F Q.
Proof. intros H R a bs s Hq. apply R, H, Hq. Qed.
Lemma only_weaken A (r : reader A) (F G : fmt A) : (forall a bs, F a bs -> G a bs) ->
  reads_only r F -> reads_only r G.
Proof. intros H R s a s' E Hne. destruct (R s a s' E Hne) as (bs & Hs & Hf). eauto. Qed.

(** ** Fixed-width integers *)
Lemma be_from l : be_value l = from_bytes_unsigned l.
Proof.
  rewrite <- (be_from_bytes l) at 1. rewrite be_value_bytes, Z.mod_small; [reflexivity|].
  apply from_bytes_unsigned_range.
Qed.
Lemma pow_double n : 0 < n -> 2 ^ (8 * n) = 2 * 2 ^ (8 * n - 1).
Proof. intros H. rewrite <- (Z.pow_succ_r 2 (8 * n - 1)) by lia. f_equal. lia. Qed.
Lemma signed_value n bs i : 0 < n -> zlen bs = n -> - 2 ^ (8 * n - 1) <= i < 2 ^ (8 * n - 1) ->
  be_value bs = i mod 2 ^ (8 * n) -> from_bytes_signed bs = i.
Proof.
  intros Hn Hl Hi Hv. unfold from_bytes_signed. rewrite <- be_from, Hv, Hl.
  destruct bs as [|b bs]; [change (zlen (@nil byte)) with 0 in Hl; lia|].
  rewrite (pow_double n Hn).
  set (m := 2 ^ (8 * n - 1)) in *. cbv zeta.
  assert (0 < m) by (apply Z.pow_pos_nonneg; lia). clearbody m.
  destruct (Z_lt_le_dec i 0).
  - replace (i mod (2 * m)) with (i + 2 * m) by (apply (Z.mod_unique_pos _ _ (-1)); lia).
    destruct (Z.leb_spec m (i + 2 * m)); lia.
  - rewrite Z.mod_small by lia. destruct (Z.leb_spec m i); lia.
Qed.
Lemma signed_format n bs : 0 < n -> zlen bs = n -> w_signed n (from_bytes_signed bs) bs.
Proof.
  intros Hn Hl. split; [exact Hl|]. unfold from_bytes_signed. rewrite be_from.
  pose proof (from_bytes_unsigned_range bs) as Hr. rewrite Hl in *.
  replace (256 ^ n) with (2 ^ (8 * n)) in Hr by (rewrite Z.pow_mul_r by lia; reflexivity).
  destruct bs as [|b bs]; [change (zlen (@nil byte)) with 0 in Hl; lia|].
  rewrite (pow_double n Hn) in *.
  set (u := from_bytes_unsigned (b :: bs)) in *. clearbody u.
  set (m := 2 ^ (8 * n - 1)) in *. cbv zeta. assert (0 < m) by (apply Z.pow_pos_nonneg; lia). clearbody m.
  destruct (Z.leb_spec m u); split; try lia.
  - apply (Z.mod_unique_pos _ _ (-1)); lia.
  - symmetry; apply Z.mod_small; lia.
Qed.
Lemma signed_reads n r : 0 < n -> (forall s, r s = (b <~ read_bytes n ;; rret (from_bytes_signed b)) s) ->
  reads r (w_signed n) (fun _ => True).
Proof.
  intros Hn E i bs s _ (Hl & Hi & Hv). rewrite E.
  rewrite (rbind_step _ _ _ _ _ _ _ (read_bytes_app_n n bs s Hl)). rewrite (signed_value n bs i); auto.
Qed.
Lemma bytes_only n : reads_only (read_bytes n) (fun b bs => bs = b /\ zlen b = n).
Proof.
  intros s b s' H Hne. unfold read_bytes in H. apply Ok_inj in H. exists b.
  pose proof (bio_read_split _ _ _ _ H) as E. split; [exact E|]. split; [reflexivity|].
  unfold bio_read in H. destruct (Z.ltb_spec n 0); apply pair_equal_spec in H as [H1 H2]; [congruence|].
  rewrite <- H1, takeZ_zlen by assumption. rewrite E, zlen_app.
  assert (zlen b <= n) by (rewrite <- H1, takeZ_zlen by assumption; lia).
  destruct (Z_le_dec n (zlen b + zlen s')); [lia|]. exfalso. apply Hne.
  apply zlen_0. assert (zlen s = zlen b + zlen s') by (rewrite E; apply zlen_app).
  assert (zlen b = Z.min n (zlen s)) by (rewrite <- H1; apply takeZ_zlen; assumption).
  pose proof (zlen_nonneg _ s'). lia.
Qed.
Lemma signed_only n r : 0 < n -> (forall s, r s = (b <~ read_bytes n ;; rret (from_bytes_signed b)) s) ->
  reads_only r (w_signed n).
Proof.
  intros Hn E s i s' H Hne. rewrite E in H. fwd H R. ret H. backto R bytes_only as [-> Hl]. 
  eexists. split; [reflexivity|]. apply signed_format; assumption.
Qed.
Lemma signed_writes n w r : twos_complement n w r ->
  writes w (w_signed (Z.of_nat n)) (fun i => - 2 ^ (8 * Z.of_nat n - 1) <= i < 2 ^ (8 * Z.of_nat n - 1)).
Proof.
  intros T i Hi. destruct (T i) as [G _]. destruct (G Hi) as (bs & W & L & V & _). exists bs. split; [exact W|].
  split; [unfold zlen; lia|]. split; assumption.
Qed.
Lemma byte_reads : reads read_byte (w_signed 1) (fun _ => True).
Proof. apply signed_reads; [lia|reflexivity]. Qed.
Lemma short_reads : reads read_short (w_signed 2) (fun _ => True).
Proof. apply signed_reads; [lia|reflexivity]. Qed.
Lemma int_reads : reads read_int (w_signed 4) (fun _ => True).
Proof. apply signed_reads; [lia|reflexivity]. Qed.
Lemma long_reads : reads read_long (w_signed 8) (fun _ => True).
Proof. apply signed_reads; [lia|reflexivity]. Qed.
Lemma byte_only : reads_only read_byte (w_signed 1).
Proof. apply signed_only; [lia|reflexivity]. Qed.
Lemma short_only : reads_only read_short (w_signed 2).
Proof. apply signed_only; [lia|reflexivity]. Qed.
Lemma int_only : reads_only read_int (w_signed 4).
Proof. apply signed_only; [lia|reflexivity]. Qed.
Lemma long_only : reads_only read_long (w_signed 8).
Proof. apply signed_only; [lia|reflexivity]. Qed.
Lemma byte_writes : writes write_byte (w_signed 1) (fun i => - 2 ^ 7 <= i < 2 ^ 7).
Proof. apply (signed_writes 1 _ read_byte), fixed_width_ints. Qed.
Lemma int_writes : writes write_int (w_signed 4) (fun i => - 2 ^ 31 <= i < 2 ^ 31).
Proof. apply (signed_writes 4 _ read_int), fixed_width_ints. Qed.
Lemma long_writes : writes write_long (w_signed 8) (fun i => - 2 ^ 63 <= i < 2 ^ 63).
Proof. apply (signed_writes 8 _ read_long), fixed_width_ints. Qed.

(** ** Booleans *)
Lemma bool_reads : reads read_boolean w_bool (fun _ => True).
Proof. intros b bs s _ ->. apply boolean_roundtrip, write_boolean_eq. Qed.
Lemma bool_writes : writes write_boolean w_bool (fun _ => True).
Proof. intros b _. rewrite write_boolean_eq. eexists. split; reflexivity. Qed.
Lemma bool_only : reads_only read_boolean w_bool.
Proof.
  intros s b s' H Hne. unfold read_boolean in H. destruct s as [|c s].
  { vm_compute in H. apply Ok_inj, pair_equal_spec in H as [_ <-]. contradiction. }
  rewrite (rbind_step _ _ _ _ _ _ _ (read_byte_cons _ _)) in H.
  destruct (Z.eqb_spec (sbyte c) 0) as [E|E]; [|destruct (Z.eqb_spec (sbyte c) 1) as [E'|E']; [|discriminate H]].
  - apply Ok_inj, pair_equal_spec in H as [<- <-]. exists [c]. split; [reflexivity|].
    destruct (sbyte_01 c) as [Es _]; [auto|]. unfold w_bool. f_equal. apply b2z_inj. rewrite <- Es. exact E.
  - apply Ok_inj, pair_equal_spec in H as [<- <-]. exists [c]. split; [reflexivity|].
    destruct (sbyte_01 c) as [Es _]; [auto|]. unfold w_bool. f_equal. apply b2z_inj. rewrite <- Es. exact E'.
Qed.

(** ** Optional values *)
Lemma optional_reads A (r : reader A) F P : reads r F P ->
  reads (p <~ read_boolean ;; if p then (a <~ r ;; rret (Some a)) else rret None) (w_optional F)
    (fun o => forall a, o = Some a -> P a).
Proof.
  intros R [a|] bs s HP H; cbn [w_optional] in H.
  - parts_in H. rewrite app_nil_r, <- app_assoc. rewrite (rbind_step _ _ _ _ _ _ _ (bool_reads _ _ _ I P0)).
    rewrite (rbind_step _ _ _ _ _ _ _ (R _ _ _ (HP a eq_refl) P1)). reflexivity.
  - rewrite (rbind_step _ _ _ _ _ _ _ (bool_reads _ _ _ I H)). reflexivity.
Qed.
Lemma optional_only A (r : reader A) F : reads_only r F ->
  reads_only (p <~ read_boolean ;; if p then (a <~ r ;; rret (Some a)) else rret None) (w_optional F).
Proof.
  intros L s o s' H Hne. fwd H R. destruct x.
  - fwd H R1. ret H. back R1 L. back R bool_only. cbn [w_optional]. assemble.
  - ret H. back R bool_only. eexists. split; [reflexivity|assumption].
Qed.
(** the three-valued boolean *)
Lemma optional_boolean_values b s :
  read_optional_boolean (b :: s) =
    if Byte.eqb b x00 then Ok (Some false, s) else if Byte.eqb b x01 then Ok (Some true, s)
    else if Byte.eqb b x02 then Ok (None, s) else Raise EGeneric.
Proof.
  unfold read_optional_boolean. rewrite (rbind_step _ _ _ _ _ _ _ (read_byte_cons _ _)). destruct b; reflexivity.
Qed.

(** ** zLong *)
Lemma z_long_reads strict : reads read_z_long (w_zlong strict) (fun _ => True).
Proof.
  intros i bs s _ (m & neg & Hm & -> & H). unfold read_z_long.
  rewrite (rbind_step _ _ _ _ _ _ _ (v_long_reads strict _ _ _ I H)). unfold rret. do 2 f_equal.
  rewrite Z.shiftr_div_pow2 by lia. change (2 ^ 1) with 2.
  change 1 with (Z.ones 1) at 3. rewrite Z.land_ones by lia. change (2 ^ 1) with 2.
  destruct neg.
  - replace ((2 * m + 1) / 2) with m by lia. replace ((2 * m + 1) mod 2) with 1 by lia. cbn [Z.eqb]. lia.
  - replace ((2 * m + 0) / 2) with m by lia. replace ((2 * m + 0) mod 2) with 0 by lia. cbn [Z.eqb]. lia.
Qed.
Lemma z_long_writes strict : writes write_z_long (w_zlong strict) (fun i => Z.abs i < 2 ^ 63).
Proof.
  intros i Hi. unfold write_z_long. cbv zeta.
  set (z := 2 * Z.abs i + (if i <? 0 then 1 else 0)).
  assert (Hz : 0 <= z < 2 ^ 64) by (unfold z; change (2 ^ 64) with (2 * 2 ^ 63); destruct (i <? 0); lia).
  rewrite Z.shiftr_div_pow2, Z.div_small by lia. cbn [Z.ltb Z.compare].
  destruct (v_long_writes strict z Hz) as (bs & W & F). exists bs. split; [exact W|].
  exists (Z.abs i), (i <? 0). split; [lia|]. split; [destruct (Z.ltb_spec i 0); lia|exact F].
Qed.
Lemma z_long_only : reads_only read_z_long (w_zlong false).
Proof.
  intros s i s' H Hne. unfold read_z_long in H. fwd H R. ret H. back R v_long_only.
  eexists. split; [reflexivity|]. rename x into z.
  assert (Hz : 0 <= z) by (match goal with H : w_vlong _ _ _ |- _ => destruct H as (L & _) end;
    apply leb128_range in L; lia).
  exists (z / 2), (negb (z mod 2 =? 0)). split; [lia|].
  rewrite Z.shiftr_div_pow2 by lia. change (2 ^ 1) with 2.
  change 1 with (Z.ones 1) at 1. rewrite Z.land_ones by lia. change (2 ^ 1) with 2.
  destruct (Z.eqb_spec (z mod 2) 0); cbn [negb]; (split; [lia|]).
  - replace (2 * (z / 2) + 0) with z by lia. assumption.
  - replace (2 * (z / 2) + 1) with z by lia. assumption.
Qed.

(** ** Byte strings and text *)
Lemma array_size_reads strict n bs s : n <= 2 ^ 31 -> w_vint strict n bs -> read_array_size (bs ++ s) = Ok (n, s).
Proof.
  intros Hn H. unfold read_array_size. rewrite (rbind_step _ _ _ _ _ _ _ (v_int_reads strict _ _ _ I H)).
  destruct (Z.ltb_spec (2 ^ 31) n); [lia|reflexivity].
Qed.
Lemma array_size_only : reads_only read_array_size (fun n bs => 0 <= n <= 2 ^ 31 /\ w_vint false n bs).
Proof.
  intros s n s' H Hne. pose proof (read_array_size_range _ _ _ H) as Hr. unfold read_array_size in H.
  fwd H R. destruct (2 ^ 31 <? x); [discriminate|]. ret H. back R v_int_only. eauto.
Qed.
(** the byte string as the messages read it: size, then so many bytes *)
Lemma sized_reads strict : reads (n <~ read_array_size ;; read_bytes n) (w_bytes strict) (fun _ => True).
Proof.
  intros b bs s _ [Hn H]. parts_in H. rewrite app_nil_r, <- app_assoc.
  rewrite (rbind_step _ _ _ _ _ _ _ (array_size_reads strict _ _ _ Hn P)). unfold exactly in P0. subst.
  apply read_bytes_app.
Qed.
Lemma sized_only : reads_only (n <~ read_array_size ;; read_bytes n) (w_bytes false).
Proof.
  intros s b s' H Hne. fwd H R. backto H bytes_only as [-> Hl].  backto R array_size_only as [Hr Hv].
  
  match goal with |- exists _, ?x ++ _ = _ /\ _ => assert (A : exists bs, x ++ b ++ s' = bs ++ s' /\ parts [w_vint false (zlen b); exactly b] bs) end.
    1: (rewrite Hl; apply asm_cons; [exact Hv|]; apply asm_cons; [reflexivity|apply asm_nil]).
  destruct A as (bs & E & Hp). exists bs. split; [exact E|]. split; [lia|exact Hp].
Qed.
Lemma bytes_reads strict : reads read_byte_array (w_bytes strict) (fun _ => True).
Proof.
  intros b bs s _ [Hn H]. parts_in H. rewrite app_nil_r, <- app_assoc. unfold read_byte_array.
  rewrite (rbind_step _ _ _ _ _ _ _ (array_size_reads strict _ _ _ Hn P)). unfold exactly in P0. subst.
  destruct (Z.ltb_spec 0 (zlen b)); [apply read_bytes_app|].
  assert (b = []) as -> by (apply zlen_0; pose proof (zlen_nonneg _ b); lia). reflexivity.
Qed.
Lemma bytes_only' : reads_only read_byte_array (w_bytes false).
Proof.
  intros s b s' H Hne. unfold read_byte_array in H. fwd H R. destruct (Z.ltb_spec 0 x) as [Hx|Hx].
  - apply (sized_only s b s'); [|assumption]. rewrite (rbind_step _ _ _ _ _ _ _ R). exact H.
  - ret H. backto R array_size_only as [Hr Hv].  assert (x = 0) by lia. subst x.
    match goal with |- exists _, ?x ++ _ = _ /\ _ => exists (x ++ [] ++ []) end. split; [rewrite !app_nil_r; reflexivity|]. split; [vm_compute; discriminate|].
    constructor; [assumption|]. constructor; [reflexivity|constructor].
Qed.
Lemma sized_writes strict b : zlen b <= 2 ^ 31 -> exists bs, wcat [write_v_int (zlen b); Ok b] = Ok bs /\ w_bytes strict b bs.
Proof.
  intros Hb. pose proof (zlen_nonneg _ b). destruct (v_int_writes strict (zlen b)) as (n & W & F); [cbv beta; lia|].
  destruct (wcat_parts [write_v_int (zlen b); Ok b] [w_vint strict (zlen b); exactly b]) as (bs & Wb & Hp).
  - constructor; [eauto|]. constructor; [|constructor]. exists b. split; reflexivity.
  - exists bs. split; [exact Wb|]. split; assumption.
Qed.
Lemma bytes_writes strict : writes write_byte_array (w_bytes strict) (fun b => zlen b <= 2 ^ 31).
Proof. intros b Hb. apply sized_writes, Hb. Qed.
Lemma string_reads strict : reads read_string (w_string strict) (fun _ => True).
Proof.
  intros x bs s _ (e & He & Hn & H). parts_in H. rewrite app_nil_r, <- app_assoc. unfold read_string.
  rewrite (rbind_step _ _ _ _ _ _ _ (array_size_reads strict _ _ _ Hn P)). unfold exactly in P0. subst.
  rewrite (rbind_step _ _ _ _ _ _ _ (read_bytes_app _ _)). unfold rlift.
  apply is_utf8_encode in He. rewrite (utf8_decode_encode _ _ He). reflexivity.
Qed.
Lemma string_only : reads_only read_string (w_string false).
Proof.
  intros s x s' H Hne. unfold read_string in H. apply rbind_ok in H as (n & s1 & R & H).
  apply rbind_ok in H as (e & s2 & R1 & H). unfold rlift in H.
  destruct (utf8_decode e) as [y|] eqn:D; [|discriminate]. ret H.
  destruct (sized_only s e s2) as (bs & -> & F); [rewrite (rbind_step _ _ _ _ _ _ _ R); exact R1|exact Hne|].
  exists bs. split; [reflexivity|]. exists e. split; [|exact F].
  apply is_utf8_encode, utf8_encode_decode, D.
Qed.
Lemma string_writes strict : writes write_string (w_string strict) text_ok.
Proof.
  intros x (e & He & Hn). pose proof He as He'. apply is_utf8_encode in He'.
  destruct (sized_writes strict e Hn) as (bs & W & F). exists bs. split; [|exists e; split; assumption].
  unfold write_string. rewrite He'. cbn [bind]. rewrite <- W. do 3 f_equal.
  destruct (Z.ltb_spec 0 (zlen e)); [reflexivity|].
  assert (e = []) as -> by (apply zlen_0; pose proof (zlen_nonneg _ e); lia). reflexivity.
Qed.

(** ** Sequences *)
Lemma n_reads A (r : reader A) F (P : A -> Prop) : reads r F P ->
  forall l bs s, Forall P l -> parts (map F l) bs -> read_n r (length l) (bs ++ s) = Ok (l, s).
Proof.
  intros R. induction l as [|a l IH]; intros bs s HP H; cbn [map length read_n] in *.
  - apply parts_nil_inv in H. subst. reflexivity.
  - apply Forall_cons_iff in HP as [Ha HP]. apply parts_cons_inv in H as (x & y & -> & Hx & Hy). rewrite <- app_assoc.
    rewrite (rbind_step _ _ _ _ _ _ _ (R _ _ _ Ha Hx)), (rbind_step _ _ _ _ _ _ _ (IH _ _ HP Hy)). reflexivity.
Qed.
Lemma n_reads_upto A (E : A -> A -> Prop) (r : reader A) F (P : A -> Prop) : reads_upto E r F P ->
  forall l bs s, Forall P l -> parts (map F l) bs ->
  exists l', read_n r (length l) (bs ++ s) = Ok (l', s) /\ Forall2 E l l'.
Proof.
  intros R. induction l as [|a l IH]; intros bs s HP H; cbn [map length read_n] in *.
  - apply parts_nil_inv in H. subst. exists []. split; [reflexivity|constructor].
  - apply Forall_cons_iff in HP as [Ha HP]. apply parts_cons_inv in H as (x & y & -> & Hx & Hy). rewrite <- app_assoc.
    destruct (R a x (y ++ s) Ha Hx) as (a' & Ra & Ea). destruct (IH y s HP Hy) as (l' & Rl & El).
    exists (a' :: l'). rewrite (rbind_step _ _ _ _ _ _ _ Ra), (rbind_step _ _ _ _ _ _ _ Rl).
    split; [reflexivity|constructor; assumption].
Qed.
Lemma n_only A (r : reader A) F : reads_only r F ->
  forall n, reads_only (read_n r n) (fun l bs => length l = n /\ parts (map F l) bs).
Proof.
  intros R. induction n as [|n IH]; intros s l s' H Hne; cbn [read_n] in H.
  - ret H. exists []. split; [reflexivity|]. split; [reflexivity|constructor].
  - fwd H Ra. fwd H Rl. ret H. backto Rl IH as [<- Hp].  back Ra R.
    eexists. split; [apply app_assoc|]. split; [reflexivity|]. cbn [map]. constructor; assumption.
Qed.
Lemma vint_nonneg strict n bs : w_vint strict n bs -> 0 <= n.
Proof. intros (L & _). apply leb128_range in L. lia. Qed.
(** a counted list *)
Lemma list_reads strict A (r : reader A) F (P : A -> Prop) : reads r F P ->
  reads (k <~ read_v_int ;; read_n r (Z.to_nat k)) (w_list strict F) (Forall P).
Proof.
  intros R l bs s HP H. apply parts_cons_inv in H as (x & y & -> & Hx & Hy). rewrite <- app_assoc.
  rewrite (rbind_step _ _ _ _ _ _ _ (v_int_reads strict _ _ _ I Hx)). rewrite zlen_to_nat.
  apply (n_reads _ _ _ P R); assumption.
Qed.
Lemma list_only A (r : reader A) F : reads_only r F ->
  reads_only (k <~ read_v_int ;; read_n r (Z.to_nat k)) (w_list false F).
Proof.
  intros R s l s' H Hne. fwd H Rk. apply (n_only _ _ _ R) in H as (b & -> & Hl & Hp); [ne|]. back Rk v_int_only.
  pose proof (vint_nonneg _ _ _ H). eexists. split; [apply app_assoc|]. constructor; [|exact Hp].
  replace (zlen l) with x by (unfold zlen; lia). exact H.
Qed.
Lemma list_writes strict A (w : A -> res bytes) F (P : A -> Prop) : writes w F P ->
  writes (fun l => wcat (write_v_int (zlen l) :: map w l)) (w_list strict F) (fun l => zlen l < 2 ^ 35 /\ Forall P l).
Proof.
  intros W l [Hl HP]. apply wcat_parts. constructor.
  - apply v_int_writes. pose proof (zlen_nonneg _ l). lia.
  - clear Hl. induction HP as [|x l Hx HP IH]; cbn [map]; constructor; [apply W, Hx|exact IH].
Qed.
Lemma strings_reads strict : reads read_string_array (w_strings strict) (fun _ => True).
Proof.
  intros l bs s _ [Hn H]. apply parts_cons_inv in H as (x & y & -> & Hx & Hy). rewrite <- app_assoc.
  unfold read_string_array. rewrite (rbind_step _ _ _ _ _ _ _ (array_size_reads strict _ _ _ Hn Hx)).
  destruct (Z.eqb_spec (zlen l) 0) as [E|E].
  - apply zlen_0 in E. subst l. cbn [map] in Hy. apply parts_nil_inv in Hy. subst. reflexivity.
  - rewrite zlen_to_nat. apply (n_reads _ _ _ _ (string_reads strict)); [|assumption].
    apply Forall_forall. auto.
Qed.
Lemma strings_only : reads_only read_string_array (w_strings false).
Proof.
  intros s l s' H Hne. unfold read_string_array in H. fwd H R.
  assert (H' : read_n read_string (Z.to_nat x) x0 = Ok (l, s')).
  { destruct (Z.eqb_spec x 0) as [->|]; exact H. }
  apply (n_only _ _ _ string_only) in H' as (b & -> & Hl & Hp); [ne|]. backto R array_size_only as [Hr Hv].
   assert (E : zlen l = x) by (unfold zlen; lia).
  eexists. split; [apply app_assoc|]. split; [lia|]. constructor; [rewrite E; exact Hv|exact Hp].
Qed.
Lemma strings_writes strict : writes write_string_array (w_strings strict) texts_ok.
Proof.
  intros l [Hn HP]. destruct (list_writes strict _ _ _ _ (string_writes strict) l) as (bs & W & F); [split; [lia|exact HP]|].
  exists bs. split; [exact W|]. split; [exact Hn|exact F].
Qed.

(** ** Sets *)
Lemma deduped_fold A (add : list A -> A -> list A) :
  (forall s x, In x s -> add s x = s) -> (forall s x, ~ In x s -> add s x = s ++ [x]) ->
  (forall (s : list A) x, In x s \/ ~ In x s) ->
  forall l s, deduped l s <-> fold_left add l [] = s.
Proof.
  intros Hold Hnew Hdec l s. split.
  - induction 1 as [|l s x H IH Hx|l s x H IH Hx]; [reflexivity| |]; rewrite fold_left_app, IH; cbn [fold_left]; auto.
  - intros <-. induction l as [|x l IH] using rev_ind; [constructor|]. rewrite fold_left_app. cbn [fold_left].
    destruct (Hdec (fold_left add l []) x) as [Hx|Hx].
    + rewrite Hold by exact Hx. apply dd_old; assumption.
    + rewrite Hnew by exact Hx. apply dd_new; assumption.
Qed.
Lemma deduped_set l s : deduped l s <-> set_of_list l = s.
Proof.
  unfold set_of_list. apply deduped_fold.
  - intros s0 x Hx. unfold set_add. apply str_mem_In in Hx. rewrite Hx. reflexivity.
  - intros s0 x Hx. unfold set_add. apply str_mem_not_In in Hx. rewrite Hx. reflexivity.
  - intros s0 x. rewrite <- str_mem_In. destruct (str_mem x s0); auto.
Qed.
Lemma deduped_nodup A (l : list A) : NoDup l -> deduped l l.
Proof.
  induction l as [|x l IH] using rev_ind; intros H; [constructor|].
  apply NoDup_remove in H as [H1 H2]. rewrite app_nil_r in *. apply dd_new; auto.
Qed.
Lemma set_reads strict so : set_order_ok so ->
  reads_upto (@Permutation pystr) (read_string_set so) (w_set strict) (fun _ => True).
Proof.
  intros Hso st bs s _ (l & d & Hd & Hp & _ & H). apply deduped_set in Hd. subst d.
  exists (so (set_of_list l)). unfold read_string_set.
  rewrite (rbind_step _ _ _ _ _ _ _ (strings_reads strict _ _ _ I H)). split; [reflexivity|].
  rewrite <- Hp. symmetry. apply Hso.
Qed.
Lemma set_only so : set_order_ok so -> reads_only (read_string_set so) (w_set false).
Proof.
  intros Hso s x s' H Hne. unfold read_string_set in H. fwd H R. ret H. back R strings_only.
  eexists. split; [reflexivity|]. exists x0, (set_of_list x0). split; [apply deduped_set; reflexivity|].
  split; [symmetry; apply Hso|]. split; [exact I|assumption].
Qed.
Lemma set_writes strict : writes write_string_set (w_set strict) set_ok.
Proof.
  intros l [Ht Hn]. destruct (strings_writes strict l Ht) as (bs & W & F). exists bs. split; [exact W|].
  exists l, l. split; [apply deduped_nodup, Hn|]. split; [reflexivity|]. split; [destruct strict; [reflexivity|exact I]|exact F].
Qed.

(** ** Dicts *)
Lemma dict_set_known V k (v w : V) a b : ~ In k (map fst a) ->
  dict_set streqb k v (a ++ (k, w) :: b) = a ++ (k, v) :: b.
Proof.
  induction a as [|[k' v'] a IH]; intros H; cbn [app dict_set map fst] in *.
  - rewrite streqb_refl. reflexivity.
  - replace (streqb k k') with false by (symmetry; apply streqb_neq; intros ->; apply H; left; reflexivity).
    rewrite IH; [reflexivity|]. intros Hi. apply H. right. exact Hi.
Qed.
Lemma dict_set_unknown V k (v : V) d : ~ In k (map fst d) -> dict_set streqb k v d = d ++ [(k, v)].
Proof.
  induction d as [|[k' v'] d IH]; intros H; cbn [app dict_set map fst] in *; [reflexivity|].
  replace (streqb k k') with false by (symmetry; apply streqb_neq; intros ->; apply H; left; reflexivity).
  rewrite IH; [reflexivity|]. intros Hi. apply H. right. exact Hi.
Qed.
Lemma dict_from_nodup V (l d : sdict V) : dict_from l d -> NoDup (map fst d).
Proof.
  induction 1 as [|l a k v w b H IH|l d k v H IH Hk]; [constructor| |].
  - rewrite map_app in *. exact IH.
  - rewrite map_app. cbn [map fst]. apply NoDup_rev in IH. rewrite <- (rev_involutive (map fst d ++ [k])).
    apply NoDup_rev. rewrite rev_app_distr. cbn. constructor; [rewrite <- in_rev; exact Hk|exact IH].
Qed.
Lemma dict_from_pairs V (l d : sdict V) : dict_from l d <-> dict_of_pairs l = d.
Proof.
  unfold dict_of_pairs. split.
  - induction 1 as [|l a k v w b H IH|l d k v H IH Hk]; [reflexivity| |]; rewrite fold_left_app, IH; cbn [fold_left fst snd].
    + apply dict_set_known. apply dict_from_nodup in H. rewrite map_app in H. cbn [map fst] in H.
      apply NoDup_remove_2 in H. rewrite in_app_iff in H. tauto.
    + apply dict_set_unknown, Hk.
  - intros <-. induction l as [|[k v] l IH] using rev_ind; [constructor|]. rewrite fold_left_app. cbn [fold_left fst snd].
    set (d := fold_left _ l []) in *. clearbody d. destruct (str_mem k (map fst d)) eqn:E.
    + apply str_mem_In in E. apply in_map_iff in E as ([k' w] & E & Hi). cbn in E. subst k'.
      apply in_split in Hi as (a & b & ->). rewrite dict_set_known; [exact (df_old l a k v w b IH)|].
      apply dict_from_nodup in IH. rewrite map_app in IH. cbn [map fst] in IH.
      apply NoDup_remove_2 in IH. rewrite in_app_iff in IH. tauto.
    + apply str_mem_not_In in E. rewrite dict_set_unknown by exact E. apply df_new; assumption.
Qed.
Lemma dict_from_self V (d : sdict V) : NoDup (map fst d) -> dict_from d d.
Proof. intros H. apply dict_from_pairs, dict_of_pairs_NoDup, H. Qed.

Definition pairs_rel {V} (E : V -> V -> Prop) (a b : pystr * V) : Prop := fst a = fst b /\ E (snd a) (snd b).
Lemma dict_set_rel V (E : V -> V -> Prop) k v v' d d' : E v v' -> Forall2 (pairs_rel E) d d' ->
  Forall2 (pairs_rel E) (dict_set streqb k v d) (dict_set streqb k v' d').
Proof.
  intros Hv H. induction H as [|[k1 v1] [k2 v2] d d' [Hk He] H IH]; cbn [dict_set].
  - repeat constructor. exact Hv.
  - cbn in Hk, He. subst k2. destruct (streqb k k1); constructor; auto; split; auto.
Qed.
Lemma dict_pairs_rel V (E : V -> V -> Prop) l l' : Forall2 (pairs_rel E) l l' ->
  Forall2 (pairs_rel E) (dict_of_pairs l) (dict_of_pairs l').
Proof.
  unfold dict_of_pairs. intros H.
  assert (G : forall d d', Forall2 (pairs_rel E) d d' -> Forall2 (pairs_rel E)
    (fold_left (fun d kv => dict_set streqb (fst kv) (snd kv) d) l d)
    (fold_left (fun d kv => dict_set streqb (fst kv) (snd kv) d) l' d')).
  { induction H as [|[k v] [k' v'] l l' [Hk Hv] H IH]; intros d d' Hd; cbn [fold_left]; [exact Hd|].
    cbn in Hk, Hv |- *. subst k'. apply IH, dict_set_rel; assumption. }
  apply G. constructor.
Qed.
Lemma pair_reads_upto strict V (E : V -> V -> Prop) r F : reads_upto E r F (fun _ => True) ->
  reads_upto (pairs_rel E) (read_pair r) (fun kv => parts [w_string strict (fst kv); F (snd kv)]) (fun _ => True).
Proof.
  intros R [k v] bs s _ H. parts_in H. cbn [fst snd] in *. rewrite app_nil_r, <- app_assoc. unfold read_pair.
  destruct (R v a0 s I P0) as (v' & Rv & Ev). exists (k, v').
  rewrite (rbind_step _ _ _ _ _ _ _ (string_reads strict _ _ _ I P)), (rbind_step _ _ _ _ _ _ _ Rv).
  split; [reflexivity|]. split; [reflexivity|exact Ev].
Qed.
Lemma pair_only V (r : reader V) F : reads_only r F ->
  reads_only (read_pair r) (fun kv => parts [w_string false (fst kv); F (snd kv)]).
Proof.
  intros L s kv s' H Hne. unfold read_pair in H. fwd H R. fwd H R1. ret H. back R1 L. back R string_only. cbn [fst snd]. assemble.
Qed.
Lemma dict_reads_upto strict V (E : V -> V -> Prop) r F : reads_upto E r F (fun _ => True) ->
  reads_upto (Forall2 (pairs_rel E)) (read_dict r) (w_dict strict F) (fun _ => True).
Proof.
  intros R d bs s _ (l & Hd & _ & H). apply dict_from_pairs in Hd. subst d.
  apply parts_cons_inv in H as (x & y & -> & Hx & Hy). rewrite <- app_assoc. unfold read_dict.
  rewrite (rbind_step _ _ _ _ _ _ _ (v_int_reads strict _ _ _ I Hx)).
  destruct (Z.eqb_spec (zlen l) 0) as [E0|E0].
  - apply zlen_0 in E0. subst l. cbn [map] in Hy. apply parts_nil_inv in Hy. subst. exists []. split; [reflexivity|constructor].
  - rewrite zlen_to_nat. destruct (n_reads_upto _ _ _ _ _ (pair_reads_upto strict _ _ _ _ R) l y s) as (l' & Rl & El);
      [apply Forall_forall; auto|exact Hy|].
    exists (dict_of_pairs l'). rewrite (rbind_step _ _ _ _ _ _ _ Rl). split; [reflexivity|]. apply dict_pairs_rel, El.
Qed.
Lemma reads_upto_eq A (r : reader A) F P : reads r F P <-> reads_upto eq r F P.
Proof.
  split; intros H a bs s HP HF; [exists a; split; [apply H; assumption|reflexivity]|].
  destruct (H a bs s HP HF) as (a' & R & <-). exact R.
Qed.
Lemma pairs_rel_eq V (l l' : sdict V) : Forall2 (pairs_rel eq) l l' -> l = l'.
Proof.
  induction 1 as [|[k v] [k' v'] l l' [Hk Hv] _ IH]; [reflexivity|]. cbn in Hk, Hv. congruence.
Qed.
Lemma dict_reads strict V (r : reader V) F : reads r F (fun _ => True) ->
  reads (read_dict r) (w_dict strict F) (fun _ => True).
Proof.
  intros R d bs s _ H. destruct (dict_reads_upto strict V eq r F) with (a := d) (bs := bs) (s := s) as (d' & Rd & Ed);
    [apply reads_upto_eq, R|exact I|exact H|]. apply pairs_rel_eq in Ed. subst d'. exact Rd.
Qed.
Lemma dict_only V (r : reader V) F : reads_only r F -> reads_only (read_dict r) (w_dict false F).
Proof.
  intros L s d s' H Hne. unfold read_dict in H. fwd H R.
  assert (H' : exists l, read_n (read_pair r) (Z.to_nat x) x0 = Ok (l, s') /\ dict_of_pairs l = d).
  { destruct (Z.eqb_spec x 0) as [->|]; [ret H; exists []; split; reflexivity|].
    fwd H R1. ret H. eauto. }
  destruct H' as (l & Rl & <-). apply (n_only _ _ _ (pair_only _ _ _ L)) in Rl as (b & -> & Hl & Hp); [ne|].
  back R v_int_only. pose proof (vint_nonneg _ _ _ H0).
  eexists. split; [apply app_assoc|]. exists l. split; [apply dict_from_pairs; reflexivity|]. split; [exact I|].
  constructor; [|exact Hp]. replace (zlen l) with x by (unfold zlen; lia). exact H0.
Qed.
Lemma dict_writes strict V (w : V -> res bytes) F (P : V -> Prop) : writes w F P ->
  writes (fun d => wcat (write_v_int (zlen d) :: map (fun kv => wcat [write_string (fst kv); w (snd kv)]) d))
    (w_dict strict F) (dict_ok P).
Proof.
  intros W d (Hl & Hn & HP).
  destruct (list_writes strict _ (fun kv => wcat [write_string (fst kv); w (snd kv)])
    (fun kv => parts [w_string strict (fst kv); F (snd kv)])
    (fun kv => text_ok (fst kv) /\ P (snd kv))) with (a := d) as (bs & Wd & Fd).
  - intros [k v] [Hk Hv]. apply wcat_parts. constructor; [apply string_writes, Hk|]. constructor; [apply W, Hv|constructor].
  - split; assumption.
  - exists bs. split; [exact Wd|]. exists d. split; [apply dict_from_self, Hn|].
    split; [destruct strict; [reflexivity|exact I]|exact Fd].
Qed.
Lemma string_dict_reads strict : reads read_string_to_string_dict (w_dict strict (w_string strict)) (fun _ => True).
Proof. apply dict_reads, string_reads. Qed.
Lemma strings_dict_reads strict : reads read_string_to_string_array_dict (w_dict strict (w_strings strict)) (fun _ => True).
Proof. apply dict_reads, strings_reads. Qed.
Lemma set_dict_reads strict so : set_order_ok so ->
  reads_upto same_set_dict (read_string_to_string_set_dict so) (w_dict strict (w_set strict)) (fun _ => True).
Proof. intros H. apply (dict_reads_upto strict _ (@Permutation pystr)), set_reads, H. Qed.
Lemma string_dict_writes strict : writes write_string_to_string_dict (w_dict strict (w_string strict)) (dict_ok text_ok).
Proof. apply dict_writes, string_writes. Qed.
Lemma strings_dict_writes strict : writes write_string_to_string_array_dict (w_dict strict (w_strings strict)) (dict_ok texts_ok).
Proof. apply dict_writes, strings_writes. Qed.
Lemma set_dict_writes strict : writes write_string_to_string_set_dict (w_dict strict (w_set strict)) (dict_ok set_ok).
Proof. apply dict_writes, set_writes. Qed.

(** ** Enumerations *)
Lemma enum_reads strict n : reads (read_enum n) (w_enum strict n) (fun _ => True).
Proof.
  intros v bs s _ [Hv H]. unfold read_enum. rewrite (rbind_step _ _ _ _ _ _ _ (v_int_reads strict _ _ _ I H)).
  replace ((0 <=? v) && (v <? n)) with true by lia. reflexivity.
Qed.
Lemma enum_only n : reads_only (read_enum n) (w_enum false n).
Proof.
  intros s v s' H Hne. unfold read_enum in H. fwd H R. destruct ((0 <=? x) && (x <? n)) eqn:E; [|discriminate].
  ret H. back R v_int_only. eexists. split; [reflexivity|]. split; [lia|assumption].
Qed.
Lemma enum_writes strict n : n <= 2 ^ 35 -> writes write_enum (w_enum strict n) (fun v => 0 <= v < n).
Proof.
  intros Hn v Hv. destruct (v_int_writes strict v) as (bs & W & F); [lia|]. exists bs. split; [exact W|]. split; assumption.
Qed.
