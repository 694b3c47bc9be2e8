(** * Locality of readers, generic values *)
From Coq Require Import ZArith List Bool Lia Permutation.
From Coq Require Import ZifyBool.
From Coq Require Import Strings.Byte.
From Verif Require Import Py PyFacts Utf8Facts Stream StreamFacts.
Import ListNotations.
Open Scope Z_scope.

(** A reader moves forward: what it leaves is a suffix; and if it leaves anything, it
    did not look at what it left. *)
Definition local {A} (r : reader A) : Prop :=
  forall s a s', r s = Ok (a, s') ->
  exists p, s = p ++ s' /\ (s' <> [] -> forall t, r (p ++ t) = Ok (a, t)).

Lemma local_ret A (a : A) : local (rret a).
Proof. intros s x s' [= <- <-]. exists []. split; auto. Qed.
Lemma local_fail A e : local (@rfail A e).
Proof. intros s x s'. discriminate. Qed.
Lemma local_lift A (x : res A) : local (rlift x).
Proof.
  intros s a s'. unfold rlift. destruct x; [|discriminate]. intros [= <- <-].
  exists []. split; auto.
Qed.
Lemma local_bind A B (r : reader A) (k : A -> reader B) :
  local r -> (forall a, local (k a)) -> local (rbind r k).
Proof.
  intros Hr Hk s b s' H. apply rbind_ok in H as (a & s1 & H1 & H2).
  apply Hr in H1 as (p1 & -> & L1). apply Hk in H2 as (p2 & -> & L2).
  exists (p1 ++ p2). rewrite app_assoc. split; auto. intros Hn t.
  assert (N : p2 ++ s' <> []) by (destruct p2; [exact Hn|discriminate]).
  rewrite <- app_assoc. unfold rbind. rewrite (L1 N). apply L2; auto.
Qed.
Lemma local_if A (b : bool) (r1 r2 : reader A) : local r1 -> local r2 -> local (if b then r1 else r2).
Proof. destruct b; auto. Qed.
Lemma local_read_bytes n : local (read_bytes n).
Proof.
  intros s a s'. unfold read_bytes, bio_read. destruct (n <? 0) eqn:E; intros [= <- <-].
  - exists s. rewrite app_nil_r. split; auto. intros H. contradiction.
  - exists (takeZ n s). rewrite takeZ_dropZ. split; auto. intros Hn t.
    assert (Hl : zlen (takeZ n s) = n).
    { rewrite takeZ_zlen by lia. pose proof (takeZ_dropZ _ n s) as Hs.
      apply (f_equal zlen) in Hs. rewrite zlen_app, takeZ_zlen in Hs by lia.
      assert (zlen (dropZ n s) <> 0) by (intros Hz; apply zlen_0 in Hz; auto).
      pose proof (zlen_nonneg _ (dropZ n s)). lia. }
    rewrite <- Hl at 1 3. rewrite takeZ_app, dropZ_app. reflexivity.
Qed.
Lemma local_read_n A (r : reader A) n : local r -> local (read_n r n).
Proof.
  intros Hr. induction n as [|n IH]; simpl; [apply local_ret|].
  apply local_bind; auto. intros a. apply local_bind; auto. intros l. apply local_ret.
Qed.

Create HintDb local.
#[export] Hint Resolve local_ret local_fail local_lift local_read_bytes local_read_n : local.
Ltac loc :=
  repeat first
    [ progress (cbv zeta)
    | solve [auto with local]
    | apply local_bind; [|intros ?]
    | apply local_if
    | apply local_read_n ].

Lemma local_read_byte : local read_byte. Proof. unfold read_byte. loc. Qed.
Lemma local_read_int : local read_int. Proof. unfold read_int. loc. Qed.
Lemma local_read_short : local read_short. Proof. unfold read_short. loc. Qed.
Lemma local_read_long : local read_long. Proof. unfold read_long. loc. Qed.
#[export] Hint Resolve local_read_byte local_read_int local_read_short local_read_long : local.
Lemma local_read_boolean : local read_boolean. Proof. unfold read_boolean. loc. Qed.
Lemma local_read_optional_boolean : local read_optional_boolean.
Proof. unfold read_optional_boolean. loc. Qed.
Lemma local_read_v_int : local read_v_int. Proof. unfold read_v_int. loc. Qed.
Lemma local_read_v_long : local read_v_long. Proof. unfold read_v_long. loc. Qed.
#[export] Hint Resolve local_read_boolean local_read_v_int local_read_v_long : local.
Lemma local_read_z_long : local read_z_long. Proof. unfold read_z_long. loc. Qed.
Lemma local_read_optional_int : local read_optional_int.
Proof. unfold read_optional_int. loc. Qed.
Lemma local_read_optional_v_long : local read_optional_v_long.
Proof. unfold read_optional_v_long. loc. Qed.
Lemma local_read_optional_long : local read_optional_long.
Proof. unfold read_optional_long. loc. Qed.
Lemma local_read_array_size : local read_array_size. Proof. unfold read_array_size. loc. Qed.
#[export] Hint Resolve local_read_array_size : local.
Lemma local_read_string : local read_string. Proof. unfold read_string. loc. Qed.
#[export] Hint Resolve local_read_string : local.
Lemma local_read_optional_string : local read_optional_string.
Proof. unfold read_optional_string. loc. Qed.
Lemma local_read_string_array : local read_string_array.
Proof. unfold read_string_array. loc. Qed.
#[export] Hint Resolve local_read_string_array : local.
Lemma local_read_optional_string_array : local read_optional_string_array.
Proof. unfold read_optional_string_array. loc. Qed.
Lemma local_read_dict V (r : reader V) : local r -> local (read_dict r).
Proof. intros H. unfold read_dict, read_pair. loc. Qed.
Lemma local_read_string_to_string_dict : local read_string_to_string_dict.
Proof. apply local_read_dict. loc. Qed.
Lemma local_read_string_to_string_array_dict : local read_string_to_string_array_dict.
Proof. apply local_read_dict. loc. Qed.
Lemma local_read_string_set so : local (read_string_set so).
Proof. unfold read_string_set. loc. Qed.
#[export] Hint Resolve local_read_string_set : local.
Lemma local_read_string_to_string_set_dict so : local (read_string_to_string_set_dict so).
Proof. apply local_read_dict. loc. Qed.
Lemma local_read_byte_array : local read_byte_array. Proof. unfold read_byte_array. loc. Qed.
#[export] Hint Resolve local_read_byte_array : local.
Lemma local_read_generic_value f : local (read_generic_value f).
Proof.
  induction f as [|f IH]; cbn [read_generic_value]; loc.
Qed.
Lemma local_read_enum n : local (read_enum n). Proof. unfold read_enum. loc. Qed.

(** Truncation: on a proper prefix of an encoding a local reader either raises or
    runs into the end of its input. *)
Lemma truncated A (r : reader A) a bs q q2 :
  local r -> r bs = Ok (a, []) -> bs = q ++ q2 -> q2 <> [] ->
  forall a' s', r q = Ok (a', s') -> s' = [].
Proof.
  intros Hl Hr -> Hq a' s' H. apply Hl in H as (p & -> & L).
  destruct s' as [|x s']; auto. exfalso.
  rewrite <- app_assoc in Hr. rewrite L in Hr by discriminate.
  injection Hr as _ Hr. discriminate.
Qed.

(** ** Generic values *)
Section PyvalInd.
  Variable P : pyval -> Prop.
  Hypothesis HNone : P VNone.
  Hypothesis HBool : forall b, P (VBool b).
  Hypothesis HStr : forall s, P (VStr s).
  Hypothesis HInt : forall i, P (VInt i).
  Hypothesis HBytes : forall b, P (VBytes b).
  Hypothesis HList : forall l, Forall P l -> P (VList l).
  Hypothesis HOther : forall t r, P (VOther t r).
  Fixpoint pyval_ind' (v : pyval) : P v :=
    match v with
    | VNone => HNone | VBool b => HBool b | VStr s => HStr s | VInt i => HInt i
    | VBytes b => HBytes b
    | VList l => HList l ((fix go l : Forall P l :=
        match l with [] => Forall_nil P | x :: t => Forall_cons x (pyval_ind' x) (go t) end) l)
    | VOther t r => HOther t r
    end.
End PyvalInd.

(** nesting depth of lists *)
Fixpoint vdepth (v : pyval) : nat :=
  match v with VList l => S (fold_right (fun x m => Nat.max (vdepth x) m) O l) | _ => O end.

(** Values the code supports, with sizes the reader accepts. *)
Inductive supported : pyval -> Prop :=
| sup_none : supported VNone
| sup_bool b : supported (VBool b)
| sup_str s : str_fits s -> supported (VStr s)
| sup_int i : supported (VInt i)
| sup_bytes b : zlen b <= 2 ^ 31 -> supported (VBytes b)
| sup_list l : zlen l < 2 ^ 35 -> Forall supported l -> supported (VList l).

Lemma vdepth_in x l : In x l -> (vdepth x <= fold_right (fun x m => Nat.max (vdepth x) m) O l)%nat.
Proof. induction l as [|y l IH]; simpl; [tauto|]. intros [->|H]; [lia|specialize (IH H); lia]. Qed.

Lemma generic_roundtrip v : supported v -> forall f bs s,
  (vdepth v < f)%nat -> write_generic_value v = Ok bs ->
  read_generic_value f (bs ++ s) = Ok (v, s).
Proof.
  induction v as [|b|x|i|b|l IH|t r] using pyval_ind'; intros Hs f bs s Hf H;
  (destruct f as [|f]; [lia|]); inversion Hs; subst; cbn [write_generic_value] in H;
  cbn [read_generic_value]; winv; rewrite ?app_nil_r, <- ?app_assoc.
  - rewrite (rbind_step _ _ _ _ _ _ _ (byte_roundtrip _ _ _ H)). reflexivity.
  - rewrite (rbind_step _ _ _ _ _ _ _ (byte_roundtrip _ _ _ Hw)). cbn [Z.eqb Pos.eqb].
    rewrite (rbind_step _ _ _ _ _ _ _ (boolean_roundtrip _ _ _ Hw0)). reflexivity.
  - rewrite (rbind_step _ _ _ _ _ _ _ (byte_roundtrip _ _ _ Hw)). cbn [Z.eqb Pos.eqb].
    rewrite (rbind_step _ _ _ _ _ x s) by (apply string_roundtrip; auto). reflexivity.
  - rewrite (rbind_step _ _ _ _ _ _ _ (byte_roundtrip _ _ _ Hw)). cbn [Z.eqb Pos.eqb].
    rewrite (rbind_step _ _ _ _ _ _ _ (long_roundtrip _ _ _ Hw0)). reflexivity.
  - rewrite (rbind_step _ _ _ _ _ _ _ (byte_roundtrip _ _ _ Hw)). cbn [Z.eqb Pos.eqb].
    rewrite (rbind_step _ _ _ _ _ b s) by (apply byte_array_roundtrip; auto). reflexivity.
  - rewrite (rbind_step _ _ _ _ _ _ _ (byte_roundtrip _ _ _ Hw)). cbn [Z.eqb Pos.eqb].
    pose proof (zlen_nonneg _ l).
    rewrite (rbind_step _ _ _ _ _ (zlen l) (bs0 ++ s)) by (apply v_int_roundtrip; auto; lia).
    rewrite zlen_to_nat.
    rewrite (rbind_step _ _ _ _ _ l s); [reflexivity|].
    cbn [vdepth] in Hf.
    assert (Hd : forall x, In x l -> (vdepth x < f)%nat)
      by (intros x Hx; apply vdepth_in in Hx; lia).
    clear Hw Hw1 Hf Hs H H1. revert bs0 Hbs.
    induction l as [|x l IHl]; intros bs0 Hb; cbn [map] in Hb; winv; [reflexivity|].
    inversion IH as [|? ? I1 I2]; subst. inversion H2 as [|? ? S1 S2]; subst.
    cbn [length read_n]. rewrite <- app_assoc.
    erewrite rbind_step; [|apply I1; eauto; apply Hd; simpl; auto].
    rewrite (rbind_step _ _ _ _ _ l s); [reflexivity|].
    apply IHl; auto. intros y Hy. apply Hd. simpl; auto.
Qed.

Lemma write_byte_total i : -128 <= i < 128 -> exists bs, write_byte i = Ok bs.
Proof. intros H. unfold write_byte. rewrite to_bytes_signed_in_range by (cbn; lia). eauto. Qed.

(** ints outside 64 bits and strings with surrogates anywhere inside raise *)
Inductive writable : pyval -> Prop :=
| wr_none : writable VNone
| wr_bool b : writable (VBool b)
| wr_str s : Forall is_scalar s -> writable (VStr s)
| wr_int i : - 2 ^ 63 <= i < 2 ^ 63 -> writable (VInt i)
| wr_bytes b : writable (VBytes b)
| wr_list l : Forall writable l -> writable (VList l).

Lemma wcat2 a b x y : a = Ok x -> b = Ok y -> wcat [a; b] = Ok (x ++ y).
Proof. intros -> ->. cbn. rewrite app_nil_r. reflexivity. Qed.

Lemma write_generic_total v : writable v -> exists bs, write_generic_value v = Ok bs.
Proof.
  induction v as [|b|x|i|b|l IH|t r] using pyval_ind'; intros Hw; inversion Hw; subst;
  cbn [write_generic_value].
  - apply write_byte_total; lia.
  - rewrite write_boolean_eq. eexists. apply wcat2; reflexivity.
  - apply utf8_encode_scalar in H0 as [e He]. destruct (write_string_total _ _ He) as [y Hy].
    eexists. apply wcat2; [reflexivity|exact Hy].
  - eexists. apply wcat2; [reflexivity|].
    unfold write_long. apply (to_bytes_signed_in_range 8). exact H0.
  - destruct (write_v_int_total (zlen b) (zlen_nonneg _ b)) as [x Hx].
    eexists. apply wcat2; [reflexivity|]. apply wcat2; [exact Hx|reflexivity].
  - destruct (write_v_int_total (zlen l) (zlen_nonneg _ l)) as [x Hx].
    assert (exists y, wcat (map write_generic_value l) = Ok y) as [y Hy].
    { clear Hw Hx. induction l as [|v l IHl]; [exists []; reflexivity|].
      inversion IH as [|? ? I1 I2]; subst. inversion H0 as [|? ? W1 W2]; subst.
      destruct (I1 W1) as [b1 Hb1]. destruct (IHl I2 W2) as [b2 Hb2].
      exists (b1 ++ b2). cbn [map wcat]. rewrite Hb1, Hb2. reflexivity. }
    eexists. apply wcat2; [reflexivity|]. cbn [wcat]. rewrite Hx, Hy. reflexivity.
Qed.

(** If a supported-shape value is written, it was writable. *)
Inductive no_other : pyval -> Prop :=
| no_none : no_other VNone
| no_bool b : no_other (VBool b)
| no_str s : no_other (VStr s)
| no_int i : no_other (VInt i)
| no_bytes b : no_other (VBytes b)
| no_list l : Forall no_other l -> no_other (VList l).

Lemma write_generic_writable v bs : no_other v -> write_generic_value v = Ok bs -> writable v.
Proof.
  revert bs. induction v as [|b|x|i|b|l IH|t r] using pyval_ind'; intros bs Hn H;
  inversion Hn; subst; cbn [write_generic_value] in H; winv; try constructor.
  - apply write_string_form in Hw0 as (e & y & He & _). apply utf8_encode_scalar; eauto.
  - unfold write_long in Hw0. apply to_bytes_signed_ok in Hw0 as [Hr _]; [exact Hr|lia].
  - match goal with Hx : Forall no_other l |- _ => rename Hx into Hno end.
    match goal with Hx : wcat (map _ l) = Ok ?b |- _ => clear - IH Hno Hx; revert b Hx end.
    induction l as [|v l IHl]; intros bs0 Hb; [constructor|].
    cbn [map] in Hb. winv. inversion IH; subst. inversion Hno; subst. constructor; eauto.
Qed.

(** ** Recursion depth *)
Lemma read_byte_nil : read_byte [] = Ok (0, []).
Proof. reflexivity. Qed.

Lemma read_byte_len s b s' : read_byte s = Ok (b, s') -> b <> 0 -> (length s' < length s)%nat.
Proof.
  destruct s as [|x s]; [rewrite read_byte_nil|rewrite read_byte_cons]; intros [= <- <-] H;
  [contradiction|simpl; lia].
Qed.

Lemma local_len A (r : reader A) s a s' : local r -> r s = Ok (a, s') -> (length s' <= length s)%nat.
Proof. intros H Hr. apply H in Hr as (p & -> & _). rewrite app_length. lia. Qed.

Lemma rbind_not_rec A B (r : reader A) (k : A -> reader B) s :
  r s <> Raise ERecursion ->
  (forall a s', r s = Ok (a, s') -> k a s' <> Raise ERecursion) ->
  rbind r k s <> Raise ERecursion.
Proof.
  intros H1 H2. unfold rbind. destruct (r s) as [[a s']|e]; [auto|congruence].
Qed.

Lemma read_n_not_rec A (r : reader A) n : local r -> forall s L,
  (length s <= L)%nat ->
  (forall s', (length s' <= L)%nat -> r s' <> Raise ERecursion) ->
  read_n r n s <> Raise ERecursion.
Proof.
  intros Hl. induction n as [|n IH]; intros s L HL H; cbn [read_n]; [discriminate|].
  apply rbind_not_rec; [auto|]. intros a s1 H1. apply local_len in H1; auto.
  apply rbind_not_rec; [apply IH with L; auto; lia|]. intros; discriminate.
Qed.

(** readers that never raise RecursionError *)
Definition norec {A} (r : reader A) : Prop := forall s, r s <> Raise ERecursion.
Lemma norec_bind A B (r : reader A) (k : A -> reader B) :
  norec r -> (forall a, norec (k a)) -> norec (rbind r k).
Proof. intros H1 H2 s. apply rbind_not_rec; [apply H1|intros a s' _; apply H2]. Qed.
Lemma norec_ret A (a : A) : norec (rret a). Proof. intros s; discriminate. Qed.
Lemma norec_fail A e : e <> ERecursion -> norec (@rfail A e).
Proof. intros H s [= ->]. auto. Qed.
Lemma norec_bytes n : norec (read_bytes n). Proof. intros s; discriminate. Qed.
Lemma norec_if A (b : bool) (r1 r2 : reader A) : norec r1 -> norec r2 -> norec (if b then r1 else r2).
Proof. destruct b; auto. Qed.
Lemma rmap_not_rec A B (f : A -> B) x : x <> Raise ERecursion -> rmap f x <> Raise ERecursion.
Proof. destruct x; simpl; congruence. Qed.
Lemma utf8_decode_norec l : utf8_decode l <> Raise ERecursion.
Proof.
  remember (length l) as n eqn:Hn. assert (Hle : (length l <= n)%nat) by lia. clear Hn.
  revert l Hle. induction n as [|n IH]; intros l Hl.
  { destruct l; [discriminate|simpl in Hl; lia]. }
  destruct l as [|b0 t0]; [discriminate|]. simpl in Hl. cbn [utf8_decode].
  repeat match goal with
  | |- context [if ?b then _ else _] => destruct b
  | |- context [match ?t with [] => _ | _ :: _ => _ end] => destruct t; cbn [length] in *
  | |- rmap _ _ <> _ => apply rmap_not_rec, IH; lia
  | |- Raise _ <> Raise _ => discriminate
  end.
Qed.
Lemma norec_lift_utf8 b : norec (rlift (utf8_decode b)).
Proof.
  intros s. unfold rlift. pose proof (utf8_decode_norec b). destruct (utf8_decode b); congruence.
Qed.
Create HintDb norec.
#[export] Hint Resolve norec_ret norec_bytes norec_lift_utf8 : norec.
#[export] Hint Extern 2 (norec (rfail _)) => apply norec_fail; discriminate : norec.
Ltac nor :=
  repeat first [ progress (cbv zeta) | solve [auto with norec]
               | apply norec_bind; [|intros ?] | apply norec_if ].
Lemma norec_read_byte : norec read_byte. Proof. unfold read_byte. nor. Qed.
#[export] Hint Resolve norec_read_byte : norec.
Lemma norec_read_v_int : norec read_v_int. Proof. unfold read_v_int. nor. Qed.
#[export] Hint Resolve norec_read_v_int : norec.
Lemma norec_read_string : norec read_string.
Proof. unfold read_string, read_array_size. nor. Qed.
#[export] Hint Resolve norec_read_string : norec.
Lemma norec_read_byte_array : norec read_byte_array.
Proof. unfold read_byte_array, read_array_size. nor. Qed.
#[export] Hint Resolve norec_read_byte_array : norec.
Lemma norec_read_boolean : norec read_boolean. Proof. unfold read_boolean. nor. Qed.
#[export] Hint Resolve norec_read_boolean : norec.

Lemma generic_no_recursion_error f : forall s, (length s < f)%nat ->
  read_generic_value f s <> Raise ERecursion.
Proof.
  induction f as [|f IH]; intros s Hf; [lia|]. cbn [read_generic_value].
  apply rbind_not_rec; [apply norec_read_byte|]. intros t s1 H1.
  repeat match goal with
  | |- (if ?b then _ else _) _ <> _ => destruct b eqn:?
  end; try discriminate;
  try (apply rbind_not_rec; [auto with norec|intros; discriminate]).
  apply rbind_not_rec; [apply norec_read_v_int|]. intros n s2 H2.
  apply rbind_not_rec; [|intros; discriminate].
  apply read_byte_len in H1; [|lia]. apply local_len in H2; [|auto with local].
  apply read_n_not_rec with (L := length s2); auto.
  - apply local_read_generic_value.
  - intros s' Hs'. apply IH. lia.
Qed.

(** More stack does not change the result. *)
Lemma read_n_ext A (r1 r2 : reader A) n :
  (forall s, r1 s <> Raise ERecursion -> r2 s = r1 s) ->
  forall s, read_n r1 n s <> Raise ERecursion -> read_n r2 n s = read_n r1 n s.
Proof.
  intros H. induction n as [|n IH]; intros s Hs; cbn [read_n] in *; auto.
  unfold rbind in *. destruct (r1 s) as [[a s1]|e] eqn:E1.
  - rewrite H by congruence. rewrite E1.
    destruct (read_n r1 n s1) as [[l s2]|e] eqn:E2; rewrite IH; rewrite ?E2; congruence.
  - rewrite H by congruence. rewrite E1. reflexivity.
Qed.

Lemma generic_fuel_mono f1 : forall f2 s, (f1 <= f2)%nat ->
  read_generic_value f1 s <> Raise ERecursion ->
  read_generic_value f2 s = read_generic_value f1 s.
Proof.
  induction f1 as [|f1 IH]; intros f2 s Hle H; [exfalso; apply H; reflexivity|].
  destruct f2 as [|f2]; [lia|]. cbn [read_generic_value] in *.
  unfold rbind at 1 in H. unfold rbind at 1. symmetry. unfold rbind at 1. symmetry.
  destruct (read_byte s) as [[t s1]|e]; [|reflexivity].
  repeat match goal with
  | |- (if ?b then _ else _) _ = _ => destruct b eqn:?
  end; try reflexivity.
  unfold rbind in *. destruct (read_v_int s1) as [[n s2]|e]; [|reflexivity].
  assert (E : read_n (read_generic_value f2) (Z.to_nat n) s2 =
              read_n (read_generic_value f1) (Z.to_nat n) s2).
  { apply read_n_ext; [intros s' Hs'; apply IH; [lia|exact Hs']|].
    intros Hc. rewrite Hc in H. apply H. reflexivity. }
  rewrite E. reflexivity.
Qed.
