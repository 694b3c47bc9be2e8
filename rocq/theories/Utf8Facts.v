(** * The UTF-8 codec of Py.v is a bijection between scalar-value strings and
    well-formed byte strings. *)
From Coq Require Import ZArith List Bool Lia.
From Coq Require Import ZifyBool.
From Coq Require Import Strings.Byte.
From Verif Require Import Py PyFacts.
Import ListNotations.
Open Scope Z_scope.
Ltac Zify.zify_post_hook ::= Z.div_mod_to_equations.

Lemma is_cont_z2b z : 0 <= z < 64 -> is_cont (z2b (0x80 + z)) = true.
Proof. intros H. unfold is_cont. rewrite b2z_z2b_small by lia. lia. Qed.

Ltac ifs :=
  repeat match goal with
  | |- context [if ?b then _ else _] =>
      first [ replace b with true by lia | replace b with false by lia ]; cbn match
  end.

Lemma utf8_decode_enc1 c b t :
  utf8_enc1 c = Ok b -> utf8_decode (b ++ t) = rmap (cons c) (utf8_decode t).
Proof.
  unfold utf8_enc1.
  destruct (c <? 0) eqn:E0; [discriminate|].
  destruct (c <? 0x80) eqn:E1.
  { intros H; apply Ok_inj in H; subst b. cbn [app utf8_decode].
    rewrite b2z_z2b_small by lia. rewrite E1. reflexivity. }
  destruct (c <? 0x800) eqn:E2.
  { intros H; apply Ok_inj in H; subst b. cbn [app utf8_decode].
    rewrite is_cont_z2b by lia. cbn [negb].
    rewrite !b2z_z2b_small by lia. ifs. f_equal. f_equal. lia. }
  destruct (c <? 0x10000) eqn:E3.
  { destruct (_ && _) eqn:Es; [discriminate|].
    intros H; apply Ok_inj in H; subst b. cbn [app utf8_decode].
    rewrite !is_cont_z2b by lia. cbn [negb].
    rewrite !b2z_z2b_small by lia.
    replace ((0xE0 + c / 4096 - 0xE0) * 4096 + (0x80 + (c / 64) mod 64 - 0x80) * 64
             + (0x80 + c mod 64 - 0x80)) with c by lia.
    ifs. reflexivity. }
  destruct (c <? 0x110000) eqn:E4; [|discriminate].
  intros H; apply Ok_inj in H; subst b. cbn [app utf8_decode].
  rewrite !is_cont_z2b by lia. cbn [negb].
  rewrite !b2z_z2b_small by lia.
  replace ((0xF0 + c / 262144 - 0xF0) * 262144 + (0x80 + (c / 4096) mod 64 - 0x80) * 4096
           + (0x80 + (c / 64) mod 64 - 0x80) * 64 + (0x80 + c mod 64 - 0x80)) with c by lia.
  ifs. reflexivity.
Qed.

Lemma utf8_decode_encode s bs : utf8_encode s = Ok bs -> utf8_decode bs = Ok s.
Proof.
  unfold utf8_encode. revert bs; induction s as [|c s IH]; intros bs H; cbn [map] in H; winv.
  - reflexivity.
  - rewrite (utf8_decode_enc1 c) by assumption. rewrite (IH _ Hbs). reflexivity.
Qed.

Lemma b_eq b z : b2z b = z -> z2b z = b.
Proof. intros <-. apply z2b_b2z. Qed.

Lemma utf8_encode_decode_len n : forall bs s,
  (length bs <= n)%nat -> utf8_decode bs = Ok s -> utf8_encode s = Ok bs.
Proof.
  induction n as [|n IH]; intros bs s Hn H.
  { destruct bs; [|simpl in Hn; lia]. simpl in H. injection H as <-. reflexivity. }
  destruct bs as [|b0 t0]. { simpl in H. injection H as <-. reflexivity. }
  simpl in Hn. cbn [utf8_decode] in H. pose proof (b2z_range b0) as R0.
  assert (Hcons : forall c b t s', utf8_enc1 c = Ok b -> utf8_encode s' = Ok t ->
            utf8_encode (c :: s') = Ok (b ++ t)).
  { intros c b t s' H1 H2. unfold utf8_encode in *. cbn [map wcat].
    rewrite H1, H2. reflexivity. }
  destruct (b2z b0 <? 0x80) eqn:E0.
  { apply rmap_ok in H as (s' & H & ->). apply IH in H; [|lia].
    apply (Hcons _ [b0]); auto. unfold utf8_enc1. ifs. rewrite z2b_b2z. reflexivity. }
  destruct (b2z b0 <? 0xC2) eqn:E1; [discriminate|].
  destruct t0 as [|b1 t1]; [discriminate|]. pose proof (b2z_range b1) as R1.
  destruct (negb (is_cont b1)) eqn:C1; [discriminate|]. unfold is_cont in C1.
  simpl in Hn.
  destruct (b2z b0 <? 0xE0) eqn:E2.
  { apply rmap_ok in H as (s' & H & ->). apply IH in H; [|lia].
    apply (Hcons _ [b0; b1]); auto. unfold utf8_enc1. ifs.
    rewrite (b_eq b0), (b_eq b1) by lia. reflexivity. }
  destruct t1 as [|b2 t2]; [discriminate|]. pose proof (b2z_range b2) as R2.
  destruct (negb (is_cont b2)) eqn:C2; [discriminate|]. unfold is_cont in C2.
  simpl in Hn.
  destruct (b2z b0 <? 0xF0) eqn:E3.
  { cbv zeta in H.
    destruct (_ <? 0x800) eqn:E4 in H; [discriminate|].
    destruct ((0xD800 <=? _) && _) eqn:E5 in H; [discriminate|].
    apply rmap_ok in H as (s' & H & ->). apply IH in H; [|lia].
    apply (Hcons _ [b0; b1; b2]); auto. unfold utf8_enc1. ifs.
    rewrite (b_eq b0), (b_eq b1), (b_eq b2) by lia. reflexivity. }
  destruct t2 as [|b3 t3]; [discriminate|]. pose proof (b2z_range b3) as R3.
  destruct (negb (is_cont b3)) eqn:C3; [discriminate|]. unfold is_cont in C3.
  simpl in Hn.
  cbv zeta in H.
  destruct (_ <? 0x10000) eqn:E4 in H; [discriminate|].
  destruct (0x110000 <=? _) eqn:E5 in H; [discriminate|].
  apply rmap_ok in H as (s' & H & ->). apply IH in H; [|lia].
  apply (Hcons _ [b0; b1; b2; b3]); auto. unfold utf8_enc1. ifs.
  rewrite (b_eq b0), (b_eq b1), (b_eq b2), (b_eq b3) by lia. reflexivity.
Qed.

Lemma utf8_encode_decode bs s : utf8_decode bs = Ok s -> utf8_encode s = Ok bs.
Proof. apply (utf8_encode_decode_len (length bs)). auto. Qed.

(** A Unicode scalar value: any code point but a surrogate. *)
Definition is_scalar (c : Z) : Prop := 0 <= c < 0xD800 \/ 0xE000 <= c < 0x110000.

Lemma utf8_enc1_scalar c : (exists b, utf8_enc1 c = Ok b) <-> is_scalar c.
Proof.
  unfold utf8_enc1, is_scalar.
  destruct (c <? 0) eqn:E0; [split; [intros [? H]; discriminate|lia]|].
  destruct (c <? 0x80) eqn:E1; [split; [lia|eauto]|].
  destruct (c <? 0x800) eqn:E2; [split; [lia|eauto]|].
  destruct (c <? 0x10000) eqn:E3.
  - destruct (_ && _) eqn:E4; [split; [intros [? H]; discriminate|lia]|split; [lia|eauto]].
  - destruct (c <? 0x110000) eqn:E4; [split; [lia|eauto]|split; [intros [? H]; discriminate|lia]].
Qed.

Lemma utf8_enc1_raise c e : utf8_enc1 c = Raise e -> e = EUnicode.
Proof.
  unfold utf8_enc1.
  repeat match goal with |- context [if ?b then _ else _] => destruct b end; congruence.
Qed.

Lemma utf8_encode_scalar s : (exists b, utf8_encode s = Ok b) <-> Forall is_scalar s.
Proof.
  unfold utf8_encode. induction s as [|c s IH]; cbn [map].
  - split; [auto|exists []; auto].
  - split.
    + intros [b H]. winv. constructor; [apply utf8_enc1_scalar|apply IH]; eauto.
    + intros H. inversion H as [|? ? H1 H2]; subst.
      apply utf8_enc1_scalar in H1 as [b1 H1]. apply IH in H2 as [b2 H2].
      exists (b1 ++ b2). cbn [wcat]. rewrite H1, H2. reflexivity.
Qed.

Lemma utf8_encode_raise s e : utf8_encode s = Raise e -> e = EUnicode.
Proof.
  unfold utf8_encode. induction s as [|c s IH]; cbn [map wcat]; [discriminate|].
  destruct (utf8_enc1 c) as [b|e'] eqn:E; cbn [bind].
  - destruct (wcat _) as [b'|e']; cbn [bind]; [discriminate|auto].
  - intros [= <-]. eapply utf8_enc1_raise; eauto.
Qed.

Lemma utf8_encode_app s1 s2 b1 b2 :
  utf8_encode s1 = Ok b1 -> utf8_encode s2 = Ok b2 -> utf8_encode (s1 ++ s2) = Ok (b1 ++ b2).
Proof.
  unfold utf8_encode. intros H1 H2. rewrite map_app, wcat_app, H1, H2. reflexivity.
Qed.

Lemma utf8_encode_inj s1 s2 b : utf8_encode s1 = Ok b -> utf8_encode s2 = Ok b -> s1 = s2.
Proof.
  intros H1 H2. apply utf8_decode_encode in H1, H2. congruence.
Qed.

Lemma utf8_enc1_len c b : utf8_enc1 c = Ok b -> 1 <= zlen b <= 4.
Proof.
  unfold utf8_enc1.
  repeat match goal with |- context [if ?b then _ else _] => destruct b end;
  intros H; try discriminate; apply Ok_inj in H; subst; unfold zlen; simpl; lia.
Qed.

Lemma utf8_encode_len_ge s b : utf8_encode s = Ok b -> zlen s <= zlen b.
Proof.
  unfold utf8_encode. revert b; induction s as [|c s IH]; intros b H; cbn [map] in H; winv.
  - reflexivity.
  - rewrite zlen_cons, zlen_app. apply utf8_enc1_len in Hw. apply IH in Hbs. lia.
Qed.

(** ASCII strings encode to one byte per character. *)
Definition is_ascii (s : pystr) : Prop := Forall (fun c => 0 <= c < 128) s.
Lemma utf8_encode_ascii s : is_ascii s -> utf8_encode s = Ok (map z2b s).
Proof.
  unfold utf8_encode. induction 1 as [|c s Hc Hs IH]; auto.
  cbn [map wcat]. rewrite IH. unfold utf8_enc1.
  replace (c <? 0) with false by lia. replace (c <? 128) with true by lia. reflexivity.
Qed.

(** decoding fails only with UnicodeDecodeError *)
Lemma utf8_decode_raise b : forall e, utf8_decode b = Raise e -> e = EUnicode.
Proof.
  assert (G : forall n b, (length b <= n)%nat -> forall e, utf8_decode b = Raise e -> e = EUnicode).
  { induction n as [|n IH]; intros l L e; destruct l as [|b0 t0]; try discriminate; [inversion L|].
    assert (M : forall x t, (length t <= n)%nat -> rmap (cons x) (utf8_decode t) = Raise e -> e = EUnicode).
    { intros x t Ht E. destruct (utf8_decode t) as [y|y] eqn:D; [discriminate E|]. injection E as <-. exact (IH _ Ht _ D). }
    assert (F : @Raise pystr EUnicode = Raise e -> e = EUnicode) by congruence.
    cbn [utf8_decode length] in *.
    repeat match goal with
    | |- (if ?c then _ else _) = _ -> _ => destruct c
    | |- (match ?l with [] => _ | _ :: _ => _ end) = _ -> _ => destruct l; cbn [length] in *
    | |- Raise EUnicode = _ -> _ => exact F
    | |- rmap _ _ = _ -> _ => apply M; lia
    end. }
  apply (G (length b)). lia.
Qed.
