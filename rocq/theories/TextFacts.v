(** * Facts about the texts of numbers *)
From Coq Require Import String ZArith List Bool Lia ZifyBool.
From Verif Require Import Py Stream Version Settings PyFacts StreamFacts Spec SpecFacts VersionFacts MsgFacts RestFacts SettingsFacts.
Import ListNotations.
Open Scope list_scope.
Open Scope Z_scope.

Section Runtime.
Context {rt : runtime}.

Lemma digit_val_iff c d : digit_val c = Some d <-> digit_of c d.
Proof.
  unfold digit_val, digit_of, is_digit. destruct (Z.ltb_spec c 128).
  - destruct (_ && _) eqn:E; split.
    + intros [= <-]. left. lia.
    + intros [[? ->]|[? _]]; [reflexivity|lia].
    + discriminate.
    + intros [[? ->]|[? _]]; lia.
  - split; [auto|]. intros [[? _]|[_ H']]; [lia|exact H'].
Qed.
Lemma digit_val_none c : digit_val c = None <-> ~ exists d, digit_of c d.
Proof.
  split.
  - intros H [d D]. apply digit_val_iff in D. congruence.
  - intros H. destruct (digit_val c) as [d|] eqn:E; [|reflexivity]. apply digit_val_iff in E. destruct H. eauto.
Qed.
Lemma is_decimal_iff c : is_decimal c = true <-> exists d, digit_of c d.
Proof.
  unfold is_decimal. destruct (digit_val c) as [d|] eqn:E.
  - apply digit_val_iff in E. split; eauto.
  - split; [discriminate|]. intros [d D]. apply digit_val_iff in D. congruence.
Qed.
Lemma int_space_iff c : int_space c = true <-> blank c.
Proof. unfold int_space, blank. destruct (Z.ltb_spec c 128); [lia|]. split; [auto|]. intros [?|[?|[_ ?]]]; [lia|lia|assumption]. Qed.
Lemma re_space_iff c : re_space c = true <-> wide_blank c.
Proof.
  unfold re_space, wide_blank, blank. destruct (Z.ltb_spec c 128); [lia|]. split; [auto|].
  intros [[?|[?|[_ ?]]]|?]; [lia|lia|assumption|lia].
Qed.
Lemma re_word_iff c : re_word c = true <-> word_char c.
Proof.
  unfold re_word, word_char, is_word, is_digit. destruct (Z.ltb_spec c 128); [lia|].
  split; [auto 8|]. intros [?|[?|[?|[?|[_ ?]]]]]; [lia|lia|lia|lia|assumption].
Qed.

(** ** the parts of a numeral *)
Lemma int_digits_run l : forall us acc n, int_digits us acc l = Ok n <->
  (l = [] /\ us = false /\ n = acc) \/
  exists ds, n = acc * 10 ^ zlen ds + digits_value ds /\
    (digit_run l ds \/ us = false /\ exists b, l = 95 :: b /\ digit_run b ds).
Proof.
  induction l as [|c t IH]; intros us acc n; cbn [int_digits].
  - destruct us; split.
    + discriminate.
    + intros [(_ & [=] & _)|(ds & _ & [H|([=] & _)])]. inversion H.
    + intros [= <-]. auto.
    + intros [(_ & _ & ->)|(ds & _ & [H|(_ & b & [=] & _)])]; [reflexivity|inversion H].
  - destruct (digit_val c) as [d|] eqn:E.
    + pose proof E as D. apply digit_val_iff in D. rewrite IH. split.
      * intros [(-> & _ & ->)|(ds & -> & H)].
        { right. exists [d]. split; [cbn [digits_value]; rewrite zlen_cons, zlen_nil; lia|]. left. constructor. exact D. }
        right. exists (d :: ds). split.
        { cbn [digits_value]. rewrite zlen_cons, Z.pow_add_r by (pose proof (zlen_nonneg _ ds); lia). lia. }
        left. destruct H as [H|(_ & b & -> & H)]; [apply run_more|apply run_underscore]; assumption.
      * intros [([=] & _)|(ds & -> & H)].
        destruct H as [H|(_ & b & [= -> ->] & H)].
        2: { exfalso. destruct D as [[? _]|[? _]]; lia. }
        assert (V : forall d' ds', digits_value (d' :: ds') + acc * 10 ^ zlen (d' :: ds') = (acc * 10 + d') * 10 ^ zlen ds' + digits_value ds').
        { intros d' ds'. cbn [digits_value]. rewrite zlen_cons, Z.pow_add_r by (pose proof (zlen_nonneg _ ds'); lia). lia. }
        rewrite Z.add_comm.
        inversion H as [c' d' D'|c' d' b ds' D' H'|c' d' b ds' D' H']; subst; apply digit_val_iff in D';
          rewrite E in D'; injection D' as <-; rewrite V.
        -- left. split; [reflexivity|]. split; [reflexivity|]. rewrite zlen_nil. cbn [digits_value]. lia.
        -- right. exists ds'. auto.
        -- right. exists ds'. split; [reflexivity|]. right. split; [reflexivity|]. eauto.
    + pose proof E as D. apply digit_val_none in D. destruct (Z.eqb_spec c 95) as [->|Hc]; [destruct us|]; cbn [andb negb].
      * split; [discriminate|]. intros [([=] & _)|(ds & _ & [H|([=] & _)])]. inversion H; subst; destruct D; eauto.
      * rewrite IH. split.
        -- intros [(_ & [=] & _)|(ds & -> & [H|([=] & _)])]. right. exists ds. split; [reflexivity|]. right. eauto.
        -- intros [([=] & _)|(ds & -> & H)]. right. exists ds. split; [reflexivity|]. left.
           destruct H as [H|(_ & b & [= <-] & H)]; [|exact H]. inversion H; subst; destruct D; eauto.
      * split; [discriminate|]. intros [([=] & _)|(ds & _ & [H|(_ & b & [= -> ->] & _)])]; [|contradiction].
        inversion H; subst; destruct D; eauto.
Qed.
Lemma int_start_run l n : int_start l = Ok n <-> exists ds, digit_run l ds /\ n = digits_value ds.
Proof.
  destruct l as [|c t]; cbn [int_start].
  - split; [discriminate|]. intros (ds & H & _). inversion H.
  - destruct (digit_val c) as [d|] eqn:E.
    + pose proof E as D. apply digit_val_iff in D. rewrite int_digits_run. split.
      * intros [(-> & _ & ->)|(ds & -> & [H|(_ & b & -> & H)])].
        -- exists [d]. split; [constructor; exact D|]. cbn [digits_value]. rewrite zlen_nil. lia.
        -- exists (d :: ds). split; [apply run_more; assumption|reflexivity].
        -- exists (d :: ds). split; [apply run_underscore; assumption|reflexivity].
      * intros (ds & H & ->).
        inversion H as [c' d' D'|c' d' b ds' D' H'|c' d' b ds' D' H']; subst; apply digit_val_iff in D';
          rewrite E in D'; injection D' as <-; cbn [digits_value].
        -- left. rewrite zlen_nil. split; [reflexivity|]. split; [reflexivity|]. lia.
        -- right. exists ds'. auto.
        -- right. exists ds'. split; [reflexivity|]. right. split; [reflexivity|]. eauto.
    + apply digit_val_none in E. split; [discriminate|]. intros (ds & H & _). inversion H; subst; destruct E; eauto.
Qed.
Lemma int_digits_raise l : forall us acc e, int_digits us acc l = Raise e -> e = EValue.
Proof.
  induction l as [|c t IH]; intros us acc e; cbn [int_digits].
  - destruct us; congruence.
  - destruct (digit_val c); [apply IH|]. destruct (_ && _); [apply IH|congruence].
Qed.
Lemma int_start_raise l e : int_start l = Raise e -> e = EValue.
Proof. destruct l as [|c t]; cbn [int_start]; [congruence|]. destruct (digit_val c); [apply int_digits_raise|congruence]. Qed.
Lemma py_int_raise s e : py_int s = Raise e -> e = EValue.
Proof.
  unfold py_int. destruct (over_limit s); [congruence|]. destruct (strip s) as [|c t]; [congruence|].
  assert (M : forall t, rmap Z.opp (int_start t) = Raise e -> e = EValue).
  { intros t' H. destruct (int_start t') eqn:E; cbn in H; [discriminate|]. apply int_start_raise in E. congruence. }
  destruct (c =? 43); [apply int_start_raise|]. destruct (c =? 45); [apply M|apply int_start_raise].
Qed.

(** ** stripping *)
Lemma drop_while_split f l : exists a, l = a ++ drop_while f l /\ Forall (fun c => f c = true) a /\
  (forall c t, drop_while f l = c :: t -> f c = false).
Proof.
  induction l as [|c l (a & E & A & H)]; cbn [drop_while].
  - exists []. split; [reflexivity|]. split; [constructor|discriminate].
  - destruct (f c) eqn:F.
    + exists (c :: a). split; [cbn; f_equal; exact E|]. split; [constructor; assumption|exact H].
    + exists []. split; [reflexivity|]. split; [constructor|]. intros c' t' [= <- <-]. exact F.
Qed.
Lemma strip_split l : exists a b, l = a ++ strip l ++ b /\ Forall blank a /\ Forall blank b.
Proof.
  unfold strip. destruct (drop_while_split int_space l) as (a & E & A & _).
  destruct (drop_while_split int_space (rev (drop_while int_space l))) as (b & E2 & B & _).
  exists a, (rev b). split.
  - rewrite E at 1. f_equal. rewrite <- rev_app_distr, <- E2, rev_involutive. reflexivity.
  - split; [|apply Forall_rev]; (eapply Forall_impl; [|eassumption]); intros c; apply int_space_iff.
Qed.
Definition no_blank_ends (l : pystr) : Prop :=
  (exists c t, l = c :: t /\ ~ blank c) /\ (exists c t, l = t ++ [c] /\ ~ blank c).
Lemma blank_false c : ~ blank c -> int_space c = false.
Proof. rewrite <- int_space_iff. destruct (int_space c); [congruence|reflexivity]. Qed.
Lemma strip_exact a m b : Forall blank a -> Forall blank b -> no_blank_ends m -> strip (a ++ m ++ b) = m.
Proof.
  intros A B [(c & t & E1 & N1) (c2 & t2 & E2 & N2)]. unfold strip.
  assert (I : forall l, Forall blank l -> Forall (fun c => int_space c = true) l).
  { intros l H. eapply Forall_impl; [|exact H]. intros x. apply int_space_iff. }
  rewrite drop_while_app; [|apply I, A|rewrite E1; cbn [app drop_while]; rewrite blank_false by exact N1; reflexivity].
  rewrite rev_app_distr, drop_while_app; [apply rev_involutive|apply I, Forall_rev, B|].
  rewrite E2, rev_app_distr. cbn [rev app drop_while]. rewrite blank_false by exact N2. reflexivity.
Qed.

Context (OK : runtime_ok rt).
Lemma digit_not_blank c d : digit_of c d -> ~ wide_blank c.
Proof.
  intros [[? _]|[H E]] [B|B]; unfold blank in *; try lia.
  apply (digit_ok rt OK) in E as (_ & _ & S). destruct B as [?|[?|[_ B]]]; try lia. congruence.
Qed.
Lemma digit_value_ok c d : digit_of c d -> 0 <= d <= 9.
Proof. intros [[? ->]|[_ E]]; [lia|]. apply (digit_ok rt OK) in E. tauto. Qed.
Lemma run_ends b ds : digit_run b ds -> no_blank_ends b.
Proof.
  induction 1 as [c d D|c d b ds D H [_ (c2 & t2 & -> & N)]|c d b ds D H [_ (c2 & t2 & -> & N)]];
    (assert (W : ~ blank c) by (intros W; eapply digit_not_blank; [exact D|left; exact W])).
  - split; [exists c, []|exists c, []]; auto.
  - split; [eauto|]. exists c2, (c :: t2). auto.
  - split; [eauto|]. exists c2, (c :: 95 :: t2). auto.
Qed.
Lemma run_count b ds : digit_run b ds -> zlen (filter is_decimal b) = zlen ds.
Proof.
  assert (D1 : forall c d l, digit_of c d -> filter is_decimal (c :: l) = c :: filter is_decimal l).
  { intros c d l D. cbn [filter]. rewrite (proj2 (is_decimal_iff c)) by eauto. reflexivity. }
  induction 1 as [c d D|c d b ds D H IH|c d b ds D H IH]; rewrite (D1 c d) by exact D; rewrite !zlen_cons; [reflexivity|lia|].
  change (filter is_decimal (95 :: b)) with (filter is_decimal b). lia.
Qed.
Lemma blanks_count l : Forall blank l -> filter is_decimal l = [].
Proof.
  induction 1 as [|c l B _ IH]; cbn [filter]; [reflexivity|].
  destruct (is_decimal c) eqn:E; [|exact IH]. apply is_decimal_iff in E as [d D]. destruct (digit_not_blank c d D). left. exact B.
Qed.
Lemma zlen_nil_app {A} (l : list A) : zlen ([] ++ l) = zlen l. Proof. reflexivity. Qed.
Lemma over_limit_parts l sign b r ds : Forall blank l -> Forall blank r -> sign = [] \/ sign = [43] \/ sign = [45] ->
  digit_run b ds -> (over_limit (l ++ sign ++ b ++ r) = false <-> digits_fit ds).
Proof.
  intros L R S D. unfold over_limit. rewrite !filter_app, (blanks_count l L), (blanks_count r R), app_nil_r.
  assert (E : filter is_decimal sign = []) by (destruct S as [->|[->| ->]]; reflexivity). rewrite E. cbn [app].
  rewrite (run_count b ds D). unfold digits_fit. pose proof (zlen_nonneg _ ds). pose proof (limit_ok rt OK). lia.
Qed.

(** int() takes exactly the numerals *)
Lemma sign_ends sign b ds : sign = [] \/ sign = [43] \/ sign = [45] -> digit_run b ds -> no_blank_ends (sign ++ b).
Proof.
  intros Hs D. destruct (run_ends b ds D) as [F (c & t & -> & N)]. destruct Hs as [->|Hs]; [split; [exact F|exists c, t; auto]|].
  split.
  - destruct Hs as [E|E]; subst sign; [exists 43, (t ++ [c])|exists 45, (t ++ [c])]; (split; [reflexivity|]). all: unfold blank. all: lia.
  - exists c, (sign ++ t). rewrite app_assoc. auto.
Qed.
Lemma py_int_text s n : py_int s = Ok n <-> int_text s n.
Proof.
  split.
  - unfold py_int. destruct (over_limit s) eqn:O; [discriminate|]. destruct (strip_split s) as (a & b & E & A & B). intros H.
    assert (P : exists sign m, strip s = sign ++ m /\ ((sign = [] \/ sign = [43]) /\ int_start m = Ok n \/ sign = [45] /\ int_start m = Ok (- n))).
    { clear E. destruct (strip s) as [|c t]; [discriminate|]. destruct (Z.eqb_spec c 43) as [->|_]; [|destruct (Z.eqb_spec c 45) as [->|_]].
      - exists [43], t. auto.
      - exists [45], t. split; [reflexivity|]. right. split; [reflexivity|].
        destruct (int_start t) as [m|]; cbn in H; [|discriminate]. apply Ok_inj in H. subst n. f_equal. lia.
      - exists [], (c :: t). split; [reflexivity|]. left. split; [auto|exact H]. }
    destruct P as (sign & m & Es & P). rewrite Es, <- app_assoc in E.
    assert (Q : exists ds, digit_run m ds /\ (((sign = [] \/ sign = [43]) /\ n = digits_value ds) \/ (sign = [45] /\ n = - digits_value ds))).
    { destruct P as [[S P]|[S P]]; apply int_start_run in P as (ds & D & V); exists ds; (split; [exact D|]); [left|right]; (split; [exact S|lia]). }
    destruct Q as (ds & D & V). exists a, sign, m, b, ds. split; [exact E|]. split; [exact A|]. split; [exact B|].
    split; [exact D|]. split; [|exact V].
    rewrite E in O. refine (proj1 (over_limit_parts a sign m b ds A B _ D) O). tauto.
  - intros (l & sign & b & r & ds & -> & L & R & D & F & V).
    assert (S : sign = [] \/ sign = [43] \/ sign = [45]) by tauto.
    unfold py_int. rewrite (proj2 (over_limit_parts l sign b r ds L R S D) F).
    rewrite (app_assoc sign), strip_exact; [|assumption|assumption|eapply sign_ends; eassumption].
    assert (I : int_start b = Ok (digits_value ds)) by (apply int_start_run; eauto).
    destruct V as [[[->| ->] ->]|[-> ->]]; cbn [app].
    + assert (N : exists c t d, b = c :: t /\ digit_of c d) by (inversion D; eauto 6).
      destruct N as (c & t & d & -> & Dc). assert (c <> 43 /\ c <> 45) by (destruct Dc as [[? _]|[? _]]; lia).
      destruct (Z.eqb_spec c 43); [lia|]. destruct (Z.eqb_spec c 45); [lia|]. exact I.
    + exact I.
    + change (py "-") with [45]. cbn [app]. rewrite I. reflexivity.
Qed.
Lemma int_text_chars s n c : int_text s n -> In c s -> blank c \/ c = 43 \/ c = 45 \/ c = 95 \/ exists d, digit_of c d.
Proof.
  intros (l & sign & b & r & ds & -> & L & R & D & _ & V) I.
  assert (B : forall l, Forall blank l -> In c l -> blank c) by (intros l' F; rewrite Forall_forall in F; apply F).
  apply in_app_iff in I as [I|I]; [left; exact (B _ L I)|]. apply in_app_iff in I as [I|I].
  { destruct V as [[[->| ->] _]|[-> _]]; [destruct I| |]; destruct I as [<-|[]]; auto. }
  apply in_app_iff in I as [I|I]; [|left; exact (B _ R I)]. right. right. right. clear V B L R.
  induction D as [c0 d D|c0 d b ds D H IH|c0 d b ds D H IH].
  - destruct I as [<-|[]]. eauto.
  - destruct I as [<-|I]; eauto.
  - destruct I as [<-|[<-|I]]; eauto.
Qed.

(** ** quantities *)
Lemma digits_of_text b : Forall (fun c => is_decimal c = true) b -> exists ds, Forall2 digit_of b ds.
Proof.
  induction 1 as [|c b H _ (ds & IH)]; [exists []; constructor|].
  apply is_decimal_iff in H as [d D]. exists (d :: ds). constructor; assumption.
Qed.
Lemma digits_run b ds : b <> [] -> Forall2 digit_of b ds -> digit_run b ds.
Proof.
  intros N H. induction H as [|c d b ds D H IH]; [contradiction|].
  destruct H as [|c' d' b ds D' H]; [apply run_one, D|]. apply run_more; [exact D|]. apply IH. discriminate.
Qed.
Lemma py_int_all_digits b ds n : b <> [] -> Forall2 digit_of b ds -> (py_int b = Ok n <-> digits_fit ds /\ n = digits_value ds).
Proof.
  intros N H. rewrite py_int_text. split.
  - intros T. pose proof (proj2 (py_int_text b n) T) as P.
    assert (O : over_limit b = false) by (unfold py_int in P; destruct (over_limit b); [discriminate|reflexivity]).
    pose proof (over_limit_parts [] [] b [] ds (Forall_nil _) (Forall_nil _) (or_introl eq_refl) (digits_run b ds N H)) as Q.
    rewrite app_nil_r in Q. cbn [app] in Q. assert (F : digits_fit ds) by (apply Q, O). split; [exact F|].
    assert (T' : int_text b (digits_value ds)).
    { exists [], [], b, [], ds. rewrite app_nil_r. repeat split; auto. apply digits_run; assumption. }
    apply py_int_text in T'. rewrite P in T'. apply Ok_inj in T'. exact T'.
  - intros [F ->]. exists [], [], b, [], ds. rewrite app_nil_r. repeat split; auto. apply digits_run; assumption.
Qed.
Lemma take_drop_while f l : l = take_while f l ++ drop_while f l.
Proof. induction l as [|c l IH]; cbn; [reflexivity|]. destruct (f c); cbn; [f_equal; exact IH|reflexivity]. Qed.
Lemma take_while_all f l : Forall (fun c => f c = true) (take_while f l).
Proof. induction l as [|c l IH]; cbn; [constructor|]. destruct (f c) eqn:E; constructor; assumption. Qed.
Lemma drop_while_head f l c t : drop_while f l = c :: t -> f c = false.
Proof.
  induction l as [|x l IH]; cbn; [discriminate|]. destruct (f x) eqn:E; [exact IH|]. intros [= <- <-]. exact E.
Qed.
Lemma lower_case_iff s t : in_lower_case s t <-> lower s = t.
Proof.
  split.
  - induction 1 as [|c s t H _ IH|c s t H _ IH|c s t H _ IH]; [reflexivity| | |]; unfold lower in *; cbn [flat_map]; rewrite IH;
      (destruct (Z.ltb_spec c 128); [unfold lower1; destruct (_ && _) eqn:E; cbn [app]; solve [reflexivity|lia]|solve [reflexivity|lia]]).
  - intros <-. induction s as [|c s IH]; [constructor|]. unfold lower in *. cbn [flat_map]. destruct (Z.ltb_spec c 128).
    + unfold lower1. destruct (_ && _) eqn:E; cbn [app]; constructor; solve [lia|assumption].
    + constructor; [lia|assumption].
Qed.
(** a unit of letters only, as those of the tables *)
Lemma split_quantity_iff s n u : u <> [] -> Forall letter u ->
  (split_quantity s = Ok (n, u) <-> exists rest, quantity s n u rest /\ no_word_first rest).
Proof.
  intros Hu Hl. unfold split_quantity. cbv zeta. set (l := lower s).
  assert (Le : l = take_while is_decimal l ++ take_while re_space (drop_while is_decimal l) ++
    take_while re_word (drop_while re_space (drop_while is_decimal l)) ++
    drop_while re_word (drop_while re_space (drop_while is_decimal l))).
  { rewrite <- (take_drop_while re_word), <- (take_drop_while re_space). apply take_drop_while. }
  split.
  - intros H.
    pose proof (take_while_all is_decimal l) as T.
    remember (take_while is_decimal l) as b eqn:Eb. remember (take_while re_word (drop_while re_space (drop_while is_decimal l))) as w eqn:Ew.
    destruct b as [|c0 b0]; [discriminate|]. destruct w as [|c1 w]; [discriminate|].
    apply bind_ok in H as (m & P & H). apply Ok_inj in H. apply pair_equal_spec in H as [-> <-].
    destruct (digits_of_text _ T) as (ds & D).
    apply (py_int_all_digits _ ds) in P as [F V]; [|discriminate|exact D].
    exists (drop_while re_word (drop_while re_space (drop_while is_decimal l))). split.
    + exists (c0 :: b0), ds, (take_while re_space (drop_while is_decimal l)).
      split; [apply lower_case_iff; exact Le|]. split; [discriminate|]. split; [exact D|]. split; [exact F|]. split; [exact V|].
      eapply Forall_impl; [|apply take_while_all]. intros c. apply re_space_iff.
    + intros c t E W. apply drop_while_head in E. apply re_word_iff in W. congruence.
  - intros (rest & (b & ds & sp & E & Nb & D & F & V & B) & N). apply lower_case_iff in E.
    destruct u as [|c u]; [contradiction|]. pose proof Hl as Hl0. inversion Hl0 as [|? ? Hc Hu']; subst.
    destruct (letter_class c Hc) as (Nd & Ns & _).
    assert (Db : Forall (fun c => is_decimal c = true) b).
    { clear - D. induction D as [|c d b ds H _ IH]; constructor; [apply is_decimal_iff; eauto|exact IH]. }
    assert (Bs : Forall (fun c => re_space c = true) sp).
    { eapply Forall_impl; [|exact B]. intros x. apply re_space_iff. }
    assert (Hh : exists y t, sp ++ (c :: u) ++ rest = y :: t /\ is_decimal y = false).
    { destruct sp as [|y sp]; [exists c, (u ++ rest); auto|]. eexists y, _. split; [reflexivity|].
      inversion_clear B as [|? ? By _]. destruct (is_decimal y) eqn:Ey; [|reflexivity]. apply is_decimal_iff in Ey as [d Dy].
      destruct (digit_not_blank y d Dy By). }
    destruct Hh as (y & t & Ey & Dy).
    fold l in E. rewrite E, take_while_app; [|exact Db|rewrite Ey; cbn; rewrite Dy; reflexivity].
    rewrite drop_while_app; [|exact Db|rewrite Ey; cbn; rewrite Dy; reflexivity].
    rewrite drop_while_app; [|exact Bs|cbn; rewrite Ns; reflexivity].
    rewrite take_while_app.
    + rewrite (proj2 (py_int_all_digits b ds (digits_value ds) Nb D) (conj F eq_refl)).
      destruct b; [contradiction|]. reflexivity.
    + eapply Forall_impl; [|exact Hl]. intros x Hx. apply letter_class, Hx.
    + destruct rest as [|x rest]; [reflexivity|]. cbn. destruct (re_word x) eqn:W; [|reflexivity].
      apply re_word_iff in W. destruct (N x rest eq_refl W).
Qed.
End Runtime.
