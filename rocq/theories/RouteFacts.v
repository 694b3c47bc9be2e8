(** * Facts about routing *)
From Coq Require Import ZArith List Bool Lia ZifyBool Permutation.
From Verif Require Import Py Stream Rest Routes PyFacts Spec.
Import ListNotations.
Open Scope Z_scope.

(** ** placeholders *)
Lemma close_at_some l n : close_at l = Some n ->
  exists x p, l = x ++ 125 :: p /\ ~ In 10 x /\ ~ In 125 x /\ n = S (length x).
Proof.
  revert n. induction l as [|c l IH]; intros n; cbn [close_at]; [discriminate|].
  unfold RBRACE, LF. destruct (Z.eqb_spec c 125) as [->|H1].
  - intros [= <-]. exists [], l. repeat split; intros [].
  - destruct (Z.eqb_spec c 10) as [->|H2]; [discriminate|].
    destruct (close_at l) as [k|]; [|discriminate]. intros [= <-].
    destruct (IH k eq_refl) as (x & p & -> & A & B & ->). exists (c :: x), p.
    repeat split; cbn; intuition.
Qed.
Lemma close_at_complete x p : ~ In 10 x -> ~ In 125 x -> close_at (x ++ 125 :: p) = Some (S (length x)).
Proof.
  induction x as [|c x IH]; intros H1 H2; cbn [close_at app].
  - reflexivity.
  - unfold RBRACE, LF. destruct (Z.eqb_spec c 125) as [->|]; [cbn in H2; tauto|].
    destruct (Z.eqb_spec c 10) as [->|]; [cbn in H1; tauto|].
    rewrite IH; [reflexivity|cbn in *; tauto|cbn in *; tauto].
Qed.
Lemma brace_match_some l n : brace_match l = Some n ->
  exists x p, l = x ++ 125 :: p /\ placeholder x /\ n = S (length x).
Proof.
  destruct l as [|c l]; cbn [brace_match]; [discriminate|]. unfold LF.
  destruct (Z.eqb_spec c 10); [discriminate|].
  destruct (close_at l) as [k|] eqn:E; [|discriminate]. intros [= <-].
  destruct (close_at_some _ _ E) as (x & p & -> & A & B & ->).
  exists (c :: x), p. split; [reflexivity|]. split; [|reflexivity].
  exists c, x. repeat split; [|exact B]. cbn. intuition.
Qed.
Lemma brace_match_complete x p : placeholder x -> brace_match (x ++ 125 :: p) = Some (S (length x)).
Proof.
  intros (c & n & -> & A & B). cbn [app brace_match length]. unfold LF.
  destruct (Z.eqb_spec c 10) as [->|]; [cbn in A; tauto|].
  rewrite close_at_complete; [reflexivity|cbn in A; tauto|exact B].
Qed.
Lemma sub_skip x p : sub_names (length x) (x ++ p) = sub_names 0 p.
Proof. induction x as [|c x IH]; [reflexivity|]. exact IH. Qed.
Lemma sub_name x p : placeholder x -> sub_names 0 (123 :: x ++ 125 :: p) = 42 :: sub_names 0 p.
Proof.
  intros H. cbn [sub_names]. change (123 =? LBRACE) with true. cbn match.
  rewrite (brace_match_complete x p H).
  f_equal. replace (x ++ 125 :: p) with ((x ++ [125]) ++ p) by (rewrite <- app_assoc; reflexivity).
  replace (S (length x)) with (length (x ++ [125])) by (rewrite app_length; cbn; lia). apply sub_skip.
Qed.
Lemma replaced_sub p q : replaced p q -> q = wildcard_key p.
Proof.
  unfold wildcard_key. induction 1 as [|x p q Hx H IH|c p q Hc H IH].
  - reflexivity.
  - rewrite sub_name by exact Hx. congruence.
  - cbn [sub_names]. unfold LBRACE. destruct (Z.eqb_spec c 123) as [->|]; [|congruence].
    destruct (brace_match p) as [n|] eqn:E; [|congruence].
    destruct (brace_match_some _ _ E) as (x & p' & -> & Hx & _). exfalso. exact (Hc eq_refl x p' Hx eq_refl).
Qed.
Lemma sub_replaced p : replaced p (wildcard_key p).
Proof.
  unfold wildcard_key. remember (length p) as n eqn:En.
  assert (L : (length p <= n)%nat) by lia. clear En. revert p L.
  induction n as [|n IH]; intros [|c p] L; try (constructor; fail); cbn [length] in L; [lia|].
  destruct (Z.eq_dec c 123) as [->|Hc].
  - destruct (brace_match p) as [k|] eqn:E.
    + destruct (brace_match_some _ _ E) as (x & p' & -> & Hx & _). rewrite sub_name by exact Hx.
      constructor; [exact Hx|]. apply IH. rewrite app_length in L. cbn in L. lia.
    + cbn [sub_names]. change (123 =? LBRACE) with true. cbn match. rewrite E.
      constructor; [|apply IH; lia]. intros _ x p' Hx ->. rewrite brace_match_complete in E by exact Hx. discriminate.
  - cbn [sub_names]. unfold LBRACE. destruct (Z.eqb_spec c 123); [contradiction|].
    constructor; [contradiction|apply IH; lia].
Qed.
Lemma no_brace_key p : ~ In 123 p -> wildcard_key p = p.
Proof.
  intros H. symmetry. apply replaced_sub. induction p as [|c p IH]; constructor.
  - intros ->. cbn in H. tauto.
  - apply IH. cbn in H. tauto.
Qed.

(** ** templates *)
Definition pattern (l : list piece) : pystr :=
  flat_map (fun e => match e with Text x => x | Hole _ => [42] end) l.
Lemma sub_text x p : ~ In 123 x -> sub_names 0 (x ++ p) = x ++ sub_names 0 p.
Proof.
  induction x as [|c x IH]; intros H; [reflexivity|]. cbn [app sub_names]. unfold LBRACE.
  destruct (Z.eqb_spec c 123) as [->|]; [cbn in H; tauto|]. rewrite IH; [reflexivity|cbn in H; tauto].
Qed.
Lemma template_key l : Forall piece_ok l -> wildcard_key (template l) = pattern l.
Proof.
  unfold wildcard_key. induction 1 as [|e l He Hl IH]; [reflexivity|].
  unfold template, pattern in *. cbn [flat_map]. destruct e as [x|n]; cbn [piece_ok] in He.
  - rewrite sub_text by (intros H; apply He in H; tauto). rewrite IH. reflexivity.
  - destruct He as (Hn & H1 & H2).
    replace (([123] ++ n ++ [125]) ++ flat_map _ l)
      with (123 :: n ++ 125 :: flat_map (fun e => match e with Text x => x | Hole n => [123] ++ n ++ [125] end) l)
      by (cbn [app]; rewrite <- app_assoc; reflexivity).
    rewrite sub_name, IH; [reflexivity|].
    destruct n as [|c n]; [contradiction|]. exists c, n. repeat split; [exact H1|]. cbn in H2. tauto.
Qed.

(** ** globs *)
Lemma upto_rbrack_some l m : upto_rbrack l = Some m -> exists p, l = m ++ 93 :: p /\ ~ In 93 m.
Proof.
  revert m. induction l as [|c l IH]; intros m; cbn [upto_rbrack]; [discriminate|]. unfold RBRACK.
  destruct (Z.eqb_spec c 93) as [->|H].
  - intros [= <-]. exists l. split; [reflexivity|intros []].
  - destruct (upto_rbrack l) as [k|]; [|discriminate]. intros [= <-].
    destruct (IH k eq_refl) as (p & -> & A). exists p. split; [reflexivity|]. cbn. intuition.
Qed.
Lemma upto_rbrack_complete m p : ~ In 93 m -> upto_rbrack (m ++ 93 :: p) = Some m.
Proof.
  induction m as [|c m IH]; intros H; cbn [upto_rbrack app]; [reflexivity|]. unfold RBRACK.
  destruct (Z.eqb_spec c 93) as [->|]; [cbn in H; tauto|]. rewrite IH; [reflexivity|cbn in H; tauto].
Qed.
Lemma after_bang_some l x : class_after_bang l = Some x ->
  exists c m p, x = c :: m /\ l = x ++ 93 :: p /\ ~ In 93 m.
Proof.
  destruct l as [|c l]; cbn [class_after_bang]; [discriminate|]. unfold RBRACK.
  destruct (Z.eqb_spec c 93) as [->|Hc].
  - destruct (upto_rbrack l) as [m|] eqn:E; [|discriminate]. intros [= <-].
    apply upto_rbrack_some in E as (p & -> & A). exists 93, m, p. auto.
  - intros E. apply upto_rbrack_some in E as (p & E & A).
    destruct x as [|c' m]; [cbn in E; congruence|]. exists c', m, p. cbn in A. tauto.
Qed.
Lemma after_bang_complete c m p : ~ In 93 m -> class_after_bang ((c :: m) ++ 93 :: p) = Some (c :: m).
Proof.
  intros H. cbn [app class_after_bang]. unfold RBRACK. destruct (Z.eqb_spec c 93) as [->|Hc].
  - rewrite upto_rbrack_complete by exact H. reflexivity.
  - change (c :: m ++ 93 :: p) with ((c :: m) ++ 93 :: p). apply upto_rbrack_complete.
    intros [A|A]; [congruence|tauto].
Qed.
Lemma class_extent_some l x : class_extent l = Some x -> class_text x /\ exists p, l = x ++ 93 :: p.
Proof.
  destruct l as [|c l]; cbn [class_extent]; [discriminate|]. unfold BANG.
  destruct (Z.eqb_spec c 33) as [->|Hc].
  - destruct (class_after_bang l) as [y|] eqn:E; [|discriminate]. intros [= <-].
    apply after_bang_some in E as (c & m & p & -> & -> & A).
    split; [exists c, m; auto|]. exists p. reflexivity.
  - intros E. apply after_bang_some in E as (c' & m & p & -> & E & A). cbn in E.
    split; [|exists p; exact E]. exists c', m. split; [exact A|]. left. split; [reflexivity|].
    intros ->. congruence.
Qed.
Lemma class_extent_complete x p : class_text x -> class_extent (x ++ 93 :: p) = Some x.
Proof.
  intros (c & m & A & [[-> Hc]| ->]).
  - cbn [app class_extent]. unfold BANG. destruct (Z.eqb_spec c 33); [contradiction|].
    apply (after_bang_complete c m p A).
  - cbn [app class_extent]. change (33 =? BANG) with true. cbn match.
    change (c :: m ++ 93 :: p) with ((c :: m) ++ 93 :: p). rewrite after_bang_complete by exact A. reflexivity.
Qed.
Lemma gtoks_skip x p : gtoks (length x) (x ++ p) = gtoks 0 p.
Proof. induction x as [|c x IH]; [reflexivity|]. exact IH. Qed.
Lemma gtoks_class x p : class_text x -> gtoks 0 (91 :: x ++ 93 :: p) = GClass x :: gtoks 0 p.
Proof.
  intros H. cbn [gtoks]. change (91 =? STAR) with false. change (91 =? QMARK) with false.
  change (91 =? LBRACK) with true. cbn match. rewrite class_extent_complete by exact H.
  f_equal. replace (x ++ 93 :: p) with ((x ++ [93]) ++ p) by (rewrite <- app_assoc; reflexivity).
  replace (S (length x)) with (length (x ++ [93])) by (rewrite app_length; cbn; lia). apply gtoks_skip.
Qed.
Lemma gtoks_char c p : c <> 42 -> c <> 63 -> (c = 91 -> forall x p', class_text x -> p <> x ++ 93 :: p') ->
  gtoks 0 (c :: p) = GLit c :: gtoks 0 p.
Proof.
  intros H1 H2 H3. cbn [gtoks]. unfold STAR, QMARK, LBRACK.
  destruct (Z.eqb_spec c 42); [contradiction|]. destruct (Z.eqb_spec c 63); [contradiction|].
  destruct (Z.eqb_spec c 91) as [->|]; [|reflexivity].
  destruct (class_extent p) as [x|] eqn:E; [|reflexivity].
  apply class_extent_some in E as [Hx [p' ->]]. exfalso. exact (H3 eq_refl x p' Hx eq_refl).
Qed.
(** every pattern starts in exactly one of the ways of [glob] *)
Lemma pattern_cases p : p = [] \/ (exists q, p = 42 :: q) \/ (exists q, p = 63 :: q) \/
  (exists x q, class_text x /\ p = 91 :: x ++ 93 :: q) \/
  (exists c q, p = c :: q /\ c <> 42 /\ c <> 63 /\ (c = 91 -> forall x p', class_text x -> q <> x ++ 93 :: p')).
Proof.
  destruct p as [|c p]; [auto|]. right. destruct (Z.eq_dec c 42) as [->|H1]; [eauto|]. right.
  destruct (Z.eq_dec c 63) as [->|H2]; [eauto|]. right. destruct (Z.eq_dec c 91) as [->|H3].
  - destruct (class_extent p) as [x|] eqn:E.
    + apply class_extent_some in E as [Hx [p' ->]]. left. eauto.
    + right. exists 91, p. split; [reflexivity|]. split; [exact H1|]. split; [exact H2|]. intros _ x p' Hx ->.
      rewrite class_extent_complete in E by exact Hx. discriminate.
  - right. exists c, p. split; [reflexivity|]. split; [exact H1|]. split; [exact H2|]. contradiction.
Qed.
Lemma gmatch_star cls p s : gmatch cls (GStar :: p) s = true <-> exists a b, s = a ++ b /\ gmatch cls p b = true.
Proof.
  induction s as [|c s IH].
  - cbn. rewrite orb_false_r. split.
    + intros H. exists [], []. auto.
    + intros (a & b & E & H). symmetry in E. apply app_eq_nil in E as [-> ->]. exact H.
  - change (gmatch cls (GStar :: p) (c :: s)) with (gmatch cls p (c :: s) || gmatch cls (GStar :: p) s).
    rewrite orb_true_iff, IH. split.
    + intros [H|(a & b & -> & H)]; [exists [], (c :: s); auto|exists (c :: a), b; auto].
    + intros ([|c' a] & b & E & H); cbn in E; [subst b; auto|]. injection E as -> ->. eauto.
Qed.
Definition in_class (cls : class_oracle) (x : pystr) (c : Z) : Prop := exists f, cls x = Some f /\ f c = true.
Lemma class_has_in cls x c : class_has cls x c = true <-> in_class cls x c.
Proof.
  unfold class_has, in_class. destruct (cls x) as [f|]; split.
  - eauto.
  - intros (g & [= <-] & H). exact H.
  - discriminate.
  - intros (g & H & _). discriminate.
Qed.
Lemma glob_gmatch cls p s : glob (in_class cls) p s -> gmatch cls (gtoks 0 p) s = true.
Proof.
  induction 1 as [|p s1 s2 H IH|c p s H IH|x c p s Hx Hc H IH|c p s H1 H2 H3 H IH].
  - reflexivity.
  - change (gtoks 0 (42 :: p)) with (GStar :: gtoks 0 p). apply gmatch_star. eauto.
  - exact IH.
  - rewrite gtoks_class by exact Hx. cbn [gmatch]. rewrite IH, andb_true_r. apply class_has_in, Hc.
  - rewrite gtoks_char by assumption. cbn [gmatch]. rewrite IH, Z.eqb_refl. reflexivity.
Qed.
Lemma gmatch_glob cls p : forall s, gmatch cls (gtoks 0 p) s = true -> glob (in_class cls) p s.
Proof.
  remember (length p) as n eqn:En. assert (L : (length p <= n)%nat) by lia. clear En. revert p L.
  induction n as [|n IH]; intros p L s H.
  - destruct p; [|cbn in L; lia]. destruct s; [constructor|discriminate].
  - destruct (pattern_cases p) as [->|[[q ->]|[[q ->]|[(x & q & Hx & ->)|(c & q & -> & H1 & H2 & H3)]]]].
    + destruct s; [constructor|discriminate].
    + change (gtoks 0 (42 :: q)) with (GStar :: gtoks 0 q) in H. apply gmatch_star in H as (a & b & -> & H).
      constructor. apply IH; [cbn in L; lia|exact H].
    + change (gtoks 0 (63 :: q)) with (GAny :: gtoks 0 q) in H. cbn [gmatch] in H.
      destruct s as [|c s]; [discriminate|]. constructor. apply IH; [cbn in L; lia|exact H].
    + rewrite gtoks_class in H by exact Hx. cbn [gmatch] in H. destruct s as [|c s]; [discriminate|].
      apply andb_prop in H as [Hc H]. constructor; [exact Hx|apply class_has_in, Hc|].
      apply IH; [cbn in L; rewrite app_length in L; cbn in L; lia|exact H].
    + rewrite gtoks_char in H by assumption. cbn [gmatch] in H. destruct s as [|d s]; [discriminate|].
      apply andb_prop in H as [Hd H]. apply Z.eqb_eq in Hd. subst d.
      constructor; try assumption. apply IH; [cbn in L; lia|exact H].
Qed.
Lemma fnmatch_glob cls s p b : fnmatch cls s p = Ok b -> (b = true <-> glob (in_class cls) p s).
Proof.
  unfold fnmatch. destruct (classes_ok cls (gtoks 0 p)); [|discriminate]. intros H. apply Ok_inj in H. subst b.
  split; [apply gmatch_glob|apply glob_gmatch].
Qed.

(** ** globs of templates *)
Lemma glob_text P x p s : (forall c, In c x -> c <> 42 /\ c <> 63 /\ c <> 91) ->
  (glob P (x ++ p) s <-> exists t, s = x ++ t /\ glob P p t).
Proof.
  revert s. induction x as [|c x IH]; intros s H.
  - cbn. split; [eauto|]. intros (t & -> & G). exact G.
  - destruct (H c (or_introl eq_refl)) as (N1 & N2 & N3).
    specialize (IH) with (1 := fun d Hd => H d (or_intror Hd)). split.
    + intros G. cbn [app] in G. inversion G; subst; try congruence.
      match goal with G : glob P (x ++ p) _ |- _ => apply IH in G as (t & -> & G) end. exists t. auto.
    + intros (t & -> & G). cbn [app]. constructor; try assumption; [congruence|]. apply IH. eauto.
Qed.
Lemma glob_pattern P l s : Forall piece_ok l -> (glob P (pattern l) s <-> fills (fun _ => True) l s).
Proof.
  intros H. revert s. induction H as [|e l He Hl IH]; intros s.
  - cbn. split; intros G; inversion G; constructor.
  - unfold pattern. cbn [flat_map]. fold (pattern l). destruct e as [x|n].
    + rewrite glob_text by (intros c Hc; apply He in Hc; tauto). split.
      * intros (t & -> & G). constructor. apply IH, G.
      * intros F. inversion F; subst. eexists. split; [reflexivity|]. apply IH. assumption.
    + cbn [app]. split.
      * intros G. inversion G; subst; try congruence. constructor; [exact I|]. apply IH. assumption.
      * intros F. inversion F; subst. constructor. apply IH. assumption.
Qed.
Lemma mname_safe m c : In c (mname m) -> 65 <= c <= 90.
Proof.
  unfold mname. intros H.
  assert (D : In (nth (Z.to_nat m) method_names []) method_names \/ nth (Z.to_nat m) method_names [] = []).
  { destruct (nth_in_or_default (Z.to_nat m) method_names ([] : pystr)); auto. }
  destruct D as [D|D]; [|rewrite D in H; destruct H].
  revert H. generalize dependent (nth (Z.to_nat m) method_names []). intros x Hx Hc.
  assert (F : forallb (forallb (fun c => (65 <=? c) && (c <=? 90))) method_names = true) by reflexivity.
  rewrite forallb_forall in F. specialize (F x Hx). rewrite forallb_forall in F. specialize (F c Hc). lia.
Qed.
Definition method_piece (m : Z) : piece := Text (mname m ++ [32]).
Lemma method_piece_ok m : piece_ok (method_piece m).
Proof.
  intros c H. apply in_app_iff in H as [H|[<-|[]]]; [|lia]. apply mname_safe in H. lia.
Qed.
Lemma template_route m l nm : route_key (mkRoute m (template l) nm) = template (method_piece m :: l).
Proof. unfold route_key, template, method_piece. cbn [flat_map nr_method nr_path]. rewrite <- app_assoc. reflexivity. Qed.

(** ** dispatch *)
Lemma first_glob_spec cls route m : (forall k h, In (k, h) m -> exists b, fnmatch cls route k = Ok b) ->
  (forall m1 k h m2, m = m1 ++ (k, h) :: m2 -> (forall k' h', In (k', h') m1 -> ~ glob (in_class cls) k' route) ->
     glob (in_class cls) k route -> first_glob cls route m = Ok h) /\
  ((forall k h, In (k, h) m -> ~ glob (in_class cls) k route) -> first_glob cls route m = Raise EGeneric).
Proof.
  induction m as [|[k h] m IH]; intros H.
  - split; [|reflexivity]. intros m1 k h m2 E. destruct m1; discriminate.
  - destruct (H k h (or_introl eq_refl)) as [b Hb]. pose proof (fnmatch_glob _ _ _ _ Hb) as Gb.
    destruct IH as [IH1 IH2]; [intros; eapply H; right; eassumption|].
    cbn [first_glob]. rewrite Hb. cbn [bind]. split.
    + intros m1 k' h' m2 E N G. destruct m1 as [|[k1 h1] m1]; cbn in E.
      * assert (k = k' /\ h = h') as [-> ->] by (split; congruence). destruct b; [reflexivity|]. apply Gb in G. discriminate.
      * assert (E1 : (k, h) = (k1, h1)) by congruence. apply pair_equal_spec in E1 as [-> ->].
        destruct b; [exfalso; apply (N k1 h1 (or_introl eq_refl)), Gb; reflexivity|].
        apply (IH1 m1 k' h' m2); [congruence| |exact G]. intros k2 h2 H2. apply (N k2 h2). right. exact H2.
    + intros N. destruct b; [exfalso; apply (N k h (or_introl eq_refl)), Gb; reflexivity|].
      apply IH2. intros k' h' H'. apply (N k' h'). right. exact H'.
Qed.
Lemma find_handler_spec cls route m : NoDup (map fst m) ->
  (forall h, In (route, h) m -> find_handler cls m route = Ok h) /\
  (~ In route (map fst m) -> find_handler cls m route = first_glob cls route m).
Proof.
  intros N. unfold find_handler. split.
  - intros h H. rewrite (dict_In_get streqb streqb_eq _ _ _ N H). reflexivity.
  - intros H. apply (dict_get_None streqb streqb_eq) in H. rewrite H. reflexivity.
Qed.
Lemma first_match (P : pystr -> Prop) (D : forall k, P k \/ ~ P k) (m : sdict nat) :
  (exists k h, In (k, h) m /\ P k) ->
  exists m1 k h m2, m = m1 ++ (k, h) :: m2 /\ P k /\ forall k' h', In (k', h') m1 -> ~ P k'.
Proof.
  induction m as [|[k h] m IH]; intros (k0 & h0 & Hin & Hp); [destruct Hin|].
  destruct (D k) as [Hk|Hk].
  - exists [], k, h, m. split; [reflexivity|]. split; [exact Hk|]. intros ? ? [].
  - destruct IH as (m1 & k1 & h1 & m2 & -> & A & B).
    + destruct Hin as [E|Hin]; [apply pair_equal_spec in E as [-> ->]; contradiction|]. eauto.
    + exists ((k, h) :: m1), k1, h1, m2. split; [reflexivity|]. split; [exact A|].
      intros k' h' [E|E]; [apply pair_equal_spec in E as [<- <-]; exact Hk|eauto].
Qed.
Lemma glob_dec cls p s : glob (in_class cls) p s \/ ~ glob (in_class cls) p s.
Proof.
  destruct (gmatch cls (gtoks 0 p) s) eqn:E; [left; apply gmatch_glob, E|].
  right. intros G. apply glob_gmatch in G. congruence.
Qed.
Lemma find_total cls route m : NoDup (map fst m) ->
  (forall k h, In (k, h) m -> exists b, fnmatch cls route k = Ok b) ->
  (exists k h, In (k, h) m /\ glob (in_class cls) k route) -> exists h, find_handler cls m route = Ok h.
Proof.
  intros N H E. destruct (find_handler_spec cls route m N) as [F1 F2].
  destruct (in_dec (list_eq_dec Z.eq_dec) route (map fst m)) as [I|I].
  - apply in_map_iff in I as ([k h] & Hk & I). cbn in Hk. subst k. eauto.
  - rewrite (F2 I). destruct (first_glob_spec cls route m H) as [G _].
    destruct (first_match (fun k => glob (in_class cls) k route) (fun k => glob_dec cls k route) m E)
      as (m1 & k & h & m2 & -> & A & B).
    exists h. eapply G; [reflexivity|exact B|exact A].
Qed.
Lemma find_only cls route m k h : NoDup (map fst m) ->
  (forall k h, In (k, h) m -> exists b, fnmatch cls route k = Ok b) ->
  In (k, h) m -> glob (in_class cls) k route ->
  (forall k' h', In (k', h') m -> k' <> k -> k' <> route /\ ~ glob (in_class cls) k' route) ->
  find_handler cls m route = Ok h.
Proof.
  intros N H I G U. destruct (find_handler_spec cls route m N) as [F1 F2].
  destruct (list_eq_dec Z.eq_dec k route) as [->|Hk]; [auto|].
  assert (X : ~ In route (map fst m)).
  { intros X. apply in_map_iff in X as ([k' h'] & E & X). cbn in E. subst k'.
    destruct (U route h' X (fun E => Hk (eq_sym E))) as [C _]. congruence. }
  rewrite (F2 X). apply in_split in I as (m1 & m2 & ->).
  destruct (first_glob_spec cls route _ H) as [F _]. eapply F; [reflexivity| |exact G].
  intros k' h' I'. apply (U k' h'); [apply in_app_iff; auto|].
  intros ->. rewrite map_app in N. cbn in N. apply NoDup_remove_2 in N. apply N.
  apply in_app_iff. left. apply in_map_iff. exists (k, h'). auto.
Qed.
Lemma find_sound cls route m h : find_handler cls m route = Ok h ->
  exists k, In (k, h) m /\ (k = route \/ glob (in_class cls) k route).
Proof.
  unfold find_handler. destruct (dict_get streqb route m) as [h'|] eqn:E.
  - intros H. apply Ok_inj in H. subst h'. apply (dict_get_In streqb streqb_eq) in E. eauto.
  - clear E. induction m as [|[k h'] m IH]; cbn [first_glob]; [discriminate|]. intros H.
    apply bind_ok in H as (b & Hb & H). destruct b.
    + apply Ok_inj in H. subst h'. exists k. split; [left; reflexivity|]. right. apply (fnmatch_glob _ _ _ _ Hb). reflexivity.
    + destruct (IH H) as (k' & A & B). exists k'. split; [right; exact A|exact B].
Qed.

(** ** registration *)
Definition rkey (r : named_route) : pystr := wildcard_key (route_key r).
Lemma register_ok g h rs g' : register g h rs = (g', None) <->
  NoDup (map rkey rs) /\ (forall r, In r rs -> ~ In (rkey r) (map fst (rg_map g))) /\
  g' = mkReg (rg_map g ++ map (fun r => (rkey r, h)) rs) (rg_named g ++ map route_str rs).
Proof.
  unfold register. revert g. induction rs as [|r rs IH]; intros g; cbn [register_routes map].
  - rewrite !app_nil_r. destruct g as [m n]. cbn [rg_map rg_named]. split.
    + intros H. apply pair_equal_spec in H as [<- _]. repeat split; [constructor|intros ? []].
    + intros (_ & _ & ->). reflexivity.
  - fold (rkey r). destruct (dict_get streqb (rkey r) (rg_map g)) as [x|] eqn:E.
    + split; [intros H; apply pair_equal_spec in H as [_ H]; discriminate|].
      intros (_ & H & _). exfalso. apply (H r (or_introl eq_refl)).
      apply (dict_get_In streqb streqb_eq) in E. apply (in_map fst) in E. exact E.
    + apply (dict_get_None streqb streqb_eq) in E. rewrite IH. cbn [rg_map rg_named].
      rewrite (dict_set_new streqb streqb_eq) by exact E. rewrite <- !app_assoc. cbn [app].
      split.
      * intros (N & H & ->). split.
        -- constructor; [|exact N]. intros X. apply in_map_iff in X as (r' & Er & X).
           apply (H r' X). rewrite map_app, in_app_iff. right. left. symmetry. exact Er.
        -- split; [|reflexivity]. intros r' [<-|X]; [exact E|]. intros Y. apply (H r' X).
           rewrite map_app, in_app_iff. auto.
      * intros (N & H & ->). inversion N as [|? ? N1 N2]; subst. split; [exact N2|]. split; [|reflexivity].
        intros r' X. rewrite map_app, in_app_iff. intros [Y|[Y|[]]]; [apply (H r' (or_intror X) Y)|].
        cbn [fst] in Y. apply N1. rewrite Y. apply in_map, X.
Qed.
Lemma register_result g h rs : exists g', register g h rs = (g', None) \/ register g h rs = (g', Some EGeneric).
Proof.
  unfold register. revert g. induction rs as [|r rs IH]; intros g; cbn [register_routes]; [eauto|].
  destruct (dict_get streqb (wildcard_key (route_key r)) (rg_map g)); [eauto|]. apply IH.
Qed.
(** whatever the outcome, a prefix of the routes is appended *)
Lemma register_prefix g h rs g' e : register g h rs = (g', e) ->
  exists rs1 rs2, rs = rs1 ++ rs2 /\ register g h rs1 = (g', None) /\ (e = None -> rs2 = []).
Proof.
  unfold register. revert g. induction rs as [|r rs IH]; intros g H; cbn [register_routes] in H.
  - exists [], []. apply pair_equal_spec in H as [-> <-]. repeat split; reflexivity.
  - destruct (dict_get streqb (wildcard_key (route_key r)) (rg_map g)) eqn:E.
    + exists [], (r :: rs). apply pair_equal_spec in H as [<- <-]. repeat split. discriminate.
    + destruct (IH _ H) as (rs1 & rs2 & -> & A & B). exists (r :: rs1), rs2. split; [reflexivity|]. split; [|exact B].
      cbn [register_routes]. rewrite E. exact A.
Qed.
Lemma register_keeps g h rs g' e k h0 : register g h rs = (g', e) ->
  dict_get streqb k (rg_map g) = Some h0 -> dict_get streqb k (rg_map g') = Some h0.
Proof.
  intros H. apply register_prefix in H as (rs1 & rs2 & _ & H & _). apply register_ok in H as (_ & _ & ->).
  cbn [rg_map]. generalize (rg_map g). intros m E. induction m as [|[k1 h1] m IH]; [discriminate|].
  cbn in *. destruct (streqb k k1); [exact E|auto].
Qed.
Lemma register_history_ok l : forall g g' es, register_history g l = (g', es) -> Forall (fun e => e = None) es ->
  let all := flat_map (fun x => map (fun r => (fst x, r)) (snd x)) l in
  rg_map g' = rg_map g ++ map (fun x => (rkey (snd x), fst x)) all /\
  rg_named g' = rg_named g ++ map (fun x => route_str (snd x)) all /\
  (NoDup (map fst (rg_map g)) -> NoDup (map fst (rg_map g'))).
Proof.
  induction l as [|[h rs] l IH]; intros g g' es H F; cbn [register_history] in H.
  - apply pair_equal_spec in H as [<- <-]. cbn. rewrite !app_nil_r. auto.
  - destruct (register g h rs) as [g1 e] eqn:E. destruct (register_history g1 l) as [g2 es2] eqn:E2.
    apply pair_equal_spec in H as [<- <-]. inversion F as [|? ? Fe Fs]; subst.
    apply register_ok in E as (N & D & ->). destruct (IH _ _ _ E2 Fs) as (A & B & C).
    cbn [rg_map rg_named flat_map fst snd] in *. rewrite A, B.
    split; [rewrite map_app, map_map, <- app_assoc; reflexivity|].
    split; [rewrite map_app, map_map, <- app_assoc; reflexivity|].
    intros G. rewrite <- A. apply C. rewrite map_app, map_map. cbn [fst].
    fold rkey. change (map (fun x => rkey x) rs) with (map rkey rs).
    revert G. generalize (map fst (rg_map g)) D. intros ks Dk G. clear -N Dk G.
    induction G as [|k ks Hk G IHG]; cbn [app]; [exact N|]. constructor.
    + rewrite in_app_iff. intros [X|X]; [contradiction|]. apply in_map_iff in X as (r & Er & X).
      apply (Dk r X). left. symmetry. exact Er.
    + apply IHG. intros r X Y. apply (Dk r X). right. exact Y.
Qed.
Lemma register_all_history hs : forall h g, register_all g h hs =
  let (g', es) := register_history g (combine (seq h (length hs)) hs) in
  if forallb (fun e => match e with None => true | Some _ => false end) es then Ok g' else Raise EGeneric.
Proof.
  induction hs as [|rs hs IH]; intros h g; cbn [register_all length seq combine register_history]; [reflexivity|].
  destruct (register_result g h rs) as [g1 [E|E]]; rewrite E.
  - rewrite IH. destruct (register_history g1 _) as [g2 es]. reflexivity.
  - destruct (register_history g1 _) as [g2 es]. reflexivity.
Qed.
Lemma classes_ok_total cls p : (forall x, class_text x -> cls x <> None) -> classes_ok cls (gtoks 0 p) = true.
Proof.
  intros H. remember (length p) as n eqn:En. assert (L : (length p <= n)%nat) by lia. clear En. revert p L.
  induction n as [|n IH]; intros p L; [destruct p; [reflexivity|cbn in L; lia]|].
  destruct (pattern_cases p) as [->|[[q ->]|[[q ->]|[(x & q & Hx & ->)|(c & q & -> & H1 & H2 & H3)]]]].
  - reflexivity.
  - apply (IH q). cbn in L; lia.
  - apply (IH q). cbn in L; lia.
  - rewrite gtoks_class by exact Hx. cbn [classes_ok]. specialize (H x Hx). destruct (cls x); [|contradiction].
    apply IH. cbn in L. rewrite app_length in L. cbn in L. lia.
  - rewrite gtoks_char by assumption. apply (IH q). cbn in L; lia.
Qed.
Lemma fnmatch_total cls s p : (forall x, class_text x -> cls x <> None) -> exists b, fnmatch cls s p = Ok b.
Proof. intros H. unfold fnmatch. rewrite classes_ok_total by exact H. eauto. Qed.
Lemma classes_ok_none cls p : ~ In 91 p -> classes_ok cls (gtoks 0 p) = true.
Proof.
  induction p as [|c p IH]; intros H; [reflexivity|]. cbn [gtoks]. unfold STAR, QMARK, LBRACK.
  assert (IH' : classes_ok cls (gtoks 0 p) = true) by (apply IH; cbn in H; tauto).
  destruct (c =? 42); [exact IH'|]. destruct (c =? 63); [exact IH'|].
  destruct (Z.eqb_spec c 91) as [->|]; [cbn in H; tauto|exact IH'].
Qed.
Lemma fnmatch_no_class cls s p : ~ In 91 p -> exists b, fnmatch cls s p = Ok b.
Proof. intros H. unfold fnmatch. rewrite classes_ok_none by exact H. eauto. Qed.
Lemma pattern_no_class l : Forall piece_ok l -> ~ In 91 (pattern l).
Proof.
  intros F X. unfold pattern in X. apply in_flat_map in X as (e & He & X). rewrite Forall_forall in F.
  specialize (F e He). destruct e as [x|n]; [apply F in X; tauto|]. destruct X as [X|[]]. discriminate.
Qed.
Lemma fills_pattern l : fills (fun _ => True) l (pattern l).
Proof.
  induction l as [|[x|n] l IH]; [constructor| |]; unfold pattern; cbn [flat_map]; fold (pattern l); constructor; auto.
Qed.
Lemma fills_method m l path : fills (fun _ => True) (method_piece m :: l) (mname m ++ [32] ++ path) ->
  fills (fun _ => True) l path.
Proof.
  intros F. inversion F as [|x l0 s F' E1 E2|]. subst x l0. rewrite <- app_assoc in E2.
  apply app_inv_head in E2. cbn [app] in E2. assert (s = path) by congruence. subst s. exact F'.
Qed.
Lemma single_route cls m l nm path h : Forall piece_ok l ->
  (find_handler cls [(wildcard_key (route_key (mkRoute m (template l) nm)), h)] (mname m ++ [32] ++ path) = Ok h
   <-> fills (fun _ => True) l path).
Proof.
  intros Hl. assert (Hl' : Forall piece_ok (method_piece m :: l)) by (constructor; [apply method_piece_ok|exact Hl]).
  rewrite template_route, template_key by exact Hl'. split.
  - intros H. apply find_sound in H as (k & [E|[]] & H). apply pair_equal_spec in E as [<- _].
    apply (fills_method m). destruct H as [<-|G]; [apply fills_pattern|]. apply glob_pattern in G; assumption.
  - intros F. apply (find_only cls _ _ (pattern (method_piece m :: l)) h).
    + repeat constructor. intros [].
    + intros k h' [E|[]]. apply pair_equal_spec in E as [<- _]. apply fnmatch_no_class, pattern_no_class, Hl'.
    + left. reflexivity.
    + apply glob_pattern; [exact Hl'|]. rewrite app_assoc. constructor. exact F.
    + intros k' h' [E|[]] N. apply pair_equal_spec in E as [<- _]. congruence.
Qed.
Lemma NoDup_app_remove_l A (l l' : list A) : NoDup (l ++ l') -> NoDup l'.
Proof. induction l as [|x l IH]; [auto|]. intros H. inversion H; subst. auto. Qed.
Lemma NoDup_app_remove_r A (l l' : list A) : NoDup (l ++ l') -> NoDup l.
Proof.
  induction l as [|x l IH]; [constructor|]. intros H. inversion H as [|? ? N H']; subst.
  constructor; [intros X; apply N, in_app_iff; auto|auto].
Qed.
Lemma register_all_ok hs : forall g h, (NoDup (map rkey (concat hs)) /\
   (forall r, In r (concat hs) -> ~ In (rkey r) (map fst (rg_map g)))) <-> exists g', register_all g h hs = Ok g'.
Proof.
  induction hs as [|rs hs IH]; intros g h; cbn [concat map register_all].
  - split; [eauto|]. intros _. split; [constructor|intros r []].
  - destruct (register_result g h rs) as [g1 [E|E]]; rewrite E.
    + rewrite <- IH. apply register_ok in E as (N & D & ->). cbn [rg_map]. rewrite !map_app, map_map. cbn [fst].
      change (map (fun x => rkey x) rs) with (map rkey rs).
      split.
      * intros [N' D']. split; [eapply NoDup_app_remove_l; exact N'|].
        intros r Hr X. apply in_app_iff in X as [X|X]; [apply (D' r); [apply in_app_iff; auto|exact X]|].
        revert X. clear -N' Hr. induction rs as [|r0 rs IHr]; [intros []|]. cbn [map app] in N' |- *. inversion N' as [|? ? A B]; subst.
        intros [X|X]; [|exact (IHr B X)]. apply A. apply in_app_iff. right. rewrite X. apply in_map, Hr.
      * intros [N' D']. split.
        -- revert N N'. clear -D'. intros N N'. induction rs as [|r0 rs IHr]; [exact N'|]. cbn [map app] in *.
           inversion N as [|? ? A B]; subst. constructor.
           ++ rewrite in_app_iff. intros [X|X]; [exact (A X)|]. apply in_map_iff in X as (r & Er & X).
              apply (D' r X). rewrite Er. apply in_app_iff. right. left. reflexivity.
           ++ apply IHr; [|exact B]. intros r Hr X. apply (D' r Hr). apply in_app_iff in X. apply in_app_iff. cbn. tauto.
        -- intros r Hr X. apply in_app_iff in Hr as [Hr|Hr]; [exact (D r Hr X)|].
           apply (D' r Hr). apply in_app_iff. auto.
    + split; [|intros [g' H]; discriminate]. intros [N D]. exfalso. rewrite map_app in N.
      assert (R : register g h rs = (mkReg (rg_map g ++ map (fun r => (rkey r, h)) rs) (rg_named g ++ map route_str rs), None)).
      { apply register_ok. split; [eapply NoDup_app_remove_r; exact N|]. split; [|reflexivity].
        intros r Hr. apply D. apply in_app_iff. auto. }
      rewrite R in E. apply pair_equal_spec in E as [_ E]. discriminate.
Qed.
Lemma all_distinct_builds hs : NoDup (map rkey (concat hs)) <-> exists g, new_action_extension hs = Ok g.
Proof.
  unfold new_action_extension. rewrite <- register_all_ok. cbn. split; [intros H; split; [exact H|intros r _ []]|tauto].
Qed.
