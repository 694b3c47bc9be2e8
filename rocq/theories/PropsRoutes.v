(** * Properties C35-C39: REST routing *)
From Coq Require Import String ZArith List Bool.
From Coq Require Import Lia.
From Verif Require Import Py Stream Rest Routes PyFacts Spec RouteFacts.
Import ListNotations.
Open Scope list_scope.
Open Scope Z_scope.

(** C35: after any history of successful registrations the table lists the routes' keys with
    their handlers in order, no key twice, and the named routes are announced in order. *)
Theorem C35_registration : forall l g es,
  register_history empty_registry l = (g, es) -> Forall (fun e => e = None) es ->
  let all := flat_map (fun x => map (fun r => (fst x, r)) (snd x)) l in
  rg_map g = map (fun x => (wildcard_key (route_key (snd x)), fst x)) all /\
  NoDup (map fst (rg_map g)) /\
  rg_named g = map (fun x => route_str (snd x)) all.
Proof.
  intros l g es H F. destruct (register_history_ok l _ _ _ H F) as (A & B & C).
  split; [exact A|]. split; [apply C; constructor|exact B].
Qed.
Print Assumptions C35_registration.
(** Registration succeeds exactly if the keys of the routes are new and distinct; it raises
    otherwise; whatever happens, no handler registered before is replaced. *)
Theorem C35_no_overwriting :
  (forall g h rs, (exists g', register g h rs = (g', None)) <->
     NoDup (map (fun r => wildcard_key (route_key r)) rs) /\
     forall r, In r rs -> ~ In (wildcard_key (route_key r)) (map fst (rg_map g))) /\
  (forall g h rs, exists g', register g h rs = (g', None) \/ register g h rs = (g', Some EGeneric)) /\
  (forall g h rs g' e k h0, register g h rs = (g', e) ->
     dict_get streqb k (rg_map g) = Some h0 -> dict_get streqb k (rg_map g') = Some h0).
Proof.
  split; [|exact (conj register_result register_keeps)].
  intros g h rs. split.
  - intros [g' H]. apply register_ok in H as (A & B & _). auto.
  - intros [A B]. eexists. apply register_ok. split; [exact A|]. split; [exact B|reflexivity].
Qed.
Print Assumptions C35_no_overwriting.
(** ActionExtension registers its handlers in order and is built exactly if all of them can be *)
Theorem C35_action_extension : forall hs,
  (forall g, new_action_extension hs = Ok g ->
     exists es, register_history empty_registry (combine (seq 0 (length hs)) hs) = (g, es) /\
                Forall (fun e => e = None) es) /\
  (NoDup (map (fun r => wildcard_key (route_key r)) (concat hs)) <-> exists g, new_action_extension hs = Ok g).
Proof.
  intros hs. split.
  - intros g H. unfold new_action_extension in H. rewrite register_all_history in H.
    destruct (register_history empty_registry _) as [g' es]. exists es.
    destruct (forallb _ es) eqn:E; [|discriminate]. apply Ok_inj in H. subst g'. split; [reflexivity|].
    apply Forall_forall. intros e He. rewrite forallb_forall in E. specialize (E e He). destruct e; [discriminate|reflexivity].
  - apply all_distinct_builds.
Qed.
Print Assumptions C35_action_extension.
Example C35_case :
  let a := mkRoute 0 (py "/hello/{name}") (py "greet") in
  let b := mkRoute 1 (py "/hello/{name}") (py "post") in
  let c := mkRoute 0 (py "/hello/{other}") (py "dup") in
  register_history empty_registry [(0%nat, [a; b])] =
    (mkReg [(py "GET /hello/*", 0%nat); (py "POST /hello/*", 0%nat)]
           [py "GET /hello/{name} greet"; py "POST /hello/{name} post"], [None]) /\
  snd (register_history empty_registry [(0%nat, [a; b]); (1%nat, [c])]) = [None; Some EGeneric].
Proof. vm_compute. split; reflexivity. Qed.

(** C36 ([replaced], Spec.v) *)
Theorem C36_wildcards :
  (forall p, replaced p (wildcard_key p)) /\
  (forall p q, replaced p q -> q = wildcard_key p) /\
  (forall p, ~ In 123 p -> wildcard_key p = p) /\
  (forall r, ~ In 123 (nr_path r) -> wildcard_key (route_key r) = mname (nr_method r) ++ [32] ++ nr_path r).
Proof.
  split; [exact sub_replaced|]. split; [exact replaced_sub|]. split; [exact no_brace_key|].
  intros r H. apply no_brace_key. unfold route_key. rewrite !in_app_iff.
  intros [X|[[X|[]]|X]]; [apply mname_safe in X; destruct X as [_ X]; revert X; apply Zlt_not_le; reflexivity|discriminate|exact (H X)].
Qed.
Print Assumptions C36_wildcards.
Example C36_case : wildcard_key (py "GET /a/{x}/{}}/{y/{z}") = py "GET /a/*/*/*".
Proof. vm_compute. reflexivity. Qed.

(** C37: the path fills the template of a registered route with any strings; matching a key
    does not raise (only character classes, in some Python versions, do) *)
Theorem C37_parameters_accepted : forall cls hist g es h rs m l nm path,
  register_history empty_registry hist = (g, es) -> Forall (fun e => e = None) es ->
  In (h, rs) hist -> In (mkRoute m (template l) nm) rs -> Forall piece_ok l ->
  fills (fun _ => True) l path ->
  let route := mname m ++ [32] ++ path in
  let key := wildcard_key (route_key (mkRoute m (template l) nm)) in
  (forall k h', In (k, h') (rg_map g) -> exists b, fnmatch cls route k = Ok b) ->
  (exists h', find_handler cls (rg_map g) route = Ok h') /\
  ((forall k h', In (k, h') (rg_map g) -> k <> key -> k <> route /\ ~ glob (in_class cls) k route) ->
   find_handler cls (rg_map g) route = Ok h).
Proof.
  intros cls hist g es h rs m l nm path H F Hh Hr Hl Hp route key Hm.
  destruct (C35_registration hist g es H F) as (A & N & _).
  assert (I : In (key, h) (rg_map g)).
  { rewrite A. apply in_map_iff. exists (h, mkRoute m (template l) nm). split; [reflexivity|].
    apply in_flat_map. exists (h, rs). split; [exact Hh|]. apply in_map_iff. eauto. }
  assert (G : glob (in_class cls) key route).
  { unfold key. rewrite template_route, template_key by (constructor; [apply method_piece_ok|exact Hl]).
    apply glob_pattern; [constructor; [apply method_piece_ok|exact Hl]|].
    unfold route. rewrite app_assoc. apply fill_text. exact Hp. }
  split; [apply find_total; eauto|]. intros U. exact (find_only cls route _ key h N Hm I G U).
Qed.
Print Assumptions C37_parameters_accepted.
Example C37_case :
  let l := [Text (py "/hello/"); Hole (py "name"); Text (py "/and/"); Hole (py "other")] in
  Forall piece_ok l /\ template l = py "/hello/{name}/and/{other}" /\
  fills (fun _ => True) l (py "/hello/w*r?ld/and/") /\
  find_handler (fun _ => None) [(py "GET /x/*", 1%nat); (wildcard_key (py "GET /hello/{name}/and/{other}"), 2%nat)]
    (py "GET /hello/w*r?ld/and/") = Ok 2%nat.
Proof.
  split; [|split; [reflexivity|split]].
  - assert (T : forall x, forallb (fun c => negb ((c =? 42) || (c =? 63) || (c =? 91) || (c =? 123))) x = true -> piece_ok (Text x)).
    { intros x H c Hc. rewrite forallb_forall in H. specialize (H c Hc).
      apply negb_true_iff in H. rewrite !orb_false_iff, !Z.eqb_neq in H. tauto. }
    assert (U : forall x, x <> [] -> forallb (fun c => negb ((c =? 10) || (c =? 125))) x = true -> piece_ok (Hole x)).
    { intros x N H. rewrite forallb_forall in H. split; [exact N|].
      split; intros X; specialize (H _ X); discriminate. }
    constructor; [apply T; reflexivity|]. constructor; [apply U; [discriminate|reflexivity]|].
    constructor; [apply T; reflexivity|]. constructor; [apply U; [discriminate|reflexivity]|]. constructor.
  - exact (fill_text _ (py "/hello/") _ _ (fill_hole _ _ (py "w*r?ld") _ _ I
             (fill_text _ (py "/and/") _ _ (fill_hole _ _ [] _ _ I (fill_end _))))).
  - vm_compute. reflexivity.
Qed.

(** C38: exact key, else the first key that matches as a glob ([glob], Spec.v), else an
    exception; [m] is the table in registration order. *)
Theorem C38_dispatch : forall cls m route, NoDup (map fst m) ->
  (forall h, In (route, h) m -> find_handler cls m route = Ok h) /\
  (~ In route (map fst m) ->
   (forall k h, In (k, h) m -> exists b, fnmatch cls route k = Ok b) ->
   (forall m1 k h m2, m = m1 ++ (k, h) :: m2 ->
      (forall k' h', In (k', h') m1 -> ~ glob (in_class cls) k' route) ->
      glob (in_class cls) k route -> find_handler cls m route = Ok h) /\
   ((forall k h, In (k, h) m -> ~ glob (in_class cls) k route) ->
      find_handler cls m route = Raise EGeneric)).
Proof.
  intros cls m route N. destruct (find_handler_spec cls route m N) as [F1 F2].
  split; [exact F1|]. intros I H. rewrite (F2 I). exact (first_glob_spec cls route m H).
Qed.
Print Assumptions C38_dispatch.
(** fnmatch decides the glob relation, and raises only for a class that does not compile *)
Theorem C38_fnmatch : forall cls s p,
  (forall b, fnmatch cls s p = Ok b -> (b = true <-> glob (in_class cls) p s)) /\
  ((forall x, class_text x -> cls x <> None) -> exists b, fnmatch cls s p = Ok b) /\
  (~ In 91 p -> exists b, fnmatch cls s p = Ok b) /\
  (forall e, fnmatch cls s p = Raise e -> e = ERegex) /\
  (forall m e, find_handler cls m s = Raise e -> e = ERegex \/ e = EGeneric).
Proof.
  intros cls s p. assert (R : forall s p e, fnmatch cls s p = Raise e -> e = ERegex).
  { intros s0 p0 e. unfold fnmatch. cbv zeta. destruct (classes_ok _ _); [discriminate|]. congruence. }
  split; [apply fnmatch_glob|]. split; [apply fnmatch_total|]. split; [apply fnmatch_no_class|]. split; [apply R|].
  intros m e. unfold find_handler. destruct (dict_get _ _ _); [discriminate|].
  induction m as [|[k h] m IH]; cbn [first_glob]; [intros E; right; congruence|].
  destruct (fnmatch cls s k) as [[|]|x] eqn:F; cbn [bind]; [discriminate|exact IH|].
  intros E. left. injection E as <-. exact (R _ _ _ F).
Qed.
Print Assumptions C38_fnmatch.
Example C38_case : let m := [(py "GET /a/*", 1%nat); (py "GET /a/b", 2%nat); (py "GET /a/?", 3%nat)] in
  NoDup (map fst m) /\ find_handler (fun _ => None) m (py "GET /a/b") = Ok 2%nat /\
  find_handler (fun _ => None) m (py "GET /a/c") = Ok 1%nat /\
  find_handler (fun _ => None) m (py "PUT /a/c") = Raise EGeneric.
Proof.
  split; [|vm_compute; repeat split].
  repeat constructor; intros X; vm_compute in X; repeat (destruct X as [X|X]; [discriminate|]); exact X.
Qed.

(** a pattern with a class that does not compile (re.error) makes every match with it raise; a
    request for which no earlier key matches then raises too *)
Inductive has_class : pystr -> pystr -> Prop :=
| hc_here x p : class_text x -> has_class (91 :: x ++ 93 :: p) x
| hc_class y x p : class_text y -> has_class p x -> has_class (91 :: y ++ 93 :: p) x
| hc_star p x : has_class p x -> has_class (42 :: p) x
| hc_any p x : has_class p x -> has_class (63 :: p) x
| hc_char c p x : c <> 42 -> c <> 63 -> (c = 91 -> forall x p', class_text x -> p <> x ++ 93 :: p') ->
    has_class p x -> has_class (c :: p) x.
Lemma classes_ok_false cls p : classes_ok cls (gtoks 0 p) = false <-> exists x, has_class p x /\ cls x = None.
Proof.
  split.
  - remember (length p) as n eqn:En. assert (L : (length p <= n)%nat) by lia. clear En. revert p L.
    induction n as [|n IH]; intros p L; [destruct p; [discriminate|cbn in L; lia]|].
    destruct (pattern_cases p) as [->|[[q ->]|[[q ->]|[(x & q & Hx & ->)|(c & q & -> & H1 & H2 & H3)]]]].
    + discriminate.
    + intros H. destruct (IH q) as (x & X & E); [cbn in L; lia|exact H|]. exists x. split; [constructor; exact X|exact E].
    + intros H. destruct (IH q) as (x & X & E); [cbn in L; lia|exact H|]. exists x. split; [apply hc_any; exact X|exact E].
    + rewrite gtoks_class by exact Hx. cbn [classes_ok]. destruct (cls x) eqn:Ex.
      * intros H. destruct (IH q) as (y & Y & E); [cbn in L; rewrite app_length in L; cbn in L; lia|exact H|].
        exists y. split; [apply hc_class; assumption|exact E].
      * intros _. exists x. split; [apply hc_here, Hx|exact Ex].
    + rewrite gtoks_char by assumption. intros H. destruct (IH q) as (x & X & E); [cbn in L; lia|exact H|].
      exists x. split; [apply hc_char; assumption|exact E].
  - intros (x & H & E). induction H as [x p Hx|y x p Hy H IH|p x H IH|p x H IH|c p x H1 H2 H3 H IH].
    + rewrite gtoks_class by exact Hx. cbn [classes_ok]. rewrite E. reflexivity.
    + rewrite gtoks_class by exact Hy. cbn [classes_ok]. destruct (cls y); [apply IH, E|reflexivity].
    + apply IH, E.
    + apply IH, E.
    + rewrite gtoks_char by assumption. apply IH, E.
Qed.
Theorem C38_refused : forall cls,
  (forall s p, fnmatch cls s p = Raise ERegex <-> exists x, has_class p x /\ cls x = None) /\
  (forall route m1 k h m2, ~ In route (map fst (m1 ++ (k, h) :: m2)) ->
     (forall k' h', In (k', h') m1 -> fnmatch cls route k' = Ok false) ->
     (exists x, has_class k x /\ cls x = None) -> find_handler cls (m1 ++ (k, h) :: m2) route = Raise ERegex).
Proof.
  intros cls. assert (R : forall s p, fnmatch cls s p = Raise ERegex <-> exists x, has_class p x /\ cls x = None).
  { intros s p. rewrite <- classes_ok_false. unfold fnmatch. cbv zeta. destruct (classes_ok cls (gtoks 0 p)); split; congruence. }
  split; [exact R|]. intros route m1 k h m2 N F X. unfold find_handler.
  rewrite (proj2 (dict_get_None _ streqb_eq route _) N).
  induction m1 as [|[k' h'] m1 IH]; cbn [first_glob app].
  - rewrite (proj2 (R route k) X). reflexivity.
  - rewrite (F k' h' (or_introl eq_refl)). cbn [bind]. apply IH; [intros Hi; apply N; right; exact Hi|].
    intros a b Hi. apply (F a b). right. exact Hi.
Qed.
Print Assumptions C38_refused.
Example C38_refused_case : has_class (py "GET /a[b-a]") (py "b-a").
Proof.
  change (py "GET /a[b-a]") with (py "GET /a" ++ 91 :: py "b-a" ++ 93 :: []).
  change (py "GET /a") with [71; 69; 84; 32; 47; 97]. cbn [app].
  do 6 (apply hc_char; [discriminate|discriminate|intros E; discriminate|]).
  change (98 :: 45 :: 97 :: [93]) with ([98; 45; 97] ++ [93]). apply (hc_here (py "b-a")).
  exists 98, [45; 97]. split; [intros [H|[H|[]]]; discriminate|]. left. split; [reflexivity|discriminate].
Qed.

(** C39, full statement: false, a placeholder also matches text with slashes. *)
Definition C39_statement : Prop := forall cls m l nm path h,
  Forall piece_ok l ->
  find_handler cls [(wildcard_key (route_key (mkRoute m (template l) nm)), h)] (mname m ++ [32] ++ path) = Ok h ->
  fills (fun v => ~ In 47 v) l path.
Theorem C39_segments_refuted : ~ C39_statement.
Proof.
  intros S. specialize (S (fun _ => None) 0 [Text (py "/a/"); Hole (py "x")] (py "n") (py "/a/b/c") 0%nat).
  assert (F : fills (fun v => ~ In 47 v) [Text (py "/a/"); Hole (py "x")] (py "/a/b/c")).
  { apply S; [|vm_compute; reflexivity]. constructor; [|constructor; [|constructor]].
    - intros c X. vm_compute in X. repeat (destruct X as [<-|X]; [repeat split; discriminate|]). destruct X.
    - cbn. repeat split; [discriminate| |]; intros [X|[]]; discriminate. }
  inversion F as [|x l s F' E1 E2|]. subst s. clear - F'.
  inversion F' as [| |n v l s Hv F'' E1 E2]. inversion F''. subst s. rewrite app_nil_r in E2. subst v.
  apply Hv. vm_compute. auto.
Qed.
Print Assumptions C39_segments_refuted.
(** C39, what holds: the requests a route matches are exactly its template filled with any
    strings at all. *)
Theorem C39_segments_partial : forall cls m l nm path h, Forall piece_ok l ->
  (find_handler cls [(wildcard_key (route_key (mkRoute m (template l) nm)), h)] (mname m ++ [32] ++ path) = Ok h
   <-> fills (fun _ => True) l path).
Proof. exact single_route. Qed.
Print Assumptions C39_segments_partial.
