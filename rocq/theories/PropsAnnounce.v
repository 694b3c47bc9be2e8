(** * Properties C120-C122: what is announced, failed registrations, the order of routes *)
From Coq Require Import String ZArith List Bool Lia Permutation.
From Coq Require Import Strings.Byte.
From Verif Require Import Py Stream Version Frame Proto Messages Rest Routes Settings Host PyFacts Spec SpecFacts
  RouteFacts RestFacts Wire HostSpec HostFacts PropsMessages PropsRoutes PropsHost PropsSamples PropsDelivery.
Import ListNotations.
Open Scope list_scope.
Open Scope Z_scope.

(** ** Specification *)
(** what a route says: method, path as written, name *)
Definition said (r : declared) : Z * pystr * pystr := (d_method r, template (d_path r), d_name r).
Definition no_space (r : declared) : Prop := ~ In 32 (template (d_path r)).
(** the extension with the handlers [hs] can be built and announces [l] *)
Definition announces (hs : list (list declared)) (l : list pystr) : Prop :=
  exists g, new_action_extension (map (map to_route) hs) = Ok g /\ rg_named g = l.
(** the extension with the handlers [hs] can be built, and gives the request to the handler
    with the routes [rs], the [n]th *)
Definition goes_to (cls : class_oracle) (hs : list (list declared)) (z : Z) (path : pystr) (n : nat) (rs : list declared) : Prop :=
  exists g nm, new_action_extension (map (map to_route) hs) = Ok g /\ In (z, nm) rest_methods /\
    find_handler cls (rg_map g) (nm ++ [32] ++ path) = Ok n /\ nth_error hs n = Some rs.

(** ** C120 *)
Lemma to_space_unique (a b : pystr) x y : ~ In 32 a -> ~ In 32 b -> a ++ 32 :: x = b ++ 32 :: y -> a = b /\ x = y.
Proof.
  revert b. induction a as [|c a IH]; intros [|d b] Ha Hb E; cbn [app] in E.
  - injection E as E. auto.
  - injection E as <- _. destruct Hb. left. reflexivity.
  - injection E as -> _. destruct Ha. left. reflexivity.
  - injection E as -> E. destruct (IH b) as [-> ->]; [intros I; apply Ha; right; exact I|intros I; apply Hb; right; exact I|exact E|auto].
Qed.
Lemma text_determines r r' : declared_ok r -> declared_ok r' -> no_space r -> no_space r' ->
  route_str (to_route r) = route_str (to_route r') -> said r = said r'.
Proof.
  intros (M & _) (M' & _) N N' E. apply method_range in M, M'. unfold to_route, route_str in E. cbn [nr_method nr_path nr_name] in E.
  destruct (method_path (d_method r) (d_method r') (template (d_path r) ++ [32] ++ d_name r) (template (d_path r') ++ [32] ++ d_name r') M M' E) as [Em Ep].
  apply to_space_unique in Ep as [Et En]; [|assumption..]. unfold said. rewrite Em, Et, En. reflexivity.
Qed.
Theorem C120_determined_partial : forall hs hs' l, Forall (Forall declared_ok) hs -> Forall (Forall declared_ok) hs' ->
  Forall (Forall no_space) hs -> Forall (Forall no_space) hs' -> announces hs l -> announces hs' l ->
  map said (concat hs) = map said (concat hs').
Proof.
  intros hs hs' l Ok1 Ok2 N1 N2 (g & B & <-) (g' & B' & E).
  destruct (built hs g Ok1 B) as (_ & _ & A). destruct (built hs' g' Ok2 B') as (_ & _ & A'). rewrite A, A' in E. clear A A' B B' g g'.
  assert (T : forall hs, map snd (table hs) = concat hs).
  { clear. intros hs. unfold table. generalize 0%nat. induction hs as [|rs hs IH]; intros i; [reflexivity|].
    cbn [length seq combine flat_map concat fst snd]. rewrite map_app, IH, map_map. cbn [snd]. rewrite map_id. reflexivity. }
  rewrite <- (map_map snd (fun r => route_str (to_route r)) (table hs)), <- (map_map snd (fun r => route_str (to_route r)) (table hs')), !T in E.
  apply Forall_concat in Ok1, Ok2, N1, N2. revert Ok1 N1 Ok2 N2 E. generalize (concat hs') as l'. induction (concat hs) as [|r l IH]; intros [|r' l'] Ok1 N1 Ok2 N2 E;
    cbn [map] in *; try discriminate E; [reflexivity|].
  apply Forall_cons_iff in Ok1 as [O1 Ok1], Ok2 as [O2 Ok2], N1 as [M1 N1], N2 as [M2 N2]. injection E as E1 E2.
  f_equal; [symmetry; apply text_determines; assumption|apply IH; auto].
Qed.
Print Assumptions C120_determined_partial.
(** with a space in the path the announcement says less: for every route whose path goes on
    behind a space there is another one that is announced alike *)
Lemma alone r : declared_ok r -> announces [[r]] [mname (d_method r) ++ [32] ++ template (d_path r) ++ [32] ++ d_name r].
Proof. intros _. eexists. split; reflexivity. Qed.
Theorem C120_space_refuted : forall z a b nm, In z (map fst rest_methods) -> piece_ok (Text a) -> piece_ok (Text b) ->
  let long := mkDecl z [Text (a ++ [32] ++ b)] nm in
  let short := mkDecl z [Text a] (b ++ [32] ++ nm) in
  said long <> said short /\ exists l, announces [[long]] l /\ announces [[short]] l.
Proof.
  intros z a b nm Hz Ha Hb long short. split.
  - intros E. unfold said, long, short in E. cbn [d_method d_path d_name] in E. apply pair_equal_spec in E as [E _].
    apply pair_equal_spec in E as [_ E]. unfold template in E. cbn [flat_map] in E. rewrite !app_nil_r in E. apply (f_equal (@List.length Z)) in E.
    rewrite !app_length in E. cbn [List.length] in E. lia.
  - eexists. split.
    + apply alone. split; [exact Hz|]. constructor; [|constructor]. cbn [piece_ok] in *. intros c Hc. apply in_app_or in Hc as [Hc|Hc]; [apply Ha, Hc|].
      apply in_app_or in Hc as [[<-|[]]|Hc]; [repeat split; discriminate|apply Hb, Hc].
    + assert (E : mname (d_method short) ++ [32] ++ template (d_path short) ++ [32] ++ d_name short =
        mname (d_method long) ++ [32] ++ template (d_path long) ++ [32] ++ d_name long).
      { unfold long, short, template. cbn [d_method d_path d_name flat_map]. rewrite !app_nil_r, <- !app_assoc. reflexivity. }
      rewrite <- E. apply alone. split; [exact Hz|]. constructor; [exact Ha|constructor].
Qed.
Print Assumptions C120_space_refuted.
(** and the names need not be different: one may be given to all routes of an extension *)
Theorem C120_names_refuted : forall hs nm, Forall (Forall declared_ok) hs ->
  (exists l, announces hs l) -> exists l, announces (map (map (fun r => mkDecl (d_method r) (d_path r) nm)) hs) l.
Proof.
  intros hs nm Hok (l & g & B & _).
  assert (Hok' : Forall (Forall declared_ok) (map (map (fun r => mkDecl (d_method r) (d_path r) nm)) hs)).
  { apply Forall_map. eapply Forall_impl; [|exact Hok]. intros rs Hrs. apply Forall_map. exact Hrs. }
  enough (exists g, new_action_extension (map (map to_route) (map (map (fun r => mkDecl (d_method r) (d_path r) nm)) hs)) = Ok g) as (g' & B')
    by (exists (rg_named g'), g'; auto).
  apply (C35_buildable _ Hok'). assert (N := proj1 (C35_buildable hs Hok) (ex_intro _ g B)). clear - N.
  assert (T : forall hs, map (fun x => (d_method (snd x), starred (d_path (snd x)))) (table hs) = map (fun r => (d_method r, starred (d_path r))) (concat hs)).
  { clear. intros hs. unfold table. generalize 0%nat. induction hs as [|rs hs IH]; intros i; [reflexivity|].
    cbn [length seq combine flat_map concat fst snd]. rewrite !map_app, IH, map_map. reflexivity. }
  rewrite T in *. rewrite concat_map in N |- *. rewrite map_map. erewrite map_ext; [exact N|]. intros rs. cbv beta. rewrite map_map. reflexivity.
Qed.
Print Assumptions C120_names_refuted.
Definition ex_routes : list (list declared) :=
  [[mkDecl 0 [Text (py "/hello")] (py "greet"); mkDecl 0 [Text (py "/hello/"); Hole (py "name")] (py "greet_name")];
   [mkDecl 2 [Text (py "/hello/"); Hole (py "name")] (py "rename")]].
Lemma ex_routes_ok : Forall (Forall declared_ok) ex_routes.
Proof.
  assert (T : forall x, forallb (fun c => negb ((c =? 42) || (c =? 63) || (c =? 91) || (c =? 123))) x = true -> piece_ok (Text x)).
  { intros x H c Hc. rewrite forallb_forall in H. specialize (H c Hc). apply negb_true_iff in H. rewrite !orb_false_iff, !Z.eqb_neq in H. tauto. }
  assert (N : piece_ok (Hole (py "name"))).
  { split; [discriminate|]. split; vm_compute; intros H; repeat (destruct H as [H|H]; [discriminate H|]); exact H. }
  assert (D : forall z l nm, 0 <= z < 9 -> Forall piece_ok l -> declared_ok (mkDecl z l nm)) by (intros z l nm Hz Hl; split; [apply method_range, Hz|exact Hl]).
  unfold ex_routes. apply Forall_cons; [apply Forall_cons; [|apply Forall_cons; [|apply Forall_nil]]|apply Forall_cons; [apply Forall_cons; [|apply Forall_nil]|apply Forall_nil]].
  all: apply D; [lia|]. all: apply Forall_cons; [apply T; vm_compute; reflexivity|]. all: try apply Forall_nil. all: apply Forall_cons; [exact N|apply Forall_nil].
Qed.
Example C120_case : Forall (Forall no_space) ex_routes /\
  announces ex_routes [py "GET /hello greet"; py "GET /hello/{name} greet_name"; py "PUT /hello/{name} rename"].
Proof.
  split; [|eexists; split; vm_compute; reflexivity].
  repeat constructor; unfold no_space; vm_compute; intros H; repeat (destruct H as [H|H]; [discriminate H|]); exact H.
Qed.

(** ** C121 *)
(** registering a handler with a route that is taken raises, *)
Definition C121_statement : Prop := forall g h rs g' e, register g h rs = (g', Some e) -> g' = g.
Lemma register_stops g h rs g' e : register g h rs = (g', Some e) ->
  exists rs1 r rs2, rs = rs1 ++ r :: rs2 /\ register g h rs1 = (g', None) /\ In (rkey r) (map fst (rg_map g')).
Proof.
  unfold register. revert g. induction rs as [|r rs IH]; intros g H; cbn [register_routes] in H.
  - apply pair_equal_spec in H as [_ H]. discriminate H.
  - destruct (dict_get streqb (wildcard_key (route_key r)) (rg_map g)) eqn:E.
    + apply pair_equal_spec in H as [<- _]. exists [], r, rs. split; [reflexivity|]. split; [reflexivity|].
      apply (dict_get_In streqb streqb_eq) in E. apply (in_map fst) in E. exact E.
    + destruct (IH _ H) as (rs1 & r' & rs2 & -> & A & B). exists (r :: rs1), r', rs2. split; [reflexivity|]. split; [|exact B].
      cbn [register_routes]. rewrite E. exact A.
Qed.
(** and the routes before it stay, registered and announced; nothing else changes *)
Theorem C121_partial : forall g h rs g' e, register g h rs = (g', Some e) ->
  exists before r after, rs = before ++ r :: after /\
    In (wildcard_key (route_key r)) (map fst (rg_map g) ++ map (fun r => wildcard_key (route_key r)) before) /\
    rg_map g' = rg_map g ++ map (fun r => (wildcard_key (route_key r), h)) before /\
    rg_named g' = rg_named g ++ map route_str before.
Proof.
  intros g h rs g' e H. apply register_stops in H as (a & r & b & -> & R & K). apply register_ok in R as (_ & _ & ->).
  exists a, r, b. split; [reflexivity|]. cbn [rg_map rg_named] in *. split; [|split; reflexivity].
  rewrite map_app, map_map in K. exact K.
Qed.
Print Assumptions C121_partial.
(** so the statement holds only if the very first route is taken: for every handler whose first
    routes are new the failed registration cannot be repeated without the taken route *)
Theorem C121_refuted : forall g h h' rs r, register g h rs = (fst (register g h rs), None) -> rs <> [] ->
  In (wildcard_key (route_key r)) (map fst (rg_map g)) ->
  exists g', register g h (rs ++ [r]) = (g', Some EGeneric) /\ g' <> g /\
    register g' h' rs = (g', Some EGeneric).
Proof.
  intros g h h' rs r R Hne Hr. destruct (register g h rs) as [g' e] eqn:E. cbn [fst] in R. apply pair_equal_spec in R as [_ ->]. exists g'.
  pose proof (proj1 (register_ok g h rs g') E) as (_ & _ & Eg).
  assert (Hin : forall x, In x rs \/ x = r -> In (rkey x) (map fst (rg_map g'))).
  { intros x Hx. subst g'. cbn [rg_map]. rewrite map_app, map_map, in_app_iff. cbn [fst].
    destruct Hx as [Hx| ->]; [right; apply in_map_iff; eauto|left; exact Hr]. }
  assert (D : forall x, In x rs \/ x = r -> exists n, dict_get streqb (rkey x) (rg_map g') = Some n).
  { intros x Hx. destruct (dict_get streqb (rkey x) (rg_map g')) as [n|] eqn:En; [eauto|]. apply (dict_get_None streqb streqb_eq) in En.
    destruct (En (Hin x Hx)). }
  split; [|split].
  - clear Eg Hin. unfold register in *. revert g E Hr. clear Hne. induction rs as [|x rs IH]; intros g E Hr; cbn [app register_routes] in *.
    + apply pair_equal_spec in E as [-> _]. destruct (D r (or_intror eq_refl)) as (n & En). unfold rkey in En. rewrite En. reflexivity.
    + destruct (dict_get streqb (wildcard_key (route_key x)) (rg_map g)) eqn:Ex; [apply pair_equal_spec in E as [_ E]; discriminate E|].
      apply IH; [intros y [Hy| ->]; apply D; [left; right; exact Hy|right; reflexivity]|exact E|]. cbn [rg_map].
      apply (dict_get_None streqb streqb_eq) in Ex. rewrite (dict_set_new streqb streqb_eq) by exact Ex. rewrite map_app, in_app_iff. left. exact Hr.
  - intros X. rewrite X in Eg. apply (f_equal (fun g => List.length (rg_named g))) in Eg. cbn [rg_named] in Eg. rewrite app_length, map_length in Eg.
    destruct rs; [congruence|]. cbn [List.length] in Eg. lia.
  - destruct rs as [|x rs]; [congruence|]. unfold register. cbn [register_routes]. destruct (D x (or_introl (or_introl eq_refl))) as (n & En).
    unfold rkey in En. rewrite En. reflexivity.
Qed.
Print Assumptions C121_refuted.
Example C121_case : ~ C121_statement /\
  exists g', register (mkReg [(py "GET /a", 0%nat)] [py "GET /a a"]) 1 [mkRoute 0 (py "/b") (py "b"); mkRoute 0 (py "/a") (py "c")] = (g', Some EGeneric) /\
    rg_named g' = [py "GET /a a"; py "GET /b b"].
Proof.
  split; [|eexists; split; vm_compute; reflexivity].
  intros S. specialize (S (mkReg [(py "GET /a", 0%nat)] [py "GET /a a"]) 1%nat [mkRoute 0 (py "/b") (py "b"); mkRoute 0 (py "/a") (py "c")] _ EGeneric eq_refl).
  vm_compute in S. discriminate S.
Qed.

(** ** C122 *)
(** the same handlers in another order treat every request alike *)
Definition C122_statement : Prop := forall cls hs hs' z path n rs n' rs', Forall (Forall declared_ok) hs -> Permutation hs hs' ->
  goes_to cls hs z path n rs -> goes_to cls hs' z path n' rs' -> rs = rs'.
Lemma table_nth hs n r : In (n, r) (table hs) <-> exists rs, nth_error hs n = Some rs /\ In r rs.
Proof.
  assert (G : forall hs i, In (n, r) (flat_map (fun x : nat * list declared => map (fun r => (fst x, r)) (snd x)) (combine (seq i (List.length hs)) hs)) <->
    exists k rs, n = (i + k)%nat /\ nth_error hs k = Some rs /\ In r rs).
  { clear hs. induction hs as [|rs hs IH]; intros i; cbn [List.length seq combine flat_map fst snd].
    - split; [intros []|]. intros (k & rs & _ & H & _). destruct k; discriminate H.
    - rewrite in_app_iff, IH. split.
      + intros [H|(k & rs' & -> & H & K)].
        * apply in_map_iff in H as (r' & E & H). apply pair_equal_spec in E as [<- ->]. exists 0%nat, rs. split; [lia|]. split; [reflexivity|exact H].
        * exists (S k), rs'. split; [lia|]. split; [exact H|exact K].
      + intros ([|k] & rs' & -> & H & K).
        * injection H as ->. left. apply in_map_iff. exists r. split; [f_equal; lia|exact K].
        * right. exists k, rs'. split; [lia|]. split; [exact H|exact K]. }
  unfold table. rewrite G. split.
  - intros (k & rs & -> & H). exists rs. exact H.
  - intros (rs & H). exists n, rs. split; [reflexivity|exact H].
Qed.
Lemma goes_meant cls hs z path n rs : Forall (Forall declared_ok) hs -> goes_to cls hs z path n rs ->
  NoDup (map (fun x => (d_method (snd x), starred (d_path (snd x)))) (table hs)) /\ meant_for (table hs) z path n.
Proof.
  intros Hok (g & nm & B & Hm & F & _). assert (N := proj1 (C35_buildable hs Hok) (ex_intro _ g B)). split; [exact N|].
  assert (Rz : 0 <= z < 9) by (apply method_range; apply (in_map fst) in Hm; exact Hm).
  assert (nm = mname z) as ->.
  { assert (X : forall z nm, In (z, nm) rest_methods -> nm = mname z).
    { clear. intros z nm H. cbn [rest_methods In] in H. repeat (destruct H as [H|H]; [apply pair_equal_spec in H as [<- <-]; vm_compute; reflexivity|]). destruct H. }
    apply X, Hm. }
  destruct (find_meant cls hs g z path Hok B Rz) as [F1 F2]. destruct (C42_one_handler hs z path Hok N) as [_ [(n' & M)|Z0]].
  - pose proof (F1 _ M) as F3. rewrite F in F3. apply Ok_inj in F3. subst n'. exact M.
  - rewrite (F2 Z0) in F. discriminate F.
Qed.
Lemma same_position hs n r m r' : NoDup (map (fun x => (d_method (snd x), starred (d_path (snd x)))) (table hs)) ->
  In (n, r) (table hs) -> In (m, r') (table hs) -> d_method r = d_method r' -> starred (d_path r) = starred (d_path r') -> n = m.
Proof.
  intros N I1 I2 E1 E2. induction (table hs) as [|x t IH]; [destruct I1|]. cbn [map] in N. apply NoDup_cons_iff in N as [N0 N].
  destruct I1 as [->|I1], I2 as [I2|I2].
  - apply pair_equal_spec in I2. tauto.
  - destruct N0. apply in_map_iff. exists (m, r'). split; [cbn [snd]; rewrite E1, E2; reflexivity|exact I2].
  - subst x. destruct N0. apply in_map_iff. exists (n, r). split; [cbn [snd]; rewrite E1, E2; reflexivity|exact I1].
  - apply IH; assumption.
Qed.
(** true of requests that name a route literally, and of those that only one handler serves *)
Theorem C122_partial : forall cls hs hs' z path n rs n' rs', Forall (Forall declared_ok) hs -> Permutation hs hs' ->
  goes_to cls hs z path n rs -> goes_to cls hs' z path n' rs' ->
  (exists x, In x (table hs) /\ names z path (snd x)) \/
  (forall x y, In x (table hs) -> In y (table hs) -> serves z path (snd x) -> serves z path (snd y) -> fst x = fst y) ->
  rs = rs'.
Proof.
  intros cls hs hs' z path n rs n' rs' Hok P G G' C.
  assert (Hok' : Forall (Forall declared_ok) hs') by (eapply Permutation_Forall; eassumption).
  destruct (goes_meant _ _ _ _ _ _ Hok G) as (N & M). destruct (goes_meant _ _ _ _ _ _ Hok' G') as (N' & M').
  destruct G as (_ & _ & _ & _ & _ & E), G' as (_ & _ & _ & _ & _ & E').
  assert (SN : forall r, names z path r -> serves z path r).
  { intros r (A & <-). split; [exact A|apply fills_pattern]. }
  assert (Mv : forall m r, In (m, r) (table hs') -> exists k rs, In (k, r) (table hs) /\ nth_error hs k = Some rs /\ nth_error hs' m = Some rs).
  { intros m r H. apply table_nth in H as (rs0 & H & K). pose proof (nth_error_In _ _ H) as Hi. apply (Permutation_in _ (Permutation_sym P)) in Hi.
    apply In_nth_error in Hi as (k & Hk). exists k, rs0. split; [apply table_nth; eauto|]. split; [exact Hk|exact H]. }
  assert (Fin : forall m r, In (m, r) (table hs') -> m = n' -> (forall k, In (k, r) (table hs) -> k = n) -> rs = rs').
  { intros m r H -> U. destruct (Mv _ _ H) as (k & rs0 & I & Hk & Hm). rewrite (U k I) in Hk. congruence. }
  destruct M' as [(r' & I' & Nm')|(NN' & t1 & r' & t2 & Et & Sv' & _)].
  - assert (exists r, In (n, r) (table hs) /\ names z path r) as (r & I & Nm).
    { destruct M as [X|(NN & _)]; [exact X|]. destruct (Mv _ _ I') as (k & rs0 & I & _). destruct (NN _ I Nm'). }
    apply (Fin n' r' I' eq_refl). intros k Ik. apply (same_position hs k r' n r N Ik I); destruct Nm, Nm'; congruence.
  - assert (I' : In (n', r') (table hs')) by (rewrite Et; apply in_or_app; right; left; reflexivity).
    apply (Fin n' r' I' eq_refl). intros k Ik.
    assert (S1 : exists r, In (n, r) (table hs) /\ serves z path r).
    { destruct M as [(r & I & Nm)|(_ & u1 & r & u2 & Eu & Sv & _)]; exists r; [auto|]. split; [rewrite Eu; apply in_or_app; right; left; reflexivity|exact Sv]. }
    destruct S1 as (r & I & Sv). destruct C as [(x & Ix & Nx)|C].
    + exfalso. destruct x as [j rx]. cbn [snd] in Nx. apply table_nth in Ix as (rs0 & Hj & Hr). pose proof (nth_error_In _ _ Hj) as Hi.
      apply (Permutation_in _ P) in Hi. apply In_nth_error in Hi as (k' & Hk'). apply (NN' (k', rx)); [apply table_nth; eauto|exact Nx].
    + exact (C (k, r') (n, r) Ik I Sv' Sv).
Qed.
Print Assumptions C122_partial.
(** of no others: if two routes serve a request and neither names it, it goes to the handler
    that comes first *)
Theorem C122_refuted : forall cls r1 r2 z path, declared_ok r1 -> declared_ok r2 -> starred (d_path r1) <> starred (d_path r2) ->
  serves z path r1 -> serves z path r2 -> ~ names z path r1 -> ~ names z path r2 ->
  goes_to cls [[r1]; [r2]] z path 0 [r1] /\ goes_to cls [[r2]; [r1]] z path 0 [r2].
Proof.
  assert (G : forall cls r1 r2 z path, declared_ok r1 -> declared_ok r2 -> starred (d_path r1) <> starred (d_path r2) ->
    serves z path r1 -> ~ names z path r1 -> ~ names z path r2 -> goes_to cls [[r1]; [r2]] z path 0 [r1]).
  { intros cls r1 r2 z path O1 O2 D S1 N1 N2.
    assert (Hok : Forall (Forall declared_ok) [[r1]; [r2]]) by (apply Forall_cons; [|apply Forall_cons; [|apply Forall_nil]]; (apply Forall_cons; [assumption|apply Forall_nil])).
    assert (B : exists g, new_action_extension (map (map to_route) [[r1]; [r2]]) = Ok g).
    { apply (C35_buildable _ Hok). cbn [table List.length seq combine flat_map map app fst snd]. constructor; [|constructor; [intros []|constructor]].
      intros [E|[]]. apply pair_equal_spec in E as [_ E]. congruence. }
    destruct B as (g & B). assert (Rz : 0 <= z < 9) by (apply method_range; destruct S1 as [<- _]; apply O1).
    exists g, (mname z). split; [exact B|]. split; [apply method_in, Rz|]. split; [|reflexivity].
    apply (find_meant cls _ g z path Hok B Rz). right. split.
    - intros x H. cbn [table List.length seq combine flat_map map app fst snd In] in H. destruct H as [<-|[<-|[]]]; assumption.
    - exists [], r1, [(1%nat, r2)]. split; [reflexivity|]. split; [exact S1|]. intros x []. }
  intros cls r1 r2 z path O1 O2 D S1 S2 N1 N2. split; apply G; auto.
Qed.
Print Assumptions C122_refuted.
(** so a route behind a more general one is never served but under its own name *)
Example C122_case :
  let general := mkDecl 0 [Text (py "/hello/"); Hole (py "name")] (py "a") in
  let special := mkDecl 0 [Text (py "/hello/"); Hole (py "name"); Text (py "/bye")] (py "b") in
  forall cls, goes_to cls [[general]; [special]] 0 (py "/hello/world/bye") 0 [general] /\
    goes_to cls [[special]; [general]] 0 (py "/hello/world/bye") 0 [special] /\ ~ C122_statement.
Proof.
  intros general special cls.
  assert (T : forall x, forallb (fun c => negb ((c =? 42) || (c =? 63) || (c =? 91) || (c =? 123))) x = true -> piece_ok (Text x)).
  { intros x H c Hc. rewrite forallb_forall in H. specialize (H c Hc). apply negb_true_iff in H. rewrite !orb_false_iff, !Z.eqb_neq in H. tauto. }
  assert (N : piece_ok (Hole (py "name"))).
  { split; [discriminate|]. split; vm_compute; intros H; repeat (destruct H as [H|H]; [discriminate H|]); exact H. }
  assert (O1 : declared_ok general) by (split; [apply method_range; vm_compute; split; [discriminate|reflexivity]|];
    apply Forall_cons; [apply T; vm_compute; reflexivity|apply Forall_cons; [exact N|apply Forall_nil]]).
  assert (O2 : declared_ok special) by (split; [apply method_range; vm_compute; split; [discriminate|reflexivity]|];
    apply Forall_cons; [apply T; vm_compute; reflexivity|apply Forall_cons; [exact N|apply Forall_cons; [apply T; vm_compute; reflexivity|apply Forall_nil]]]).
  assert (A : forall cls, goes_to cls [[general]; [special]] 0 (py "/hello/world/bye") 0 [general] /\ goes_to cls [[special]; [general]] 0 (py "/hello/world/bye") 0 [special]).
  { intros cls0. apply C122_refuted; [exact O1|exact O2| | | | |].
    - vm_compute. discriminate.
    - split; [reflexivity|]. change (py "/hello/world/bye") with (py "/hello/" ++ py "world/bye" ++ []). constructor. constructor; [exact I|constructor].
    - split; [reflexivity|]. change (py "/hello/world/bye") with (py "/hello/" ++ py "world" ++ py "/bye" ++ []). constructor. constructor; [exact I|]. constructor. constructor.
    - intros [_ E]. vm_compute in E. discriminate E.
    - intros [_ E]. vm_compute in E. discriminate E. }
  split; [apply A|]. split; [apply A|]. intros S.
  assert (Hok : Forall (Forall declared_ok) [[general]; [special]]) by (apply Forall_cons; [|apply Forall_cons; [|apply Forall_nil]]; (apply Forall_cons; [assumption|apply Forall_nil])).
  specialize (S cls _ _ _ _ _ _ _ _ Hok (perm_swap [special] [general] []) (proj1 (A cls)) (proj2 (A cls))). vm_compute in S. discriminate S.
Qed.
