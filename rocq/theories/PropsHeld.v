(** * C126: what a program does to one node or request shows in no other *)
From Coq Require Import String ZArith List Bool Lia Permutation.
From Coq Require Import Strings.Byte.
From Verif Require Import Py Stream Version Frame Proto Messages Rest Routes Settings Host Spec PyFacts StreamFacts StreamFacts2 SpecFacts MsgFacts HostFacts Held.
Import ListNotations.
Open Scope list_scope.
Open Scope Z_scope.

(** ** Specification *)

(** what the maker of an object was given for attribute [k]; None: it makes no object with it *)
Definition gives (o : act) (k : kind) : option (given box) :=
  match o, k with
  | MakeNode _ _ _ _ _ _ _ a _ _, KAttrs => Some (as_box Attrs a)
  | MakeNode _ _ _ _ _ _ _ _ r _, KRoles => Some (as_box Roles r)
  | MakeExtNode _ _ _ _ a _ _ _, KAttrs => Some (as_box Attrs a)
  | MakeExtNode _ _ _ _ _ _ _ _, KRoles => Some Default
  | MakeExtNode _ _ _ _ _ _ _ d, KDeps => Some (as_box Deps d)
  | ReadNode n, KAttrs => Some (Own (Attrs (n_attrs n)))
  | ReadNode n, KRoles => Some (Own (Roles (n_roles n)))
  | ReadExtNode x, KAttrs => Some (Own (Attrs (n_attrs (x_node x))))
  | ReadExtNode x, KRoles => Some (Own (Roles (n_roles (x_node x))))
  | ReadExtNode x, KDeps => Some (Own (Deps (x_deps x)))
  | MakeRequest t, KTask => Some (as_box Task t)
  | ReadRequest t, KTask => Some (Own (Task t))
  | _, _ => None
  end.
(** the class that has the default *)
Definition of_ext_node (o : act) : bool := match o with MakeExtNode _ _ _ _ _ _ _ _ => true | _ => false end.
(** which object and attribute an operation works on *)
Definition target (o : act) : option (nat * kind) :=
  match o with
  | SetAttribute i _ _ => Some (i, KAttrs)
  | AddRole i _ => Some (i, KRoles)
  | AddDependency i _ => Some (i, KDeps)
  | SetTask i _ => Some (i, KTask)
  | _ => None
  end.
(** what it does to the container *)
Definition does (o : act) (b : box) : box :=
  match o, b with
  | SetAttribute _ k v, Attrs d => Attrs (dict_set streqb k v d)
  | AddRole _ r, Roles s => Roles (role_add s r)
  | AddDependency _ d, Deps l => Deps (l ++ [d])
  | SetTask _ t, Task _ => Task t
  | _, b => b
  end.
(** only operations on attribute [k] of object [i] count *)
Definition kind_eqb (a b : kind) : bool :=
  match a, b with KAttrs, KAttrs | KRoles, KRoles | KDeps, KDeps | KTask, KTask => true | _, _ => false end.
Definition counts (i : nat) (k : kind) (o : act) : bool :=
  match target o with Some (j, k') => Nat.eqb j i && kind_eqb k' k | None => false end.
Definition after_own (i : nat) (k : kind) (b : box) (os : list act) : box := fold_left (fun b o => does o b) (filter (counts i k) os) b.

(** object [i] of the program [os] was made by [o], with [after] following *)
Definition made_by (os : list act) (i : nat) (o : act) (after : list act) : Prop :=
  exists before, os = before ++ o :: after /\ i = List.length (things (act_run new_store before)) /\
    List.length (things (act_run new_store (before ++ [o]))) = S i.

(** an object whose containers are all its own *)
Definition all_own (o : act) : Prop :=
  target o = None /\ forall k, match gives o k with Some (Own _) | None => True | _ => False end.
(** the operations on object [i], for a process where it is the only one *)
Definition aimed_at (i : nat) (o : act) : bool := match target o with Some (j, _) => Nat.eqb j i | None => false end.
Definition to_first (o : act) : act :=
  match o with
  | SetAttribute _ k v => SetAttribute 0 k v
  | AddRole _ r => AddRole 0 r
  | AddDependency _ d => AddDependency 0 d
  | SetTask _ t => SetTask 0 t
  | o => o
  end.

(** What we would like: an operation on one object changes no other. *)
Definition C126_statement : Prop :=
  forall os o i j k, target o = Some (j, k) -> i <> j ->
    written (act_run new_store (os ++ [o])) i = written (act_run new_store os) i.

(** ** Facts *)
Lemma put_length {A} n (x : A) l : List.length (put n x l) = List.length l.
Proof. revert n. induction l as [|y l IH]; intros [|n]; cbn; congruence. Qed.
Lemma put_same {A} n (x : A) l : (n < List.length l)%nat -> nth_error (put n x l) n = Some x.
Proof. revert n. induction l as [|y l IH]; intros [|n] H; cbn in *; try lia; [reflexivity|]. apply IH. lia. Qed.
Lemma put_other {A} n m (x : A) l : n <> m -> nth_error (put n x l) m = nth_error l m.
Proof. revert n m. induction l as [|y l IH]; intros [|n] [|m] H; cbn; try reflexivity; try congruence. apply IH. congruence. Qed.
Lemma nth_in {A} (l : list A) n y : nth_error l n = Some y -> (n < List.length l)%nat.
Proof. intros H. apply nth_error_Some. congruence. Qed.
Lemma nth_left {A} (l e : list A) n y : nth_error l n = Some y -> nth_error (l ++ e) n = Some y.
Proof. intros H. rewrite nth_error_app1; [exact H|]. eapply nth_in; exact H. Qed.
Lemma nth_snoc {A} (l : list A) x n y : nth_error (l ++ [x]) n = Some y -> nth_error l n = Some y \/ (n = List.length l /\ y = x).
Proof.
  intros H. destruct (Nat.lt_ge_cases n (List.length l)) as [L|G].
  - rewrite nth_error_app1 in H by exact L. now left.
  - right. rewrite nth_error_app2 in H by exact G. destruct (n - List.length l)%nat eqn:E.
    + cbn in H. split; [lia|congruence].
    + cbn in H. destruct n0; discriminate H.
Qed.
Lemma nth_at {A} (l : list A) x e : nth_error (l ++ x :: e) (List.length l) = Some x.
Proof. rewrite nth_error_app2 by lia. now rewrite Nat.sub_diag. Qed.

Definition small (n0 : nat) (g : option (nat * given box)) : Prop := match g with Some (d, _) => (d < n0)%nat | None => True end.
Definition bounded (n0 : nat) (ts : list thing) : Prop :=
  forall j t k r, nth_error ts j = Some t -> ref_of k t = Some r -> (r < n0)%nat.
Record wf (h : store) : Prop := mkWf { wf_five : (5 <= List.length (boxes h))%nat; wf_refs : bounded (List.length (boxes h)) (things h) }.

(** what [ro] is then, for the argument [g] *)
Definition resolved (n0 : nat) (ts : list thing) (k : kind) (g : option (nat * given box)) (bs ext : list box) (ro : option nat) : Prop :=
  match g with
  | None => ro = None
  | Some (d, Default) => ro = Some d
  | Some (_, Own b) => ro = Some (List.length bs) /\ ext = [b]
  | Some (_, Of i) => exists t0 r, nth_error ts i = Some t0 /\ ref_of k t0 = Some r /\ ro = Some r
  end.
Lemma resolve_spec n0 ts k g bs bs' ro : resolve ts k g bs = Some (bs', ro) ->
  exists ext, bs' = bs ++ ext /\ resolved n0 ts k g bs ext ro.
Proof.
  intros R. destruct g as [[d [|b|i]]|]; cbn in R |- *.
  - injection R as <- <-. exists []. now rewrite app_nil_r.
  - injection R as <- <-. now exists [b].
  - destruct (nth_error ts i) as [t|] eqn:T; [|discriminate R]. destruct (ref_of k t) as [r|] eqn:F; [|discriminate R].
    injection R as <- <-. exists []. rewrite app_nil_r. split; [reflexivity|]. exists t, r. auto.
  - injection R as <- <-. exists []. now rewrite app_nil_r.
Qed.

(** what an object holds in attribute [k], for the argument [g] *)
Definition got (h : store) (ext : list box) (t : thing) (k : kind) (g : option (nat * given box)) : Prop :=
  match g with
  | None => ref_of k t = None
  | Some (d, Default) => ref_of k t = Some d
  | Some (_, Own b) => exists r, ref_of k t = Some r /\ (List.length (boxes h) <= r)%nat /\ nth_error (boxes h ++ ext) r = Some b /\
      (forall k', ref_of k' t = Some r -> k' = k)
  | Some (_, Of i) => exists t0 r, nth_error (things h) i = Some t0 /\ ref_of k t0 = Some r /\ ref_of k t = Some r
  end.
Definition pick {A} (k : kind) (a r d t : A) : A := match k with KAttrs => a | KRoles => r | KDeps => d | KTask => t end.

Lemma make_spec h f ga gr gd gt : wf h -> small 5 ga -> small 5 gr -> small 5 gd -> small 5 gt ->
  make h f ga gr gd gt = h \/
  exists ext t, make h f ga gr gd gt = mkStore (boxes h ++ ext) (things h ++ [t]) /\ th_fields t = f /\
    forall k, got h ext t k (pick k ga gr gd gt).
Proof.
  intros [W5 WR] Sa Sr Sd St. unfold make.
  destruct (resolve (things h) KAttrs ga (boxes h)) as [[b1 a]|] eqn:E1; [|now left].
  destruct (resolve (things h) KRoles gr b1) as [[b2 r]|] eqn:E2; [|now left].
  destruct (resolve (things h) KDeps gd b2) as [[b3 d]|] eqn:E3; [|now left].
  destruct (resolve (things h) KTask gt b3) as [[b4 t]|] eqn:E4; [|now left].
  right. set (n0 := List.length (boxes h)) in *.
  apply (resolve_spec n0) in E1, E2, E3, E4.
  destruct E1 as (x1 & -> & R1). destruct E2 as (x2 & -> & R2). destruct E3 as (x3 & -> & R3). destruct E4 as (x4 & -> & R4).
  exists (x1 ++ x2 ++ x3 ++ x4), (mkThing f a r d t). split; [now rewrite <- !app_assoc|]. split; [reflexivity|].
  assert (P : forall k g bs ext ro, resolved n0 (things h) k g bs ext ro -> small 5 g ->
    (ro = None) \/ (exists x, ro = Some x /\ (x < n0)%nat) \/ (exists b, ro = Some (List.length bs) /\ ext = [b])).
  { intros k g bs ext ro R S. destruct g as [[d' [|b|i]]|]; cbn in R, S; auto.
    - right. left. exists d'. split; [exact R|lia].
    - right. right. exists b. exact R.
    - right. left. destruct R as (t0 & q & T & F & ->). exists q. split; [reflexivity|]. eapply WR; eauto. }
  pose proof (P _ _ _ _ _ R1 Sa) as P1. pose proof (P _ _ _ _ _ R2 Sr) as P2. pose proof (P _ _ _ _ _ R3 Sd) as P3. pose proof (P _ _ _ _ _ R4 St) as P4.
  clear P. rewrite !app_length in *. fold n0 in P1, P2, P3, P4.
  assert (U : forall k k' x, ref_of k (mkThing f a r d t) = Some x -> ref_of k' (mkThing f a r d t) = Some x -> (n0 <= x)%nat -> k' = k).
  { intros k k' x X X' L. destruct k, k'; try reflexivity; exfalso; cbn in X, X'; subst;
    repeat match goal with
    | P : _ \/ _ |- _ => destruct P as [P|P]
    | P : exists _, _ |- _ => destruct P as (? & ? & ?)
    | P : Some _ = None |- _ => discriminate P
    | P : Some _ = Some _ |- _ => injection P as P
    end; subst; cbn [List.length] in *; try lia. }
  assert (V : forall k g bs pre ext suf ro, resolved n0 (things h) k g bs ext ro -> ref_of k (mkThing f a r d t) = ro ->
    bs = boxes h ++ pre -> x1 ++ x2 ++ x3 ++ x4 = pre ++ ext ++ suf -> got h (x1 ++ x2 ++ x3 ++ x4) (mkThing f a r d t) k g).
  { intros k g bs pre ext suf ro R Q -> X. destruct g as [[d' [|b|i]]|]; cbn in R |- *; try (rewrite Q; exact R).
    destruct R as (-> & ->). eexists. split; [exact Q|]. split; [rewrite app_length; lia|]. split.
      + rewrite X. replace (boxes h ++ pre ++ [b] ++ suf) with ((boxes h ++ pre) ++ b :: suf) by (rewrite <- app_assoc; reflexivity). apply nth_at.
      + intros k' X'. apply (U k k' _ Q X'). rewrite app_length. unfold n0. lia. }
  intros k. destruct k; cbn [pick].
  - apply (V KAttrs ga (boxes h) [] x1 (x2 ++ x3 ++ x4) a R1); [reflexivity|now rewrite app_nil_r|reflexivity].
  - apply (V KRoles gr _ x1 x2 (x3 ++ x4) r R2); reflexivity.
  - apply (V KDeps gd _ (x1 ++ x2) x3 x4 d R3); [reflexivity|now rewrite app_assoc|now rewrite <- !app_assoc].
  - apply (V KTask gt _ (x1 ++ x2 ++ x3) x4 [] t R4); [reflexivity|now rewrite <- !app_assoc|now rewrite app_nil_r, <- !app_assoc].
Qed.

(** every operation makes an object, or changes one container, or does nothing *)
Definition default_no (o : act) (k : kind) : nat :=
  match k with KAttrs => if of_ext_node o then D_EXT_ATTRS else D_ATTRS | KRoles => D_ROLES | KDeps => D_DEPS | KTask => D_TASK end.
Definition arg (d : nat) (g : option (given box)) : option (nat * given box) := match g with Some g => Some (d, g) | None => None end.
Definition fields_of (o : act) : fields :=
  match o with
  | MakeNode uuid name id eph host ha addr _ _ v => FNode (new_node uuid name id eph host ha addr [] [] v)
  | MakeExtNode uuid name id addr _ v m _ =>
      FExt (new_node uuid name id None None None addr [] [] (Some (match v with Some v => v | None => version_of_id 0 end)))
        (match m with Some m => m | None => version_of_id 0 end)
  | ReadNode n => FNode n
  | ReadExtNode x => FExt (x_node x) (x_min x)
  | _ => FRequest
  end.
Lemma step_spec h o : wf h ->
  (exists i k f, target o = Some (i, k) /\ (forall b, f b = does o b) /\ act_step h o = change h i k f) \/
  (target o = None /\ (act_step h o = h \/
   exists ext t, act_step h o = mkStore (boxes h ++ ext) (things h ++ [t]) /\ th_fields t = fields_of o /\
    forall k, match gives o k with
              | None => ref_of k t = None
              | Some Default => ref_of k t = Some (default_no o k)
              | Some (Own b) => exists r, ref_of k t = Some r /\ (List.length (boxes h) <= r)%nat /\ nth_error (boxes h ++ ext) r = Some b /\
                  (forall k', ref_of k' t = Some r -> k' = k)
              | Some (Of i) => exists t0 r, nth_error (things h) i = Some t0 /\ ref_of k t0 = Some r /\ ref_of k t = Some r
              end)).
Proof.
  intros W.
  assert (M : forall f ga gr gd gt, target o = None -> f = fields_of o -> act_step h o = make h f ga gr gd gt ->
    (forall k, match pick k ga gr gd gt with Some (d, g) => (d < 5)%nat /\ gives o k = Some g /\
        (g = Default -> d = default_no o k)
      | None => gives o k = None end) ->
    target o = None /\ (act_step h o = h \/
     exists ext t, act_step h o = mkStore (boxes h ++ ext) (things h ++ [t]) /\ th_fields t = fields_of o /\
      forall k, match gives o k with
              | None => ref_of k t = None
              | Some Default => ref_of k t = Some (default_no o k)
              | Some (Own b) => exists r, ref_of k t = Some r /\ (List.length (boxes h) <= r)%nat /\ nth_error (boxes h ++ ext) r = Some b /\
                  (forall k', ref_of k' t = Some r -> k' = k)
              | Some (Of i) => exists t0 r, nth_error (things h) i = Some t0 /\ ref_of k t0 = Some r /\ ref_of k t = Some r
              end)).
  { intros f ga gr gd gt T Ff A G. split; [exact T|]. rewrite A.
    assert (S : forall k, small 5 (pick k ga gr gd gt)).
    { intros k. specialize (G k). destruct (pick k ga gr gd gt) as [[d g]|]; cbn; [exact (proj1 G)|exact I]. }
    destruct (make_spec h f ga gr gd gt W (S KAttrs) (S KRoles) (S KDeps) (S KTask)) as [E|(ext & t & E & Et & Q)]; [now left|right].
    exists ext, t. split; [exact E|]. split; [congruence|]. intros k. specialize (Q k). specialize (G k). destruct (pick k ga gr gd gt) as [[d g]|].
    - destruct G as (L & -> & D). destruct g as [|b|i]; cbn in Q; [|exact Q|exact Q]. rewrite <- (D eq_refl). exact Q.
    - rewrite G. exact Q. }
  destruct o as [uuid name id eph host ha addr a r v|uuid name id addr a v m d|n|x|t|t|i k v|i r|i d|i t].
  - right. eapply M; [reflexivity|reflexivity|reflexivity|]. intros k; destruct k; cbn [pick gives].
    + split; [unfold D_ATTRS; lia|]. split; reflexivity.
    + split; [unfold D_ROLES; lia|]. split; reflexivity.
    + reflexivity.
    + reflexivity.
  - right. eapply M; [reflexivity|reflexivity|reflexivity|]. intros k; destruct k; cbn [pick gives].
    + split; [unfold D_EXT_ATTRS; lia|]. split; reflexivity.
    + split; [unfold D_ROLES; lia|]. split; reflexivity.
    + split; [unfold D_DEPS; lia|]. split; reflexivity.
    + reflexivity.
  - right. eapply M; [reflexivity|reflexivity|reflexivity|]. intros k; destruct k; cbn [pick gives]; try reflexivity;
      (split; [unfold D_ATTRS, D_ROLES; lia|]; split; [reflexivity|discriminate]).
  - right. eapply M; [reflexivity|reflexivity|reflexivity|]. intros k; destruct k; cbn [pick gives]; try reflexivity;
      (split; [unfold D_EXT_ATTRS, D_ROLES, D_DEPS; lia|]; split; [reflexivity|discriminate]).
  - right. eapply M; [reflexivity|reflexivity|reflexivity|]. intros k; destruct k; cbn [pick gives]; try reflexivity.
    split; [unfold D_TASK; lia|]. split; reflexivity.
  - right. eapply M; [reflexivity|reflexivity|reflexivity|]. intros k; destruct k; cbn [pick gives]; try reflexivity;
      (split; [unfold D_TASK; lia|]; split; [reflexivity|discriminate]).
  - left. do 3 eexists. split; [reflexivity|]. split; [|reflexivity]. intros b; destruct b; reflexivity.
  - left. do 3 eexists. split; [reflexivity|]. split; [|reflexivity]. intros b; destruct b; reflexivity.
  - left. do 3 eexists. split; [reflexivity|]. split; [|reflexivity]. intros b; destruct b; reflexivity.
  - left. do 3 eexists. split; [reflexivity|]. split; [|reflexivity]. intros b; destruct b; reflexivity.
Qed.

Lemma default_small o k : (default_no o k < 5)%nat.
Proof. destruct k; cbn; unfold D_ATTRS, D_EXT_ATTRS, D_ROLES, D_DEPS, D_TASK; try lia. destruct (of_ext_node o); lia. Qed.
Lemma change_spec h i k f : change h i k f = h \/
  exists t r b, nth_error (things h) i = Some t /\ ref_of k t = Some r /\ nth_error (boxes h) r = Some b /\
    change h i k f = mkStore (put r (f b) (boxes h)) (things h).
Proof.
  unfold change. destruct (nth_error (things h) i) as [t|] eqn:T; [|now left]. destruct (ref_of k t) as [r|] eqn:R; [|now left].
  destruct (nth_error (boxes h) r) as [b|] eqn:B; [|now left]. right. exists t, r, b. auto.
Qed.
Lemma wf_step h o : wf h -> wf (act_step h o).
Proof.
  intros W. pose proof W as [W5 WR]. destruct (step_spec h o W) as [(i & k & f & _ & _ & ->)|(_ & [->|(ext & t & -> & _ & G)])]; [|exact W|].
  - destruct (change_spec h i k f) as [->|(t & r & b & T & R & B & ->)]; [exact W|]. constructor; cbn [boxes things]; rewrite put_length; assumption.
  - constructor; cbn [boxes things]; rewrite app_length; [lia|]. intros j t' k r T R. apply nth_snoc in T as [T|(-> & ->)].
    + specialize (WR j t' k r T R). lia.
    + specialize (G k). destruct (gives o k) as [[|b|i]|].
      * rewrite G in R. injection R as <-. pose proof (default_small o k). lia.
      * destruct G as (q & Q & _ & N & _). rewrite Q in R. injection R as <-. apply nth_in in N. now rewrite app_length in N.
      * destruct G as (t0 & q & T0 & Q0 & Q). rewrite Q in R. injection R as <-. specialize (WR i t0 k q T0 Q0). lia.
      * congruence.
Qed.
Lemma wf_run os : wf (act_run new_store os).
Proof.
  unfold act_run. rewrite <- (rev_involutive os). induction (rev os) as [|o l IH]; cbn [rev].
  - constructor; cbn; [lia|]. intros j t k r T. destruct j; discriminate T.
  - rewrite fold_left_app. cbn [fold_left]. now apply wf_step.
Qed.
Lemma run_snoc os o : act_run new_store (os ++ [o]) = act_step (act_run new_store os) o.
Proof. unfold act_run. now rewrite fold_left_app. Qed.
Lemma run_app h a b : act_run h (a ++ b) = act_run (act_run h a) b.
Proof. unfold act_run. now rewrite fold_left_app. Qed.
Lemma thing_kept h o i t : wf h -> nth_error (things h) i = Some t -> nth_error (things (act_step h o)) i = Some t.
Proof.
  intros W T. destruct (step_spec h o W) as [(j & k & f & _ & _ & ->)|(_ & [->|(ext & t' & -> & _ & G)])]; [|exact T|].
  - destruct (change_spec h j k f) as [->|(t' & r & b & _ & _ & _ & ->)]; exact T.
  - now apply nth_left.
Qed.
Lemma thing_kept_run os : forall h i t, wf h -> nth_error (things h) i = Some t -> nth_error (things (act_run h os)) i = Some t.
Proof.
  induction os as [|o os IH]; intros h i t W T; [exact T|]. cbn [act_run fold_left]. apply (IH (act_step h o)); [now apply wf_step|now apply thing_kept].
Qed.

(** object [i] alone holds the container, in attribute [k] *)
Definition mine (h : store) (i : nat) (k : kind) (b : box) : Prop :=
  exists t r, nth_error (things h) i = Some t /\ ref_of k t = Some r /\ nth_error (boxes h) r = Some b /\ (5 <= r)%nat /\
    forall j t' k', nth_error (things h) j = Some t' -> ref_of k' t' = Some r -> j = i /\ k' = k.
Lemma mine_held h i k b : mine h i k b -> held_by h i k = Some b.
Proof. intros (t & r & T & R & B & _). unfold held_by. now rewrite T, R. Qed.
Lemma kind_eqb_eq a b : kind_eqb a b = true <-> a = b.
Proof. destruct a, b; cbn; split; congruence. Qed.
Lemma counts_spec i k o j k' : target o = Some (j, k') -> (counts i k o = true <-> j = i /\ k' = k).
Proof. intros T. unfold counts. rewrite T, andb_true_iff, Nat.eqb_eq, kind_eqb_eq. tauto. Qed.

Lemma mine_step h i k b o : wf h -> mine h i k b -> gives o k <> Some (Of i) ->
  mine (act_step h o) i k (if counts i k o then does o b else b).
Proof.
  intros W (t & r & T & R & B & L & U) N. pose proof W as [W5 WR].
  destruct (step_spec h o W) as [(j & k' & f & A & D & ->)|(A & X)].
  - destruct (change_spec h j k' f) as [E|(t' & r' & b' & T' & R' & B' & ->)].
    + rewrite E. assert (M : mine h i k b) by (exists t, r; auto). destruct (counts i k o) eqn:C; [|exact M].
      apply (counts_spec i k o j k' A) in C as (-> & ->). unfold change in E. rewrite T, R, B in E.
      assert (Q : nth_error (put r (f b) (boxes h)) r = Some b) by (rewrite <- B; f_equal; exact (f_equal boxes E)).
      rewrite put_same in Q by (apply nth_in in B; exact B). injection Q as Q. rewrite <- D, Q. exact M.
    + destruct (Nat.eq_dec r' r) as [->|Nr].
      * destruct (U j t' k' T' R') as (-> & ->). rewrite (proj2 (counts_spec i k o i k A)) by auto.
        exists t, r. cbn [boxes things]. rewrite B in B'. injection B' as <-. rewrite put_same by (apply nth_in in B; exact B). rewrite D. auto.
      * destruct (counts i k o) eqn:C.
        -- apply (counts_spec i k o j k' A) in C as (-> & ->). congruence.
        -- exists t, r. cbn [boxes things]. rewrite put_other by exact Nr. auto.
  - assert (C : counts i k o = false) by (unfold counts; now rewrite A). rewrite C.
    destruct X as [->|(ext & t1 & -> & _ & G)]; [exists t, r; auto|].
    exists t, r. cbn [boxes things]. split; [now apply nth_left|]. split; [exact R|]. split; [now apply nth_left|]. split; [exact L|].
    intros j t' k' T' R'. apply nth_snoc in T' as [T'|(-> & ->)]; [exact (U j t' k' T' R')|]. exfalso. specialize (G k').
    pose proof (nth_in _ _ _ B) as Bd.
    destruct (gives o k') as [[|b'|i']|] eqn:Gk.
    + rewrite G in R'. injection R' as R'. pose proof (default_small o k'). lia.
    + destruct G as (q & Q & Lq & _). rewrite Q in R'. injection R' as R'. lia.
    + destruct G as (t0 & q & T0 & Q0 & Q). rewrite Q in R'. injection R' as ->. destruct (U i' t0 k' T0 Q0) as (-> & ->). now apply N.
    + congruence.
Qed.
Lemma mine_run os : forall h i k b, wf h -> mine h i k b -> (forall o, In o os -> gives o k <> Some (Of i)) ->
  mine (act_run h os) i k (after_own i k b os).
Proof.
  induction os as [|o os IH]; intros h i k b W M N; [exact M|]. cbn [act_run fold_left].
  pose proof (mine_step h i k b o W M (N o (or_introl eq_refl))) as M1.
  specialize (IH _ _ _ _ (wf_step h o W) M1 (fun o' H => N o' (or_intror H))). unfold after_own in *. cbn [filter].
  destruct (counts i k o); exact IH.
Qed.
(** the object made by [o] *)
Lemma new_thing h o i : wf h -> i = List.length (things h) -> List.length (things (act_step h o)) = S i ->
  exists ext t, act_step h o = mkStore (boxes h ++ ext) (things h ++ [t]) /\ nth_error (things (act_step h o)) i = Some t /\ th_fields t = fields_of o /\
    forall k, match gives o k with
              | None => ref_of k t = None
              | Some Default => ref_of k t = Some (default_no o k)
              | Some (Own b) => exists r, ref_of k t = Some r /\ (List.length (boxes h) <= r)%nat /\ nth_error (boxes h ++ ext) r = Some b /\
                  (forall k', ref_of k' t = Some r -> k' = k)
              | Some (Of i) => exists t0 r, nth_error (things h) i = Some t0 /\ ref_of k t0 = Some r /\ ref_of k t = Some r
              end.
Proof.
  intros W -> L. destruct (step_spec h o W) as [(j & k' & f & A & D & E)|(A & [E|(ext & t1 & E & Et & G)])].
  - rewrite E in L. destruct (change_spec h j k' f) as [E'|(t' & r' & b' & _ & _ & _ & E')]; rewrite E' in L; cbn in L; lia.
  - rewrite E in L. lia.
  - exists ext, t1. split; [exact E|]. split; [rewrite E; cbn [things]; apply nth_at|]. split; [exact Et|exact G].
Qed.
Lemma new_mine h o i k b : wf h -> i = List.length (things h) -> List.length (things (act_step h o)) = S i -> gives o k = Some (Own b) ->
  mine (act_step h o) i k b.
Proof.
  intros W -> L G. pose proof W as [W5 WR]. destruct (new_thing h o _ W eq_refl L) as (ext & t & E & T & _ & F).
  pose proof (F k) as Fk. rewrite G in Fk. destruct Fk as (r & R & Lr & B & U). exists t, r. split; [exact T|]. split; [exact R|].
  rewrite E. cbn [boxes things]. split; [exact B|]. split; [lia|]. intros j t' k' T' R'. apply nth_snoc in T' as [T'|(-> & ->)].
  - specialize (WR j t' k' r T' R'). lia.
  - split; [reflexivity|]. now apply U.
Qed.

(** ** Theorems *)

(** An attribute that was given a container of its own, or was read, holds what the operations on it
    made of it, whatever is done to other objects - unless the program itself hands it on. *)
Theorem C126_own : forall os i o after k b,
  made_by os i o after -> gives o k = Some (Own b) -> (forall o', In o' after -> gives o' k <> Some (Of i)) ->
  held_by (act_run new_store os) i k = Some (after_own i k b after).
Proof.
  intros os i o after k b (before & -> & Li & L) G N. apply mine_held.
  rewrite run_app. cbn [act_run fold_left]. fold (act_run (act_step (act_run new_store before) o) after). rewrite run_snoc in L.
  apply mine_run; [apply wf_step, wf_run|apply new_mine; auto using wf_run|exact N].
Qed.
Print Assumptions C126_own.

Lemma own_made h o : all_own o -> List.length (things (act_step h o)) = S (List.length (things h)).
Proof.
  intros (T & A). pose proof (A KAttrs) as A1. pose proof (A KRoles) as A2. pose proof (A KDeps) as A3. pose proof (A KTask) as A4. clear A.
  destruct o as [uuid name id eph host ha addr a r v|uuid name id addr a v m d|n|x|t|t|i k v|i r|i d|i t]; try discriminate T; cbn in A1, A2, A3, A4; try contradiction.
  - destruct a; cbn in A1; try contradiction. destruct r; cbn in A2; try contradiction. cbn. rewrite app_length. cbn. lia.
  - cbn. rewrite app_length. cbn. lia.
  - cbn. rewrite app_length. cbn. lia.
  - destruct t; cbn in A4; try contradiction. cbn. rewrite app_length. cbn. lia.
  - cbn. rewrite app_length. cbn. lia.
Qed.
Lemma after_first i k after : forall b, after_own 0 k b (map to_first (filter (aimed_at i) after)) = after_own i k b after.
Proof.
  induction after as [|o after IH]; intros b; [reflexivity|]. unfold after_own in *. cbn [filter]. unfold aimed_at at 1, counts at 2.
  destruct (target o) as [[j k']|] eqn:T; [|apply IH].
  destruct (Nat.eqb j i) eqn:E; cbn [andb]; [|apply IH]. cbn [map filter].
  assert (C : counts 0 k (to_first o) = kind_eqb k' k).
  { destruct o; try discriminate T; injection T as <- <-; reflexivity. }
  rewrite C. destruct (kind_eqb k' k); [|apply IH]. cbn [fold_left].
  assert (D : does (to_first o) b = does o b) by (destruct o; destruct b; reflexivity). rewrite D. apply IH.
Qed.
Lemma made_thing os i o after : made_by os i o after -> exists t, nth_error (things (act_run new_store os)) i = Some t /\ th_fields t = fields_of o /\
  forall k, match gives o k with None => ref_of k t = None | Some Default => ref_of k t = Some (default_no o k)
    | Some (Own _) => exists r, ref_of k t = Some r /\ (5 <= r)%nat | _ => True end.
Proof.
  intros (before & -> & Li & L). rewrite run_snoc in L. destruct (new_thing _ o i (wf_run before) Li L) as (ext & t & E & T & F & G).
  exists t. split; [|split; [exact F|intros k; specialize (G k); destruct (gives o k) as [[|b|j]|]; auto]].
  2:{ destruct G as (r & R & Lr & _). exists r. split; [exact R|]. destruct (wf_run before). lia. }
  rewrite run_app. cbn [act_run fold_left]. apply (thing_kept_run after _ i t); [apply wf_step, wf_run|exact T].
Qed.
Lemma made_none os i o after k : made_by os i o after -> gives o k = None -> held_by (act_run new_store os) i k = None.
Proof. intros M G. destruct (made_thing os i o after M) as (t & T & _ & F). specialize (F k). rewrite G in F. unfold held_by. now rewrite T, F. Qed.

(** An object with containers of its own is written as if it were the only one in the process. *)
Theorem C126_value : forall os i o after, made_by os i o after -> all_own o ->
  (forall o' k, In o' after -> gives o' k <> Some (Of i)) ->
  written (act_run new_store os) i = written (act_run new_store (o :: map to_first (filter (aimed_at i) after))) 0.
Proof.
  intros os i o after M A N. set (os1 := o :: map to_first (filter (aimed_at i) after)).
  assert (M1 : made_by os1 0 o (map to_first (filter (aimed_at i) after))).
  { exists []. split; [reflexivity|]. split; [reflexivity|]. exact (own_made new_store o A). }
  assert (H : forall k, held_by (act_run new_store os) i k = held_by (act_run new_store os1) 0 k).
  { intros k. destruct A as (T & A). pose proof (A k) as Ak. destruct (gives o k) as [[|b|j]|] eqn:G; try contradiction.
    - rewrite (C126_own os i o after k b M G (fun o' => N o' k)), (C126_own os1 0 o _ k b M1 G).
      + now rewrite after_first.
      + intros o' I. apply in_map_iff in I as (o0 & <- & I). apply filter_In in I as (_ & I). destruct o0; try discriminate I; discriminate.
    - rewrite (made_none os i o after k M G). symmetry. exact (made_none os1 0 o _ k M1 G). }
  destruct (made_thing os i o after M) as (t & T & F & _). destruct (made_thing os1 0 o _ M1) as (t1 & T1 & F1 & _).
  unfold written. rewrite T, T1, F, F1, !H. reflexivity.
Qed.
Print Assumptions C126_value.

(** Containers left out of the call are one and the same for all objects of the class: what is done to
    one object shows in all of them, made before or after. *)
Theorem C126_default_partial : forall os i j oi oj ai aj k,
  made_by os i oi ai -> made_by os j oj aj -> gives oi k = Some Default -> gives oj k = Some Default ->
  (k = KAttrs -> of_ext_node oi = of_ext_node oj) ->
  held_by (act_run new_store os) i k = held_by (act_run new_store os) j k /\
  (exists b, held_by (act_run new_store os) j k = Some b /\
     forall o, target o = Some (i, k) -> held_by (act_run new_store (os ++ [o])) j k = Some (does o b)).
Proof.
  intros os i j oi oj ai aj k Mi Mj Gi Gj C. destruct (made_thing os i oi ai Mi) as (t & T & _ & F). destruct (made_thing os j oj aj Mj) as (t' & T' & _ & F').
  specialize (F k). specialize (F' k). rewrite Gi in F. rewrite Gj in F'.
  assert (D : default_no oi k = default_no oj k) by (destruct k; try reflexivity; cbn; now rewrite (C eq_refl)).
  rewrite D in F. set (d := default_no oj k) in *. pose proof (wf_run os) as W. pose proof (default_small oj k) as L. fold d in L.
  assert (B : exists b, nth_error (boxes (act_run new_store os)) d = Some b).
  { destruct (nth_error (boxes (act_run new_store os)) d) as [b|] eqn:E; [now exists b|]. apply nth_error_None in E. destruct W. lia. }
  destruct B as (b & B). unfold held_by at 1 2 3. rewrite T, T', F, F'. split; [reflexivity|]. exists b. split; [exact B|].
  intros o A. rewrite run_snoc. destruct (step_spec _ o W) as [(i' & k' & f & A' & Df & ->)|(A' & _)]; [|congruence].
  rewrite A in A'. injection A' as <- <-. unfold change. rewrite T, F, B. unfold held_by. cbn [boxes things]. rewrite T', F', Df.
  apply put_same. eapply nth_in; exact B.
Qed.
Print Assumptions C126_default_partial.

(** But no others are: the two classes do not share their default attributes, nor do two attributes of
    different kinds share a default. *)
Theorem C126_classes : forall os i j oi oj ai aj k k' o,
  made_by os i oi ai -> made_by os j oj aj -> gives oi k = Some Default -> gives oj k' = Some Default ->
  k <> k' \/ (k = KAttrs /\ of_ext_node oi <> of_ext_node oj) -> target o = Some (i, k) ->
  held_by (act_run new_store (os ++ [o])) j k' = held_by (act_run new_store os) j k'.
Proof.
  intros os i j oi oj ai aj k k' o Mi Mj Gi Gj C A.
  destruct (made_thing os i oi ai Mi) as (t & T & _ & F). destruct (made_thing os j oj aj Mj) as (t' & T' & _ & F').
  specialize (F k). specialize (F' k'). rewrite Gi in F. rewrite Gj in F'. pose proof (wf_run os) as W.
  assert (D : default_no oi k <> default_no oj k').
  { destruct k, k', (of_ext_node oi) eqn:Ei, (of_ext_node oj) eqn:Ej; cbn; rewrite ?Ei, ?Ej; try (intros D; vm_compute in D; discriminate D);
      exfalso; destruct C as [C|(Ck & C)]; try discriminate Ck; now apply C. }
  rewrite run_snoc. destruct (step_spec _ o W) as [(i' & k1 & f & A' & Df & ->)|(A' & _)]; [|congruence].
  rewrite A in A'. injection A' as <- <-. unfold change. rewrite T, F.
  destruct (nth_error (boxes (act_run new_store os)) (default_no oi k)) as [b|] eqn:B; [|reflexivity].
  unfold held_by. cbn [boxes things]. rewrite T', F'. now apply put_other.
Qed.
Print Assumptions C126_classes.

Lemma made_later os i o after x : made_by os i o after -> made_by (os ++ [x]) i o (after ++ [x]).
Proof. intros (before & -> & L). exists before. split; [now rewrite <- app_assoc|exact L]. Qed.
Lemma has_maker os : forall i t, nth_error (things (act_run new_store os)) i = Some t -> exists o after, made_by os i o after.
Proof.
  rewrite <- (rev_involutive os). induction (rev os) as [|x l IH]; cbn [rev]; intros i t T; [destruct i; discriminate T|].
  set (p := rev l) in *. rewrite run_snoc in T. pose proof (wf_run p) as W.
  assert (Old : nth_error (things (act_run new_store p)) i = Some t -> exists o after, made_by (p ++ [x]) i o after).
  { intros T'. destruct (IH i t T') as (o & after & M). exists o, (after ++ [x]). now apply made_later. }
  destruct (step_spec _ x W) as [(j & k & f & _ & _ & E)|(_ & [E|(ext & t' & E & _ & _)])].
  - rewrite E in T. destruct (change_spec (act_run new_store p) j k f) as [E'|(? & ? & ? & _ & _ & _ & E')]; rewrite E' in T; exact (Old T).
  - rewrite E in T. exact (Old T).
  - rewrite E in T. cbn [things] in T. apply nth_snoc in T as [T|(-> & ->)]; [exact (Old T)|].
    exists x, []. exists p. split; [reflexivity|]. split; [reflexivity|]. rewrite run_snoc, E. cbn [things]. rewrite app_length. cbn. lia.
Qed.
(** the default dict of DiscoveryNode *)
Lemma first_box os : exists d, nth_error (boxes (act_run new_store os)) D_ATTRS = Some (Attrs d).
Proof.
  rewrite <- (rev_involutive os). induction (rev os) as [|x l IH]; cbn [rev]; [now exists []|].
  set (p := rev l) in *. rewrite run_snoc. pose proof (wf_run p) as W. destruct IH as (d & B).
  destruct (step_spec _ x W) as [(j & k & f & _ & Df & E)|(_ & [E|(ext & t' & E & _ & _)])]; rewrite E; [|now exists d|].
  - destruct (change_spec (act_run new_store p) j k f) as [E'|(t & r & b & _ & _ & B' & E')]; rewrite E'; [now exists d|]. cbn [boxes].
    destruct (Nat.eq_dec r D_ATTRS) as [->|N]; [|rewrite put_other by exact N; now exists d].
    rewrite put_same by (eapply nth_in; exact B'). rewrite B in B'. injection B' as <-. rewrite Df. destruct x; cbn; eauto.
  - exists d. cbn [boxes]. now apply nth_left.
Qed.

(** OpenSearch is told of no attributes (as Host.v has it), if the program only ever sets attributes of
    nodes that were read or given a dict of their own. *)
Theorem C126_handshake : forall os ev uuid,
  (forall i k v o after, In (SetAttribute i k v) os -> made_by os i o after -> exists b, gives o KAttrs = Some (Own b)) ->
  handshake_node (act_run new_store os) ev uuid = own_node ev uuid.
Proof.
  intros os ev uuid H. enough (B : nth_error (boxes (act_run new_store os)) D_ATTRS = Some (Attrs [])) by (unfold handshake_node; rewrite B; reflexivity).
  revert H. rewrite <- (rev_involutive os). induction (rev os) as [|x l IH]; cbn [rev]; intros H; [reflexivity|].
  set (p := rev l) in *. rewrite run_snoc. pose proof (wf_run p) as W.
  assert (B : nth_error (boxes (act_run new_store p)) D_ATTRS = Some (Attrs [])).
  { apply IH. intros i k v o after I M. apply (H i k v o (after ++ [x])); [apply in_or_app; now left|now apply made_later]. }
  destruct (step_spec _ x W) as [(j & k & f & A & Df & E)|(_ & [E|(ext & t' & E & _ & _)])]; rewrite E; [|exact B|].
  - destruct (change_spec (act_run new_store p) j k f) as [E'|(t & r & b & T & R & B' & E')]; rewrite E'; [exact B|]. cbn [boxes].
    destruct (Nat.eq_dec r D_ATTRS) as [->|N]; [|rewrite put_other by exact N; exact B].
    rewrite put_same by (eapply nth_in; exact B'). rewrite B in B'. injection B' as <-. rewrite Df.
    destruct x; try reflexivity. exfalso. cbn in A. injection A as <- <-.
    destruct (has_maker p i t T) as (o & after & M). pose proof (made_later _ _ _ _ (SetAttribute i k0 v) M) as M'.
    assert (I : In (SetAttribute i k0 v) (p ++ [SetAttribute i k0 v])) by (apply in_or_app; right; now left).
    destruct (H i k0 v o _ I M') as (b & G).
    destruct (made_thing p i o after M) as (t1 & T1 & _ & F). rewrite T in T1. injection T1 as <-. specialize (F KAttrs). rewrite G in F.
    destruct F as (r & R' & L). rewrite R in R'. injection R' as <-. unfold D_ATTRS in L. lia.
  - cbn [boxes]. now apply nth_left.
Qed.
Print Assumptions C126_handshake.

(** Otherwise it is told of them: an attribute set on a node that was made without attributes is in
    the answer to the next handshake. *)
Theorem C126_handshake_refuted : forall os i o after k v ev uuid,
  made_by os i o after -> gives o KAttrs = Some Default -> of_ext_node o = false ->
  let n := handshake_node (act_run new_store (os ++ [SetAttribute i k v])) ev uuid in
  dict_get streqb k (n_attrs n) = Some v /\
  (Permutation own_roles (e_roles ev own_roles) -> List.length uuid = 16%nat -> dict_ok text_ok (n_attrs n) ->
   exists p, write_handshake_response (mkHsResp (Some n) [] (version_of_id CURRENT)) = Ok p /\
     forall s, read_handshake_response (p ++ s) = Ok (mkHsResp (Some n) [] (version_of_id CURRENT), s)).
Proof.
  intros os i o after k v ev uuid M G X n. split.
  - destruct (first_box os) as (d & B). destruct (made_thing os i o after M) as (t & T & _ & F). specialize (F KAttrs). rewrite G in F.
    unfold default_no in F. rewrite X in F. subst n. rewrite run_snoc. cbn [act_step]. unfold change. rewrite T, F, B. unfold handshake_node. cbn [boxes].
    rewrite put_same by (eapply nth_in; exact B). cbn [set_attr new_node n_attrs]. apply dict_get_set_same. exact streqb_eq.
  - intros P U D. destruct (own_node_ok ev uuid P U) as (Hn & Hl). apply handshake_response_survives. split.
    + split; [|split; [now exists []; split; [apply is_utf8_encode|vm_compute; discriminate]|vm_compute; split; [discriminate|reflexivity]]].
      intros n' E. injection E as <-. destruct Hn as (H1 & H2 & _ & H4). exact (conj H1 (conj H2 (conj D H4))).
    + intros n' E. injection E as <-. exact Hl.
Qed.
Print Assumptions C126_handshake_refuted.

Definition ex_addr : taddr := mkAddr 0x7F000001 (py "localhost") 9300.
Definition ex_uuid : bytes := repeat x01 16.
Definition ex_make (g : given (sdict pystr)) : act := MakeNode ex_uuid (py "a") (py "a") (Some (py "e")) None None ex_addr g (Own []) None.
(** Two nodes made without attributes: setting one of the first is written with the second. *)
Theorem C126_refuted : ~ C126_statement.
Proof.
  intros H. specialize (H [ex_make Default; ex_make Default] (SetAttribute 0 (py "k") (py "v")) 1%nat 0%nat KAttrs eq_refl (fun E => Nat.neq_succ_0 _ E)).
  vm_compute in H. discriminate H.
Qed.
Print Assumptions C126_refuted.

(** Cases: the two nodes above; a node with a dict of its own among others; the default set of roles,
    which a DiscoveryExtensionNode always has. *)
Example C126_default_case :
  made_by [ex_make Default; ex_make Default] 0 (ex_make Default) [ex_make Default] /\
  made_by [ex_make Default; ex_make Default] 1 (ex_make Default) [] /\ gives (ex_make Default) KAttrs = Some Default /\
  of_ext_node (ex_make Default) = false.
Proof. repeat split; [exists []|exists [ex_make Default]]; repeat split; vm_compute; reflexivity. Qed.
Definition ex_os : list act :=
  [ex_make Default; SetAttribute 0 (py "k") (py "v"); ex_make (Own [(py "zone", py "1")]);
   SetAttribute 0 (py "l") (py "w"); SetAttribute 1 (py "zone") (py "2"); AddRole 1 DATA_ROLE].
Example C126_own_case :
  made_by ex_os 1 (ex_make (Own [(py "zone", py "1")])) [SetAttribute 0 (py "l") (py "w"); SetAttribute 1 (py "zone") (py "2"); AddRole 1 DATA_ROLE] /\
  all_own (ex_make (Own [(py "zone", py "1")])) /\
  held_by (act_run new_store ex_os) 1 KAttrs = Some (Attrs [(py "zone", py "2")]) /\
  held_by (act_run new_store ex_os) 0 KAttrs = Some (Attrs [(py "k", py "v"); (py "l", py "w")]).
Proof.
  split; [|split; [|split; vm_compute; reflexivity]].
  - exists [ex_make Default; SetAttribute 0 (py "k") (py "v")]. repeat split; vm_compute; reflexivity.
  - split; [reflexivity|]. intros k; destruct k; exact I.
Qed.
Definition ex_ext_node : act := MakeExtNode ex_uuid (py "x") (py "x") ex_addr (Own []) None None (Own []).
Example C126_roles_case :
  held_by (act_run new_store [ex_ext_node; AddRole 0 INGEST_ROLE; ex_ext_node]) 1 KRoles = Some (Roles [INGEST_ROLE]).
Proof. vm_compute. reflexivity. Qed.
Definition ex_ext_plain : act := MakeExtNode ex_uuid (py "x") (py "x") ex_addr Default None None (Own []).
Example C126_classes_case :
  let os := [ex_make Default; ex_ext_plain] in
  made_by os 0 (ex_make Default) [ex_ext_plain] /\ made_by os 1 ex_ext_plain [] /\
  gives ex_ext_plain KAttrs = Some Default /\ of_ext_node ex_ext_plain = true /\
  held_by (act_run new_store (os ++ [SetAttribute 0 (py "k") (py "v")])) 0 KAttrs = Some (Attrs [(py "k", py "v")]) /\
  held_by (act_run new_store (os ++ [SetAttribute 0 (py "k") (py "v")])) 1 KAttrs = Some (Attrs []).
Proof. cbv zeta. repeat split; [exists []|exists [ex_make Default]]; repeat split; vm_compute; reflexivity. Qed.
Example C126_handshake_case : forall ev uuid,
  handshake_node (act_run new_store [ex_make (Own []); SetAttribute 0 (py "k") (py "v")]) ev uuid = own_node ev uuid.
Proof.
  intros ev uuid. apply C126_handshake. intros i k v o after [E|[E|[]]] M; [discriminate E|]. injection E as <- _ _.
  destruct M as ([|x [|y [|z l]]] & E & L & L'); cbn [app] in E.
  - injection E as <- _. now exists (Attrs []).
  - injection E as <- <- _. vm_compute in L. discriminate L.
  - injection E as <- <- E. discriminate E.
  - injection E as <- <- E. discriminate E.
Qed.
