(** * Property C94: what handlers share *)
From Coq Require Import String ZArith List Bool Lia Permutation.
From Coq Require Import Strings.Byte.
From Verif Require Import Py Stream Version Frame Proto Messages Rest Routes Settings Host Objects PyFacts Spec SpecFacts RestFacts PropsMessages
  Wire WireFacts WireFacts2 WireFacts3 WireFacts4 HostSpec HostFacts PropsHost.
Import ListNotations.
Open Scope list_scope.
Open Scope Z_scope.

(** ** Specification: histories of a program *)
Definition n_dicts (os : list op) : nat := List.length (filter (fun o => match o with NewDict _ => true | _ => false end) os).
Definition n_requests (os : list op) : nat := List.length (filter (fun o => match o with NewRequest _ => true | _ => false end) os).
Definition n_responses (os : list op) : nat := List.length (filter (fun o => match o with NewResponse _ _ _ _ _ => true | _ => false end) os).
(** [o] can come after [os]: the objects it uses exist (dict 0 is the default of headers, to
    which a program has no name); dicts have distinct keys *)
Definition refers (os : list op) (o : op) : Prop :=
  match o with
  | NewDict d => NoDup (map fst d)
  | NewRequest _ => True
  | CallRequest j _ => (j < n_requests os)%nat
  | NewResponse j _ _ _ hd =>
      (forall n, j = Some n -> (n < n_requests os)%nat) /\ (forall d, hd = Some d -> (1 <= d <= n_dicts os)%nat)
  | SetHeader i _ _ => (i < n_responses os)%nat
  end.
Inductive valid : list op -> Prop :=
| valid_nil : valid []
| valid_snoc os o : valid os -> refers os o -> valid (os ++ [o]).

(** [made_with os i hd]: response number [i] was made with the dict [hd], or without any *)
Definition made_with (os : list op) (i : nat) (hd : option nat) : Prop :=
  exists os1 j st c ct os2, os = os1 ++ NewResponse j st c ct hd :: os2 /\ n_responses os1 = i.
(** the contents a dict was made with; the default dict is made empty *)
Inductive display (os : list op) : option nat -> sdict (list pystr) -> Prop :=
| display_default : display os None []
| display_dict os1 d os2 : os = os1 ++ NewDict d :: os2 -> display os (Some (S (n_dicts os1))) d.
(** [stored os hd l]: [l] are all the headers ever set through a response made with [hd],
    whichever response, oldest first *)
Inductive stored : list op -> option nat -> list (pystr * list pystr) -> Prop :=
| stored_nil hd : stored [] hd []
| stored_set os i k v hd l : stored os hd l -> made_with os i hd -> stored (os ++ [SetHeader i k v]) hd (l ++ [(k, v)])
| stored_other os o hd l : stored os hd l -> (forall i k v, o = SetHeader i k v -> ~ made_with os i hd) -> stored (os ++ [o]) hd l.
(** the last value given to [k] *)
Definition last_given (k : pystr) (v : list pystr) (l : list (pystr * list pystr)) : Prop :=
  exists a b, l = a ++ (k, v) :: b /\ ~ In k (map fst b).

(** ** Facts *)
Lemma put_length {A} n (x : A) l : List.length (put n x l) = List.length l.
Proof. revert n; induction l as [|y l IH]; intros [|n]; cbn; auto. Qed.
Lemma put_same {A} n (x : A) l : (n < List.length l)%nat -> nth_error (put n x l) n = Some x.
Proof. revert n; induction l as [|y l IH]; intros [|n] H; cbn in *; try lia; auto. apply IH. lia. Qed.
Lemma put_other {A} n m (x : A) l : n <> m -> nth_error (put n x l) m = nth_error l m.
Proof.
  revert n m; induction l as [|y l IH]; intros [|n] [|m] H; cbn; auto; try congruence.
Qed.
Lemma nth_snoc {A} (l : list A) x n y : nth_error (l ++ [x]) n = Some y ->
  nth_error l n = Some y \/ (n = List.length l /\ y = x).
Proof.
  intros H. destruct (Nat.lt_ge_cases n (List.length l)) as [L|L].
  - rewrite nth_error_app1 in H by exact L. auto.
  - rewrite nth_error_app2 in H by exact L. right. destruct (n - List.length l)%nat as [|m] eqn:E; cbn in H.
    + split; [lia|congruence].
    + destruct m; discriminate.
Qed.
Lemma nth_old {A} (l : list A) x n y : nth_error l n = Some y -> nth_error (l ++ [x]) n = Some y.
Proof. intros H. rewrite nth_error_app1; [exact H|]. apply nth_error_Some. congruence. Qed.
Lemma nth_new {A} (l : list A) x : nth_error (l ++ [x]) (List.length l) = Some x.
Proof. rewrite nth_error_app2 by lia. rewrite Nat.sub_diag. reflexivity. Qed.
Lemma nth_in {A} (l : list A) n y : nth_error l n = Some y -> (n < List.length l)%nat.
Proof. intros H. apply nth_error_Some. congruence. Qed.
Lemma nth_some {A} (l : list A) n : (n < List.length l)%nat -> exists y, nth_error l n = Some y.
Proof. intros H. destruct (nth_error l n) eqn:E; eauto. apply nth_error_None in E. lia. Qed.

Lemma snoc_split {A} (os : list A) o os1 x os2 : os ++ [o] = os1 ++ x :: os2 ->
  (os = os1 /\ o = x /\ os2 = []) \/ (exists os3, os2 = os3 ++ [o] /\ os = os1 ++ x :: os3).
Proof.
  destruct os2 as [|y os2 _] using rev_ind; intros H.
  - apply app_inj_tail in H as [-> ->]. auto.
  - right. exists os2. assert (E : os1 ++ x :: os2 ++ [y] = (os1 ++ x :: os2) ++ [y]) by now rewrite <- app_assoc.
    rewrite E in H. apply app_inj_tail in H as [-> ->]. auto.
Qed.
Lemma count_app {A} f (a b : list A) : List.length (filter f (a ++ b)) = (List.length (filter f a) + List.length (filter f b))%nat.
Proof. rewrite filter_app, app_length. reflexivity. Qed.
(** the n-th of a kind is at one place *)
Lemma split_unique {A} (f : A -> bool) a x b a' y b' :
  a ++ x :: b = a' ++ y :: b' -> f x = true -> f y = true ->
  List.length (filter f a) = List.length (filter f a') -> a = a' /\ x = y /\ b = b'.
Proof.
  revert a'. induction a as [|z a IH]; intros [|z' a'] E Fx Fy L; cbn in E.
  - injection E as -> ->. auto.
  - injection E as <- E. cbn in L. rewrite Fx in L. discriminate.
  - injection E as -> E. cbn in L. rewrite Fy in L. discriminate.
  - injection E as <- E. destruct (IH a' E Fx Fy) as (-> & -> & ->); auto.
    cbn in L. destruct (f z); cbn in L; congruence.
Qed.

Definition idx (hd : option nat) : nat := match hd with Some d => d | None => 0%nat end.
Definition write_all (l : list (pystr * list pystr)) (d : sdict (list pystr)) : sdict (list pystr) :=
  fold_left (fun d kv => dict_set streqb (fst kv) (snd kv) d) l d.

Record inv (os : list op) (h : heap) : Prop := {
  i_dicts : List.length (hp_dicts h) = S (n_dicts os);
  i_reqs : List.length (hp_reqs h) = n_requests os;
  i_resps : List.length (hp_resps h) = n_responses os;
  i_dict : forall hd, (forall d, hd = Some d -> (1 <= d <= n_dicts os)%nat) ->
    exists d0 l, display os hd d0 /\ NoDup (map fst d0) /\ stored os hd l /\ nth_error (hp_dicts h) (idx hd) = Some (write_all l d0);
  i_req : forall j r, nth_error (hp_reqs h) j = Some r -> exists s,
    nth_error (hp_sets h) (ro_consumed r) = Some s /\ NoDup s /\
    (forall k, In k s <-> In (CallRequest j (CParam k)) os) /\
    (rq_content_consumed (ro_attrs r) = true <-> In (CallRequest j (CContent true)) os);
  i_own : forall j1 j2 r1 r2, nth_error (hp_reqs h) j1 = Some r1 -> nth_error (hp_reqs h) j2 = Some r2 ->
    ro_consumed r1 = ro_consumed r2 -> j1 = j2;
  i_resp : forall i p, nth_error (hp_resps h) i = Some p -> exists os1 j hd os2,
    os = os1 ++ NewResponse j (so_status p) (so_content p) (so_ctype p) hd :: os2 /\ n_responses os1 = i /\
    so_headers p = idx hd /\ (forall d, hd = Some d -> (1 <= d <= n_dicts os)%nat) /\
    match j with
    | Some j => exists r, nth_error (hp_reqs h) j = Some r /\ so_consumed p = ro_consumed r
    | None => nth_error (hp_sets h) (so_consumed p) = Some [] /\
        forall j r, nth_error (hp_reqs h) j = Some r -> ro_consumed r <> so_consumed p
    end /\
    (so_content_consumed p = true <-> exists j', j = Some j' /\ In (CallRequest j' (CContent true)) os1);
  i_calls : forall j c, In (CallRequest j c) os -> (j < n_requests os)%nat }.

Lemma in_snoc {A} (x y : A) l : In x (l ++ [y]) <-> In x l \/ x = y.
Proof. rewrite in_app_iff. cbn. intuition auto. Qed.

Lemma counts os o :
  n_dicts (os ++ [o]) = (n_dicts os + match o with NewDict _ => 1 | _ => 0 end)%nat /\
  n_requests (os ++ [o]) = (n_requests os + match o with NewRequest _ => 1 | _ => 0 end)%nat /\
  n_responses (os ++ [o]) = (n_responses os + match o with NewResponse _ _ _ _ _ => 1 | _ => 0 end)%nat.
Proof. unfold n_dicts, n_requests, n_responses. rewrite !count_app. destruct o; cbn; lia. Qed.

Lemma made_unique os i hd hd' : made_with os i hd -> made_with os i hd' -> hd = hd'.
Proof.
  intros (a & j & st & c & ct & b & E & L) (a' & j' & st' & c' & ct' & b' & E' & L').
  rewrite E in E'. destruct (split_unique (fun o => match o with NewResponse _ _ _ _ _ => true | _ => false end) _ _ _ _ _ _ E' eq_refl eq_refl) as (_ & X & _); [unfold n_responses in *; congruence|].
  congruence.
Qed.
Lemma display_snoc os o hd d : display os hd d -> display (os ++ [o]) hd d.
Proof. intros [|os1 d' os2 ->]; [constructor|]. rewrite <- app_assoc. cbn. econstructor. reflexivity. Qed.

(** the dicts, when the operation sets no header *)
Lemma dict_keep os h o : inv os h -> (forall i k v, o <> SetHeader i k v) -> 
  forall hd, (forall d, hd = Some d -> (1 <= d <= n_dicts os)%nat) ->
    exists d0 l, display (os ++ [o]) hd d0 /\ NoDup (map fst d0) /\ stored (os ++ [o]) hd l /\ nth_error (hp_dicts h) (idx hd) = Some (write_all l d0).
Proof.
  intros I N hd H. destruct (i_dict _ _ I hd H) as (d0 & l & D & ND & S & E).
  exists d0, l. split; [now apply display_snoc|]. split; [exact ND|]. split; [|exact E].
  constructor; [exact S|]. intros i k v X. destruct (N _ _ _ X).
Qed.
(** a response stays as it was made *)
Lemma resp_keep os h o i p reqs (sets : list (list pystr)) : inv os h ->
  nth_error (hp_resps h) i = Some p ->
  (forall j r, nth_error (hp_reqs h) j = Some r -> exists r', nth_error reqs j = Some r' /\ ro_consumed r' = ro_consumed r) ->
  (forall j r', nth_error reqs j = Some r' -> (exists r, nth_error (hp_reqs h) j = Some r /\ ro_consumed r' = ro_consumed r) \/
     ro_consumed r' = List.length (hp_sets h)) ->
  (forall n, nth_error (hp_sets h) n = Some [] -> (forall j r, nth_error (hp_reqs h) j = Some r -> ro_consumed r <> n) -> nth_error sets n = Some []) ->
  exists os1 j hd os2,
    os ++ [o] = os1 ++ NewResponse j (so_status p) (so_content p) (so_ctype p) hd :: os2 /\ n_responses os1 = i /\
    so_headers p = idx hd /\ (forall d, hd = Some d -> (1 <= d <= n_dicts (os ++ [o]))%nat) /\
    match j with
    | Some j => exists r, nth_error reqs j = Some r /\ so_consumed p = ro_consumed r
    | None => nth_error sets (so_consumed p) = Some [] /\
        forall j r, nth_error reqs j = Some r -> ro_consumed r <> so_consumed p
    end /\
    (so_content_consumed p = true <-> exists j', j = Some j' /\ In (CallRequest j' (CContent true)) os1).
Proof.
  intros I P F B K. destruct (i_resp _ _ I i p P) as (os1 & j & hd & os2 & E & L & Eh & Hh & J & C).
  exists os1, j, hd, (os2 ++ [o]). split; [rewrite E, <- app_assoc; reflexivity|]. split; [exact L|]. split; [exact Eh|].
  split; [intros d X; specialize (Hh d X); destruct (counts os o) as (-> & _); lia|]. split; [|exact C].
  destruct j as [j|].
  - destruct J as (r & R & X). destruct (F j r R) as (r' & R' & X'). exists r'. split; [exact R'|congruence].
  - destruct J as (Z & N). split; [now apply K|]. intros j r' R' X. destruct (B j r' R') as [(r & R & Y)|Y].
    + apply (N j r R). congruence.
    + apply nth_in in Z. rewrite <- X, Y in Z. lia.
Qed.
Lemma req_keep os h o : inv os h -> (forall j c, o <> CallRequest j c) -> forall j r sets,
  nth_error (hp_reqs h) j = Some r -> (forall n s, nth_error (hp_sets h) n = Some s -> nth_error sets n = Some s) ->
  exists s, nth_error sets (ro_consumed r) = Some s /\ NoDup s /\
    (forall k, In k s <-> In (CallRequest j (CParam k)) (os ++ [o])) /\
    (rq_content_consumed (ro_attrs r) = true <-> In (CallRequest j (CContent true)) (os ++ [o])).
Proof.
  intros I N j r sets R K. destruct (i_req _ _ I j r R) as (s & S & ND & P & C).
  exists s. split; [auto|]. split; [exact ND|]. split; [intros k; rewrite P, in_snoc|rewrite C, in_snoc];
    split; auto; intros [X|X]; auto; exfalso; eapply N; symmetry; exact X.
Qed.
Lemma calls_keep os h o : inv os h -> refers os o -> forall j c, In (CallRequest j c) (os ++ [o]) -> (j < n_requests (os ++ [o]))%nat.
Proof.
  intros I Rf j c H. destruct (counts os o) as (_ & E & _). apply in_snoc in H as [H|<-].
  - apply (i_calls _ _ I) in H. lia.
  - cbn in Rf. destruct (counts os (CallRequest j c)) as (_ & -> & _). lia.
Qed.

Lemma made_snoc os o i hd : made_with os i hd -> made_with (os ++ [o]) i hd.
Proof.
  intros (a & j & st & c & ct & b & -> & L). exists a, j, st, c, ct, (b ++ [o]). rewrite <- app_assoc. auto.
Qed.
Lemma stored_none os hd : (forall i, ~ made_with os i hd) -> stored os hd [].
Proof.
  induction os as [|o os IH] using rev_ind; intros H; [constructor|].
  constructor.
  - apply IH. intros i M. apply (H i). now apply made_snoc.
  - intros i k v _ M. apply (H i). now apply made_snoc.
Qed.
Lemma made_resp os h i hd : inv os h -> made_with os i hd ->
  exists p, nth_error (hp_resps h) i = Some p /\ so_headers p = idx hd /\ (forall d, hd = Some d -> (1 <= d <= n_dicts os)%nat).
Proof.
  intros I M. assert (L : (i < List.length (hp_resps h))%nat).
  { rewrite (i_resps _ _ I). destruct M as (a & j & st & c & ct & b & -> & <-). unfold n_responses. rewrite count_app. cbn. lia. }
  destruct (nth_some _ _ L) as (p & P). exists p. split; [exact P|].
  destruct (i_resp _ _ I i p P) as (os1 & j & hd' & os2 & E & L' & Eh & Hh & _).
  assert (hd = hd') as ->; [|auto]. eapply made_unique; [exact M|]. exists os1, j, (so_status p), (so_content p), (so_ctype p), os2. auto.
Qed.
Lemma resp_made os h i p : inv os h -> nth_error (hp_resps h) i = Some p ->
  exists hd, made_with os i hd /\ so_headers p = idx hd /\ (forall d, hd = Some d -> (1 <= d <= n_dicts os)%nat).
Proof.
  intros I P. destruct (i_resp _ _ I i p P) as (os1 & j & hd & os2 & E & L & Eh & Hh & _).
  exists hd. split; [|auto]. exists os1, j, (so_status p), (so_content p), (so_ctype p), os2. auto.
Qed.
Lemma idx_inj hd hd' : (forall d, hd = Some d -> (1 <= d)%nat) -> (forall d, hd' = Some d -> (1 <= d)%nat) -> idx hd = idx hd' -> hd = hd'.
Proof.
  destruct hd as [d|], hd' as [d'|]; cbn; intros H H' E; auto; try congruence.
  - specialize (H _ eq_refl). lia.
  - specialize (H' _ eq_refl). lia.
Qed.

Lemma inv_step os h o : inv os h -> refers os o -> inv (os ++ [o]) (obj_step h o).
Proof.
  intros I Rf. destruct (counts os o) as (ND & NR & NP). pose proof (i_dicts _ _ I) as LD. pose proof (i_reqs _ _ I) as LR.
  pose proof (i_resps _ _ I) as LP. pose proof (calls_keep _ _ _ I Rf) as CK.
  destruct o as [d|q|j c|j st c ct hd|i k v]; cbn [obj_step refers] in *.
  - (* NewDict *)
    constructor; cbn [hp_dicts hp_reqs hp_sets hp_resps]; try rewrite app_length; cbn [List.length]; try lia; auto.
    + intros hd H. destruct (Nat.eq_dec (idx hd) (S (n_dicts os))) as [E|E].
      * destruct hd as [d'|]; [|discriminate]. cbn in E. subst d'. exists d, []. split; [econstructor; reflexivity|].
        split; [exact Rf|]. split.
        -- apply stored_none. intros i (a & j & st & c & ct & b & X & L). apply snoc_split in X as [(_ & X & _)|(b' & _ & X)]; [discriminate|].
           destruct (made_resp os h i (Some (S (n_dicts os))) I) as (p & _ & _ & B); [exists a, j, st, c, ct, b'; auto|].
           specialize (B _ eq_refl). lia.
        -- cbn [idx]. rewrite <- LD. apply nth_new.
      * destruct (dict_keep os h (NewDict d) I ltac:(discriminate) hd) as (d0 & l & A & B & C & D).
        -- intros d' ->. specialize (H d' eq_refl). cbn in E. lia.
        -- exists d0, l. repeat (split; [assumption|]). now apply nth_old.
    + intros j r R. eapply req_keep; eauto. discriminate.
    + exact (i_own _ _ I).
    + intros i p P. eapply resp_keep; eauto.
  - (* NewRequest *)
    constructor; cbn [hp_dicts hp_reqs hp_sets hp_resps do_new_request]; try rewrite app_length; cbn [List.length]; try lia; auto.
    + intros hd H. apply dict_keep; [assumption|discriminate|]. intros d X. specialize (H d X). lia.
    + intros j r R. apply nth_snoc in R as [R|[-> ->]].
      * eapply req_keep; eauto; [discriminate|]. intros n s. apply nth_old.
      * cbn [ro_consumed ro_attrs with_consumed rq_content_consumed]. exists []. split; [apply nth_new|]. split; [constructor|].
        rewrite LR. split; [intros k|]; (split; [intros X; solve [discriminate|destruct X]|]; intros X;
          apply in_snoc in X as [X|X]; [apply (i_calls _ _ I) in X; lia|discriminate]).
    + intros j1 j2 r1 r2 R1 R2 E. apply nth_snoc in R1 as [R1|[-> ->]]; apply nth_snoc in R2 as [R2|[-> ->]].
      * exact (i_own _ _ I _ _ _ _ R1 R2 E).
      * cbn in E. destruct (i_req _ _ I _ _ R1) as (s & S & _). apply nth_in in S. lia.
      * cbn in E. destruct (i_req _ _ I _ _ R2) as (s & S & _). apply nth_in in S. lia.
      * reflexivity.
    + intros i p P. eapply resp_keep; eauto.
      * intros j r R. exists r. split; [now apply nth_old|reflexivity].
      * intros j r R. apply nth_snoc in R as [R|[-> ->]]; [left; eauto|right; reflexivity].
      * intros n S _. now apply nth_old.
  - (* CallRequest *)
    unfold do_call_request. destruct (nth_some (hp_reqs h) j ltac:(lia)) as (r & R). rewrite R.
    destruct (i_req _ _ I j r R) as (s & S & NS & Ps & Cs). rewrite S.
    set (q := snd (do_call (with_consumed (ro_attrs r) s (rq_content_consumed (ro_attrs r))) c)).
    pose proof (nth_in _ _ _ S) as LS.
    constructor; cbn [hp_dicts hp_reqs hp_sets hp_resps]; try rewrite put_length; try lia; auto.
    + intros hd H. apply dict_keep; [assumption|discriminate|]. intros d X. specialize (H d X). lia.
    + intros j' r' R'. destruct (Nat.eq_dec j j') as [<-|N].
      * rewrite put_same in R' by lia. injection R' as <-. cbn [ro_consumed ro_attrs with_consumed rq_content_consumed].
        exists (rq_consumed q). split; [now apply put_same|]. subst q.
        destruct c as [k|k|b|]; cbn [do_call snd with_consumed rq_consumed rq_content_consumed].
        -- split; [now apply set_add_NoDup|]. split; [intros k'; rewrite set_add_In, Ps, in_snoc|rewrite Cs, in_snoc].
           ++ split; [intros [->|X]; auto|intros [X|X]; [auto|left; congruence]].
           ++ split; [auto|intros [X|X]; [auto|discriminate]].
        -- split; [assumption|]. split; [intros k'; rewrite Ps, in_snoc|rewrite Cs, in_snoc]; split; auto; intros [X|X]; auto; discriminate.
        -- split; [assumption|]. split; [intros k'; rewrite Ps, in_snoc; split; auto; intros [X|X]; auto; discriminate|].
           rewrite orb_true_iff, Cs, in_snoc. split; [intros [X| ->]; auto|intros [X|X]; [auto|right; congruence]].
        -- split; [assumption|]. split; [intros k'; rewrite Ps, in_snoc|rewrite Cs, in_snoc]; split; auto; intros [X|X]; auto; discriminate.
      * rewrite put_other in R' by exact N. destruct (i_req _ _ I j' r' R') as (s' & S' & NS' & Ps' & Cs').
        exists s'. split; [rewrite put_other; [exact S'|]; intros X; apply N; eapply (i_own _ _ I); eauto|].
        split; [exact NS'|]. split; [intros k'; rewrite Ps', in_snoc|rewrite Cs', in_snoc]; split; auto; intros [X|X]; auto; congruence.
    + intros j1 j2 r1 r2 R1 R2 E.
      assert (G : forall jj rr, nth_error (put j (mkReqObj (with_consumed q [] (rq_content_consumed q)) (ro_consumed r)) (hp_reqs h)) jj = Some rr ->
        exists r0, nth_error (hp_reqs h) jj = Some r0 /\ ro_consumed r0 = ro_consumed rr).
      { intros jj rr Q. destruct (Nat.eq_dec j jj) as [<-|N].
        - rewrite put_same in Q by lia. injection Q as <-. eauto.
        - rewrite put_other in Q by exact N. eauto. }
      destruct (G _ _ R1) as (a & A & EA). destruct (G _ _ R2) as (b & B & EB). eapply (i_own _ _ I); eauto. congruence.
    + intros i p P. eapply resp_keep; eauto.
      * intros jj rr Q. destruct (Nat.eq_dec j jj) as [<-|N].
        -- rewrite put_same by lia. eexists. split; [reflexivity|]. cbn. congruence.
        -- rewrite put_other by exact N. eauto.
      * intros jj rr Q. left. destruct (Nat.eq_dec j jj) as [<-|N].
        -- rewrite put_same in Q by lia. injection Q as <-. eauto.
        -- rewrite put_other in Q by exact N. eauto.
      * intros n Sn Nn. rewrite put_other; [exact Sn|]. exact (Nn _ _ R).
  - (* NewResponse *)
    unfold do_new_response. destruct Rf as [Rj Rh].
    assert (Rh' : forall d, hd = Some d -> (1 <= d <= n_dicts (os ++ [NewResponse j st c ct hd]))%nat).
    { intros d X. specialize (Rh d X). lia. }
    assert (Hd : match hd with Some d => d | None => DEFAULT_HEADERS end = idx hd) by (destruct hd; reflexivity).
    rewrite Hd. clear Hd.
    destruct j as [j|].
    + destruct (nth_some (hp_reqs h) j) as (r & R); [specialize (Rj _ eq_refl); lia|]. rewrite R.
      constructor; cbn [hp_dicts hp_reqs hp_sets hp_resps]; try rewrite app_length; cbn [List.length]; try lia; auto.
      * intros hd' H. apply dict_keep; [assumption|discriminate|]. intros d X. specialize (H d X). lia.
      * intros j' r' R'. eapply req_keep; eauto. discriminate.
      * exact (i_own _ _ I).
      * intros i p P. apply nth_snoc in P as [P|[-> ->]]; [eapply resp_keep; eauto|].
        exists os, (Some j), hd, []. cbn [so_status so_content so_ctype so_headers so_consumed so_content_consumed].
        split; [reflexivity|]. split; [congruence|]. split; [reflexivity|]. split; [exact Rh'|]. split; [eauto|].
        destruct (i_req _ _ I j r R) as (s & S & NS & Ps & Cs). rewrite Cs. split; [eauto|intros (j' & X & Y); congruence].
    + constructor; cbn [hp_dicts hp_reqs hp_sets hp_resps]; try rewrite app_length; cbn [List.length]; try lia; auto.
      * intros hd' H. apply dict_keep; [assumption|discriminate|]. intros d X. specialize (H d X). lia.
      * intros j' r' R'. eapply req_keep; eauto; [discriminate|]. intros n s. apply nth_old.
      * exact (i_own _ _ I).
      * intros i p P. apply nth_snoc in P as [P|[-> ->]].
        -- eapply resp_keep; eauto. intros n S _. now apply nth_old.
        -- exists os, None, hd, []. cbn [so_status so_content so_ctype so_headers so_consumed so_content_consumed].
           split; [reflexivity|]. split; [congruence|]. split; [reflexivity|]. split; [exact Rh'|]. split.
           ++ split; [apply nth_new|]. intros j r R X. destruct (i_req _ _ I _ _ R) as (s & S & _). apply nth_in in S. lia.
           ++ split; [discriminate|]. intros (j' & X & _). discriminate.
  - (* SetHeader *)
    unfold do_set_header. destruct (nth_some (hp_resps h) i ltac:(lia)) as (r & R). rewrite R.
    destruct (resp_made os h i r I R) as (hd & M & Eh & Hh). rewrite Eh.
    destruct (i_dict _ _ I hd Hh) as (d0 & l & D & NDd & St & E). rewrite E.
    constructor; cbn [hp_dicts hp_reqs hp_sets hp_resps]; try rewrite put_length; try lia; auto.
    + intros hd' H'. assert (H2 : forall d, hd' = Some d -> (1 <= d <= n_dicts os)%nat) by (intros d X; specialize (H' d X); lia).
      destruct (Nat.eq_dec (idx hd) (idx hd')) as [Ei|Ni].
      * apply idx_inj in Ei; [|intros d X; specialize (Hh d X); lia|intros d X; specialize (H2 d X); lia]. subst hd'.
        exists d0, (l ++ [(k, v)]). split; [now apply display_snoc|]. split; [exact NDd|]. split; [now apply stored_set|].
        rewrite put_same by (apply nth_in in E; exact E). unfold write_all. rewrite fold_left_app. reflexivity.
      * destruct (i_dict _ _ I hd' H2) as (d1 & l1 & D1 & ND1 & St1 & E1). exists d1, l1.
        split; [now apply display_snoc|]. split; [exact ND1|]. split; [|rewrite put_other by exact Ni; exact E1].
        apply stored_other; [exact St1|]. intros i' k' v' X M'. injection X as <- <- <-.
        apply Ni. f_equal. eapply made_unique; eauto.
    + intros j' r' R'. eapply req_keep; eauto. discriminate.
    + exact (i_own _ _ I).
    + intros i' p P. eapply resp_keep; eauto.
Qed.

Lemma inv_run os : valid os -> inv os (obj_run new_heap os).
Proof.
  induction 1 as [|os o V IH Rf].
  - constructor; cbn; auto; try (intros; destruct j as [|]; discriminate); try (intros; destruct i as [|]; discriminate).
    + intros [d|] H; [specialize (H d eq_refl); cbn in H; lia|]. exists [], []. repeat split; try constructor.
    + intros j1 j2 r1 r2 X. destruct j1; discriminate.
    + intros j c [].
  - unfold obj_run. rewrite fold_left_app. cbn [fold_left]. apply inv_step; assumption.
Qed.
Lemma write_all_last l : forall d0, NoDup (map fst d0) ->
  NoDup (map fst (write_all l d0)) /\ forall k v, In (k, v) (write_all l d0) <-> last_given k v (d0 ++ l).
Proof.
  induction l as [|[k0 v0] l IH] using rev_ind; intros d0 ND.
  - cbn. rewrite app_nil_r. split; [exact ND|]. intros k v. split.
    + intros H. apply in_split in H as (a & b & ->). exists a, b. split; [reflexivity|].
      rewrite map_app in ND. cbn in ND. apply NoDup_remove_2 in ND. rewrite in_app_iff in ND. tauto.
    + intros (a & b & -> & _). apply in_elt.
  - destruct (IH d0 ND) as (ND' & L). unfold write_all in *. rewrite fold_left_app. cbn [fold_left fst snd].
    split; [apply dict_set_NoDup; [apply streqb_eq|exact ND']|]. intros k v. rewrite app_assoc.
    set (d := fold_left _ _ _) in *.
    assert (X : In (k, v) (dict_set streqb k0 v0 d) <-> (k = k0 /\ v = v0) \/ (k <> k0 /\ In (k, v) d)).
    { destruct (list_eq_dec Z.eq_dec k k0) as [->|N].
      - pose proof (dict_get_set_same streqb streqb_eq k0 v0 d) as G. split.
        + intros I. left. split; [reflexivity|]. apply (dict_In_get streqb streqb_eq) in I; [congruence|].
          apply dict_set_NoDup; [apply streqb_eq|exact ND'].
        + intros [[_ ->]|[N _]]; [|contradiction]. apply (dict_get_In streqb streqb_eq). exact G.
      - pose proof (dict_get_set_other streqb streqb_eq k0 k v0 d ltac:(congruence)) as G. split.
        + intros I. right. split; [exact N|]. apply (dict_In_get streqb streqb_eq) in I; [|apply dict_set_NoDup; [apply streqb_eq|exact ND']].
          apply (dict_get_In streqb streqb_eq). congruence.
        + intros [[X _]|[_ I]]; [contradiction|]. apply (dict_In_get streqb streqb_eq) in I; [|exact ND'].
          apply (dict_get_In streqb streqb_eq). congruence. }
    rewrite X. split.
    + intros [[-> ->]|[N I]].
      * exists (d0 ++ l), []. split; [reflexivity|intros []].
      * apply L in I as (a & b & E & F). exists a, (b ++ [(k0, v0)]). split; [rewrite E, <- app_assoc; reflexivity|].
        rewrite map_app, in_app_iff. cbn. intros [Y|[Y|[]]]; auto.
    + intros (a & b & E & F). apply snoc_split in E as [(_ & E & _)|(b' & -> & E)].
      * left. split; congruence.
      * right. rewrite map_app, in_app_iff in F. cbn in F. split; [intros ->; apply F; auto|].
        apply L. exists a, b'. split; [exact E|]. tauto.
Qed.

Lemma display_unique os hd d d' : display os hd d -> display os hd d' -> d = d'.
Proof.
  intros D. destruct D as [|a d b E]; intros D'; inversion D' as [|a' d'' b' E' L]; subst; auto.
  destruct (split_unique (fun o => match o with NewDict _ => true | _ => false end) _ _ _ _ _ _ E' eq_refl eq_refl) as (_ & X & _);
    [unfold n_dicts in *; congruence|congruence].
Qed.
Lemma stored_unique os hd l : stored os hd l -> forall l', stored os hd l' -> l = l'.
Proof.
  induction 1 as [hd|os i k v hd l S IH M|os o hd l S IH N]; intros l' S'.
  - inversion S' as [|? ? ? ? ? ? ? ? X|? ? ? ? ? ? X]; auto; destruct os; discriminate.
  - inversion S' as [? X|os0 i0 k0 v0 hd0 l0 S0 M0 X|os0 o0 hd0 l0 S0 N0 X]; [destruct os; discriminate| |];
      apply app_inj_tail in X as [-> X]; subst.
    + injection X as -> -> ->. f_equal. auto.
    + destruct (N0 _ _ _ eq_refl M).
  - inversion S' as [? X|os0 i0 k0 v0 hd0 l0 S0 M0 X|os0 o0 hd0 l0 S0 N0 X]; [destruct os; discriminate| |];
      apply app_inj_tail in X as [-> X]; subst.
    + destruct (N _ _ _ eq_refl M0).
    + auto.
Qed.

(** ** C94 *)

(** What a response says when it is sent, after any history of the process: status, content
    and media type as given to its constructor; the headers of its dict, with all the writes
    through any response made with the same dict, or, if none was given, through any response
    of the process made without one; the parameters read from its request, before or after its
    construction; the content flag as it was at its construction. *)
Theorem C94_history_partial : forall os os1 j st c ct hd os2, valid os -> os = os1 ++ NewResponse j st c ct hd :: os2 ->
  exists p d0 l, response_at (obj_run new_heap os) (n_responses os1) = Some p /\
    rp_status p = st /\ rp_content p = c /\ rp_ctype p = ct /\
    display os hd d0 /\ stored os hd l /\
    NoDup (map fst (rp_headers p)) /\ (forall k v, In (k, v) (rp_headers p) <-> last_given k v (d0 ++ l)) /\
    NoDup (rp_consumed p) /\
    (forall k, In k (rp_consumed p) <-> exists j', j = Some j' /\ In (CallRequest j' (CParam k)) os) /\
    (rp_content_consumed p = true <-> exists j', j = Some j' /\ In (CallRequest j' (CContent true)) os1).
Proof.
  intros os os1 j st c ct hd os2 V E. pose proof (inv_run os V) as I. set (h := obj_run new_heap os) in *.
  assert (M : made_with os (n_responses os1) hd) by (exists os1, j, st, c, ct, os2; auto).
  destruct (made_resp _ _ _ _ I M) as (p & P & Eh & Hh).
  destruct (i_resp _ _ I _ p P) as (os1' & j' & hd' & os2' & E' & L & _ & _ & J & C).
  rewrite E in E'.
  destruct (split_unique (fun o => match o with NewResponse _ _ _ _ _ => true | _ => false end) _ _ _ _ _ _ E' eq_refl eq_refl) as (<- & X & _);
    [unfold n_responses in *; congruence|]. injection X as <- Es Ec Et <-. clear E' L.
  destruct (i_dict _ _ I hd Hh) as (d0 & l & D & ND & S & Ed).
  destruct (write_all_last l d0 ND) as (ND' & La).
  assert (K : exists s, nth_error (hp_sets h) (so_consumed p) = Some s /\ NoDup s /\
    (forall k, In k s <-> exists j', j = Some j' /\ In (CallRequest j' (CParam k)) os)).
  { destruct j as [j|].
    - destruct J as (r & R & ->). destruct (i_req _ _ I j r R) as (s & Ss & Ns & Ps & _). exists s. split; [exact Ss|]. split; [exact Ns|].
      intros k. rewrite Ps. split; [eauto|intros (j' & Y & Z); congruence].
    - destruct J as (Z & _). exists []. split; [exact Z|]. split; [constructor|]. intros k. split; [intros []|intros (j' & Y & _); discriminate]. }
  destruct K as (s & Ss & Ns & Ps).
  exists (mkResp (so_status p) (so_content p) (so_ctype p) (write_all l d0) s (so_content_consumed p)), d0, l.
  split; [unfold response_at; rewrite P, Eh, Ed, Ss; reflexivity|].
  cbn [rp_status rp_content rp_ctype rp_headers rp_consumed rp_content_consumed]. repeat (split; [congruence||assumption|]). exact C.
Qed.
Print Assumptions C94_history_partial.

(** the headers set on response [i], oldest first *)
Definition set_on (i : nat) (os : list op) : list (pystr * list pystr) :=
  flat_map (fun o => match o with SetHeader i' k v => if Nat.eqb i' i then [(k, v)] else [] | _ => [] end) os.
Lemma set_on_stored os i hd : valid os -> made_with os i hd -> (forall i', made_with os i' hd -> i' = i) -> stored os hd (set_on i os).
Proof.
  intros V M U.
  assert (G : forall os', (exists t, os = os' ++ t) -> valid os' -> stored os' hd (set_on i os')).
  { intros os' X V'. revert X. induction V' as [|os' o V' IH Rf]; intros (t & X); [constructor|].
    assert (S : stored os' hd (set_on i os')) by (apply IH; exists ([o] ++ t); rewrite X, <- app_assoc; reflexivity).
    unfold set_on. rewrite flat_map_app. cbn [flat_map]. rewrite app_nil_r. fold (set_on i os').
    assert (Mo : forall i', made_with os' i' hd -> i' = i).
    { intros i' M'. apply U. rewrite X. destruct M' as (a & j & s & c & ct & b & -> & L). exists a, j, s, c, ct, (b ++ [o] ++ t).
      split; [rewrite <- !app_assoc; reflexivity|exact L]. }
    destruct o as [d|q|j c|j s c ct hd'|i' k v]; try (rewrite app_nil_r; apply stored_other; [exact S|discriminate]).
    destruct (Nat.eqb_spec i' i) as [->|N].
    - apply stored_set; [exact S|]. cbn [refers] in Rf.
      assert (L : (i < List.length (hp_resps (obj_run new_heap os')))%nat) by (rewrite (i_resps _ _ (inv_run _ V')); exact Rf).
      destruct (nth_some _ _ L) as (p & P). destruct (resp_made _ _ _ _ (inv_run _ V') P) as (hd' & M' & _).
      assert (hd' = hd) as <-; [|exact M']. eapply made_unique; [|exact M]. rewrite X.
      destruct M' as (a & j & s & c & ct & b & -> & La). exists a, j, s, c, ct, (b ++ [SetHeader i k v] ++ t).
      split; [rewrite <- !app_assoc; reflexivity|exact La].
    - rewrite app_nil_r. apply stored_other; [exact S|]. intros i1 k1 v1 Y M'. injection Y as <- <- <-. apply N. now apply Mo. }
  apply G; [exists []; now rewrite app_nil_r|exact V].
Qed.
(** A response that alone has its dict says its own headers. *)
Theorem C94_own_partial : forall os os1 j st c ct d os2 d0, valid os -> os = os1 ++ NewResponse j st c ct (Some d) :: os2 ->
  display os (Some d) d0 -> (forall i, made_with os i (Some d) -> i = n_responses os1) ->
  exists p, response_at (obj_run new_heap os) (n_responses os1) = Some p /\
    NoDup (map fst (rp_headers p)) /\
    forall k v, In (k, v) (rp_headers p) <-> last_given k v (d0 ++ set_on (n_responses os1) os).
Proof.
  intros os os1 j st c ct d os2 d0 V E D U.
  destruct (C94_history_partial os os1 j st c ct (Some d) os2 V E) as (p & d0' & l & R & _ & _ & _ & D' & S & ND & H & _).
  exists p. split; [exact R|]. split; [exact ND|]. rewrite (display_unique _ _ _ _ D D').
  rewrite (stored_unique _ _ _ S _ (set_on_stored os (n_responses os1) (Some d) V ltac:(exists os1, j, st, c, ct, os2; auto) U)) in H. exact H.
Qed.
Print Assumptions C94_own_partial.

(** C94, full statement: a response carries only the headers it was given or that were set on
    it.  False: whatever the process did before, a header set on a response made without
    [headers] is on every later response made without. *)
Definition C94_statement : Prop := forall os os1 j st c ct hd os2 d0 p k v, valid os ->
  os = os1 ++ NewResponse j st c ct hd :: os2 -> display os hd d0 ->
  response_at (obj_run new_heap os) (n_responses os1) = Some p -> In (k, v) (rp_headers p) ->
  In (k, v) (d0 ++ set_on (n_responses os1) os).
Lemma leak os i k v j st c ct : valid os -> made_with os i None -> (forall n, j = Some n -> (n < n_requests os)%nat) ->
  exists p, response_at (obj_run new_heap (os ++ [SetHeader i k v; NewResponse j st c ct None])) (n_responses os) = Some p /\
    In (k, v) (rp_headers p).
Proof.
  intros V M Hj. assert (B : (i < n_responses os)%nat).
  { destruct M as (a & j' & s & c' & ct' & b & -> & <-). unfold n_responses. rewrite count_app. cbn. lia. }
  assert (V1 : valid (os ++ [SetHeader i k v])) by (constructor; [exact V|exact B]).
  assert (V2 : valid ((os ++ [SetHeader i k v]) ++ [NewResponse j st c ct None])).
  { constructor; [exact V1|]. cbn. destruct (counts os (SetHeader i k v)) as (_ & -> & _). split; [intros n X; specialize (Hj n X); lia|discriminate]. }
  destruct (C94_history_partial _ (os ++ [SetHeader i k v]) j st c ct None [] V2 eq_refl) as (p & d0 & l & R & _ & _ & _ & D & S & _ & H & _).
  destruct (counts os (SetHeader i k v)) as (_ & _ & N). cbn in N. rewrite Nat.add_0_r in N. rewrite N in R.
  exists p. rewrite <- app_assoc in R. split; [exact R|]. apply H.
  inversion S as [X|os0 i0 k0 v0 hd0 l0 S0 M0 X|os0 o0 hd0 l0 S0 N0 X]; [destruct os; discriminate| |];
    apply app_inj_tail in X as [X Y]; subst; [discriminate|].
  inversion S0 as [X|os1 i1 k1 v1 hd1 l1 S1 M1 X|os1 o1 hd1 l1 S1 N1 X]; [destruct os; discriminate| |];
    apply app_inj_tail in X as [X Y]; subst.
  - injection Y as -> -> ->. exists (d0 ++ l1), []. rewrite <- app_assoc. split; [reflexivity|intros []].
  - destruct (N1 _ _ _ eq_refl M).
Qed.
Theorem C94_shared_default_refuted : ~ C94_statement /\
  forall os i k v j st c ct, valid os -> made_with os i None -> (forall n, j = Some n -> (n < n_requests os)%nat) ->
    exists p, response_at (obj_run new_heap (os ++ [SetHeader i k v; NewResponse j st c ct None])) (n_responses os) = Some p /\
      In (k, v) (rp_headers p).
Proof.
  split; [|exact leak]. intros S.
  assert (V : valid [NewResponse None (Some 2) [] [] None]) by (apply (valid_snoc []); [constructor|split; discriminate]).
  destruct (leak [NewResponse None (Some 2) [] [] None] 0%nat [65] [[66]] None (Some 2) [] [] V) as (p & R & H);
    [exists [], None, (Some 2), [], [], []; auto|discriminate|]. cbn [app] in R.
  refine (_ (S _ [NewResponse None (Some 2) [] [] None; SetHeader 0 [65] [[66]]] None (Some 2) [] [] None [] [] p [65] [[66]] _ eq_refl _ R H)).
  - intros [].
  - apply (valid_snoc [_; _]); [apply (valid_snoc [_]); [exact V|cbn; lia]|split; discriminate].
  - constructor.
Qed.
Print Assumptions C94_shared_default_refuted.

(** Two requests, three responses: the second and third share the default dict; the second was
    made before its request's content was read. *)
Definition ex_ops : list op :=
  [NewDict [(py "a", [py "1"])]; NewRequest (ex_rest (py "/x")); CallRequest 0 (CParam (py "p"));
   NewResponse (Some 0%nat) (Some 2) [] (py "t") (Some 1%nat); SetHeader 0 (py "a") [py "2"];
   NewRequest (ex_rest (py "/y")); NewResponse (Some 1%nat) (Some 2) [] (py "t") None; CallRequest 1 (CContent true);
   SetHeader 1 (py "cookie") [py "secret"]; NewResponse None (Some 3) [] (py "t") None; CallRequest 0 (CParam (py "q"))].
Fixpoint each_refers (os0 os : list op) : Prop :=
  match os with [] => True | o :: t => refers os0 o /\ each_refers (os0 ++ [o]) t end.
Lemma valid_fold os : forall os0, valid os0 -> each_refers os0 os -> valid (os0 ++ os).
Proof.
  induction os as [|o os IH]; intros os0 V H; [now rewrite app_nil_r|]. destruct H as [H H'].
  replace (os0 ++ o :: os) with ((os0 ++ [o]) ++ os) by (rewrite <- app_assoc; reflexivity). apply IH; [constructor; assumption|exact H'].
Qed.
Example C94_case : valid ex_ops /\
  map (fun p => match p with Some p => (rp_headers p, rp_consumed p, rp_content_consumed p) | None => ([], [], false) end)
    (map (response_at (obj_run new_heap ex_ops)) (seq 0 3)) =
  [([(py "a", [py "2"])], [py "p"; py "q"], false); ([(py "cookie", [py "secret"])], [], false);
   ([(py "cookie", [py "secret"])], [], false)] /\
  display ex_ops (Some 1%nat) [(py "a", [py "1"])] /\
  (forall i, made_with ex_ops i (Some 1%nat) -> i = 0%nat).
Proof.
  split; [|split; [vm_compute; reflexivity|split]].
  - apply (valid_fold ex_ops [] valid_nil). unfold ex_ops. cbn [each_refers app refers].
    repeat match goal with
    | |- True => exact I
    | |- (_ < _)%nat => cbn; lia
    | |- NoDup _ => apply NoDup_cons; [intros []|apply NoDup_nil]
    | |- forall n, _ = Some n -> _ => intros n X; first [discriminate X | injection X as <-; cbn; lia]
    | |- _ /\ _ => split
    end.
  - apply (display_dict ex_ops [] _ (tl ex_ops)). reflexivity.
  - intros i (a & j & st & c & ct & b & E & <-).
    do 11 (destruct a as [|? a]; [try discriminate; vm_compute; reflexivity|]; injection E as <- E).
    destruct a; discriminate.
Qed.

(** On the wire: an extension with two handlers, made of these operations.  The handler of
    /login sets a header on its response, the handler of /hello sets none; the reply to a
    request for /hello is with that header after a request for /login, and without it before. *)
Definition ex_script (n : nat) (h : heap) : list op :=
  let j := pred (List.length (hp_reqs h)) in
  NewResponse (Some j) (Some 2) (map z2b (py "ok")) (py "text/plain") None ::
  match n with O => [SetHeader (List.length (hp_resps h)) (py "Set-Cookie") [py "session=1"]] | _ => [] end.
Definition ex_site : extension heap :=
  mkExtn heap (py "site") [py "Extension"; py "ActionExtension"]
    (match new_action_extension [[mkRoute 0 (py "/login") (py "login")]; [mkRoute 0 (py "/hello") (py "hello")]] with
     | Ok g => g | Raise _ => empty_registry end)
    (run_handler ex_script).
Lemma ex_site_reply path n u a : text_ok path -> text_ok (path ++ py "?a=1") ->
  let m := ex_rest_msg path in
  frame_of m (ex_raw m) -> m_payload m <> [] ->
  find_handler (e_cls ex_env) (rg_map (xt_registry ex_site)) (py "GET " ++ path) = Ok n ->
  rest_response_ok a ->
  exists p, write_exec_response (exec_of a) = Ok p /\ w_exec_response true (exec_of a) p /\
    (zlen (ex_raw m) + zlen p < 2 ^ 31 -> exists out, answers m p out /\
      forall h, hs_user h = u -> snd (xt_invoke ex_site n u (with_consumed (ex_rest path) [] false)) = Ok a ->
        on_input ex_env ex_site [] (ex_raw m) h =
          (Ok (Some out), set_user (set_next h (hs_next h + 2)) (fst (xt_invoke ex_site n u (with_consumed (ex_rest path) [] false))))).
Proof.
  intros T T' m F N Hn Ha.
  destruct (rest_reply ex_env ex_site true m (ex_raw m) (ex_rest path) 0 n (with_consumed (ex_rest path) [] false) a ex_env_ok F eq_refl) as (p & Wp & W & X);
    try assumption; try reflexivity.
  - apply (by_writer _ _ _ _ _ _ (rest_request_writes true)); [now apply ex_rest_ok|].
    unfold m, ex_rest_msg in N |- *. cbn [ex_msg m_payload] in N |- *. destruct (write_rest_request (ex_rest path)); [reflexivity|contradiction N; reflexivity].
  - repeat split.
  - now apply response_exec.
  - exists p. split; [exact Wp|]. split; [exact W|]. intros L. destruct (X L) as (out & A & O). exists out. split; [exact A|].
    intros h Hu Hi. specialize (O [] [] h (fst (xt_invoke ex_site n u (with_consumed (ex_rest path) [] false)))).
    rewrite app_nil_r in O. apply O. rewrite Hu, <- Hi. apply surjective_pairing.
Qed.
Definition ex_page (hs : list (pystr * list pystr)) : rest_response := mkResp (Some 2) (map z2b (py "ok")) (py "text/plain") hs [] false.
Lemma ex_page_ok hs : hs = [] \/ hs = [(py "Set-Cookie", [py "session=1"])] -> rest_response_ok (ex_page hs).
Proof.
  intros H. split; [exists 2; split; [reflexivity|vm_compute; split; [discriminate|reflexivity]]|].
  split; [vm_compute; discriminate|]. split; [text|]. split; [|split; [split; [vm_compute; discriminate|constructor]|constructor]].
  destruct H as [-> | ->].
  - split; [reflexivity|]. split; constructor.
  - split; [reflexivity|]. split; [constructor; [intros []|constructor]|constructor; [split; [text|split; [vm_compute; discriminate|constructor; [text|constructor]]]|constructor]].
Qed.
Theorem C94_wire_refuted : let login := ex_rest_msg (py "/login") in let hello := ex_rest_msg (py "/hello") in
  frame_of login (ex_raw login) /\ frame_of hello (ex_raw hello) /\
  find_handler (e_cls ex_env) (rg_map (xt_registry ex_site)) (py "GET /hello") = Ok 1%nat /\
  (forall h i k v, ~ In (SetHeader i k v) (ex_script 1 h)) /\
  exists p r out p' r' out' out1 h1,
    fst (on_input ex_env ex_site [] (ex_raw hello) (initial_host new_heap)) = Ok (Some out) /\
    answers hello p out /\ w_exec_response true r p /\ ex_headers r = [] /\
    on_input ex_env ex_site [] (ex_raw login) (initial_host new_heap) = (Ok (Some out1), h1) /\
    fst (on_input ex_env ex_site [] (ex_raw hello) h1) = Ok (Some out') /\
    answers hello p' out' /\ w_exec_response true r' p' /\ ex_headers r' = [(py "Set-Cookie", [py "session=1"])].
Proof.
  cbv zeta. set (login := ex_rest_msg (py "/login")). set (hello := ex_rest_msg (py "/hello")).
  assert (F1 : frame_of login (ex_raw login)) by (apply ex_frame; [text|discriminate|vm_compute; discriminate]).
  assert (F2 : frame_of hello (ex_raw hello)) by (apply ex_frame; [text|discriminate|vm_compute; discriminate]).
  split; [exact F1|]. split; [exact F2|]. split; [vm_compute; reflexivity|].
  split; [intros h i k v [H|[]]; discriminate|].
  set (u1 := fst (xt_invoke ex_site 0 new_heap (with_consumed (ex_rest (py "/login")) [] false))).
  destruct (ex_site_reply (py "/hello") 1 new_heap (ex_page [])) as (p & Q & W & X);
    [text|text|exact F2|vm_compute; discriminate|vm_compute; reflexivity|apply ex_page_ok; auto|].
  destruct (ex_site_reply (py "/hello") 1 u1 (ex_page [(py "Set-Cookie", [py "session=1"])])) as (p' & Q' & W' & X');
    [text|text|exact F2|vm_compute; discriminate|vm_compute; reflexivity|apply ex_page_ok; auto|].
  destruct (ex_site_reply (py "/login") 0 new_heap (ex_page [(py "Set-Cookie", [py "session=1"])])) as (p1 & Q1 & W1 & X1);
    [text|text|exact F1|vm_compute; discriminate|vm_compute; reflexivity|apply ex_page_ok; auto|].
  destruct X as (out & A & O); [vm_compute in Q; apply Ok_inj in Q; subst p; vm_compute; reflexivity|].
  destruct X' as (out' & A' & O'); [vm_compute in Q'; apply Ok_inj in Q'; subst p'; vm_compute; reflexivity|].
  destruct X1 as (out1 & A1 & O1); [vm_compute in Q1; apply Ok_inj in Q1; subst p1; vm_compute; reflexivity|].
  specialize (O (initial_host new_heap) eq_refl ltac:(vm_compute; reflexivity)).
  specialize (O1 (initial_host new_heap) eq_refl ltac:(vm_compute; reflexivity)).
  exists p, (exec_of (ex_page [])), out, p', (exec_of (ex_page [(py "Set-Cookie", [py "session=1"])])), out', out1.
  eexists. split; [fold hello in O; rewrite O; reflexivity|]. split; [exact A|]. split; [exact W|]. split; [reflexivity|].
  split; [exact O1|]. split; [|split; [exact A'|split; [exact W'|reflexivity]]].
  fold hello in O'. rewrite O'; [reflexivity|reflexivity|vm_compute; reflexivity].
Qed.
Print Assumptions C94_wire_refuted.
