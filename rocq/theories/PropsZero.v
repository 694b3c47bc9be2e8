(** * Property C113: the response carries the id of the request, whatever that id is *)
From Coq Require Import String ZArith List Bool Lia.
From Coq Require Import Strings.Byte.
From Verif Require Import Py PyFacts Stream StreamFacts Version Frame Messages Rest Routes Settings Host
  Spec SpecFacts FrameFacts Wire WireFacts WireFacts2 WireFacts3 WireFacts4 WireFacts5 HostSpec HostFacts
  PropsMessages PropsHost PropsHistory PropsDelivery PropsSession PropsWire.
Import ListNotations.
Open Scope list_scope.
Open Scope Z_scope.

(** ** Specification *)
(** the request [m] asked with the id [i] instead *)
Definition asked_with (i : Z) (m : message) : message :=
  mkMsg (m_ctx m) (m_features m) (m_version m) (m_action m) i (m_hs m) (m_cp m) (m_payload m).
(** C113 as one would expect it: an answer carries the id of what it answers *)
Definition C113_statement : Prop := forall U ev (ext : extension U) u l uuid raw m out,
  set_order_ok (e_so ev) -> read_as (e_so ev) raw m -> ~ is_init m ->
  fst (on_input ev ext uuid raw (feed ev ext (initial_host u) l)) = Ok (Some out) -> exists p, answers m p out.

(** ** Proofs *)
Lemma response_drawn c f msg v hs cp n : n <> 0 ->
  fst (new_response c f msg v (Some 0) hs cp n) = fst (new_response c f msg v (Some n) hs cp n).
Proof.
  intros H. unfold new_response, new_outbound, new_header, pick_id, ibind. change (0 =? 0) with true.
  destruct (Z.eqb_spec n 0); [contradiction|]. cbv iota. cbn [iret ilift].
  destruct (ctx_size _); cbn [ilift]; [|reflexivity]. destruct msg as [[b|e]|]; cbn [ilift iret]; reflexivity.
Qed.
Lemma response_drawn_ok c f msg v hs cp n o n' : n <> 0 ->
  new_response c f msg v (Some 0) hs cp n = (Ok o, n') -> new_response c f msg v (Some n) hs cp n = (Ok o, n).
Proof.
  intros H E. pose proof (response_drawn c f msg v hs cp n H) as X. rewrite E in X. cbn [fst] in X.
  destruct (new_response c f msg v (Some n) hs cp n) as [r k] eqn:E'. cbn [fst] in X. subst r.
  pose proof (new_id_kept _ _ _ _ _ _ _ _ _ _ H E') as ->. reflexivity.
Qed.
Lemma running_next U ev (ext : extension U) h : set_order_ok (e_so ev) -> running ev ext h -> 0 <= hs_next h.
Proof. intros So (u & l & ->). destruct (feed_inv ev ext l So (initial_host u) (inv_initial u)) as ((A & _) & _). exact A. Qed.

Definition reply_fst {U} o o' (h : host U) : Prop := forall msg,
  fst ((r <== hids (reply_to o msg) ;; send r) h) = fst ((r <== hids (reply_to o' msg) ;; send r) h).
Lemma reply_as_asked U m o o' (h : host U) : m_id m = 0 -> hs_next h <> 0 -> seen m o -> seen (asked_with (hs_next h) m) o' -> reply_fst o o' h.
Proof.
  intros Z N (C & F & A & I & Hs & Cp) (C' & F' & A' & I' & Hs' & Cp') msg. unfold hbind, hids, reply_to. cbv zeta.
  rewrite C, F, I, Hs, Cp, C', F', I', Hs', Cp'. cbn [asked_with m_ctx m_features m_id m_hs m_cp]. rewrite Z.
  pose proof (response_drawn (Some (m_ctx m)) (m_features m) (Some msg) V_MIN_COMPAT (m_hs m) (m_cp m) (hs_next h) N) as X.
  destruct (new_response _ _ _ _ (Some 0) _ _ _) as [r n1], (new_response _ _ _ _ (Some (hs_next h)) _ _ _) as [r' n2]. cbn [fst] in X. subst r'.
  destruct r as [r|e]; [|reflexivity]. unfold send, hbind, hlift. destruct (write_outbound r); reflexivity.
Qed.
(** C113, what holds.  A request with id 0, as one with any other id, is answered as if it had
    been asked with the id that the host draws next ... *)
Theorem C113_as_asked_partial : forall U ev (ext : extension U) uuid raw raw' m h,
  set_order_ok (e_so ev) -> running ev ext h -> read_as (e_so ev) raw m -> m_id m = 0 -> ~ is_init m ->
  read_as (e_so ev) raw' (asked_with (hs_next h + 2) m) ->
  fst (on_input ev ext uuid raw h) = fst (on_input ev ext uuid raw' h).
Proof.
  intros U ev ext uuid raw raw' m h So Rn Hm Z Ni Hm'. pose proof (running_next _ _ _ _ So Rn) as P.
  destruct (on_request ev ext raw m So Hm) as (o & S & _ & E). destruct (on_request ev ext raw' _ So Hm') as (o' & S' & _ & E').
  rewrite E, E'. clear E E'. cbn [asked_with m_payload].
  set (g := set_next h (hs_next h + 2)). assert (Ng : hs_next g = hs_next h + 2) by (destruct h; reflexivity).
  assert (R : forall g', hs_next g' = hs_next g -> @reply_fst U o o' g').
  { intros g' Eg. apply (reply_as_asked U m); [exact Z|lia|exact S|]. rewrite Eg, Ng. exact S'. }
  pose proof (seen_action _ _ S) as A. pose proof (seen_action _ _ S') as A'. cbn [asked_with m_action] in A'.
  assert (B : forall (X : Type) (x : res X) k k', (forall a, x = Ok a -> fst (k a g) = fst (k' a g)) ->
    fst (hbind (hlift x) k g) = fst (@hbind U X (option bytes) (hlift x) k' g)).
  { intros X x k k' H. unfold hbind, hlift. destruct x; [apply H; reflexivity|reflexivity]. }
  assert (AA : o_action o' = o_action o) by congruence.
  destruct (action_cases m) as [X|[X|[X|[X|X]]]]; [contradiction| | | |]; rewrite <- A in X.
  - rewrite !dispatch_rest by congruence. unfold handle_rest. apply B. intros q _. apply B. intros mn _. cbv zeta. apply B. intros n _.
    unfold hbind at 1 3. unfold call_user. destruct (xt_invoke ext n (hs_user g) (fst q)) as [u [a|e]]; [|reflexivity].
    apply R. destruct h; reflexivity.
  - rewrite !dispatch_tcp by congruence. unfold handle_tcp_handshake. apply B. intros q _. apply R. reflexivity.
  - rewrite !dispatch_transport by congruence. unfold handle_transport_handshake. apply B. intros q _. apply R. reflexivity.
  - rewrite !dispatch_other by congruence. unfold handle_not_found. rewrite AA. apply B. intros q _. apply R. reflexivity.
Qed.
Print Assumptions C113_as_asked_partial.
Lemma reply_zero_sent U m o msg (h h' : host U) out : seen m o -> nodup_ctx (m_ctx m) -> m_id m = 0 -> hs_next h <> 0 ->
  (r <== hids (reply_to o msg) ;; send r) h = (Ok (Some out), h') ->
  exists p, msg = Ok p /\ answers (asked_with (hs_next h) m) p out.
Proof.
  intros (C & F & A & I & Hs & Cp) N Z Hi H. unfold hbind, hids in H.
  destruct (reply_to o msg (hs_next h)) as [[r|e] n'] eqn:E; [|discriminate].
  unfold send, hbind, hlift in H. destruct (write_outbound r) as [b|e] eqn:W; [|discriminate].
  unfold hret in H. apply pair_equal_spec in H as [H _]. apply Ok_inj in H. assert (Hb : b = out) by congruence. subst b.
  unfold reply_to in E. cbv zeta in E. rewrite C, F, I, Hs, Cp, Z in E. apply response_drawn_ok in E; [|exact Hi].
  destruct (response_carries _ _ _ _ _ _ _ _ _ _ _ N Hi E W) as (p & -> & _ & X). exists p. split; [reflexivity|exact X].
Qed.
(** ... so the response carries the request's id unless that is 0, and then the next id of the
    host's own counter, never 0. *)
Theorem C113_replies_partial : forall U ev (ext : extension U) uuid raw m h out,
  set_order_ok (e_so ev) -> running ev ext h -> read_as (e_so ev) raw m -> ~ is_init m ->
  fst (on_input ev ext uuid raw h) = Ok (Some out) ->
  (m_id m <> 0 -> exists p, answers m p out) /\
  (m_id m = 0 -> 0 < hs_next h + 2 /\ exists p, answers (asked_with (hs_next h + 2) m) p out).
Proof.
  intros U ev ext uuid raw m h out So Rn Hm Ni H. pose proof (running_next _ _ _ _ So Rn) as P.
  destruct (on_input ev ext uuid raw h) as [r h'] eqn:E. cbn [fst] in H. subst r.
  split; [intros Z; eapply immediate_reply; eassumption|]. intros Z. split; [lia|].
  destruct (on_request ev ext raw m So Hm) as (o & S & N & Eo). rewrite Eo in E. clear Eo.
  set (g := set_next h (hs_next h + 2)) in *. assert (Ng : hs_next g = hs_next h + 2) by (destruct h; reflexivity).
  pose proof (seen_action _ _ S) as A. rewrite <- Ng.
  assert (K : forall msg (g' h2 : host U), hs_next g' = hs_next g -> (r <== hids (reply_to o msg) ;; send r) g' = (Ok (Some out), h2) ->
    exists p, answers (asked_with (hs_next g) m) p out).
  { intros msg g' h2 Eg H. assert (Nz : hs_next g' <> 0) by lia. destruct (reply_zero_sent U m o msg g' h2 out S N Z Nz H) as (p & _ & X). rewrite Eg in X. exists p. exact X. }
  destruct (action_cases m) as [X|[X|[X|[X|X]]]]; [contradiction| | | |]; rewrite <- A in X.
  - rewrite dispatch_rest in E by exact X. unfold handle_rest in E.
    apply hbind_inv in E as (q & h1 & H1 & E). apply hlift_inv in H1 as [_ ->].
    apply hbind_inv in E as (mn & h1 & H1 & E). apply hlift_inv in H1 as [_ ->]. cbv zeta in E.
    apply hbind_inv in E as (n & h1 & H1 & E). apply hlift_inv in H1 as [_ ->].
    apply hbind_inv in E as (a & h1 & H1 & E). eapply K; [|exact E].
    unfold call_user in H1. destruct (xt_invoke ext n (hs_user g) (fst q)) as [u [b|e]]; apply pair_equal_spec in H1 as [_ <-]; reflexivity.
  - rewrite dispatch_tcp in E by exact X. unfold handle_tcp_handshake in E.
    apply hbind_inv in E as (q & h1 & H1 & E). apply hlift_inv in H1 as [_ ->]. eapply K; [|exact E]. reflexivity.
  - rewrite dispatch_transport in E by exact X. unfold handle_transport_handshake in E.
    apply hbind_inv in E as (q & h1 & H1 & E). apply hlift_inv in H1 as [_ ->]. eapply K; [|exact E]. reflexivity.
  - rewrite dispatch_other in E by exact X. unfold handle_not_found in E.
    apply hbind_inv in E as (q & h1 & H1 & E). apply hlift_inv in H1 as [_ ->]. eapply K; [|exact E]. reflexivity.
Qed.
Print Assumptions C113_replies_partial.
(** the refutation, and what goes wrong: the node has asked for a handshake with the id 2; a
    request with id 0, the first the host receives, is answered with the id 2 too *)
Definition ex_zero (i : Z) : message := ex_msg (py "internal:no/such") i false [].
Lemma ex_zero_read i : i = 0 \/ i = 2 -> read_as (e_so ex_env) (ex_raw (ex_zero i)) (ex_zero i).
Proof.
  intros [->| ->]; (eexists _, _, 0, _, _, _; split; [vm_compute; reflexivity|]; split; [reflexivity|]; split; [reflexivity|]; split; [vm_compute; reflexivity|]; repeat split).
Qed.
Lemma ex_zero_not_init i : ~ is_init (ex_zero i).
Proof. intros H. vm_compute in H. discriminate. Qed.
Theorem C113_zero_refuted : ~ C113_statement.
Proof.
  intros S. destruct (fst (on_input ex_env ex_ext [] (ex_raw (ex_zero 0)) (initial_host 0))) as [[out|]|] eqn:E.
  2: { vm_compute in E. discriminate. }
  2: { vm_compute in E. discriminate. }
  destruct (S Z ex_env ex_ext 0 [] [] (ex_raw (ex_zero 0)) (ex_zero 0) out ex_env_ok (ex_zero_read 0 (or_introl eq_refl)) (ex_zero_not_init 0) E) as (p & _ & A).
  destruct (A (fun l => l) [] ex_env_ok) as (h & t & R & _ & _ & K & _). rewrite app_nil_r in R.
  assert (B : match fst (on_input ex_env ex_ext [] (ex_raw (ex_zero 0)) (initial_host 0)) with
              | Ok (Some b) => match read_header b with Ok (h, _) => h_id h =? 0 | _ => true end | _ => true end = false) by (vm_compute; reflexivity).
  rewrite E, R, K in B. discriminate.
Qed.
Print Assumptions C113_zero_refuted.
Example C113_case :
  read_as (e_so ex_env) (ex_raw (ex_zero 0)) (ex_zero 0) /\ m_id (ex_zero 0) = 0 /\ ~ is_init (ex_zero 0) /\ running ex_env ex_ext (initial_host 0) /\
  read_as (e_so ex_env) (ex_raw (ex_zero 2)) (asked_with (hs_next (initial_host 0) + 2) (ex_zero 0)) /\
  exists out, fst (on_input ex_env ex_ext [] (ex_raw (ex_zero 0)) (initial_host 0)) = Ok (Some out) /\
              fst (on_input ex_env ex_ext [] (ex_raw (ex_zero 2)) (initial_host 0)) = Ok (Some out).
Proof.
  split; [apply ex_zero_read; auto|]. split; [reflexivity|]. split; [apply ex_zero_not_init|]. split; [exists 0, []; reflexivity|].
  split; [apply (ex_zero_read 2); auto|]. eexists. split; vm_compute; reflexivity.
Qed.

(** the initialization *)
Definition keeps_init {U A} (m : hm U A) : Prop := forall h r h', m h = (r, h') -> hs_init h' = hs_init h.
Lemma keeps_bind {U A B} (m : hm U A) (k : A -> hm U B) : keeps_init m -> (forall a, keeps_init (k a)) -> keeps_init (hbind m k).
Proof.
  intros Hm Hk h r h' H. unfold hbind in H. destruct (m h) as [[a|e] h1] eqn:E.
  - rewrite (Hk a _ _ _ H). eapply Hm, E.
  - apply pair_equal_spec in H as [_ <-]. eapply Hm, E.
Qed.
Lemma keeps_lift {U A} (x : res A) : keeps_init (U := U) (hlift x).
Proof. intros h r h' H. apply pair_equal_spec in H as [_ <-]. reflexivity. Qed.
Lemma keeps_ids {U A} (m : idm A) : keeps_init (U := U) (hids m).
Proof. intros h r h' H. unfold hids in H. destruct (m (hs_next h)). apply pair_equal_spec in H as [_ <-]. reflexivity. Qed.
Lemma keeps_register {U} i x : keeps_init (U := U) (register_response i x).
Proof. intros h r h' H. apply pair_equal_spec in H as [_ <-]. reflexivity. Qed.
Lemma keeps_send {U} o : keeps_init (U := U) (send o).
Proof. intros h r h' H. unfold send, hbind, hlift in H. destruct (write_outbound o); apply pair_equal_spec in H as [_ <-]; reflexivity. Qed.
Lemma discovery_init U (ext : extension U) o p (g : host U) r h' : handle_discovery ext o p g = (r, h') ->
  hs_init h' = hs_init g \/ exists resp msg n', hs_init h' = Some resp /\ reply_to o msg (hs_next g) = (Ok resp, n').
Proof.
  unfold handle_discovery. intros H. unfold hbind at 1, hlift at 1 in H.
  destruct (read_init_request p) as [q|e]; [|apply pair_equal_spec in H as [_ <-]; auto].
  unfold hbind at 1, hids at 1 in H. destruct (reply_to o _ (hs_next g)) as [[resp|e] n1] eqn:E.
  2: { apply pair_equal_spec in H as [_ <-]. left. reflexivity. }
  right. eexists resp, _, n1. split; [|exact E]. unfold hbind at 1, hmod at 1 in H.
  match type of H with ?k (set_init ?a ?b) = _ => assert (K : keeps_init k) end.
  { repeat first [apply keeps_bind|apply keeps_lift|apply keeps_ids|apply keeps_register|apply keeps_send|progress intros]. }
  apply K in H. rewrite H. reflexivity.
Qed.
Lemma response_id c f msg v rid hs cp n o n' : new_response c f msg v rid hs cp n = (Ok o, n') ->
  h_id (o_hdr o) = (if draws rid then n else match rid with Some i => i | None => 0 end).
Proof.
  intros H. pose proof (make_id (MkResponse c f msg v rid hs cp) n) as M. cbn [make making_id] in M.
  unfold ibind in M. rewrite H in M. cbn [iret] in M. apply M. reflexivity.
Qed.
Lemma init_nonzero U ev (ext : extension U) u l : set_order_ok (e_so ev) ->
  forall resp, hs_init (feed ev ext (initial_host u) l) = Some resp -> h_id (o_hdr resp) <> 0.
Proof.
  intros So. induction l as [|x l IH] using rev_ind; [discriminate|]. intros resp. rewrite feed_snoc.
  assert (P : 0 <= hs_next (feed ev ext (initial_host u) l)) by (eapply running_next; [exact So|exists u, l; reflexivity]).
  set (h := feed ev ext (initial_host u) l) in *. destruct (on_input ev ext (fst x) (snd x) h) as [r h'] eqn:E. cbn [snd].
  destruct (init_input (e_so ev) (snd x)) as [(m & Hm & Hi)|Hn].
  - destruct (on_request ev ext (snd x) m So Hm) as (o & S & _ & Eo). rewrite Eo in E.
    rewrite dispatch_init in E by (rewrite (seen_action _ _ S); exact Hi).
    destruct (discovery_init _ _ _ _ _ _ _ E) as [K|(rs & msg & n' & K & R)]; rewrite K; [exact (IH resp)|].
    intros X. injection X as <-. unfold reply_to in R. cbv zeta in R. apply response_id in R.
    replace (hs_next (set_next h (hs_next h + 2))) with (hs_next h + 2) in R by (destruct h; reflexivity). cbn [draws] in R.
    destruct (Z.eqb_spec (h_id (o_hdr o)) 0); lia.
  - destruct (step_other ev ext _ _ _ _ _ So Hn E) as (_ & K & _). rewrite K. exact (IH resp).
Qed.
(** C113, the initialization: what the host sends on the response to its environment-settings
    request answers the latest initialization request, with that request's id, or with a drawn
    one (not 0) if that is 0. *)
Theorem C113_initialization_partial : forall U ev (ext : extension U) u l uuid raw k p out,
  set_order_ok (e_so ev) -> text_ok (xt_name ext) -> texts_ok (xt_interfaces ext) ->
  let h := feed ev ext (initial_host u) l in
  response_in (e_so ev) raw false k p -> dict_get Z.eqb k (hs_pending h) = Some EnvRH ->
  fst (on_input ev ext uuid raw h) = Ok (Some out) ->
  exists m i pi, latest_init ev ext (initial_host u) l m /\ w_init_response true (mkInitResp (xt_name ext) (xt_interfaces ext)) pi /\
    answers (asked_with i m) pi out /\ i <> 0 /\ (m_id m <> 0 -> i = m_id m).
Proof.
  intros U ev ext u l uuid raw k p out So Tn Ti h Hr G H. destruct (history ev ext u l So) as [A _]. cbv zeta in A. fold h in A.
  pose proof (init_nonzero U ev ext u l So) as Z. fold h in Z.
  rewrite (on_response _ _ _ _ _ _ Hr) in H. cbv iota in H. unfold handle_response in H. cbn [hs_pending set_next] in H. rewrite G in H. cbv zeta in H.
  unfold handle_env in H. destruct (read_settings _ _ _) as [[x|e] d']; [|discriminate]. cbv zeta in H.
  cbn [hs_init set_settings set_pending set_next] in H. destruct (hs_init h) as [o|] eqn:I; [|discriminate].
  destruct (A o eq_refl) as (m & Lm & n & n' & N & Hn). specialize (Z o eq_refl).
  unfold send, hbind, hlift in H. destruct (write_outbound o) as [b|e] eqn:W; [|discriminate]. cbn [fst hret] in H. apply Ok_inj in H.
  assert (b = out) by congruence. subst b. clear H.
  destruct (init_response_writes true (mkInitResp (xt_name ext) (xt_interfaces ext)) (conj Tn Ti)) as (pi & Wi & Ri). rewrite Wi in Hn.
  exists m, (h_id (o_hdr o)), pi. split; [exact Lm|]. split; [exact Ri|].
  pose proof (response_id _ _ _ _ _ _ _ _ _ _ Hn) as Ei. cbn [draws] in Ei.
  destruct (Z.eqb_spec (m_id m) 0) as [E|E].
  - rewrite E in Hn. assert (Nz : n <> 0) by congruence. apply response_drawn_ok in Hn; [|exact Nz].
    destruct (response_carries _ _ _ _ _ _ _ _ _ _ _ N Nz Hn W) as (q & Ep & _ & X). apply Ok_inj in Ep. subst q.
    split; [rewrite Ei; exact X|]. split; [exact Z|contradiction].
  - destruct (response_carries _ _ _ _ _ _ _ _ _ _ _ N E Hn W) as (q & Ep & _ & X). apply Ok_inj in Ep. subst q.
    split; [rewrite Ei; exact X|]. split; [exact Z|auto].
Qed.
Print Assumptions C113_initialization_partial.
(** an initialization with the id 0: its response has the id 2, its requests 3 and 4 *)
Example C113_init_case : let h := feed ex_env ex_ext (initial_host 0) [([], ex_raw (ex_init 0)); ([], ex_answer 4 [x01])] in
  dict_get Z.eqb 3 (hs_pending h) = Some EnvRH /\ response_in (e_so ex_env) (ex_answer 3 ex_settings) false 3 ex_settings /\
  text_ok (xt_name ex_ext) /\ texts_ok (xt_interfaces ex_ext) /\
  exists out, fst (on_input ex_env ex_ext [] (ex_answer 3 ex_settings) h) = Ok (Some out) /\
    match read_header out with Ok (hd, _) => h_id hd = 2 /\ is_response hd = true | _ => False end.
Proof.
  cbv zeta. split; [vm_compute; reflexivity|]. split; [response|]. split; [text|]. split; [split; [vm_compute; discriminate|constructor; [text|constructor; [text|constructor]]]|].
  eexists. split; vm_compute; [reflexivity|split; reflexivity].
Qed.
