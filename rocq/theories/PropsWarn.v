(** * Property C105: the warnings about exceptions *)
From Coq Require Import String ZArith List Bool Lia.
From Coq Require Import Strings.Byte.
From Verif Require Import Py PyFacts Stream StreamFacts StreamFacts2 Version VersionFacts Frame Proto Messages Rest Routes Settings Host
  Spec SpecFacts FrameFacts RestFacts RouteFacts Wire WireFacts WireFacts4 HostSpec HostFacts PropsMessages PropsRoutes PropsHost Samples PropsSamples PropsDelivery
  Log PropsLog.
Import ListNotations.
Open Scope list_scope.
Open Scope Z_scope.

(** the chunk is a REST request for which the extension has no handler *)
Definition unrouted {U} (ev : env) (ext : extension U) (raw : bytes) (z : Z) (path : pystr) : Prop :=
  exists m q t, read_as (e_so ev) raw m /\ m_action m = py "internal:extensions/restexecuteonextensiontaction" /\
    read_rest_request (m_payload m) = Ok (q, t) /\ rq_method q = Some z /\ rq_path q = path /\
    find_handler (e_cls ev) (rg_map (xt_registry ext)) (mname z ++ [32] ++ path) = Raise EGeneric.

(** C105: whatever arrives, every warning about it is one line (if the texts of the exceptions of
    Python and of the handlers are) *)
Definition C105_statement : Prop := forall U ev ds (ext : extension U) other uuid raw h,
  display_ok ds -> set_order_ok (e_so ev) -> one_line other ->
  forall x, In (WARNING, x) (log_chunk ev ds raw h ++ log_failure ev other ext uuid raw h) -> one_line x.

(** ** Facts *)
Lemma read_method s q t : read_rest_request s = Ok (q, t) -> exists z, rq_method q = Some z /\ method_name (rq_method q) = Ok (mname z).
Proof.
  intros R. apply method_name_ok. unfold read_rest_request in R. apply rbind_ok in R as (tk & s1 & _ & R).
  apply rbind_ok in R as (z & s2 & Rz & R). unfold read_enum in Rz. apply rbind_ok in Rz as (v & s3 & _ & Rz).
  destruct ((0 <=? v) && (v <? N_METHODS)) eqn:B; [|discriminate]. apply Ok_inj, pair_equal_spec in Rz as [<- _].
  repeat (apply rbind_ok in R as (? & ? & _ & R)). apply Ok_inj, pair_equal_spec in R as [<- _]. cbn [rq_method].
  exists v. split; [reflexivity|]. change N_METHODS with 9 in B. lia.
Qed.
(** the model's [lost_route] is the route of an unrouted request *)
Lemma lost_unrouted U ev (ext : extension U) raw n route : set_order_ok (e_so ev) ->
  lost_route ev ext raw n = Some route <-> exists z path, unrouted ev ext raw z path /\ route = mname z ++ [32] ++ path.
Proof.
  intros So. split.
  - unfold lost_route. intros H. destruct (read_header raw) as [[hd rest]|e] eqn:Rh; [|discriminate].
    destruct (is_request hd) eqn:Q; [|discriminate]. rewrite new_blank_request in H. cbn [fst] in H.
    destruct (read_outbound _ _ _ _ _) as [[o p]|e] eqn:Ro; [|discriminate].
    destruct (streqb (o_action o) A_REST) eqn:Ea; [apply streqb_eq in Ea|discriminate].
    destruct (read_rest_request p) as [[q t]|e] eqn:R; [|discriminate].
    destruct (read_method _ _ _ R) as (z & Ez & Em). rewrite Em in H. cbv zeta in H.
    destruct (find_handler _ _ _) as [k|[]] eqn:F; try discriminate. injection H as <-.
    assert (exists v, h_version hd = HVer v) as [v Ev].
    { unfold read_header in Rh. repeat (apply rbind_ok in Rh as (? & ? & _ & Rh)).
      apply Ok_inj, pair_equal_spec in Rh as [<- _]. cbn. eauto. }
    exists z, (rq_path q). split; [|reflexivity].
    exists (mkMsg (o_ctx o) (o_features o) v (o_action o) (h_id hd) (is_handshake hd) (is_compress hd) p), q, t.
    split; [|split; [exact Ea|]; split; [exact R|]; split; [exact Ez|]; split; [reflexivity|exact F]].
    exists hd, rest, (n + 1), (blank_request (n + 1)), (n + 1 + 1), o. cbn. rewrite Ev.
    repeat (split; [first [assumption|reflexivity]|]). reflexivity.
  - intros (z & path & (m & q & t & (hd & rest & k & o0 & k' & o & Rh & Q & En & Ro & _ & _ & _ & A & _) & Ea & R & Ez & <- & F) & ->).
    rewrite new_blank_request in En. apply pair_equal_spec in En as [En _]. apply Ok_inj in En. subst o0.
    unfold lost_route. rewrite Rh, Q, new_blank_request. cbn [fst]. rewrite (blank_req _ k), Ro, <- A, Ea.
    change (streqb (py "internal:extensions/restexecuteonextensiontaction") A_REST) with true. cbv iota. rewrite R.
    destruct (read_method _ _ _ R) as (z' & Ez' & Em). rewrite Ez in Ez'. injection Ez' as <-. rewrite Em. cbv zeta.
    change [SPACE] with [32]. rewrite F. reflexivity.
Qed.
Lemma unrouted_fails U ev (ext : extension U) raw z path uuid h : set_order_ok (e_so ev) -> unrouted ev ext raw z path ->
  fst (on_input ev ext uuid raw h) = Raise EGeneric.
Proof.
  intros So (m & q & t & Rm & Ea & R & Ez & <- & F).
  destruct (on_request ev ext raw m So Rm) as (o & S & _ & ->).
  rewrite dispatch_rest by (rewrite (seen_action _ _ S); exact Ea). unfold handle_rest. rewrite R, hbind_hlift. cbn [fst].
  destruct (read_method _ _ _ R) as (z' & Ez' & Em). rewrite Ez in Ez'. injection Ez' as <-. rewrite Em, hbind_hlift.
  cbv zeta. change [SPACE] with [32]. rewrite F. reflexivity.
Qed.
Lemma failure_text U ev (ext : extension U) raw z path uuid h other : set_order_ok (e_so ev) -> unrouted ev ext raw z path ->
  log_failure ev other ext uuid raw h =
  [(WARNING, py "! #Can not find a matching route for " ++ mname z ++ [32] ++ path ++ py ".")].
Proof.
  intros So H. unfold log_failure. rewrite (unrouted_fails _ _ _ _ _ _ uuid h So H).
  assert (L : lost_route ev ext raw (hs_next h) = Some (mname z ++ [32] ++ path)) by (apply lost_unrouted; eauto).
  rewrite L. unfold no_route_text. rewrite <- !app_assoc. reflexivity.
Qed.
(** no warning before the exception has peers' texts *)
Lemma chunk_warnings U ev ds raw (h : host U) x : display_ok ds -> In (WARNING, x) (log_chunk ev ds raw h) -> one_line x.
Proof.
  intros D I. destruct I as [E|[E|I]]; [apply pair_equal_spec in E as [E _]; discriminate..|].
  destruct (request_dec (e_so ev) raw) as [[m Hm]|N]; [|eapply log_other; eassumption].
  exfalso. destruct (log_request U ev ds raw m h Hm) as (hd & o & E & _). rewrite E in I.
  destruct I as [X|[X|I]]; [apply pair_equal_spec in X as [X _]; discriminate..|].
  assert (G : forall A (r : res (A * bytes)) show, ~ In (WARNING, x) (log_read r show)).
  { intros A r show. unfold log_read. destruct r as [[a t]|e]; [|intros []]. intros [X|[]]. apply pair_equal_spec in X as [X _]. discriminate. }
  unfold log_handler in I. cbv zeta in I.
  repeat (destruct (streqb _ _) in I; [exact (G _ _ _ I)|]). exact I.
Qed.

(** ** Theorems *)
(** What is logged about a REST request the extension has no route for: a warning with its path
    as it is.  [hs] are the routes of the extension's handlers. *)
Theorem C105_no_route_partial : forall U ev (ext : extension U) hs strict m raw q z nm other uuid s h,
  set_order_ok (e_so ev) -> frame_of m raw ->
  m_action m = py "internal:extensions/restexecuteonextensiontaction" -> w_rest_request strict q (m_payload m) ->
  rq_method q = Some z -> In (z, nm) rest_methods ->
  Forall (Forall declared_ok) hs -> new_action_extension (map (map to_route) hs) = Ok (xt_registry ext) ->
  (forall x, In x (table hs) -> ~ serves z (rq_path q) (snd x)) ->
  log_failure ev other ext uuid (raw ++ s) h =
    [(WARNING, py "! #Can not find a matching route for " ++ nm ++ [32] ++ rq_path q ++ py ".")].
Proof.
  intros U ev ext hs strict m raw q z nm other uuid s h So Hf Ha Wq Ez Inm Hok Hx Hn.
  assert (Rz : 0 <= z < 9) by (apply method_range, (in_map fst _ _ Inm)).
  assert (En : nm = mname z).
  { clear - Inm. cbn [rest_methods In] in Inm.
    repeat (destruct Inm as [E|Inm]; [apply pair_equal_spec in E as [<- <-]; vm_compute; reflexivity|]). destruct Inm. }
  subst nm. destruct (find_meant (e_cls ev) hs _ z (rq_path q) Hok Hx Rz) as [_ F]. specialize (F Hn).
  destruct (read_as_frame _ _ _ So Hf) as (c & _ & R). specialize (R s).
  apply failure_text; [exact So|].
  destruct (rest_request_reads strict q (m_payload m) s I Wq) as (q' & Rq & Er).
  eexists _, q', s. split; [exact R|]. cbn [m_action m_payload]. split; [exact Ha|]. split; [exact Rq|].
  destruct Er as (_ & Em & _ & Ep & _). split; [congruence|]. split; [congruence|]. exact F.
Qed.
Print Assumptions C105_no_route_partial.
(** What holds: with the texts of the other exceptions on one line each, every warning is one line
    exactly if the path of a request without route is. *)
Theorem C105_lines_partial : forall U ev ds (ext : extension U) other uuid raw h,
  display_ok ds -> set_order_ok (e_so ev) -> one_line other ->
  (forall x, In (WARNING, x) (log_chunk ev ds raw h ++ log_failure ev other ext uuid raw h) -> one_line x) <->
  (forall z path, unrouted ev ext raw z path -> one_line path).
Proof.
  intros U ev ds ext other uuid raw h D So O. split.
  - intros H z path N. rewrite (failure_text _ _ _ _ _ _ uuid h other So N) in H.
    specialize (H (py "! #Can not find a matching route for " ++ mname z ++ [32] ++ path ++ py ".")).
    rewrite !one_app in H. apply H. apply in_or_app. right. left. reflexivity.
  - intros H x I. apply in_app_or in I as [I|I]; [eapply chunk_warnings; eassumption|].
    unfold log_failure in I. destruct (fst (on_input _ _ _ _ _)); [destruct I|]. destruct I as [E|[]].
    apply pair_equal_spec in E as [_ <-]. apply one_app. split; [lit|].
    destruct (lost_route ev ext raw (hs_next h)) as [route|] eqn:L; [|exact O].
    apply (lost_unrouted U ev ext raw (hs_next h) route So) in L as (z & path & N & ->). specialize (H z path N).
    unfold no_route_text. rewrite !one_app. split; [lit|]. split; [|lit].
    destruct N as (m & q & t & _ & _ & R & Ez & _). destruct (read_method _ _ _ R) as (z' & Ez' & Em).
    rewrite Ez in Ez'. injection Ez' as <-. split; [|split; [lit|exact H]].
    unfold method_name in Em. rewrite Ez in Em. destruct (nth_error method_names (Z.to_nat z)) as [nm|] eqn:Nm; [|discriminate].
    destruct (z <? 0); [discriminate|]. apply Ok_inj in Em. rewrite <- Em. apply nth_error_In in Nm.
    apply one_lineb_ok.
    assert (F : Forall (fun nm => one_lineb nm = true) method_names) by (vm_compute; repeat constructor).
    rewrite Forall_forall in F. exact (F nm Nm).
Qed.
Print Assumptions C105_lines_partial.
(** Refuted: a client of the hello sample asks for GET /, a line break, and the line it wants to
    have in the log. *)
Definition ex_forged : pystr := py "/" ++ [10] ++ py "! #The disk is full".
Lemma hello_built : exists ext, hello_extension = Ok ext /\ rg_map (xt_registry ext) = hello_map /\
  new_action_extension [hello_routes] = Ok (xt_registry ext).
Proof. eexists. split; [reflexivity|]. split; reflexivity. Qed.
Lemma ex_forged_unserved : exists ext, hello_extension = Ok ext /\
  read_as (e_so ex_env) (ex_raw (ex_rest_msg ex_forged)) (ex_rest_msg ex_forged) /\
  unrouted ex_env ext (ex_raw (ex_rest_msg ex_forged)) 0 ex_forged.
Proof.
  destruct hello_built as (ext & E & M & _). exists ext. split; [exact E|].
  assert (R : read_as (e_so ex_env) (ex_raw (ex_rest_msg ex_forged)) (ex_rest_msg ex_forged)).
  { eexists _, _, 0, _, _, _. split; [vm_compute; reflexivity|]. split; [reflexivity|]. split; [apply new_blank_request|].
    split; [vm_compute; reflexivity|]. repeat (split; [reflexivity|]). reflexivity. }
  split; [exact R|]. exists (ex_rest_msg ex_forged). eexists _, _. split; [exact R|]. split; [reflexivity|].
  split; [vm_compute; reflexivity|]. split; [reflexivity|]. split; [reflexivity|].
  rewrite M. apply hello_find. intros [X|(r & X)]; vm_compute in X; discriminate.
Qed.
Theorem C105_forged_refuted : ~ C105_statement /\
  exists ext m raw, hello_extension = Ok ext /\ frame_of m raw /\ zlen raw <= 10240 /\
    forall other uuid h, log_failure ex_env other ext uuid raw h =
      [(WARNING, py "! #Can not find a matching route for GET /" ++ [10] ++ py "! #The disk is full.")].
Proof.
  destruct ex_forged_unserved as (ext & E & R & N).
  assert (A : forall other uuid h, log_failure ex_env other ext uuid (ex_raw (ex_rest_msg ex_forged)) h =
      [(WARNING, py "! #Can not find a matching route for GET /" ++ [10] ++ py "! #The disk is full.")]).
  { intros. rewrite (failure_text _ _ _ _ _ _ _ _ _ ex_env_ok N). reflexivity. }
  split.
  - intros S. specialize (S unit ex_env ex_ds ext [] [] (ex_raw (ex_rest_msg ex_forged)) (initial_host tt) ex_ds_ok ex_env_ok one_nil).
    rewrite A in S. specialize (S (py "! #Can not find a matching route for GET /" ++ [10] ++ py "! #The disk is full.")).
    assert (I : forall (l : list record) r, In r (l ++ [r])) by (intros l r; apply in_or_app; right; left; reflexivity).
    specialize (S (I _ _)).
    rewrite !one_app in S. destruct S as (_ & S & _). apply (S 10); cbn; auto.
  - exists ext, (ex_rest_msg ex_forged), (ex_raw (ex_rest_msg ex_forged)). split; [exact E|].
    split; [apply ex_frame; [text|discriminate|vm_compute; discriminate]|]. split; [vm_compute; discriminate|exact A].
Qed.
Print Assumptions C105_forged_refuted.
(** the hello sample as [C105_no_route_partial] takes it, and a request it does not serve *)
Example C105_case : let hs := [[mkDecl 0 [Text (py "/hello")] (py "greeting"); mkDecl 0 [Text (py "/hello/"); Hole (py "name")] (py "personal_greeting")]] in
  (exists ext, hello_extension = Ok ext /\ new_action_extension (map (map to_route) hs) = Ok (xt_registry ext)) /\
  Forall (Forall declared_ok) hs /\ forall x, In x (table hs) -> ~ serves 0 ex_forged (snd x).
Proof.
  cbv zeta. split; [destruct hello_built as (ext & E & _ & N); exists ext; split; [exact E|exact N]|].
  assert (T : forall x, forallb (fun c => negb ((c =? 42) || (c =? 63) || (c =? 91) || (c =? 123))) x = true -> piece_ok (Text x)).
  { intros x H c Hc. rewrite forallb_forall in H. specialize (H c Hc).
    apply negb_true_iff in H. rewrite !orb_false_iff, !Z.eqb_neq in H. tauto. }
  split.
  - constructor; [|constructor]. constructor; [|constructor; [|constructor]]; (split; [left; reflexivity|]);
      (constructor; [apply T; reflexivity|]); [constructor|].
    constructor; [|constructor]. split; [discriminate|]. split; intros X; cbn in X; intuition discriminate.
  - intros x [<-|[<-|[]]] (_ & F); cbn [snd d_path] in F; inversion F as [|? ? ? ? E|]; subst; vm_compute in E; discriminate.
Qed.
