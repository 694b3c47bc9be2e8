(** * Properties C114, C115: the log at the level WARNING *)
From Coq Require Import String ZArith List Bool Lia.
From Coq Require Import Strings.Byte.
From Verif Require Import Py PyFacts Stream StreamFacts Version Frame Messages Rest Routes Settings Host
  Spec SpecFacts FrameFacts Wire WireFacts WireFacts2 WireFacts3 WireFacts4 WireFacts5 HostSpec HostFacts
  PropsMessages PropsHost PropsHistory PropsDelivery PropsSession PropsWire Log PropsLog PropsSent PropsSeen.
Import ListNotations.
Open Scope list_scope.
Open Scope Z_scope.

(** ** Specification *)
(** all that is logged for a chunk: about what is received, about what is sent, about an exception
    (with the text [other] unless it is the one about a missing route) *)
Definition chunk_log {U} (ev : env) (ds : display) (other : pystr) (ext : extension U) (uuid raw : bytes) (h : host U) : list record :=
  log_chunk ev ds raw h ++ log_reply ev ds ext uuid raw h ++ log_failure ev other ext uuid raw h.
(** what is left of a log at the level WARNING *)
Definition is_warning (r : record) : bool := match fst r with WARNING => true | _ => false end.
Definition warnings (l : list record) : list pystr := map snd (filter is_warning l).
(** C115 as one would expect it: a response is called unregistered only if nobody waits for it *)
Definition unregistered (k : Z) : pystr := py "< response id " ++ str_int k ++ py " not registered".
Definition C115_statement : Prop := forall U ev ds other (ext : extension U) u l uuid raw k p, set_order_ok (e_so ev) ->
  let h := feed ev ext (initial_host u) l in
  response_in (e_so ev) raw false k p ->
  In (unregistered k) (warnings (chunk_log ev ds other ext uuid raw h)) -> ~ In k (pending_ids h).

(** ** Proofs *)
Lemma warnings_app a b : warnings (a ++ b) = warnings a ++ warnings b.
Proof. unfold warnings. rewrite filter_app, map_app. reflexivity. Qed.
Lemma reply_no_warning U ev ds (ext : extension U) uuid raw h : warnings (log_reply ev ds ext uuid raw h) = [].
Proof.
  unfold log_reply. destruct (fst (says ev ds ext uuid raw h)) as [[g|]|]; try reflexivity. unfold log_send.
  destruct (write_outbound (og_out g)); reflexivity.
Qed.
Lemma failure_warns U ev other (ext : extension U) uuid raw h :
  match fst (on_input ev ext uuid raw h) with
  | Ok _ => warnings (log_failure ev other ext uuid raw h) = []
  | Raise _ => exists t, warnings (log_failure ev other ext uuid raw h) = [py "! #" ++ t]
  end.
Proof. unfold log_failure. destruct (fst (on_input ev ext uuid raw h)); [reflexivity|]. eexists. reflexivity. Qed.
Lemma read_no_warning A (r : res (A * bytes)) show : warnings (log_read r show) = [].
Proof. destruct r as [[a t]|]; reflexivity. Qed.
Lemma handler_no_warning ds o p : warnings (log_handler ds o p) = [].
Proof. unfold log_handler. cbv zeta. repeat match goal with |- context [if streqb ?a ?b then _ else _] => destruct (streqb a b) end; try apply read_no_warning; reflexivity. Qed.
Lemma send_some U o (h h' : host U) : send o h <> (Ok None, h').
Proof. unfold send, hbind, hlift. destruct (write_outbound o); discriminate. Qed.
Lemma request_never_none U ev (ext : extension U) uuid o p (h h' : host U) : handle_request ev ext uuid o p h <> (Ok None, h').
Proof.
  assert (B : forall A (m : hm U A) (k : A -> hm U (option bytes)) (g : host U), (forall a g1, k a g1 <> (Ok None, h')) -> hbind m k g <> (Ok None, h')).
  { intros A m k g K E. apply hbind_inv in E as (a & g1 & _ & E). exact (K a g1 E). }
  unfold handle_request. cbv zeta. repeat match goal with |- context [if streqb ?a ?b then _ else _] => destruct (streqb a b) end;
    unfold handle_discovery, handle_rest, handle_tcp_handshake, handle_transport_handshake, handle_not_found;
    repeat first [apply send_some|apply B; intros].
Qed.
(** the three kinds of chunks *)
Lemma warned_request U ev ds other (ext : extension U) uuid raw m h : set_order_ok (e_so ev) -> read_as (e_so ev) raw m ->
  fst (on_input ev ext uuid raw h) <> Ok None /\
  warnings (chunk_log ev ds other ext uuid raw h) = warnings (log_failure ev other ext uuid raw h).
Proof.
  intros So Hm. destruct (on_request ev ext raw m So Hm) as (o & _ & _ & E). split.
  - intros X. destruct (on_input ev ext uuid raw h) as [r h'] eqn:E'. cbn [fst] in X. subst r. rewrite E in E'. exact (request_never_none _ _ _ _ _ _ _ _ E').
  - unfold chunk_log. rewrite !warnings_app, reply_no_warning. clear E o.
    destruct Hm as (hd & t & n & o0 & n' & o & Rh & Q & Eb & Ro & _). unfold log_chunk, log_input. rewrite Rh, Q.
    rewrite new_blank_request in *. cbn [fst]. apply pair_equal_spec in Eb as [Eb _]. apply Ok_inj in Eb. subst o0.
    rewrite (blank_req _ n), Ro. match goal with |- warnings (?a :: ?b :: ?c :: ?d :: ?l) ++ _ = _ => change (warnings (a :: b :: c :: d :: l)) with (warnings l) end.
    rewrite handler_no_warning. reflexivity.
Qed.
Lemma warned_response U ev ds other (ext : extension U) uuid raw err k p h : response_in (e_so ev) raw err k p ->
  warnings (chunk_log ev ds other ext uuid raw h) =
    (if err then match read_header raw with Ok (hd, _) => [py "< error " ++ str_header ds hd] | _ => [] end
     else warnings (log_response ev ds h k p)) ++ warnings (log_failure ev other ext uuid raw h).
Proof.
  intros (hd & t & n & o0 & n' & o & Rh & Q & Ee & Ek & Eb & Ro). unfold chunk_log. rewrite !warnings_app, reply_no_warning.
  unfold log_chunk, log_input. rewrite Rh, Q. rewrite new_blank_response in *. cbn [fst]. apply pair_equal_spec in Eb as [Eb _]. apply Ok_inj in Eb. subst o0.
  rewrite (blank_resp _ n), Ro, Ee, Ek. destruct err; reflexivity.
Qed.
Lemma warned_other U ev ds other (ext : extension U) uuid raw h :
  (forall m, ~ read_as (e_so ev) raw m) -> (forall err k p, ~ response_in (e_so ev) raw err k p) ->
  warnings (chunk_log ev ds other ext uuid raw h) = warnings (log_failure ev other ext uuid raw h).
Proof.
  intros Nq Nr. unfold chunk_log. rewrite !warnings_app, reply_no_warning. unfold log_chunk, log_input.
  destruct (read_header raw) as [[hd t]|e] eqn:Rh; [|reflexivity]. destruct (is_request hd) eqn:Q.
  - rewrite new_blank_request. cbn [fst]. destruct (read_outbound (e_so ev) true _ hd t) as [[o p]|e] eqn:Ro; [|reflexivity].
    exfalso. assert (exists v, h_version hd = HVer v) as [v Ev].
    { unfold read_header in Rh. repeat (apply rbind_ok in Rh as (? & ? & _ & Rh)). apply Ok_inj, pair_equal_spec in Rh as [<- _]. cbn. eauto. }
    apply (Nq (mkMsg (o_ctx o) (o_features o) v (o_action o) (h_id hd) (is_handshake hd) (is_compress hd) p)).
    exists hd, t, (hs_next h + 1), (blank_request (hs_next h + 1)), (hs_next h + 1 + 1), o. cbn [m_ctx m_features m_version m_action m_id m_hs m_cp m_payload].
    rewrite Ev. repeat (split; [first [assumption|apply new_blank_request|reflexivity]|]). reflexivity.
  - rewrite new_blank_response. cbn [fst]. destruct (read_outbound (e_so ev) false _ hd t) as [[o p]|e] eqn:Ro; [|reflexivity].
    exfalso. apply (Nr (is_error hd) (h_id hd) p).
    exists hd, t, (hs_next h + 1), (blank_response (hs_next h + 1)), (hs_next h + 1 + 1), o.
    repeat (split; [first [assumption|apply new_blank_response|reflexivity]|]). exact Ro.
Qed.
(** what a response that is no error comes to *)
Lemma response_outcome U ev ds other (ext : extension U) uuid raw k p (h : host U) : response_in (e_so ev) raw false k p ->
  let r := fst (on_input ev ext uuid raw h) in
  (r = Ok None <-> ~ In k (pending_ids h) \/ exists o t, waits_for h k (RegisterRH o) /\ read_ack p = Ok (false, t)) /\
  warnings (chunk_log ev ds other ext uuid raw h) =
    match r with Ok None => [unregistered k] | Ok (Some _) => [] | Raise _ => warnings (log_failure ev other ext uuid raw h) end.
Proof.
  intros Hr r. rewrite (warned_response U ev ds other ext uuid raw false k p h Hr). pose proof (failure_warns U ev other ext uuid raw h) as F. fold r in F.
  unfold r in *. rewrite (on_response ev ext raw false k p Hr) in *. clear r. cbv iota in *. unfold handle_response, log_response in *. cbn [hs_pending set_next] in *.
  unfold waits_for. destruct (dict_get Z.eqb k (hs_pending h)) as [[o|]|] eqn:G.
  - assert (I : In k (pending_ids h)) by (apply (dict_get_In _ Z.eqb_eq) in G; apply (in_map fst) in G; exact G).
    cbv zeta in *. unfold handle_register, hbind, hlift in *. destruct (read_ack p) as [[b t]|e] eqn:A; cbn [fst] in *.
    + destruct b.
      * unfold send, hbind, hlift in *. destruct (write_outbound o) as [d|e]; cbn [fst hret] in *; (split; [split; [discriminate|intros [X|(? & ? & _ & X)]; [contradiction|discriminate]]|]); [|reflexivity].
        rewrite F. reflexivity.
      * cbn [hret fst] in *. rewrite F. split; [split; [intros _; right; eauto|reflexivity]|]. reflexivity.
    + split; [split; [discriminate|intros [X|(? & ? & _ & X)]; [contradiction|discriminate]]|reflexivity].
  - assert (I : In k (pending_ids h)) by (apply (dict_get_In _ Z.eqb_eq) in G; apply (in_map fst) in G; exact G).
    cbv zeta in *. unfold handle_env in *. cbn [hs_settings set_pending set_next] in *. destruct (read_settings (e_fuel ev) (hs_settings h) p) as [[x|e] d]; cbn [fst] in *.
    + cbv zeta in *. cbn [hs_init set_settings set_pending set_next] in *. destruct (hs_init h) as [o|]; cbn [fst] in *.
      * unfold send, hbind, hlift in *. destruct (write_outbound o) as [b|e]; cbn [fst hret] in *;
          (split; [split; [discriminate|intros [X|(? & ? & X & _)]; [contradiction|discriminate]]|]); [rewrite F; reflexivity|reflexivity].
      * split; [split; [discriminate|intros [X|(? & ? & X & _)]; [contradiction|discriminate]]|]. reflexivity.
    + split; [split; [discriminate|intros [X|(? & ? & X & _)]; [contradiction|discriminate]]|]. reflexivity.
  - cbn [fst] in *. rewrite F. split; [split; [intros _; left|reflexivity]|reflexivity]. apply (dict_get_None _ Z.eqb_eq), G.
Qed.

(** C114: whatever arrives, something is sent and nothing warned of, or nothing is sent and there is
    exactly one warning. *)
Theorem C114_answered_or_warned : forall U ev ds other (ext : extension U) uuid raw h, set_order_ok (e_so ev) ->
  let reply := fst (on_input ev ext uuid raw h) in
  let warned := warnings (chunk_log ev ds other ext uuid raw h) in
  (exists d, reply = Ok (Some d)) /\ warned = [] \/
  (forall d, reply <> Ok (Some d)) /\ exists x, warned = [x].
Proof.
  intros U ev ds other ext uuid raw h So reply warned. pose proof (failure_warns U ev other ext uuid raw h) as F. fold reply in F.
  destruct (request_dec (e_so ev) raw) as [[m Hm]|Nq].
  - destruct (warned_request U ev ds other ext uuid raw m h So Hm) as [N W]. fold reply in N. fold warned in W. rewrite W.
    destruct reply as [[d|]|e]; [left; eauto|contradiction|right]. destruct F as (t & F). split; [discriminate|eauto].
  - destruct (input_cases ev ext raw) as [[m Hm]|[(err & k & p & Hr)|Hx]]; [exfalso; exact (Nq m Hm)| |].
    + destruct err.
      * pose proof (warned_response U ev ds other ext uuid raw true k p h Hr) as W. fold warned in W.
        assert (E : reply = Ok None) by (unfold reply; rewrite (on_response ev ext raw true k p Hr); reflexivity).
        rewrite E in *. right. split; [discriminate|]. destruct Hr as (hd & t & _ & _ & _ & _ & Rh & _). rewrite W, F, Rh. cbn [app]. eauto.
      * destruct (response_outcome U ev ds other ext uuid raw k p h Hr) as [_ W]. fold reply in W. fold warned in W. rewrite W.
        destruct reply as [[d|]|e]; [left; eauto|right; split; [discriminate|eauto]|right]. destruct F as (t & F). split; [discriminate|eauto].
    + destruct (Hx uuid h) as (e & n & E & _). assert (R : reply = Raise e) by (unfold reply; rewrite E; reflexivity). rewrite R in *.
      destruct F as (t & F). right. split; [discriminate|]. unfold warned. rewrite warned_other; [eauto|exact Nq|].
      intros err k p Hr. pose proof (Hx uuid h) as _. 
      assert (X : forall uuid h, exists e n, on_input ev ext uuid raw h = (Raise e, set_next h n)) by (intros a b; destruct (Hx a b) as (? & ? & X & _); eauto).
      destruct err.
      * destruct (X uuid h) as (e' & n' & E'). rewrite (on_response ev ext raw true k p Hr) in E'. discriminate.
      * destruct (X uuid (mkHost 0 [] None [] (hs_user h))) as (e' & n' & E'). rewrite (on_response ev ext raw false k p Hr) in E'. discriminate.
Qed.
Print Assumptions C114_answered_or_warned.

(** C115, what holds: what the one warning says. *)
Theorem C115_what_partial : forall U ev ds other (ext : extension U) uuid raw h, set_order_ok (e_so ev) ->
  let reply := fst (on_input ev ext uuid raw h) in
  let warned := warnings (chunk_log ev ds other ext uuid raw h) in
  (forall e, reply = Raise e -> exists t, warned = [py "! #" ++ t]) /\
  (forall k p, response_in (e_so ev) raw true k p -> exists t, warned = [py "< error " ++ t]) /\
  (forall k p, response_in (e_so ev) raw false k p ->
     (In (unregistered k) warned <-> ~ In k (pending_ids h) \/ exists o t, waits_for h k (RegisterRH o) /\ read_ack p = Ok (false, t))) /\
  (forall k, In (unregistered k) warned -> exists k' p, response_in (e_so ev) raw false k' p /\ warned = [unregistered k']).
Proof.
  intros U ev ds other ext uuid raw h So reply warned. pose proof (failure_warns U ev other ext uuid raw h) as F. fold reply in F.
  assert (D : forall k t, unregistered k <> py "! #" ++ t) by (intros k t X; discriminate).
  assert (D' : forall k t, unregistered k <> py "< error " ++ t) by (intros k t X; discriminate).
  assert (Er : forall k p, response_in (e_so ev) raw true k p -> exists t, warned = [py "< error " ++ t]).
  { intros k p Hr. pose proof (warned_response U ev ds other ext uuid raw true k p h Hr) as W. fold warned in W.
    assert (E : reply = Ok None) by (unfold reply; rewrite (on_response ev ext raw true k p Hr); reflexivity).
    rewrite E in *. destruct Hr as (hd & t & _ & _ & _ & _ & Rh & _). rewrite W, F, Rh. cbn [app]. eauto. }
  assert (Rq : (exists m, read_as (e_so ev) raw m) -> warned = warnings (log_failure ev other ext uuid raw h)).
  { intros [m Hm]. apply (warned_request U ev ds other ext uuid raw m h So Hm). }
  assert (Ra : forall e, reply = Raise e -> exists t, warned = [py "! #" ++ t]).
  { intros e E. rewrite E in F. destruct F as (t & F). exists t. destruct (request_dec (e_so ev) raw) as [Q|Nq]; [rewrite (Rq Q); exact F|].
    destruct (input_cases ev ext raw) as [[m Hm]|[(err & k & p & Hr)|Hx]]; [exfalso; exact (Nq m Hm)| |].
    - destruct err; [exfalso; unfold reply in E; rewrite (on_response ev ext raw true k p Hr) in E; discriminate|].
      destruct (response_outcome U ev ds other ext uuid raw k p h Hr) as [_ W]. fold reply in W. fold warned in W. rewrite W, E. exact F.
    - unfold warned. rewrite warned_other; [exact F|exact Nq|]. intros err k p Hr. destruct err.
      * destruct (Hx uuid h) as (e' & n' & E' & _). rewrite (on_response ev ext raw true k p Hr) in E'. discriminate.
      * destruct (Hx uuid (mkHost 0 [] None [] (hs_user h))) as (e' & n' & E' & _). rewrite (on_response ev ext raw false k p Hr) in E'. discriminate. }
  split; [exact Ra|]. split; [exact Er|]. split.
  - intros k p Hr. destruct (response_outcome U ev ds other ext uuid raw k p h Hr) as [O W]. fold reply in O, W. fold warned in W. rewrite <- O, W.
    destruct reply as [[d|]|e]; [split; [intros []|discriminate]|split; [reflexivity|intros _; left; reflexivity]|].
    destruct F as (t & ->). split; [intros [X|[]]|discriminate]. exfalso. exact (D k t (eq_sym X)).
  - intros k I. destruct (C114_answered_or_warned U ev ds other ext uuid raw h So) as [[_ W]|[_ (x & W)]]; fold warned in W; rewrite W in I; [destruct I|].
    destruct I as [I|[]]. subst x. destruct reply as [r|e] eqn:E.
    2: { destruct (Ra e eq_refl) as (t & X). rewrite W in X. exfalso. apply (f_equal (hd [])) in X. exact (D k t X). }
    destruct (request_dec (e_so ev) raw) as [Q|Nq]; [rewrite (Rq Q), F in W; discriminate|].
    destruct (input_cases ev ext raw) as [[m Hm]|[(err & k' & p & Hr)|Hx]]; [exfalso; exact (Nq m Hm)| |].
    + destruct err; [destruct (Er k' p Hr) as (t & X); rewrite W in X; exfalso; apply (f_equal (hd [])) in X; exact (D' k t X)|].
      exists k', p. split; [exact Hr|]. destruct (response_outcome U ev ds other ext uuid raw k' p h Hr) as [_ W']. fold reply in W'. fold warned in W'. rewrite E in W'.
      destruct r as [d|]; [rewrite W in W'; discriminate|exact W'].
    + destruct (Hx uuid h) as (e & n & X & _). unfold reply in E. rewrite X in E. discriminate.
Qed.
Print Assumptions C115_what_partial.

(** a registration that OpenSearch declines *)
Theorem C115_declined_refuted : ~ C115_statement.
Proof.
  intros S. pose proof (S Z ex_env ex_ds [] ex_ext 0 [([], ex_raw (ex_init 77))] [] (ex_answer 3 [x00]) 3 [x00] ex_env_ok) as X. cbv zeta in X. apply X.
  - response.
  - vm_compute. left. reflexivity.
  - vm_compute. right. left. reflexivity.
Qed.
Print Assumptions C115_declined_refuted.
(** a handshake, an unknown action, an awaited response: no warning; garbage, an error, an answer to
    nothing: one each *)
Example C114_case : let h := feed ex_env ex_ext (initial_host 0) [([], ex_raw (ex_init 77))] in
  let w raw := warnings (chunk_log ex_env ex_ds (py "boom") ex_ext [] raw h) in
  map w [ex_raw ex_tcp; ex_answer 3 [x01]; ex_garbage; ex_answer 9 [x01]] = [[]; []; [py "! #boom"]; [py "< response id 9 not registered"]] /\
  response_in (e_so ex_env) (ex_answer 9 [x01]) false 9 [x01].
Proof. split; [vm_compute; reflexivity|response]. Qed.
