(** * Properties C101-C104: handlers the program adds, and extensions of other kinds *)
From Coq Require Import String ZArith List Bool Lia ZifyBool Permutation.
From Coq Require Import Strings.Byte.
From Verif Require Import Py Stream Version Frame Proto Messages Rest Routes Settings Host PyFacts
  Spec SpecFacts MsgFacts SettingsFacts PropsMessages Wire WireFacts WireFacts2 WireFacts3 WireFacts4 HostSpec HostFacts PropsHost
  PropsHistory Handlers.
Import ListNotations.
Open Scope list_scope.
Open Scope Z_scope.
Ltac Zify.zify_post_hook ::= idtac.

(** ** Specification *)
(** a handler object is given the request [m]: what it sees of it *)
Definition shows (m : message) (o : outbound) : Prop :=
  o_ctx o = m_ctx m /\ o_features o = m_features m /\ o_action o = m_action m /\
  h_id (o_hdr o) = m_id m /\ is_handshake (o_hdr o) = m_hs m /\ is_compress (o_hdr o) = m_cp m.
(** the table after serve() and the registrations [l], oldest first *)
Definition table_after (l : list (pystr * handler)) : handlers :=
  fold_left (fun t ax => register t (fst ax) (snd ax)) l served.
(** [x] is the last one registered for [a] *)
Definition last_for {K H} (a : K) (x : H) (l : list (K * H)) : Prop :=
  exists l1 l2, l = l1 ++ (a, x) :: l2 /\ ~ In a (map fst l2).
(** the two hosts agree on this outcome, and the table stays *)
Definition with_table {U} (t : handlers) (y : res (option bytes) * host U) : res (option bytes) * (host U * handlers) :=
  (fst y, (snd y, t)).

(** ** Proofs *)
Lemma keep_pair {U A} (m : hm U A) h t : keep m (h, t) = (fst (m h), (snd (m h), t)).
Proof. unfold keep. cbn [fst snd]. destruct (m h); reflexivity. Qed.
Lemma input_table {U} ev acts (ext : extension U) cd uuid raw h t :
  on_input_table ev acts ext cd uuid raw (h, t) =
  match read_header raw with
  | Raise e => (Raise e, (set_next h (hs_next h + 1), t))
  | Ok (hd, s) =>
      if is_request hd then
        match read_outbound (e_so ev) true (blank_request 0) hd s with
        | Raise e => (Raise e, (set_next h (hs_next h + 2), t))
        | Ok (o, p) => handle_table ev acts ext cd uuid o p (set_next h (hs_next h + 2), t)
        end
      else with_table t (on_input ev ext uuid raw h)
  end.
Proof.
  unfold on_input_table. rewrite keep_pair.
  rewrite (hbind_hids default_header _ h (mkHeader ES 17 (hs_next h) 0 (HInt CURRENT) 0) (hs_next h + 1) eq_refl).
  unfold hlift at 1 2. cbn [fst snd]. destruct (read_header raw) as [[hd s]|e] eqn:Rh; [|reflexivity].
  destruct (is_request hd) eqn:Eq.
  - rewrite keep_pair. rewrite (hbind_hids _ _ _ _ _ (new_blank_request _)).
    unfold hlift. cbn [fst snd]. rewrite (blank_req _ 0), set_next_next. cbn [hs_next set_next].
    replace (hs_next h + 1 + 1) with (hs_next h + 2) by lia.
    destruct (read_outbound (e_so ev) true (blank_request 0) hd s) as [[o p]|e]; reflexivity.
  - rewrite keep_pair. unfold on_input.
    rewrite (hbind_hids default_header _ h (mkHeader ES 17 (hs_next h) 0 (HInt CURRENT) 0) (hs_next h + 1) eq_refl).
    rewrite Rh, hbind_hlift, Eq. reflexivity.
Qed.
Lemma input_plain {U} ev (ext : extension U) uuid raw h :
  on_input ev ext uuid raw h =
  match read_header raw with
  | Raise e => (Raise e, set_next h (hs_next h + 1))
  | Ok (hd, s) =>
      if is_request hd then
        match read_outbound (e_so ev) true (blank_request 0) hd s with
        | Raise e => (Raise e, set_next h (hs_next h + 2))
        | Ok (o, p) => handle_request ev ext uuid o p (set_next h (hs_next h + 2))
        end
      else on_input ev ext uuid raw h
  end.
Proof.
  destruct (read_header raw) as [[hd s]|e] eqn:Rh.
  - destruct (is_request hd) eqn:Eq; [|reflexivity]. unfold on_input.
    rewrite (hbind_hids default_header _ h (mkHeader ES 17 (hs_next h) 0 (HInt CURRENT) 0) (hs_next h + 1) eq_refl).
    rewrite Rh, hbind_hlift, Eq. rewrite (hbind_hids _ _ _ _ _ (new_blank_request _)).
    rewrite (blank_req _ 0), set_next_next. cbn [hs_next set_next].
    replace (hs_next h + 1 + 1) with (hs_next h + 2) by lia.
    destruct (read_outbound (e_so ev) true (blank_request 0) hd s) as [[o p]|e]; reflexivity.
  - unfold on_input.
    rewrite (hbind_hids default_header _ h (mkHeader ES 17 (hs_next h) 0 (HInt CURRENT) 0) (hs_next h + 1) eq_refl).
    rewrite Rh. reflexivity.
Qed.
Lemma message_of so raw hd s o p : read_header raw = Ok (hd, s) -> is_request hd = true ->
  read_outbound so true (blank_request 0) hd s = Ok (o, p) ->
  exists m, read_as so raw m /\ m_action m = o_action o.
Proof.
  intros Rh Q Ro.
  assert (exists v, h_version hd = HVer v) as [v Ev].
  { unfold read_header in Rh. repeat (apply rbind_ok in Rh as (? & ? & _ & Rh)).
    apply Ok_inj, pair_equal_spec in Rh as [<- _]. cbn. eauto. }
  exists (mkMsg (o_ctx o) (o_features o) v (o_action o) (h_id hd) (is_handshake hd) (is_compress hd) p). split; [|reflexivity].
  exists hd, s, 0, (blank_request 0), 1, o. cbn. rewrite Ev. repeat (split; [first [assumption|reflexivity]|]). reflexivity.
Qed.
Lemma sends_some {U} o (h h' : host U) : send o h <> (Ok None, h').
Proof. unfold send, hbind, hlift, hret. destruct (write_outbound o); intros H; discriminate. Qed.
Lemma bind_some {U A} (m : hm U A) (k : A -> hm U (option bytes)) h h' : (forall a h1, k a h1 <> (Ok None, h')) ->
  hbind m k h <> (Ok None, h').
Proof. intros Hk. unfold hbind. destruct (m h) as [[a|e] h1]; [apply Hk|discriminate]. Qed.
Lemma served_get a : dict_get streqb a served =
  if streqb a A_DISCOVERY then Some HDiscovery else if streqb a A_REST then Some HRest
  else if streqb a A_TCP then Some HTcp else if streqb a A_TRANSPORT then Some HTransport else None.
Proof.
  assert (E : served = [(A_DISCOVERY, HDiscovery); (A_REST, HRest); (A_TCP, HTcp); (A_TRANSPORT, HTransport)]) by (vm_compute; reflexivity).
  rewrite E. reflexivity.
Qed.
(** no handler of the SDK returns None *)
Lemma builtin_answers {U} ev (ext : extension U) uuid cd t x o p h h' t' : (forall n, x <> HUser n) ->
  run_handler ev true ext cd uuid x o p (h, t) <> (Ok None, (h', t')).
Proof.
  intros Hx H. assert (G : forall m : hm U (option bytes), (forall h h', m h <> (Ok None, h')) -> keep m (h, t) <> (Ok None, (h', t'))).
  { intros m Hm. rewrite keep_pair. intros E. apply pair_equal_spec in E as [E1 E2]. apply pair_equal_spec in E2 as [E2 _].
    apply (Hm h h'). destruct (m h). cbn [fst snd] in *. congruence. }
  destruct x as [| | | |n]; cbn [run_handler] in H; [..|exact (Hx n eq_refl)]; apply G in H; try exact H; clear; intros h h';
    [unfold handle_discovery|unfold handle_rest|unfold handle_tcp_handshake|unfold handle_transport_handshake];
    repeat (apply bind_some; intros; cbv zeta); unfold hret; discriminate.
Qed.
Lemma table_served {U} ev (ext : extension U) cd uuid o p h t :
  dict_get streqb (o_action o) t = dict_get streqb (o_action o) served ->
  handle_table ev true ext cd uuid o p (h, t) = with_table t (handle_request ev ext uuid o p h).
Proof.
  intros E. unfold handle_table. cbn [snd]. rewrite E, served_get. unfold handle_request. cbv zeta.
  assert (K : forall x m, (forall n, x <> HUser n) -> run_handler ev true ext cd uuid x o p (h, t) = keep m (h, t) ->
    match run_handler ev true ext cd uuid x o p (h, t) with
    | (Ok None, st') => keep (handle_not_found o) st' | y => y end = with_table t (m h)).
  { intros x m Hx Hm. pose proof (fun h' t' => builtin_answers ev ext uuid cd t x o p h h' t' Hx) as B. rewrite Hm in *.
    rewrite keep_pair in *. unfold with_table. destruct (m h) as [[[b|]|e] h1]; cbn [fst snd] in *; try reflexivity.
    exfalso. exact (B _ _ Hm). }
  destruct (streqb _ A_DISCOVERY); [apply K; [discriminate|reflexivity]|].
  destruct (streqb _ A_REST); [apply K; [discriminate|reflexivity]|].
  destruct (streqb _ A_TCP); [apply K; [discriminate|reflexivity]|].
  destruct (streqb _ A_TRANSPORT); [apply K; [discriminate|reflexivity]|]. rewrite keep_pair. reflexivity.
Qed.
Lemma table_get_other a l : forall t, ~ In a (map fst l) ->
  dict_get streqb a (fold_left (fun t ax => register t (fst ax) (snd ax)) l t) = dict_get streqb a t.
Proof.
  induction l as [|[b x] l IH]; intros t H; [reflexivity|]. cbn [fold_left fst snd]. rewrite IH by (intros Hi; apply H; right; exact Hi).
  unfold register. apply dict_get_set_other; [apply streqb_eq|]. intros E. apply H. left. exact E.
Qed.
Lemma table_get_last a x l : last_for a x l -> dict_get streqb a (table_after l) = Some x.
Proof.
  intros (l1 & l2 & -> & H). unfold table_after. rewrite fold_left_app. cbn [fold_left fst snd]. rewrite table_get_other by exact H.
  unfold register. apply dict_get_set_same. apply streqb_eq.
Qed.

(** C101.  A host with handlers of the program's own treats every input as the host of the other
    theorems does, unless it reads as a request for one of their actions. *)
Theorem C101_others : forall U ev (ext : extension U) cd l uuid raw h,
  (forall m, read_as (e_so ev) raw m -> ~ In (m_action m) (map fst l)) ->
  on_input_table ev true ext cd uuid raw (h, table_after l) = with_table (table_after l) (on_input ev ext uuid raw h).
Proof.
  intros U ev ext cd l uuid raw h Hn. rewrite input_table. pose proof (input_plain ev ext uuid raw h) as P.
  destruct (read_header raw) as [[hd s]|e] eqn:Rh; [|rewrite P; reflexivity].
  destruct (is_request hd) eqn:Eq; [|reflexivity].
  destruct (read_outbound (e_so ev) true (blank_request 0) hd s) as [[o p]|e] eqn:Ro; rewrite P; [|reflexivity].
  destruct (message_of _ _ _ _ _ _ Rh Eq Ro) as (m & Hm & A). apply table_served. apply table_get_other.
  rewrite <- A. apply Hn, Hm.
Qed.
Print Assumptions C101_others.
(** A request for an action goes to the handler registered last for it, and to no other: with the
    request as it was sent and the unread payload, on the host as it is; what that handler returns
    or raises is the result, except that None becomes a response of its own (C101_declined). *)
Theorem C101_registered : forall U ev acts (ext : extension U) cd l n raw m,
  set_order_ok (e_so ev) -> read_as (e_so ev) raw m -> last_for (m_action m) (HUser n) l ->
  exists o, shows m o /\ forall uuid h r st',
    cd n uuid o (m_payload m) (set_next h (hs_next h + 2), table_after l) = (r, st') -> r <> Ok None ->
    on_input_table ev acts ext cd uuid raw (h, table_after l) = (r, st').
Proof.
  intros U ev acts ext cd l n raw m Hso Hm Hl.
  destruct Hm as (hd & t & k & o0 & k' & o & Rh & Eq & En & Ro & C & F & V & A & Id & Hs & Cp).
  rewrite new_blank_request in En. apply pair_equal_spec in En as [En _]. apply Ok_inj in En. subst o0.
  rewrite (blank_req _ 0) in Ro.
  assert (Eh : o_hdr o = hd).
  { unfold read_outbound in Ro. apply rbind_ok in Ro as (c & s1 & _ & Ro). destruct (0 <? h_vhs hd).
    - apply rbind_ok in Ro as (z & s2 & _ & Ro). apply rbind_ok in Ro as (vb & s3 & _ & Ro).
      apply rbind_ok in Ro as (fa & s4 & _ & Ro). apply Ok_inj, pair_equal_spec in Ro as [<- _]. reflexivity.
    - apply Ok_inj, pair_equal_spec in Ro as [<- _]. reflexivity. }
  exists o. split; [repeat split; congruence|]. intros uuid h r st' E Hr. rewrite input_table, Rh, Eq, Ro.
  unfold handle_table. cbn [snd]. rewrite <- A, (table_get_last _ _ _ Hl). cbn [run_handler]. rewrite E.
  destruct r as [[b|]|e]; try reflexivity. contradiction Hr; reflexivity.
Qed.
Print Assumptions C101_registered.
Lemma frame_seen so m raw : set_order_ok so -> frame_of m raw ->
  exists c o, same_ctx (m_ctx m) c /\ nodup_ctx c /\
    seen (mkMsg c (m_features m) (m_version m) (m_action m) (m_id m) (m_hs m) (m_cp m) (m_payload m)) o /\
    forall s, exists hd t, read_header (raw ++ s) = Ok (hd, t) /\ is_request hd = true /\
      read_outbound so true (blank_request 0) hd t = Ok (o, m_payload m ++ s).
Proof.
  intros Hso Hf. destruct (read_frame _ m raw Hso Hf) as (c & hd & o & Sc & E3 & Eo & Ef & Ev & Ea & Ei & Eh & Ec & R).
  exists c, o. split; [exact Sc|].
  assert (Hd : o_hdr o = hd).
  { destruct (R []) as (t & _ & Ro). unfold read_outbound in Ro. apply rbind_ok in Ro as (c0 & s1 & _ & Ro). destruct (0 <? h_vhs hd).
    - apply rbind_ok in Ro as (z & s2 & _ & Ro). apply rbind_ok in Ro as (vb & s3 & _ & Ro).
      apply rbind_ok in Ro as (fa & s4 & _ & Ro). apply Ok_inj, pair_equal_spec in Ro as [<- _]. reflexivity.
    - apply Ok_inj, pair_equal_spec in Ro as [<- _]. reflexivity. }
  split; [|split].
  - destruct (R []) as (t & _ & Ro). rewrite <- Eo. unfold read_outbound in Ro. apply rbind_ok in Ro as (c0 & s1 & Rc & Ro).
    replace (o_ctx o) with c0; [eapply read_ctx_nodup; eassumption|]. destruct (0 <? h_vhs hd).
    + apply rbind_ok in Ro as (z & s2 & _ & Ro). apply rbind_ok in Ro as (vb & s3 & _ & Ro).
      apply rbind_ok in Ro as (fa & s4 & _ & Ro). apply Ok_inj, pair_equal_spec in Ro as [<- _]. reflexivity.
    + apply Ok_inj, pair_equal_spec in Ro as [<- _]. reflexivity.
  - unfold seen. cbn. rewrite Hd. auto 10.
  - intros s. destruct (R s) as (t & Rh & Ro). exists hd, t. split; [exact Rh|]. split; [exact E3|]. exact Ro.
Qed.
(** A handler that returns None: the requester is told that there is no handler for the action
    (404), whatever the handler did. *)
Theorem C101_declined : forall U ev acts (ext : extension U) cd l n m raw,
  set_order_ok (e_so ev) -> frame_of m raw -> zlen raw <= 2 ^ 29 -> last_for (m_action m) (HUser n) l ->
  exists out p e c o, answers m p out /\
    is_utf8 (py "{""error"": ""No handler found for " ++ m_action m ++ py """}") e /\
    w_exec_response true (mkExec (Some 21) (py "application/json; charset=UTF-8") e [] [] false) p /\
    same_ctx (m_ctx m) c /\
    shows (mkMsg c (m_features m) (m_version m) (m_action m) (m_id m) (m_hs m) (m_cp m) (m_payload m)) o /\
    forall uuid s h st',
      cd n uuid o (m_payload m ++ s) (set_next h (hs_next h + 2), table_after l) = (Ok None, st') ->
      on_input_table ev acts ext cd uuid (raw ++ s) (h, table_after l) = (Ok (Some out), st').
Proof.
  intros U ev acts ext cd l n m raw Hso Hf Hl La. destruct (frame_seen _ m raw Hso Hf) as (c & o & Sc & N & S & R).
  destruct (not_found_seen m raw c o Hf Sc N S Hl) as (out & p & e & X1 & X2 & X3 & X4).
  exists out, p, e, c, o. split; [exact X1|]. split; [exact X2|]. split; [exact X3|]. split; [exact Sc|]. split; [exact S|].
  intros uuid s h st' E. destruct (R s) as (hd & t & Rh & Eq & Ro). rewrite input_table, Rh, Eq, Ro.
  unfold handle_table. cbn [snd]. rewrite (seen_action _ _ S). cbn [m_action]. rewrite (table_get_last _ _ _ La). cbn [run_handler].
  rewrite E. destruct st' as [h' t']. rewrite keep_pair, (X4 U h'). reflexivity.
Qed.
Print Assumptions C101_declined.
(** a program with two handlers of its own for one action, and one in place of an SDK handler *)
Definition ex_code : code Z := fun n uuid o p st =>
  match n with
  | O => (Ok (Some [x2a]), (set_user (fst st) (hs_user (fst st) + 1), snd st))
  | S O => (Ok None, (set_user (fst st) (hs_user (fst st) + 10), register (snd st) (py "late") (HUser 0)))
  | _ => (Raise EGeneric, st)
  end.
Definition ex_table : list (pystr * handler) :=
  [(py "my:action", HUser 2); (py "my:action", HUser 0); (py "internal:tcp/handshake", HUser 1)].
Example C101_case :
  last_for (py "my:action") (HUser 0) ex_table /\ last_for (py "internal:tcp/handshake") (HUser 1) ex_table /\
  frame_of (ex_msg (py "my:action") 7 true []) (ex_raw (ex_msg (py "my:action") 7 true [])) /\
  fst (on_input_table ex_env true ex_ext ex_code [] (ex_raw (ex_msg (py "my:action") 7 true []))
         (initial_host 0, table_after ex_table)) = Ok (Some [x2a]) /\
  hs_user (fst (snd (on_input_table ex_env true ex_ext ex_code [] (ex_raw ex_tcp) (initial_host 0, table_after ex_table)))) = 10 /\
  dict_get streqb (py "late") (snd (snd (on_input_table ex_env true ex_ext ex_code [] (ex_raw ex_tcp)
    (initial_host 0, table_after ex_table)))) = Some (HUser 0) /\
  ~ In (m_action ex_transport) (map fst ex_table).
Proof.
  split; [|split].
  - exists [(py "my:action", HUser 2)], [(py "internal:tcp/handshake", HUser 1)]. split; [reflexivity|].
    intros [H|[]]. vm_compute in H. discriminate.
  - exists [(py "my:action", HUser 2); (py "my:action", HUser 0)], []. split; [reflexivity|]. intros [].
  - split; [apply ex_frame; [text|discriminate|vm_compute; discriminate]|].
    do 3 (split; [vm_compute; reflexivity|]). intros H. vm_compute in H. repeat (destruct H as [H|H]; [discriminate|]). exact H.
Qed.

(** ** C102.  Response handlers *)
(** a handler registered under an id is run by the first response with that id that comes after,
    unless another one has been registered under it by then; and by nothing else *)
Definition about {H} (k : Z) (o : rop H) : bool := match o with Register i _ | Respond i => i =? k end.
Lemma responses_get {H} (l : list (rop H)) : forall d k, NoDup (map fst d) ->
  NoDup (map fst (fold_left (fun d o => fst (responses_step d o)) l d)) /\
  forall x, dict_get Z.eqb k (fold_left (fun d o => fst (responses_step d o)) l d) = Some x <->
    (exists l1 l2, l = l1 ++ Register k x :: l2 /\ existsb (about k) l2 = false) \/
    (dict_get Z.eqb k d = Some x /\ existsb (about k) l = false).
Proof.
  induction l as [|o l IH]; intros d k Nd.
  - split; [exact Nd|]. intros x. cbn. split; [right; auto|]. intros [(l1 & l2 & E & _)|[E _]]; [|exact E]. destruct l1; discriminate.
  - cbn [fold_left].
    assert (Nd' : NoDup (map fst (fst (responses_step d o)))).
    { destruct o; cbn; [apply dict_set_NoDup; [apply Z.eqb_eq|exact Nd]|apply dict_del_NoDup, Nd]. }
    destruct (IH (fst (responses_step d o)) k Nd') as [N2 G]. split; [exact N2|]. intros x. rewrite G. clear G IH.
    split.
    + intros [(l1 & l2 & -> & F)|[E F]].
      * left. exists (o :: l1), l2. split; [reflexivity|exact F].
      * destruct o as [i y|i]; cbn in E.
        -- destruct (Z.eqb_spec i k) as [->|Hik].
           ++ rewrite (dict_get_set_same _ Z.eqb_eq) in E. injection E as ->. left. exists [], l. split; [reflexivity|exact F].
           ++ rewrite (dict_get_set_other _ Z.eqb_eq) in E by exact Hik. right. split; [exact E|]. cbn. rewrite (proj2 (Z.eqb_neq i k) Hik). exact F.
        -- rewrite (dict_del_get _ Z.eqb_eq) in E by exact Nd. destruct (i =? k) eqn:Ei; [discriminate|]. right. split; [exact E|].
           cbn. rewrite Ei. exact F.
    + intros [(l1 & l2 & E & F)|[E F]].
      * destruct l1 as [|o' l1]; cbn [app] in E; injection E as -> ->.
        -- right. split; [cbn; apply dict_get_set_same; apply Z.eqb_eq|exact F].
        -- left. exists l1, l2. auto.
      * right. cbn in F. apply orb_false_iff in F as [F1 F2]. split; [|exact F2]. destruct o as [i y|i]; cbn in *.
        -- rewrite (dict_get_set_other _ Z.eqb_eq); [exact E|]. apply Z.eqb_neq, F1.
        -- rewrite (dict_del_get _ Z.eqb_eq), F1 by exact Nd. exact E.
Qed.
Lemma responses_nth {H} (l : list (rop H)) : forall d i y, nth_error (responses_run d l) i = Some y <->
  exists o, nth_error l i = Some o /\
    y = snd (responses_step (fold_left (fun d o => fst (responses_step d o)) (firstn i l) d) o).
Proof.
  induction l as [|o l IH]; intros d i y.
  - destruct i; cbn; split; [discriminate|intros (o & E & _); discriminate|discriminate|intros (o & E & _); discriminate].
  - destruct i as [|i]; cbn [responses_run nth_error firstn fold_left].
    + split; [intros [= <-]; exists o; auto|]. intros (o' & [= <-] & ->). reflexivity.
    + rewrite IH. reflexivity.
Qed.
Theorem C102_once : forall H (l : list (rop H)) i x,
  nth_error (responses_run [] l) i = Some (Some x) <->
  exists l1 l2 l3 k, l = l1 ++ Register k x :: l2 ++ Respond k :: l3 /\
    i = (List.length l1 + 1 + List.length l2)%nat /\
    forall o, In o l2 -> match o with Register k' _ => k' <> k | Respond k' => k' <> k end.
Proof.
  intros H l i x. rewrite responses_nth. split.
  - intros (o & En & E). destruct o as [k y|k]; [discriminate|]. cbn in E. symmetry in E.
    apply (proj2 (responses_get (firstn i l) [] k ltac:(constructor)) x) in E as [(l1 & l2 & E & F)|[E _]]; [|discriminate].
    apply nth_error_split in En as (a & b & -> & Li). rewrite firstn_app, <- Li, firstn_all, Nat.sub_diag, app_nil_r in E. subst a.
    exists l1, l2, b, k. rewrite <- app_assoc. split; [reflexivity|]. split; [rewrite <- Li, app_length; cbn; lia|].
    intros o Ho. assert (A : about k o = false).
    { destruct (about k o) eqn:A; [|reflexivity]. assert (existsb (about k) l2 = true) by (apply existsb_exists; eauto). congruence. }
    destruct o; apply Z.eqb_neq, A.
  - intros (l1 & l2 & l3 & k & -> & -> & Hl). exists (Respond k).
    replace (l1 ++ Register k x :: l2 ++ Respond k :: l3) with ((l1 ++ Register k x :: l2) ++ Respond k :: l3) by (rewrite <- app_assoc; reflexivity).
    assert (L : List.length (l1 ++ Register k x :: l2) = (List.length l1 + 1 + List.length l2)%nat) by (rewrite app_length; cbn; lia).
    rewrite <- L. split; [rewrite nth_error_app2, Nat.sub_diag by lia; reflexivity|].
    rewrite firstn_app, firstn_all, Nat.sub_diag, app_nil_r. cbn. symmetry.
    apply (proj2 (responses_get _ [] k ltac:(constructor)) x). left. exists l1, l2. split; [reflexivity|].
    destruct (existsb (about k) l2) eqn:E; [|reflexivity]. apply existsb_exists in E as (o & Ho & A). specialize (Hl o Ho).
    destruct o; cbn in A; apply Z.eqb_eq in A; contradiction.
Qed.
Print Assumptions C102_once.
(** What the host does with its ResponseHandlers is such a history: per input, a response without
    the error bit is one [Respond], and nothing else is; what it registers is under ids not used
    before. *)
Theorem C102_host : forall U ev (ext : extension U) uuid raw h r h',
  set_order_ok (e_so ev) -> on_input ev ext uuid raw h = (r, h') ->
  exists ops, hs_pending h' = fold_left (fun d o => fst (responses_step d o)) ops (hs_pending h) /\
    (forall k p, response_in (e_so ev) raw false k p -> ops = [Respond k]) /\
    (forall k, In (Respond k) ops -> exists p, response_in (e_so ev) raw false k p) /\
    (forall k x, In (Register k x) ops -> hs_next h <= k < hs_next h').
Proof.
  intros U ev ext uuid raw h r h' Hso H.
  assert (NR : forall m, read_as (e_so ev) raw m -> forall k p, ~ response_in (e_so ev) raw false k p).
  { intros m (hd & t & ? & ? & ? & ? & Rh & Eq & _) k p (hd' & t' & ? & ? & ? & ? & Rh' & Eq' & _).
    rewrite Rh in Rh'. apply Ok_inj, pair_equal_spec in Rh' as [<- _]. congruence. }
  destruct (input_cases ev ext raw) as [[m Hm]|[(err & k & p & Hr)|Hx]].
  - destruct (is_init_dec m) as [I|I].
    + destruct (step_init ev ext uuid raw m h r h' Hso Hm I H) as (N & _ & _ & [(_ & P & _)|(resp & n & n' & _ & _ & _ & _ & G)]).
      * exists []. split; [exact P|]. split; [intros k p Hr; exfalso; exact (NR m Hm k p Hr)|]. split; intros k; [intros []|intros x []].
      * destruct G as [(P & _)|[(k1 & Hk & P & _)|(k1 & k2 & o & em & Hk1 & Hk2 & P & _)]].
        -- exists []. split; [exact P|]. split; [intros k p Hr; exfalso; exact (NR m Hm k p Hr)|]. split; intros k; [intros []|intros x []].
        -- exists [Register k1 EnvRH]. split; [exact P|]. split; [intros k p Hr; exfalso; exact (NR m Hm k p Hr)|].
           split; intros k; [intros [E|[]]; discriminate|]. intros x [E|[]]. injection E as <- <-. exact Hk.
        -- exists [Register k1 EnvRH; Register k2 (RegisterRH o)]. split; [exact P|]. split; [intros k p Hr; exfalso; exact (NR m Hm k p Hr)|].
           split; intros k; [intros [E|[E|[]]]; discriminate|]. intros x [E|[E|[]]]; injection E as <- <-; lia.
    + assert (Hn : forall m', read_as (e_so ev) raw m' -> ~ is_init m') by (intros m' Hm'; rewrite (read_as_fun _ _ _ _ Hm' Hm); exact I).
      destruct (step_other ev ext uuid raw h r h' Hso Hn H) as (_ & _ & [P|(k & p & Hr & _)]); [|exfalso; exact (NR m Hm k p Hr)].
      exists []. split; [exact P|]. split; [intros k p Hr; exfalso; exact (NR m Hm k p Hr)|]. split; intros k; [intros []|intros x []].
  - assert (U1 : forall k' p', response_in (e_so ev) raw false k' p' -> err = false /\ k' = k).
    { intros k' p' (hd & t & ? & ? & ? & ? & Rh & _ & Ee & Ek & _). destruct Hr as (hd' & t' & ? & ? & ? & ? & Rh' & _ & Ee' & Ek' & _).
      rewrite Rh in Rh'. apply Ok_inj, pair_equal_spec in Rh' as [<- _]. split; congruence. }
    rewrite (on_response _ _ _ _ _ _ Hr) in H. destruct err.
    + apply pair_equal_spec in H as [_ <-]. exists []. split; [reflexivity|]. split; [intros k' p' Hr'; destruct (U1 _ _ Hr'); discriminate|].
      split; intros k'; [intros []|intros x []].
    + exists [Respond k]. split.
      2: { split; [intros k' p' Hr'; destruct (U1 _ _ Hr') as [_ ->]; reflexivity|].
           split; intros k'; [intros [E|[]]; injection E as <-; eauto|intros x [E|[]]; discriminate]. }
      cbn. unfold handle_response in H. cbn [hs_pending set_next] in H.
      destruct (dict_get Z.eqb k (hs_pending h)) as [x|] eqn:G.
      * destruct x as [o|]; cbv zeta in H.
        -- unfold handle_register in H. unfold hbind, hlift in H. destruct (read_ack p) as [[a t]|e]; cbn [fst] in H;
             [destruct a; [unfold send, hbind, hlift, hret in H; destruct (write_outbound o)|unfold hret in H]|];
             apply pair_equal_spec in H as [_ <-]; reflexivity.
        -- apply env_effect in H. destruct H as (P & _). rewrite P. reflexivity.
      * apply pair_equal_spec in H as [_ <-]. cbn [hs_pending set_next]. symmetry. apply dict_del_absent; [apply Z.eqb_eq|].
        apply (dict_get_None _ Z.eqb_eq). exact G.
  - destruct (Hx uuid h) as (e & n & E & _). rewrite E in H. apply pair_equal_spec in H as [_ <-].
    exists []. split; [reflexivity|]. split; [|split; intros k; [intros []|intros x []]].
    intros k p Hr. exfalso. destruct (Hx uuid (initial_host (hs_user h))) as (e' & n' & E' & _).
    rewrite (on_response _ ext _ _ _ _ Hr) in E'. unfold handle_response, initial_host in E'. cbn in E'. discriminate.
Qed.
Print Assumptions C102_host.
Example C102_case :
  responses_run [] [Register 4 10; Register 5 11; Respond 5; Respond 5; Register 4 12; Respond 4; Respond 4] =
  [None; None; Some 11; None; None; Some 12; None].
Proof. reflexivity. Qed.

(** ** C103.  The interfaces an extension announces *)
(** classes from which a class derives, directly or not *)
Inductive derives : pyclass -> pyclass -> Prop :=
| derives_base c b : In b (cls_bases c) -> derives c b
| derives_step c b d : In b (cls_bases c) -> derives b d -> derives c d.
(** the classes of the SDK: extension.py:13, action_extension.py:18 *)
Definition OBJECT : pyclass := Cls (py "object") [].
Definition EXTENSION : pyclass := Cls (py "Extension") [OBJECT].
Definition ACTION_EXTENSION : pyclass := Cls (py "ActionExtension") [OBJECT].
(** The full statement: whoever derives from ActionExtension announces it *)
Definition C103_statement : Prop := forall c, derives c ACTION_EXTENSION ->
  In (py "ActionExtension") (implemented_interfaces c).
(** class Base(Extension, ActionExtension), class Mine(Base) *)
Definition ex_mine : pyclass := Cls (py "Mine") [Cls (py "Base") [EXTENSION; ACTION_EXTENSION]].
Theorem C103_interfaces_refuted : ~ C103_statement /\
  derives ex_mine EXTENSION /\ derives ex_mine ACTION_EXTENSION /\ implemented_interfaces ex_mine = [py "Base"].
Proof.
  assert (D1 : derives ex_mine EXTENSION) by (eapply derives_step; [left; reflexivity|apply derives_base; left; reflexivity]).
  assert (D2 : derives ex_mine ACTION_EXTENSION) by (eapply derives_step; [left; reflexivity|apply derives_base; right; left; reflexivity]).
  split; [|split; [exact D1|split; [exact D2|reflexivity]]].
  intros S. specialize (S ex_mine D2). destruct S as [S|[]]. vm_compute in S. discriminate.
Qed.
Print Assumptions C103_interfaces_refuted.
(** What holds: the names of the direct bases, in order, and so the interface exactly when it is
    (or is named like) one of them. *)
Theorem C103_interfaces_partial : forall c,
  (forall i, nth_error (implemented_interfaces c) i = option_map cls_name (nth_error (cls_bases c) i)) /\
  (In ACTION_EXTENSION (cls_bases c) -> In (py "ActionExtension") (implemented_interfaces c)) /\
  (forall n, In n (implemented_interfaces c) -> exists b, derives c b /\ cls_name b = n).
Proof.
  intros c. unfold implemented_interfaces. split; [|split].
  - intros i. destruct (nth_error (cls_bases c) i) as [b|] eqn:E; cbn; [apply map_nth_error, E|].
    apply nth_error_None. rewrite map_length. apply nth_error_None, E.
  - intros H. apply (in_map cls_name) in H. exact H.
  - intros n H. apply in_map_iff in H as (b & E & H). exists b. split; [apply derives_base, H|exact E].
Qed.
Print Assumptions C103_interfaces_partial.

(** ** C104.  Extensions without a REST API *)
(** The full statement: serve() takes any Extension, and an initialization request from OpenSearch
    is followed by a frame of the initialization (C44), not by an error *)
Definition C104_statement : Prop := forall U ev acts (ext : extension U) cd strict m raw q uuid u,
  set_order_ok (e_so ev) -> frame_of m raw -> is_init m -> w_init_request strict q (m_payload m) ->
  a_addr (n_addr (ir_source q)) < 2 ^ 31 -> a_addr (n_addr (x_node (ir_ext q))) < 2 ^ 31 ->
  text_ok (xt_name ext) -> texts_ok (xt_interfaces ext) -> Forall text_ok (rg_named (xt_registry ext)) ->
  zlen raw <= 2 ^ 30 ->
  exists out st, on_input_table ev acts ext cd uuid raw (initial_host u, served) = (Ok (Some out), st).
Theorem C104_plain_refuted : ~ C104_statement.
Proof.
  intros S. destruct (S Z ex_env false ex_ext ex_code true (ex_init 77) (ex_raw (ex_init 77)) ex_init_request [] 0) as (out & st & E).
  - exact ex_env_ok.
  - apply ex_init_frame; [discriminate|vm_compute; discriminate].
  - reflexivity.
  - apply ex_init_wire.
  - vm_compute; reflexivity.
  - vm_compute; reflexivity.
  - text.
  - split; [vm_compute; discriminate|]. constructor; [text|constructor; [text|constructor]].
  - assert (En : rg_named (xt_registry ex_ext) = [py "GET /hello/{name} greet"]) by (vm_compute; reflexivity). rewrite En. constructor; [text|constructor].
  - vm_compute. discriminate.
  - assert (F : fst (on_input_table ex_env false ex_ext ex_code [] (ex_raw (ex_init 77)) (initial_host 0, served)) = Raise EAttr) by (vm_compute; reflexivity).
    rewrite E in F. discriminate.
Qed.
Print Assumptions C104_plain_refuted.

Lemma bind_raises {U A} (m : hm U A) (k : A -> hm U (option bytes)) h : (forall a h1, exists e, fst (k a h1) = Raise e) ->
  exists e, fst (hbind m k h) = Raise e.
Proof. intros Hk. unfold hbind. destruct (m h) as [[a|e] h1]; [apply Hk|exists e; reflexivity]. Qed.
(** What holds of an extension without one.  Initialization and REST requests are never answered,
    whatever bytes carry them; *)
Theorem C104_unanswered_partial : forall U ev (ext : extension U) cd l raw m uuid h,
  set_order_ok (e_so ev) -> read_as (e_so ev) raw m -> ~ In (m_action m) (map fst l) ->
  is_init m \/ m_action m = py "internal:extensions/restexecuteonextensiontaction" ->
  exists e h', on_input_table ev false ext cd uuid raw (h, table_after l) = (Raise e, (h', table_after l)) /\
    hs_user h' = hs_user h /\ hs_settings h' = hs_settings h.
Proof.
  intros U ev ext cd l raw m uuid h Hso Hm Hl Ha.
  destruct Hm as (hd & t & k & o0 & k' & o & Rh & Eq & En & Ro & C & F & V & A & Id & Hs & Cp).
  rewrite new_blank_request in En. apply pair_equal_spec in En as [En _]. apply Ok_inj in En. subst o0.
  rewrite (blank_req _ 0) in Ro. rewrite input_table, Rh, Eq, Ro. unfold handle_table. cbn [snd].
  rewrite <- A. unfold table_after. rewrite table_get_other by exact Hl. rewrite served_get. fold (table_after l).
  assert (K : forall x (y : hm U (option bytes)), run_handler ev false ext cd uuid x o (m_payload m) (set_next h (hs_next h + 2), table_after l) =
      keep y (set_next h (hs_next h + 2), table_after l) ->
    (forall h, exists e, fst (y h) = Raise e) -> (forall h, hs_user (snd (y h)) = hs_user h /\ hs_settings (snd (y h)) = hs_settings h) ->
    exists e h', match run_handler ev false ext cd uuid x o (m_payload m) (set_next h (hs_next h + 2), table_after l) with
      | (Ok None, st') => keep (handle_not_found o) st' | z => z end = (Raise e, (h', table_after l)) /\
      hs_user h' = hs_user h /\ hs_settings h' = hs_settings h).
  { intros x y E Hy Hu. rewrite E, keep_pair. destruct (Hy (set_next h (hs_next h + 2))) as [e He].
    destruct (Hu (set_next h (hs_next h + 2))) as [H1 H2]. rewrite He. exists e. eexists. split; [reflexivity|].
    rewrite H1, H2. destruct h; split; reflexivity. }
  destruct Ha as [I|I].
  - replace (streqb (m_action m) A_DISCOVERY) with true by (unfold is_init in I; rewrite I; reflexivity).
    apply (K HDiscovery (discovery_plain ext o (m_payload m))); [reflexivity| |].
    + intros h0. unfold discovery_plain. repeat (apply bind_raises; intros). eexists. reflexivity.
    + intros h0. unfold discovery_plain, hbind, hlift, hids, hmod, register_response.
      destruct (read_init_request (m_payload m)); [|auto].
      destruct (reply_to _ _ _) as [[?|?] ?]; [|auto].
      change (new_ext_transport_request REQUEST_EXTENSION_ENVIRONMENT_SETTINGS []) with (Ok (mkETR default_task (mkER (Some []) 4))). cbv beta iota.
      destruct (new_request _ _ _ _ _ _ _ _ _) as [[?|?] ?]; auto.
  - replace (streqb (m_action m) A_DISCOVERY) with false by (rewrite I; reflexivity).
    replace (streqb (m_action m) A_REST) with true by (rewrite I; reflexivity).
    apply (K HRest (rest_plain o (m_payload m))); [reflexivity| |].
    + intros h0. unfold rest_plain. repeat (apply bind_raises; intros). eexists. reflexivity.
    + intros h0. unfold rest_plain, hbind, hlift. destruct (read_rest_request (m_payload m)) as [r|]; [|auto].
      destruct (method_name _); auto.
Qed.
Print Assumptions C104_unanswered_partial.
(** everything else is as with one. *)
Theorem C104_rest_partial : forall U ev (ext : extension U) cd t uuid raw h,
  (forall m, read_as (e_so ev) raw m -> dict_get streqb (m_action m) t <> Some HDiscovery /\ dict_get streqb (m_action m) t <> Some HRest) ->
  on_input_table ev false ext cd uuid raw (h, t) = on_input_table ev true ext cd uuid raw (h, t).
Proof.
  intros U ev ext cd t uuid raw h Hn. rewrite !input_table.
  destruct (read_header raw) as [[hd s]|e] eqn:Rh; [|reflexivity]. destruct (is_request hd) eqn:Eq; [|reflexivity].
  destruct (read_outbound (e_so ev) true (blank_request 0) hd s) as [[o p]|e] eqn:Ro; [|reflexivity].
  destruct (message_of _ _ _ _ _ _ Rh Eq Ro) as (m & Hm & A). destruct (Hn m Hm) as [N1 N2]. rewrite A in N1, N2.
  unfold handle_table. cbn [snd]. destruct (dict_get streqb (o_action o) t) as [[| | | |n]|]; try reflexivity; congruence.
Qed.
Print Assumptions C104_rest_partial.
(** and each initialization leaves a response handler behind that nobody was told about *)
Theorem C104_left_partial : forall U ev (ext : extension U) cd strict m raw q uuid s h,
  set_order_ok (e_so ev) -> frame_of m raw -> is_init m -> w_init_request strict q (m_payload m) ->
  a_addr (n_addr (ir_source q)) < 2 ^ 31 -> a_addr (n_addr (x_node (ir_ext q))) < 2 ^ 31 ->
  text_ok (xt_name ext) -> texts_ok (xt_interfaces ext) ->
  zlen raw <= 2 ^ 30 -> 0 <= hs_next h -> hs_next h + 4 < 2 ^ 63 -> (forall k, In k (pending_ids h) -> k < hs_next h) ->
  (forall p, write_init_response (mkInitResp (xt_name ext) (xt_interfaces ext)) = Ok p -> zlen p < 2 ^ 29) ->
  exists h', on_input_table ev false ext cd uuid (raw ++ s) (h, served) = (Raise EAttr, (h', served)) /\
    exists k, ~ In k (pending_ids h) /\ hs_pending h' = hs_pending h ++ [(k, EnvRH)].
Proof.
  intros U ev ext cd strict m raw q uuid s h Hso Hf Hi Wq L1 L2 Tn Ti Lraw Hn0 Hn1 Hp Lpi.
  pose proof (fun s => init_request_reads strict q _ s (conj L1 L2) Wq) as Rq.
  destruct (new_etr_survives 4 [] _ ltac:(lia) eq_refl) as (_ & pe & We & Re).
  assert (Lpe : zlen pe < 100) by (apply Ok_inj in We; rewrite <- We; reflexivity).
  destruct (init_response_writes true (mkInitResp (xt_name ext) (xt_interfaces ext)) (conj Tn Ti)) as (pi & Wi & Ri).
  specialize (Lpi pi Wi).
  destruct (frame_seen _ m raw Hso Hf) as (c & o & Sc & N & S & R).
  assert (Asc : Forall (fun x => 0 <= x < 128) ENV_ACTION).
  { apply Forall_forall; intros x Hx; vm_compute in Hx; repeat (destruct Hx as [<-|Hx]; [split; [discriminate|reflexivity]|]); destruct Hx. }
  destruct (sent_request m raw c o ENV_ACTION pe (hs_next h + 2) Hf Sc N S Asc) as (sr & out2 & Ms & Ws & Is & Cs);
    [vm_compute; reflexivity|lia|lia|].
  destruct (reply_frame m raw c o pi Hf Sc N S) as (out3 & X3 & Y3); [lia|].
  specialize (Y3 U (set_next h (hs_next h + 2))). apply hbind_inv in Y3 as (resp & h1 & Y3 & Y4).
  unfold send in Y4. apply hbind_inv in Y4 as (b & h2 & Y4 & Y5). apply hlift_inv in Y4 as [Wresp ->].
  assert (Eh1 : h1 = set_next h (hs_next h + 2)) by (unfold hret in Y5; congruence). subst h1.
  destruct (R s) as (hd & t & Rh & Eq & Ro). rewrite input_table, Rh, Eq, Ro.
  unfold handle_table. cbn [snd]. rewrite (seen_action _ _ S). cbn [m_action]. unfold is_init in Hi. rewrite Hi.
  change (dict_get streqb (py "internal:discovery/extensions") served) with (Some HDiscovery).
  cbv beta iota. cbn [run_handler]. rewrite keep_pair.
  assert (D : discovery_plain ext o (m_payload m ++ s) (set_next h (hs_next h + 2)) =
    (Raise EAttr, mkHost (hs_next h + 3) (dict_set Z.eqb (hs_next h + 2) EnvRH (hs_pending h)) (Some resp) (hs_settings h) (hs_user h))).
  { unfold discovery_plain. rewrite Rq, hbind_hlift, Wi.
    rewrite (hbind_ok _ _ _ _ _ Y3). unfold hbind at 1, hmod at 1.
    unfold REQUEST_EXTENSION_ENVIRONMENT_SETTINGS.
    change (new_ext_transport_request 4 []) with (Ok (mkETR default_task (mkER (Some []) 4))). rewrite hbind_hlift.
    match goal with |- context [write_ext_transport_request ?x] => replace (write_ext_transport_request x) with (@Ok bytes pe) by (symmetry; exact We) end.
    rewrite (hbind_hids _ _ _ sr (hs_next h + 3)).
    2: { cbn [hs_next set_next set_init]. etransitivity; [exact Ms|]. f_equal. lia. }
    unfold hbind at 1, register_response at 1, hmod at 1. cbn [hs_next set_next set_init hs_pending]. rewrite Is. reflexivity. }
  rewrite D. cbn [fst snd]. eexists. split; [reflexivity|]. exists (hs_next h + 2). cbn [hs_pending].
  assert (Nk : ~ In (hs_next h + 2) (pending_ids h)) by (intros Hk; specialize (Hp _ Hk); lia).
  split; [exact Nk|]. apply dict_set_new; [apply Z.eqb_eq|exact Nk].
Qed.
Print Assumptions C104_left_partial.
Example C104_case : let m := ex_init 77 in let h := initial_host 0 in
  frame_of m (ex_raw m) /\ is_init m /\ w_init_request true ex_init_request (m_payload m) /\ zlen (ex_raw m) <= 2 ^ 30 /\
  (exists p, write_init_response (mkInitResp (xt_name ex_ext) (xt_interfaces ex_ext)) = Ok p /\ zlen p < 2 ^ 29) /\
  on_input_table ex_env false ex_ext ex_code [] (ex_raw ex_tcp) (h, served) =
    with_table served (on_input ex_env ex_ext [] (ex_raw ex_tcp) h).
Proof.
  split; [apply ex_init_frame; [discriminate|vm_compute; discriminate]|]. split; [reflexivity|]. split; [apply ex_init_wire|].
  split; [vm_compute; discriminate|]. split; [|vm_compute; reflexivity].
  destruct (write_init_response (mkInitResp (xt_name ex_ext) (xt_interfaces ex_ext))) as [p|e] eqn:E; [|vm_compute in E; discriminate].
  exists p. split; [reflexivity|]. vm_compute in E. apply Ok_inj in E. subst p. vm_compute. reflexivity.
Qed.
