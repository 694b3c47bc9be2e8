(** * Property C112: the log describes what is sent *)
From Coq Require Import String ZArith List Bool Lia Permutation.
From Coq Require Import Strings.Byte.
From Verif Require Import Py PyFacts Stream StreamFacts Version Frame Messages Rest Routes Settings Host
  Spec SpecFacts FrameFacts Wire WireFacts WireFacts2 WireFacts3 WireFacts4 WireFacts5 HostSpec HostFacts
  PropsMessages PropsHost PropsHistory PropsDelivery PropsSession PropsWire Log PropsLog PropsSent PropsSeen.
Import ListNotations.
Open Scope list_scope.
Open Scope Z_scope.

(** ** Specification *)
(** the three records about the bytes [d] sent, which are to be a frame of [size] + 6 bytes
    carrying [m], whose payload is described by [text] *)
Definition told (ds : display) (resp : bool) (m : message) (size : Z) (text : pystr) (d : bytes) : list record :=
  [(INFO, py "> " ++ fields (frame_fields resp false m size ++ context_fields ds (m_ctx m)) ++ py ", " ++ text ++ py ", "
     ++ fields ([("features", list_text ds (m_features m))]%string ++ (if resp then [] else [("action", m_action m)]%string)
                ++ [("size", bytes_text (zlen d))]%string));
   (DEBUG, py "> #" ++ repr_bytes d);
   (DEBUG, py "> #" ++ repr_bytes d ++ py ", " ++ fields [("size", bytes_text (zlen d))]%string)].
(** a request has the task (no node, no id) *)
Definition task_text : pystr := fields [("node", []); ("id", py "None")]%string.
(** a REST reply *)
Definition reply_text (ds : display) (status ctype : pystr) (headers : sdict (list pystr)) (content : Z) : pystr :=
  fields [("status", (py "RestStatus." ++ status)%list); ("content_type", ctype); ("headers", repr_dict ds (list_text ds) headers);
          ("content", bytes_text content)]%string.
(** the roles the extension declares, in the order [l] *)
Definition declared_roles (ds : display) (l : list role) : pystr := repr_set (map (role_text ds) l).
(** ** Proofs *)
Definition made (resp : bool) (o : outbound) (m : message) : Prop :=
  exists sz var, o = frame_out resp m sz var /\ nodup_ctx (m_ctx m) /\ ctx_size (m_ctx m) = Ok sz /\
    if resp then var = None else exists vb, var = Some vb /\ request_variable_bytes (m_features m) (m_action m) = Ok vb.
Lemma made_response c f msg v rid hs cp n o n' : nodup_ctx c ->
  new_response (Some c) f (Some msg) (HVer v) rid hs cp n = (Ok o, n') ->
  exists p, msg = Ok p /\ made true o (mkMsg c f v [] (h_id (o_hdr o)) hs cp p).
Proof.
  intros N H. destruct msg as [p|e].
  2: { exfalso. unfold new_response, new_outbound, new_header, ibind in H. rewrite pick_id_spec in H.
       destruct (draws rid); cbn [iret ilift] in H; destruct (ctx_size c); cbn [ilift] in H; discriminate. }
  exists p. split; [reflexivity|].
  destruct (response_form (mkMsg c f v [] (h_id (o_hdr o)) hs cp p) rid n o n' eq_refl H eq_refl) as (sz & Hs & Ho).
  exists sz, None. split; [exact Ho|]. split; [exact N|]. split; [exact Hs|reflexivity].
Qed.
Lemma made_request c f msg v a rid hs cp n o n' : nodup_ctx c ->
  new_request (Some c) f (Some msg) (HVer v) a rid hs cp n = (Ok o, n') ->
  exists p, msg = Ok p /\ made false o (mkMsg c f v a (h_id (o_hdr o)) hs cp p).
Proof.
  intros N H. destruct msg as [p|e].
  2: { exfalso. unfold new_request, new_outbound, new_header, ibind in H. rewrite pick_id_spec in H.
       destruct (draws rid); cbn [iret ilift] in H; destruct (ctx_size c); cbn [ilift] in H; discriminate. }
  exists p. split; [reflexivity|].
  destruct (request_form (mkMsg c f v a (h_id (o_hdr o)) hs cp p) rid n o n' H eq_refl) as (sz & vb & Hs & Hv & Ho).
  exists sz, (Some vb). split; [exact Ho|]. split; [exact N|]. split; [exact Hs|]. exists vb. split; [reflexivity|exact Hv].
Qed.
Lemma frame_out_size resp m sz var d : ctx_size (m_ctx m) = Ok sz -> write_outbound (frame_out resp m sz var) = Ok d ->
  sz + opt_len var < 2 ^ 31.
Proof.
  intros _ W. unfold write_outbound in W. apply wcat_cons_ok in W as (hb & r & Wh & _ & _). unfold write_header in Wh.
  cbn [frame_out o_hdr h_prefix h_size h_id h_status h_version h_vhs] in Wh.
  do 5 (apply wcat_cons_ok in Wh as (? & ? & _ & Wh & _)). apply wcat_cons_ok in Wh as (? & ? & Wv & _).
  apply to_bytes_signed_range in Wv. change (8 * Z.of_nat 4 - 1) with 31 in Wv. lia.
Qed.
Lemma made_frame resp o m d : made resp o m -> write_outbound o = Ok d -> Forall length_prefix_ok (ctx_strings (m_ctx m)) -> w_frame resp m d.
Proof.
  intros (sz & var & -> & N & S & V) W P. pose proof (frame_out_size _ _ _ _ _ S W) as L. pose proof (ctx_size_pos _ _ S) as L0.
  assert (L1 : 0 <= opt_len var) by (destruct var; cbn [opt_len]; [apply zlen_nonneg|lia]).
  assert (C : ctx_ok (m_ctx m)) by (eapply ctx_sized_ok; [exact N|exact S|lia]).
  eapply frame_format; try eassumption. destruct resp.
  - subst var. reflexivity.
  - destruct V as (vb & -> & V). cbn [opt_len] in L. cbn [w_variable opt_bytes].
    pose proof V as V'. unfold request_variable_bytes in V'. apply wcat_cons_ok in V' as (fb & b1 & Wf & Wa & E).
    apply wcat_cons_ok in Wa as (ab & b2 & Wa & _ & E2). rewrite E, E2, !zlen_app in L. pose proof (zlen_nonneg _ fb). pose proof (zlen_nonneg _ ab).
    pose proof (zlen_nonneg _ b2).
    apply variable_format; [eapply array_written; [exact Wf|lia]| |exact V].
    apply write_string_form in Wa as (e & n & He & Hn & ->). rewrite zlen_app in L. pose proof (zlen_nonneg _ n). exists e. split; [apply is_utf8_encode, He|lia].
Qed.
Lemma made_size resp o m d : made resp o m -> write_outbound o = Ok d -> Forall length_prefix_ok (ctx_strings (m_ctx m)) -> h_size (o_hdr o) = zlen d - 6.
Proof.
  intros M W P. pose proof (made_frame _ _ _ _ M W P) as F. destruct (frame_header _ _ _ _ [] F) as (vhs & t & R). rewrite app_nil_r in R.
  destruct M as (sz & var & -> & _). unfold write_outbound in W. apply wcat_cons_ok in W as (hb & r & Wh & _ & ->).
  cbn [frame_out o_hdr] in *. apply header_written in Wh.
  rewrite (header_reads ES _ _ _ _ _ hb r eq_refl Wh) in R. apply Ok_inj, pair_equal_spec in R as [R _].
  apply (f_equal h_size) in R. cbn [h_size] in R. exact R.
Qed.
Lemma made_told ds resp o m text d : made resp o m -> write_outbound o = Ok d ->
  log_send ds (mkOutgoing o (negb resp) text) = told ds resp m (h_size (o_hdr o)) text d.
Proof.
  intros (sz & var & -> & _) W. unfold log_send, told. cbn [og_out]. rewrite W. unfold str_outgoing. cbn [og_request og_text og_out].
  assert (H : str_header ds (o_hdr (frame_out resp m sz var)) = fields (frame_fields resp false m (h_size (o_hdr (frame_out resp m sz var))))).
  { cbn [frame_out o_hdr h_size]. apply header_text. }
  assert (E3 : py "> #" ++ repr_bytes d ++ py ", size=" ++ str_int (zlen d) ++ py " byte(s)"
             = py "> #" ++ repr_bytes d ++ py ", " ++ fields [("size", bytes_text (zlen d))]%string) by reflexivity.
  rewrite E3. apply (f_equal (fun x => (INFO, x) :: _)).
  rewrite fields_app by discriminate. rewrite <- (context_text ds (m_ctx m)).
  destruct resp; cbn [negb]; unfold str_request, str_response, str_envelope; rewrite H;
    unfold fields at 2; cbn [map fst snd commas app frame_out o_ctx o_features o_action]; unfold bytes_text, list_text; rewrite <- !app_assoc; reflexivity.
Qed.

Lemma says_sent U ev ds (ext : extension U) uuid raw h d : fst (on_input ev ext uuid raw h) = Ok (Some d) ->
  exists g h', says ev ds ext uuid raw h = (Ok (Some g), h') /\ write_outbound (og_out g) = Ok d /\
    log_reply ev ds ext uuid raw h = log_send ds g.
Proof.
  rewrite <- (says_ok U ev ds). unfold sends, log_reply. destruct (says ev ds ext uuid raw h) as [[[g|]|e] h']; cbn [fst]; [|discriminate|discriminate].
  unfold send, hbind, hlift. destruct (write_outbound (og_out g)) as [b|e] eqn:W; cbn [fst]; [|discriminate].
  unfold hret. cbn [fst]. intros E. assert (b = d) by congruence. subst b. exists g, h'. auto.
Qed.
(** what is said of a response to [q] *)
Definition told_of (ds : display) (q : message) (log : list record) (text : pystr) (d : bytes) (m : message) : Prop :=
  exists size, log = told ds true m size text d /\
    (Forall length_prefix_ok (ctx_strings (m_ctx q)) -> w_frame true m d /\ size = zlen d - 6) /\
    m_ctx m = m_ctx q /\ m_features m = m_features q /\ (m_id q <> 0 -> m = response_to q (m_payload m)).
Lemma response_told c f msg q rid n o n' ds text d : c = m_ctx q -> f = m_features q -> rid = Some (m_id q) -> nodup_ctx c ->
  new_response (Some c) f (Some msg) (HVer min_compat) rid (m_hs q) (m_cp q) n = (Ok o, n') -> write_outbound o = Ok d ->
  exists m, told_of ds q (log_send ds (mkOutgoing o false text)) text d m /\ msg = Ok (m_payload m).
Proof.
  intros -> -> -> N E W. destruct (made_response _ _ _ _ _ _ _ _ _ _ N E) as (p & -> & M).
  match type of M with made _ _ ?x => exists x end. split; [|reflexivity]. exists (h_size (o_hdr o)).
  split; [exact (made_told ds true o _ text d M W)|]. cbn [m_ctx m_features].
  split; [intros P; split; [exact (made_frame _ _ _ _ M W P)|exact (made_size _ _ _ _ M W P)]|]. split; [reflexivity|]. split; [reflexivity|].
  intros I. unfold response_to. cbn [m_payload]. f_equal.
  change (Some (@Ok bytes p)) with (option_map Ok (Some p)) in E. destruct (new_response_fields _ _ _ _ _ _ _ _ _ _ E) as (_ & X & _).
  assert (D : draws (Some (m_id q)) = false) by (cbn; destruct (Z.eqb_spec (m_id q) 0); congruence). specialize (X D). congruence.
Qed.
Lemma reply_told q o msg n o' n' ds text d : seen q o -> nodup_ctx (m_ctx q) -> reply_to o msg n = (Ok o', n') -> write_outbound o' = Ok d ->
  exists m, told_of ds q (log_send ds (mkOutgoing o' false text)) text d m /\ msg = Ok (m_payload m).
Proof.
  intros (C & F & _ & I & Hs & Cp) N E W. unfold reply_to in E. cbv zeta in E. rewrite C, F, I, Hs, Cp in E.
  eapply response_told; [reflexivity|reflexivity|reflexivity|exact N|exact E|exact W].
Qed.
(** a request of the SDK *)
Definition told_request (ds : display) (q : message) (action : pystr) (log : list record) (d : bytes) (m : message) : Prop :=
  exists size, log = told ds false m size task_text d /\
    (Forall length_prefix_ok (ctx_strings (m_ctx q)) -> w_frame false m d /\ size = zlen d - 6) /\
    m = request_for q (m_id m) action (m_payload m).
Lemma request_told c f msg q action n o n' ds d : c = m_ctx q -> f = m_features q -> nodup_ctx c ->
  new_request (Some c) f (Some msg) (HVer min_compat) action None false false n = (Ok o, n') -> write_outbound o = Ok d ->
  exists m, told_request ds q action (log_send ds (mkOutgoing o true str_no_task)) d m /\ msg = Ok (m_payload m) /\ m_id m = h_id (o_hdr o).
Proof.
  intros -> -> N E W. destruct (made_request _ _ _ _ _ _ _ _ _ _ _ N E) as (p & -> & M).
  match type of M with made _ _ ?x => exists x end. split; [|split; reflexivity]. exists (h_size (o_hdr o)).
  split; [exact (made_told ds false o _ str_no_task d M W)|]. cbn [m_ctx m_id m_payload].
  split; [intros P; split; [exact (made_frame _ _ _ _ M W P)|exact (made_size _ _ _ _ M W P)]|]. reflexivity.
Qed.

(** C112, the replies to requests.  [q] is the request, [d] what is sent for it. *)
Theorem C112_replies : forall U ev ds (ext : extension U) uuid raw q h d, set_order_ok (e_so ev) -> (forall l, Permutation l (e_roles ev l)) ->
  read_as (e_so ev) raw q -> fst (on_input ev ext uuid raw h) = Ok (Some d) ->
  let log := log_reply ev ds ext uuid raw h in
  (is_init q -> exists m, told_request ds q (py "internal:discovery/registerrestactions") log d m) /\
  (~ is_init q -> exists text m, told_of ds q log text d m /\
     (m_action q = py "internal:tcp/handshake" -> text = fields [("version", py "3.0.0.99")]%string) /\
     (m_action q = py "internal:transport/handshake" -> exists roles,
        Permutation roles [(py "cluster_manager", py "m", false); (py "data", py "d", true);
                           (py "ingest", py "i", false); (py "remote_cluster_client", py "r", false)] /\
        text = fields [("id", py "hello-world"); ("version", py "3.0.0.99"); ("name", py "hello-world"); ("host", py "127.0.0.1"); ("addr", py "127.0.0.1");
                       ("attr", py "{}"); ("roles", declared_roles ds roles); ("cluster name", []); ("version", py "3.0.0.99")]%string) /\
     (m_action q = py "internal:extensions/restexecuteonextensiontaction" -> forall rq t, read_rest_request (m_payload q) = Ok (rq, t) ->
        exists method n a, method_name (rq_method rq) = Ok method /\
          find_handler (e_cls ev) (rg_map (xt_registry ext)) (method ++ py " " ++ rq_path rq) = Ok n /\
          snd (xt_invoke ext n (hs_user h) rq) = Ok a /\
          forall status, rp_status a = status_value status -> text = reply_text ds status (rp_ctype a) (rp_headers a) (zlen (rp_content a))) /\
     (~ In (m_action q) known_actions -> forall e, is_utf8 (py "{""error"": ""No handler found for " ++ m_action q ++ py """}") e ->
        text = reply_text ds (py "NOT_FOUND") (py "application/json; charset=UTF-8") [] (zlen e))).
Proof.
  intros U ev ds ext uuid raw q h d So Ro Hq H log. unfold log. clear log.
  destruct (says_sent U ev ds ext uuid raw h d H) as (g & h' & S & W & ->). clear H.
  destruct (on_request ev ext raw q So Hq) as (_ & _ & N & _).
  destruct (says_on_request U ev ds ext raw q Hq) as (o & Sn & E). rewrite E in S. clear E.
  pose proof (seen_action _ _ Sn) as Ea. unfold says_request in S. cbv zeta in S. rewrite Ea in S. split; intros I.
  - unfold is_init in I. rewrite I in S. change (streqb _ A_DISCOVERY) with true in S. cbv iota in S. unfold says_discovery in S.
    repeat (apply hbind_inv in S as (? & ? & ? & S)). unfold requests, hret in S. apply pair_equal_spec in S as [S _]. apply Ok_inj in S.
    injection S as <-. cbn [og_out] in W.
    match goal with X : hids (new_request _ _ _ _ REGISTER_ACTION _ _ _) _ = _ |- _ => rename X into R end.
    unfold hids in R. destruct (new_request _ _ _ _ REGISTER_ACTION _ _ _ _) as [r n'] eqn:E. apply pair_equal_spec in R as [-> _].
    destruct Sn as (C & F & _). rewrite <- C in N. destruct (request_told _ _ _ q _ _ _ _ ds d C F N E W) as (m & T & _).
    exists m. exact T.
  - assert (A : forall msg (hh : host U) o' h2, hids (reply_to o msg) hh = (Ok o', h2) -> forall text, write_outbound o' = Ok d ->
      exists m, told_of ds q (log_send ds (mkOutgoing o' false text)) text d m /\ msg = Ok (m_payload m)).
    { intros msg hh o' h2 E text Wd. unfold hids in E. destruct (reply_to o msg (hs_next hh)) as [r n'] eqn:Er. apply pair_equal_spec in E as [-> _].
      eapply reply_told; eassumption. }
    destruct (action_cases q) as [X|[X|[X|[X|X]]]]; [contradiction| | | |].
    + rewrite X in S. change (streqb A_REST A_DISCOVERY) with false in S. change (streqb A_REST A_REST) with true in S. cbv iota in S.
      unfold says_rest in S.
      apply hbind_inv in S as ([rq t] & h1 & H1 & S). apply hlift_inv in H1 as [Rq ->]. cbn [fst] in S.
      apply hbind_inv in S as (mn & h1 & H1 & S). apply hlift_inv in H1 as [Em ->]. cbv zeta in S.
      apply hbind_inv in S as (n & h1 & H1 & S). apply hlift_inv in H1 as [Ef ->].
      apply hbind_inv in S as (a & h1 & H1 & S).
      apply hbind_inv in S as (o' & h2 & H2 & S). unfold responds, hret in S. apply pair_equal_spec in S as [S _]. apply Ok_inj in S.
      injection S as <-. cbn [og_out] in W. destruct (A _ _ _ _ H2 (str_exec ds (exec_of a)) W) as (m & T & Ep).
      exists (str_exec ds (exec_of a)), m. split; [exact T|]. rewrite X.
      split; [intros Y; discriminate|]. split; [intros Y; discriminate|]. split; [|intros Y; exfalso; apply Y; right; left; reflexivity].
      intros _ rq' t' Rq'. rewrite Rq in Rq'. apply Ok_inj, pair_equal_spec in Rq' as [<- _].
      exists mn, n, a. split; [exact Em|]. split; [exact Ef|]. unfold call_user in H1. cbn [hs_user set_next] in H1.
      destruct (xt_invoke ext n (hs_user h) rq) as [u r]. apply pair_equal_spec in H1 as [-> _]. split; [reflexivity|].
      intros status Es. destruct (status_value status) as [v|] eqn:Ev.
      2: { exfalso. unfold write_exec_response, exec_of in Ep. cbn [ex_status] in Ep. rewrite Es in Ep. discriminate. }
      unfold str_exec, exec_of, reply_text. cbn [ex_status ex_ctype ex_content ex_headers]. rewrite Es, (status_name _ _ Ev).
      unfold fields, bytes_text, list_text. cbn [map commas fst snd]. rewrite <- !app_assoc. reflexivity.
    + rewrite X in S. change (streqb A_TCP A_DISCOVERY) with false in S. change (streqb A_TCP A_REST) with false in S. change (streqb A_TCP A_TCP) with true in S. cbv iota in S.
      unfold says_tcp_handshake in S. apply hbind_inv in S as (rq & h1 & _ & S).
      apply hbind_inv in S as (o' & h2 & H2 & S). unfold responds, hret in S. apply pair_equal_spec in S as [S _]. apply Ok_inj in S.
      injection S as <-. cbn [og_out] in W. destruct (A _ _ _ _ H2 str_tcp_handshake_response W) as (m & T & Ep).
      eexists _, m. split; [exact T|]. rewrite X. split; [intros _; vm_compute; reflexivity|]. split; [intros Y; discriminate|]. split; [intros Y; discriminate|].
      intros Y. exfalso. apply Y. right. right. left. reflexivity.
    + rewrite X in S. change (streqb A_TRANSPORT A_DISCOVERY) with false in S. change (streqb A_TRANSPORT A_REST) with false in S.
      change (streqb A_TRANSPORT A_TCP) with false in S. change (streqb A_TRANSPORT A_TRANSPORT) with true in S. cbv iota in S.
      unfold says_transport_handshake in S. apply hbind_inv in S as (rq & h1 & _ & S).
      apply hbind_inv in S as (o' & h2 & H2 & S). unfold responds, hret in S. apply pair_equal_spec in S as [S _]. apply Ok_inj in S.
      injection S as <-. cbn [og_out] in W. destruct (A _ _ _ _ H2 (str_handshake_response ds (own_node ev uuid)) W) as (m & T & Ep).
      eexists _, m. split; [exact T|]. rewrite X. split; [intros Y; discriminate|].
      split; [|split; [intros Y; discriminate|intros Y; exfalso; apply Y; right; right; right; left; reflexivity]].
      intros _. exists (e_roles ev own_roles). split; [apply Permutation_sym, Ro|].
      rewrite own_hello. unfold str_handshake_response, str_node_with, hello_node.
      cbn [n_id n_version n_name n_host n_hostaddr n_attrs n_roles].
      assert (R : map (repr_role ds) (e_roles ev own_roles) = map (role_text ds) (e_roles ev own_roles)).
      { apply map_ext. intros [[a b] x]. unfold repr_role, role_text. cbn [commas fst snd]. rewrite <- !app_assoc. destruct x; reflexivity. }
      rewrite R. unfold declared_roles, fields. cbn [map commas fst snd]. rewrite <- !app_assoc. reflexivity.
    + assert (B : forall a, In a known_actions -> streqb (m_action q) a = false).
      { intros a J. apply not_true_is_false. intros Y. apply streqb_eq in Y. apply X. rewrite Y. exact J. }
      rewrite !B in S by (cbn [known_actions map In]; auto 6).
      unfold says_not_found in S. apply hbind_inv in S as (c & h1 & H1 & S). apply hlift_inv in H1 as [Ec ->].
      apply hbind_inv in S as (o' & h2 & H2 & S). unfold responds, hret in S. apply pair_equal_spec in S as [S _]. apply Ok_inj in S.
      injection S as <-. cbn [og_out] in W. eapply A in H2 as (m & T & Ep); [|exact W].
      eexists _, m. split; [exact T|].
      split; [intros Y; exfalso; apply X; rewrite Y; right; right; left; reflexivity|].
      split; [intros Y; exfalso; apply X; rewrite Y; right; right; right; left; reflexivity|].
      split; [intros Y; exfalso; apply X; rewrite Y; right; left; reflexivity|].
      intros _ e U8. apply is_utf8_encode in U8. rewrite Ea in Ec. unfold not_found_text in Ec. assert (c = e) by congruence. subst c.
      unfold str_exec, reply_text. cbn [ex_status ex_ctype ex_content ex_headers]. unfold fields, bytes_text, list_text. cbn [map commas fst snd]. rewrite <- !app_assoc. reflexivity.
Qed.
Print Assumptions C112_replies.

Lemma says_on_response U ev ds (ext : extension U) raw k p : response_in (e_so ev) raw false k p ->
  forall uuid h, says ev ds ext uuid raw h = says_response ev ds ext k p (set_next h (hs_next h + 2)).
Proof.
  intros (hd & t & n & o0 & n' & o & Rh & Eq & Ee & Ek & En & Ro) uuid h.
  rewrite new_blank_response in En. apply pair_equal_spec in En as [En _]. apply Ok_inj in En. subst o0. unfold says.
  rewrite (hbind_hids default_header _ h (mkHeader ES 17 (hs_next h) 0 (HInt CURRENT) 0) (hs_next h + 1) eq_refl).
  rewrite Rh, hbind_hlift, Eq. rewrite (hbind_hids _ _ _ _ _ (new_blank_response _)).
  rewrite (blank_resp _ n), Ro, hbind_hlift. cbn [fst snd]. rewrite set_next_next. cbn [hs_next set_next]. rewrite Ee, Ek.
  replace (hs_next h + 1 + 1) with (hs_next h + 2) by lia. reflexivity.
Qed.
(** C112, what follows the initialization.  [l] is what the host received before, [k] the id of
    the response it now receives; it sends the request for the settings of an initialization [q]
    or the response to the latest one. *)
Theorem C112_initialization : forall U ev ds (ext : extension U) u l uuid raw k p d, set_order_ok (e_so ev) ->
  let h := feed ev ext (initial_host u) l in
  response_in (e_so ev) raw false k p -> fst (on_input ev ext uuid raw h) = Ok (Some d) ->
  let log := log_reply ev ds ext uuid raw h in
  (exists o q m, waits_for h k (RegisterRH o) /\ received_init (e_so ev) l q /\
     told_request ds q (py "internal:discovery/enviornmentsettings") log d m /\ m_id m = k - 1) \/
  (exists q m, waits_for h k EnvRH /\ latest_init ev ext (initial_host u) l q /\
     told_of ds q log (fields [("name", xt_name ext); ("interfaces", list_text ds (xt_interfaces ext))]%string) d m).
Proof.
  intros U ev ds ext u l uuid raw k p d So h Hr H log. unfold log. clear log.
  destruct (history ev ext u l So) as [A B]. cbv zeta in A, B. fold h in A, B.
  destruct (says_sent U ev ds ext uuid raw h d H) as (g & h' & S & W & ->). clear H.
  rewrite (says_on_response U ev ds ext raw k p Hr) in S. unfold says_response in S. cbn [hs_pending set_next] in S.
  destruct (dict_get Z.eqb k (hs_pending h)) as [[o|]|] eqn:G; [| |discriminate]; cbv zeta in S.
  - left. pose proof (dict_get_In _ Z.eqb_eq _ _ _ G) as G'. destruct (B k o G') as (q & Rq & em & k2 & N & Em & Hn & Ek).
    unfold says_register in S. apply hbind_inv in S as ([b t] & h1 & H1 & S). cbn [fst] in S. destruct b; [|discriminate].
    unfold requests, hret in S. apply pair_equal_spec in S as [S _]. apply Ok_inj in S. injection S as <-. cbn [og_out] in W.
    destruct (request_told _ _ _ q _ _ _ _ ds d eq_refl eq_refl N Hn W) as (m & T & _ & Ei).
    exists o, q, m. split; [exact G|]. split; [exact Rq|]. split; [exact T|].
    rewrite Ei. pose proof (proj2 (new_request_ids _ _ _ _ _ _ _ _ _ _ _ Hn) o eq_refl) as E. cbn [draws] in E. exact E.
  - right. unfold says_env in S. destruct (read_settings _ _ _) as [[x|e] d']; [|discriminate]. cbv zeta in S.
    cbn [hs_init set_settings set_pending set_next] in S. destruct (hs_init h) as [o|] eqn:I; [|discriminate].
    destruct (A o eq_refl) as (q & Lq & n & n' & N & Hn).
    unfold responds, hret in S. apply pair_equal_spec in S as [S _]. apply Ok_inj in S. injection S as <-. cbn [og_out] in W.
    destruct (response_told _ _ _ q _ _ _ _ ds (str_init_response ds (mkInitResp (xt_name ext) (xt_interfaces ext))) d eq_refl eq_refl eq_refl N Hn W) as (m & T & _).
    exists q, m. split; [exact G|]. split; [exact Lq|].
    replace (fields [("name", xt_name ext); ("interfaces", list_text ds (xt_interfaces ext))]%string) with (str_init_response ds (mkInitResp (xt_name ext) (xt_interfaces ext))); [exact T|].
    unfold str_init_response, fields, list_text. cbn [is_name is_interfaces map commas fst snd]. rewrite <- !app_assoc. reflexivity.
Qed.
Print Assumptions C112_initialization.
(** an initialization to its end, then a handshake: the hypotheses, and what is said of what is sent *)
Definition ex_told : list (bytes * bytes) :=
  [([], ex_raw (ex_init 77)); ([], ex_answer 3 [x01]); ([], ex_answer 2 ex_settings); ([], ex_raw ex_tcp)].
Definition sent_records (l : list record) : list pystr := map snd (filter (fun r => prefixb (py "> ") (snd r)) (above_debug l)).
Example C112_case :
  read_as (e_so ex_env) (ex_raw (ex_init 77)) (ex_init 77) /\ is_init (ex_init 77) /\ (forall l, Permutation l (e_roles ex_env l)) /\
  response_in (e_so ex_env) (ex_answer 3 [x01]) false 3 [x01] /\ response_in (e_so ex_env) (ex_answer 2 ex_settings) false 2 ex_settings /\
  (exists d, fst (on_input ex_env ex_ext [] (ex_answer 3 [x01]) (feed ex_env ex_ext (initial_host 0) (firstn 1 ex_told))) = Ok (Some d)) /\
  (exists d, fst (on_input ex_env ex_ext [] (ex_answer 2 ex_settings) (feed ex_env ex_ext (initial_host 0) (firstn 2 ex_told))) = Ok (Some d)) /\
  sent_records (log_run ex_env ex_ds ex_ext (initial_host 0) ex_told) =
  map py ["> prefix=b'ES', version=7.9.99.99, type=['request'], message=126 byte(s), id=3, ctx=req={'tenant': 't1'}, res={'Warning': {'a', 'b'}}, node=, id=None, features=['feature'], action=internal:discovery/registerrestactions, size=132 byte(s)";
          "> prefix=b'ES', version=7.9.99.99, type=['request'], message=96 byte(s), id=2, ctx=req={'tenant': 't1'}, res={'Warning': {'a', 'b'}}, node=, id=None, features=['feature'], action=internal:discovery/enviornmentsettings, size=102 byte(s)";
          "> prefix=b'ES', version=7.9.99.99, type=['response'], message=75 byte(s), id=77, ctx=req={'tenant': 't1'}, res={'Warning': {'a', 'b'}}, name=hello, interfaces=['Extension', 'ActionExtension'], features=['feature'], size=81 byte(s)";
          "> prefix=b'ES', version=7.9.99.99, type=['response', 'handshake'], message=46 byte(s), id=3, ctx=req={'tenant': 't1'}, res={'Warning': {'a', 'b'}}, version=3.0.0.99, features=['feature'], size=52 byte(s)"]%string.
Proof.
  assert (A : forall k p, k <> 0 -> ex_answer k p <> [] -> response_in (e_so ex_env) (ex_answer k p) false k p).
  { intros k p Hk Hp. destruct (C73_wire_frames_partial (e_so ex_env) (ex_reply k p) (ex_answer k p) ex_env_ok ex_prefix) as (_ & _ & R).
    specialize (R false [] (ex_reply_message k p Hk Hp)). rewrite !app_nil_r in R. exact R. }
  split. { eexists _, _, 0, _, _, _. split; [vm_compute; reflexivity|]. split; [reflexivity|]. split; [reflexivity|]. split; [vm_compute; reflexivity|]. repeat split. }
  split; [reflexivity|]. split; [intros l; reflexivity|].
  split; [apply A; [discriminate|vm_compute; discriminate]|]. split; [apply A; [discriminate|vm_compute; discriminate]|].
  split; [eexists; vm_compute; reflexivity|]. split; [eexists; vm_compute; reflexivity|]. vm_compute. reflexivity.
Qed.
