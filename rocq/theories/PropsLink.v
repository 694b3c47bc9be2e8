(** * Property C91: what a peer receives can be cut into the replies *)
From Coq Require Import String ZArith List Bool Lia.
From Coq Require Import Strings.Byte.
From Verif Require Import Py Stream Version Frame Proto Messages Rest Routes Settings Host Link PyFacts
  StreamFacts Spec SpecFacts Wire HostSpec FrameFacts HostFacts PropsHost PropsHistory PropsSession.
Import ListNotations.
Open Scope list_scope.
Open Scope Z_scope.

(** ** Specification *)
(** all the bytes the peer on connection [c] was handed, in order *)
Definition received {U} (l : link U) (c : Z) : bytes :=
  List.concat (map snd (filter (fun x => fst x =? c) (lk_out l))).
(** what happened to the server *)
Definition server_events (es : list levent) : list event :=
  flat_map (fun e => match e with Host e => [e] | Pass _ _ => [] end) es.
(** the replies the host had for the chunks received on [c], in order *)
Definition replies {U} (ev : env) (ext : extension U) (u : U) (es : list levent) (c : Z) : list bytes :=
  somes (map hd_reply (log_of c (log ev ext (initial_world u) (server_events es)))).
Definition prefix {A} (p d : list A) : Prop := exists t, d = p ++ t.
(** "ES", the length of what follows in four bytes, and that many bytes *)
Definition one_frame (f : bytes) : Prop :=
  exists size body, f = [x45; x53] ++ size ++ body /\ length size = 4%nat /\ be_value size = zlen body.
(** the peer cuts the stream [s] at the length fields: the complete frames, and the rest *)
Inductive cut : bytes -> list bytes -> bytes -> Prop :=
| cut_rest s : (forall f t, one_frame f -> s <> f ++ t) -> cut s [] s
| cut_frame f s fs r : one_frame f -> cut s fs r -> cut (f ++ s) (f :: fs) r.
(** the thread context of any request in [raw] has strings whose lengths the SDK gets right (C22) *)
Definition plain (so : set_order) (raw : bytes) : Prop :=
  forall m, read_as so raw m -> Forall length_prefix_ok (ctx_strings (m_ctx m)).

(** ** Facts: delivery *)
Lemma link_world {U} ev (ext : extension U) u es :
  lk_world (run_link ev ext (initial_link u) es) = run_world ev ext (initial_world u) (server_events es).
Proof.
  induction es as [|e es IH] using rev_ind; [reflexivity|].
  unfold run_link, server_events in *. rewrite fold_left_app, flat_map_app. cbn [fold_left flat_map]. rewrite app_nil_r.
  set (l := fold_left _ es _) in *. destruct e as [e|c n]; cbn [link_step].
  - rewrite run_snoc, <- IH.
    destruct e as [a|a raw uuid|a [|]|a|a| | |]; try reflexivity.
    + destruct (dict_get Z.eqb a (w_conns (lk_world l))) as [[|d|]|]; try reflexivity.
      destruct (dict_get Z.eqb a _) as [[|d|]|]; reflexivity.
    + destruct (dict_get Z.eqb a (w_conns (lk_world l))) as [[|d|]|]; reflexivity.
  - rewrite app_nil_r, <- IH. destruct (dict_get Z.eqb c _) as [[|d|]|]; reflexivity.
Qed.
Lemma replies_snoc {U} ev (ext : extension U) u es e c :
  replies ev ext u (es ++ [Host e]) c = replies ev ext u es c ++
    somes (map hd_reply (log_of c (handles ev ext (lk_world (run_link ev ext (initial_link u) es)) e))).
Proof.
  unfold replies. rewrite link_world. unfold server_events. rewrite flat_map_app. cbn [flat_map]. rewrite app_nil_r, log_snoc, log_of_app, map_app, somes_app.
  reflexivity.
Qed.
Lemma received_app {U} (w : world U) lf out x c :
  received (mkLink w lf (out ++ [x])) c = received (mkLink w lf out) c ++ if fst x =? c then snd x else [].
Proof.
  unfold received. cbn [lk_out]. rewrite filter_app, map_app, concat_app. cbn [filter]. destruct (fst x =? c); cbn; rewrite ?app_nil_r; reflexivity.
Qed.

(** the sends on [c]: what was handed over of each *)
Definition sends_inv {U} (l : link U) (rs : list bytes) (ok : Prop) (c : Z) : Prop :=
  exists ps, Forall2 prefix ps rs /\ received l c = List.concat ps /\
   match conn_of (lk_world l) c with
   | Some (Sending d) => exists ps' rs' p, ps = ps' ++ [p] /\ rs = rs' ++ [d] /\ p ++ left_of l c = d /\ (ok -> ps' = rs')
   | Some Closed => ok -> ps = rs \/ exists rs' d p, rs = rs' ++ [d] /\ ps = rs' ++ [p]
   | _ => ok -> ps = rs
   end.
Lemma sends_weaken {U} (l : link U) rs (ok ok' : Prop) c : (ok' -> ok) -> sends_inv l rs ok c -> sends_inv l rs ok' c.
Proof.
  intros I (ps & A & B & C). exists ps. split; [exact A|]. split; [exact B|]. destruct (conn_of (lk_world l) c) as [[|d|]|]; [auto| |auto|auto].
  destruct C as (ps' & rs' & p & C1 & C2 & C3 & C4). exists ps', rs', p. repeat (split; [assumption|]). auto.
Qed.
Lemma left_set {U} (w : world U) c x lf o c' :
  left_of (mkLink w (dict_set Z.eqb c x lf) o) c' = if c =? c' then x else left_of (mkLink w lf o) c'.
Proof.
  unfold left_of. cbn [lk_left]. destruct (Z.eqb_spec c c') as [->|N].
  - rewrite (dict_get_set_same _ Z.eqb_eq). reflexivity.
  - rewrite (dict_get_set_other _ Z.eqb_eq) by exact N. reflexivity.
Qed.

Lemma same_link {U} (l l' : link U) rs ok c : conn_of (lk_world l') c = conn_of (lk_world l) c -> received l' c = received l c ->
  left_of l' c = left_of l c -> sends_inv l rs ok c -> sends_inv l' rs ok c.
Proof. intros A B C (ps & D & E & F). exists ps. rewrite A, B, C. auto. Qed.
Lemma pass_received {U} (l : link U) a n c : received (pass l a n) c = received l c ++ if a =? c then firstn n (left_of l a) else [].
Proof. unfold pass. cbv zeta. rewrite received_app. reflexivity. Qed.
Lemma pass_left {U} (l : link U) a n c : left_of (pass l a n) c = if a =? c then skipn n (left_of l a) else left_of l c.
Proof. unfold pass. cbv zeta. rewrite left_set. reflexivity. Qed.
Lemma other_event {U} ev (ext : extension U) l e c : event_conn e <> Some c ->
  received (link_step ev ext l (Host e)) c = received l c /\ left_of (link_step ev ext l (Host e)) c = left_of l c.
Proof.
  assert (E : forall a, Some a <> Some c -> (a =? c) = false) by (intros a N; apply Z.eqb_neq; congruence).
  intros D. cbn [link_step]. destruct e as [a|a raw uuid|a [|]|a|a| | |]; cbn [event_conn] in D; try apply E in D; try (split; reflexivity).
  - destruct (dict_get Z.eqb a (w_conns (lk_world l))) as [[|d|]|]; try (split; reflexivity).
    destruct (dict_get Z.eqb a _) as [[|d|]|]; try (split; reflexivity). split; [reflexivity|]. rewrite left_set, D. reflexivity.
  - destruct (dict_get Z.eqb a (w_conns (lk_world l))) as [[|d|]|]; try (split; reflexivity). cbv zeta.
    pose proof (pass_received l a (length (left_of l a)) c) as A. pose proof (pass_left l a (length (left_of l a)) c) as B.
    rewrite D in A, B. rewrite app_nil_r in A. split; [exact A|exact B].
Qed.
Lemma forall2_snoc A B (R : A -> B -> Prop) a b x y : Forall2 R a b -> R x y -> Forall2 R (a ++ [x]) (b ++ [y]).
Proof. intros H1 H2. apply Forall2_app; [exact H1|]. constructor; [exact H2|constructor]. Qed.
Lemma forall2_unsnoc A B (R : A -> B -> Prop) a b x y : Forall2 R (a ++ [x]) (b ++ [y]) -> Forall2 R a b /\ R x y.
Proof.
  intros H. apply Forall2_app_inv_l in H as (l1 & l2 & H1 & H2 & E). inversion H2 as [|? z ? l3 Hx Hn]; subst.
  inversion Hn; subst. apply app_inj_tail in E as [-> ->]. split; assumption.
Qed.
Lemma concat_snoc A (a : list (list A)) x : List.concat (a ++ [x]) = List.concat a ++ x.
Proof. rewrite concat_app. cbn. rewrite app_nil_r. reflexivity. Qed.

Lemma pass_inv {U} (l : link U) rs ok c a n : sends_inv l rs ok c ->
  (exists d, conn_of (lk_world l) a = Some (Sending d)) -> sends_inv (pass l a n) rs ok c.
Proof.
  intros (ps & A & B & C) (d & G). destruct (Z.eqb_spec a c) as [->|N].
  - rewrite G in C. destruct C as (ps' & rs' & p & -> & -> & P & O).
    apply forall2_unsnoc in A as [A1 A2].
    exists (ps' ++ [p ++ firstn n (left_of l c)]). split; [|split].
    + apply forall2_snoc; [exact A1|]. exists (skipn n (left_of l c)). rewrite <- app_assoc, firstn_skipn. symmetry. exact P.
    + rewrite pass_received, Z.eqb_refl, B, !concat_snoc, app_assoc. reflexivity.
    + change (lk_world (pass l c n)) with (lk_world l). rewrite G. exists ps', rs', (p ++ firstn n (left_of l c)).
      split; [reflexivity|]. split; [reflexivity|]. split; [|exact O]. rewrite pass_left, Z.eqb_refl, <- app_assoc, firstn_skipn. exact P.
  - apply Z.eqb_neq in N. apply (same_link l); [reflexivity|rewrite pass_received, N; apply app_nil_r|rewrite pass_left, N; reflexivity|].
    exists ps. auto.
Qed.

Lemma sends_run {U} ev (ext : extension U) u es c :
  sends_inv (run_link ev ext (initial_link u) es) (replies ev ext u es c) (~ In (Host (SendDone c false)) es) c.
Proof.
  induction es as [|e es IH] using rev_ind.
  { exists []. split; [constructor|]. split; [reflexivity|]. cbn. reflexivity. }
  apply (sends_weaken _ _ _ (~ In (Host (SendDone c false)) (es ++ [e]))) in IH; [|intros N I; apply N, in_or_app; auto].
  set (ok := ~ In _ (es ++ [e])) in *.
  assert (Ok : e = Host (SendDone c false) -> ok -> False) by (intros -> O; apply O, in_or_app; right; left; reflexivity).
  clearbody ok. set (l := run_link ev ext (initial_link u) es) in *.
  assert (R : run_link ev ext (initial_link u) (es ++ [e]) = link_step ev ext l e) by (unfold run_link; rewrite fold_left_app; reflexivity).
  rewrite R. clear R. destruct e as [e|a n].
  2:{ assert (Rs : replies ev ext u (es ++ [Pass a n]) c = replies ev ext u es c) by
        (unfold replies, server_events; rewrite flat_map_app; cbn [flat_map]; rewrite !app_nil_r; reflexivity).
      rewrite Rs. cbn [link_step]. destruct (dict_get Z.eqb a (w_conns (lk_world l))) as [[|d|]|] eqn:G; try exact IH.
      apply pass_inv; [exact IH|]. exists d. exact G. }
  rewrite replies_snoc. fold l. destruct (event_conn_dec e c) as [D|D].
  2:{ destruct (others_kept ev ext (lk_world l) e c D) as (K & _ & L). rewrite L, app_nil_r.
      destruct (other_event ev ext l e c D) as [X Y]. revert IH. apply same_link; [|exact X|exact Y].
      rewrite <- K. f_equal. cbn [link_step]. destruct e as [a|a raw uuid|a [|]|a|a| | |]; try reflexivity.
      - destruct (dict_get Z.eqb a (w_conns (lk_world l))) as [[|d|]|]; try reflexivity.
        destruct (dict_get Z.eqb a _) as [[|d|]|]; reflexivity.
      - destruct (dict_get Z.eqb a (w_conns (lk_world l))) as [[|d|]|]; reflexivity. }
  set (rs := replies ev ext u es c) in *. clearbody rs. clearbody l. clear es u.
  set (w := lk_world l) in *.
  destruct e as [a|a raw uuid|a ok'|a|a| | |]; cbn [event_conn] in D; try discriminate;
    (assert (a = c) by congruence; subst a); clear D; cbn [handles].
  - (* Accept *) cbn [log_of filter map somes flat_map]. rewrite app_nil_r. destruct IH as (ps & A & B & C). exists ps.
    split; [exact A|]. split; [exact B|]. cbn [link_step lk_world world_step]. fold w in C |- *.
    change (dict_get Z.eqb c (w_conns w)) with (conn_of w c).
    destruct (conn_of w c) as [x|] eqn:G; [rewrite G; exact C|].
    destruct (w_accepting w); [|rewrite G; exact C]. rewrite conn_set, Z.eqb_refl. exact C.
  - (* Recv *) cbn [link_step lk_world]. fold w. cbn [world_step]. change RECV_LIMIT with 10240.
    change (dict_get Z.eqb c (w_conns w)) with (conn_of w c).
    assert (Same : forall rs', rs' = rs -> conn_of w c <> Some Receiving \/ True -> sends_inv (mkLink w (lk_left l) (lk_out l)) rs' ok c).
    { intros rs' -> _. exact IH. }
    destruct (10240 <? zlen raw).
    { change (dict_get Z.eqb c (w_conns w)) with (conn_of w c).
      destruct (conn_of w c) as [[|d|]|] eqn:G; (apply Same; [cbn; apply app_nil_r|auto]). }
    destruct (conn_of w c) as [[|d|]|] eqn:G; try (apply Same; [cbn; apply app_nil_r|auto]).
    destruct IH as (ps & A & B & C). fold w in C. rewrite G in C.
    destruct raw as [|b raw].
    { rewrite app_nil_r. cbn [close_conn w_conns]. change (dict_get Z.eqb c (set_conn c Closed (w_conns w))) with (conn_of (close_conn w c) c).
      rewrite close_conn_of, Z.eqb_refl. exists ps. split; [exact A|]. split; [exact B|]. cbn [lk_world].
      change (mkWorld (w_host w) (w_terminating w) (w_accepting w) (set_conn c Closed (w_conns w)) (w_sent w)) with (close_conn w c).
      rewrite close_conn_of, Z.eqb_refl. intros O. left. auto. }
    destruct (on_input ev ext uuid (b :: raw) (w_host w)) as [r h] eqn:E. cbn [fst log_of filter hd_conn].
    rewrite Z.eqb_refl. cbn [map hd_reply somes flat_map].
    assert (Quiet : sends_inv (mkLink (after_chunk h w c (w_sent w)) (lk_left l) (lk_out l)) (rs ++ []) ok c).
    { rewrite app_nil_r. exists ps. split; [exact A|]. split; [exact B|]. cbn [lk_world]. rewrite after_conn, Z.eqb_refl.
      destruct (w_terminating w); auto. }
    destruct r as [[d|]|e].
    + rewrite app_nil_r. cbn [w_conns].
      change (dict_get Z.eqb c (set_conn c (Sending d) (w_conns w))) with (conn_of (mkWorld h (w_terminating w) (w_accepting w) (set_conn c (Sending d) (w_conns w)) (w_sent w)) c).
      rewrite conn_set, Z.eqb_refl. exists (ps ++ [[]]). split; [apply forall2_snoc; [exact A|exists d; reflexivity]|].
      split; [rewrite concat_snoc, app_nil_r; exact B|]. cbn [lk_world]. rewrite conn_set, Z.eqb_refl.
      exists ps, rs, []. split; [reflexivity|]. split; [reflexivity|]. split; [|exact C]. rewrite left_set, Z.eqb_refl. reflexivity.
    + change (dict_get Z.eqb c (w_conns (after_chunk h w c (w_sent w)))) with (conn_of (after_chunk h w c (w_sent w)) c).
      rewrite after_conn, Z.eqb_refl. destruct (w_terminating w); exact Quiet.
    + change (dict_get Z.eqb c (w_conns (after_chunk h w c (w_sent w)))) with (conn_of (after_chunk h w c (w_sent w)) c).
      rewrite after_conn, Z.eqb_refl. destruct (w_terminating w); exact Quiet.
  - (* SendDone *) cbn [log_of filter map somes flat_map]. rewrite app_nil_r. cbn [link_step lk_world]. fold w. cbn [world_step].
    change (dict_get Z.eqb c (w_conns w)) with (conn_of w c).
    destruct (conn_of w c) as [[|d|]|] eqn:G; try (destruct ok'; exact IH).
    destruct ok'.
    + cbv zeta. assert (P : sends_inv (pass l c (length (left_of l c))) rs ok c) by (apply pass_inv; [exact IH|exists d; exact G]).
      destruct P as (ps & A & B & C). exists ps. split; [exact A|]. split; [exact B|]. cbn [lk_world]. rewrite after_conn, Z.eqb_refl.
      change (lk_world (pass l c (length (left_of l c)))) with w in C. rewrite G in C.
      destruct C as (ps' & rs' & p & -> & -> & C3 & C4). rewrite pass_left, Z.eqb_refl, skipn_all, app_nil_r in C3. subst p.
      destruct (w_terminating w); intros O; rewrite (C4 O); auto.
    + destruct IH as (ps & A & B & _). exists ps. split; [exact A|]. split; [exact B|]. cbn [lk_world]. rewrite after_conn, Z.eqb_refl.
      destruct (w_terminating w); intros O; exfalso; exact (Ok eq_refl O).
  - (* RecvFail *) cbn [log_of filter map somes flat_map]. rewrite app_nil_r. destruct IH as (ps & A & B & C). exists ps.
    split; [exact A|]. split; [exact B|]. cbn [link_step lk_world world_step]. fold w in C |- *.
    change (dict_get Z.eqb c (w_conns w)) with (conn_of w c).
    destruct (conn_of w c) as [[|d|]|] eqn:G; try (rewrite G; exact C). rewrite close_conn_of, Z.eqb_refl. auto.
  - (* Cancelled *) cbn [log_of filter map somes flat_map]. rewrite app_nil_r. destruct IH as (ps & A & B & C). exists ps.
    split; [exact A|]. split; [exact B|]. cbn [link_step lk_world world_step]. fold w in C |- *.
    change (dict_get Z.eqb c (w_conns w)) with (conn_of w c).
    destruct (conn_of w c) as [[|d|]|] eqn:G; [..|rewrite G; exact C]; rewrite close_conn_of, Z.eqb_refl; auto.
    intros O. right. destruct C as (ps' & rs' & p & C1 & C2 & _ & C4). exists rs', d, p. rewrite <- (C4 O) at 2. split; assumption.
Qed.

(** ** Facts: outputs are frames *)
Lemma edits_prefix es o : h_prefix (o_hdr (fold_left apply_edit es o)) = h_prefix (o_hdr o).
Proof.
  revert o. induction es as [|[b|b|f v] es IH]; intros o; [reflexivity|..]; cbn [fold_left]; rewrite IH; cbn [apply_edit]; try reflexivity.
  unfold with_hdr. cbn [o_hdr]. apply (flag_set_rest f (o_hdr o) v).
Qed.
Lemma new_outbound_prefix c v st rid msg f a n o n' : new_outbound c (HVer v) st rid msg f a n = (Ok o, n') -> h_prefix (o_hdr o) = [x45; x53].
Proof.
  unfold new_outbound, new_header, ibind. rewrite pick_id_spec.
  set (c' := match c with Some c => c | None => empty_ctx end).
  destruct (draws rid); cbn [iret ilift];
  (destruct (ctx_size c') as [sz|e] eqn:Es; cbn [ilift]; [|discriminate]);
  (destruct msg as [[b|e]|]; cbn [ilift iret]; [|discriminate|]);
  intros H; apply pair_equal_spec in H; destruct H as [H _]; apply Ok_inj in H; subst o; reflexivity.
Qed.
Lemma constructed_prefix o : constructed o -> h_prefix (o_hdr o) = [x45; x53].
Proof.
  destruct 1 as [c f msg v a rid hs cp n o n' H|c f msg v rid hs cp n o n' H].
  - unfold new_request, ibind in H.
    destruct (new_outbound c (HVer v) 0 rid msg f a n) as [[o1|] n1] eqn:E; [|discriminate].
    destruct (request_variable_bytes f a) as [vb|]; cbn [ilift iret] in H; [|discriminate].
    apply pair_equal_spec in H; destruct H as [H _]; apply Ok_inj in H; subst o.
    rewrite set_flags_edits, edits_prefix. change (h_prefix (o_hdr (apply_edit o1 (EditVariable vb))) = [x45; x53]).
    etransitivity; [exact (edits_prefix [EditVariable vb] o1)|]. eapply new_outbound_prefix; eassumption.
  - unfold new_response, ibind in H.
    destruct (new_outbound c (HVer v) STATUS_REQRES rid msg f [] n) as [[o1|] n1] eqn:E; [|discriminate].
    cbn [ilift iret] in H.
    apply pair_equal_spec in H; destruct H as [H _]; apply Ok_inj in H; subst o.
    rewrite set_flags_edits, edits_prefix. eapply new_outbound_prefix; eassumption.
Qed.
Lemma constructed_frame o out : constructed o -> Forall length_prefix_ok (ctx_strings (o_ctx o)) ->
  write_outbound o = Ok out -> one_frame out.
Proof.
  intros C F W. pose proof (frame_lengths o [] out C W) as L. cbn [fold_left] in L. apply L in F as [Sz _].
  destruct (frame_written o out (constructed_inv o C) W) as (Hok & hdr & cb & sz & Hh & H23 & _ & _ & -> & _).
  destruct (header_wire _ Hok) as (s & i & st & ver & vhs & Wh & L1 & L2 & L3 & L4 & L5 & Bs & _).
  rewrite Wh in Hh. apply Ok_inj in Hh. subst hdr. rewrite (constructed_prefix o C) in *.
  set (t := cb ++ _) in *. exists s, ((i ++ st ++ ver ++ vhs) ++ t).
  assert (E : ([x45; x53] ++ s ++ i ++ st ++ ver ++ vhs) ++ t = [x45; x53] ++ s ++ (i ++ st ++ ver ++ vhs) ++ t)
    by (rewrite <- !app_assoc; reflexivity).
  split; [exact E|]. split; [exact L1|]. rewrite Bs, Sz, E.
  assert (Z1 : zlen ([x45; x53] ++ s ++ (i ++ st ++ ver ++ vhs) ++ t) - 6 = zlen ((i ++ st ++ ver ++ vhs) ++ t)).
  { rewrite zlen_app, (zlen_app _ s). assert (Ls : zlen s = 4) by (unfold zlen; rewrite L1; reflexivity).
    rewrite Ls. change (zlen [x45; x53]) with 2. lia. }
  rewrite Z1. rewrite E, Z1 in Sz. destruct Hok as (_ & Hs & _). rewrite Sz in Hs. apply Z.mod_small.
  pose proof (zlen_nonneg _ ((i ++ st ++ ver ++ vhs) ++ t)). lia.
Qed.
(** every output was constructed in the context of a request received before or just now *)
Lemma reply_constructed {U} m o msg (h h' : host U) out : seen m o ->
  (r <== hids (reply_to o msg) ;; send r) h = (Ok (Some out), h') ->
  exists r, constructed r /\ o_ctx r = m_ctx m /\ write_outbound r = Ok out.
Proof.
  intros (C & _) H. unfold hbind, hids in H. destruct (reply_to o msg (hs_next h)) as [[r|e] n'] eqn:E; [|discriminate].
  unfold send, hbind, hlift in H. destruct (write_outbound r) as [b|e] eqn:W; [|discriminate].
  unfold hret in H. assert (b = out) by congruence. subst b. exists r.
  unfold reply_to in E. cbv zeta in E. split; [eapply con_response; exact E|]. split; [|exact W].
  destruct msg as [p|x].
  - change (Some (@Ok bytes p)) with (option_map Ok (Some p)) in E. rewrite <- C.
    destruct (new_response_fields _ _ _ _ _ _ _ _ _ _ E) as (_ & _ & _ & _ & _ & _ & _ & X & _). exact X.
  - exfalso. unfold new_response, new_outbound, new_header, ibind in E. rewrite pick_id_spec in E.
    destruct (draws (Some (h_id (o_hdr o)))); cbn [iret ilift] in E; destruct (ctx_size _); cbn [ilift] in E; discriminate.
Qed.
Lemma request_ctx c f msg v a rid hs cp n o n' : new_request (Some c) f (Some msg) (HVer v) a rid hs cp n = (Ok o, n') ->
  constructed o /\ o_ctx o = c.
Proof.
  intros E. split; [eapply con_request; exact E|]. destruct msg as [p|x].
  - change (Some (@Ok bytes p)) with (option_map Ok (Some p)) in E.
    destruct (new_request_fields _ _ _ _ _ _ _ _ _ _ _ E) as (_ & _ & _ & _ & _ & _ & _ & X & _). exact X.
  - exfalso. unfold new_request, new_outbound, new_header, ibind in E. rewrite pick_id_spec in E.
    destruct (draws rid); cbn [iret ilift] in E; destruct (ctx_size _); cbn [ilift] in E; discriminate.
Qed.
Lemma output_constructed {U} ev (ext : extension U) u l uuid raw out h' : set_order_ok (e_so ev) ->
  on_input ev ext uuid raw (feed ev ext (initial_host u) l) = (Ok (Some out), h') ->
  exists r m, constructed r /\ o_ctx r = m_ctx m /\ write_outbound r = Ok out /\
    (read_as (e_so ev) raw m \/ exists x, In x l /\ read_as (e_so ev) (snd x) m).
Proof.
  intros Hso H. destruct (input_cases ev ext raw) as [(m & Hm)|[(err & k & p & Hr)|He]].
  - destruct (on_request ev ext raw m Hso Hm) as (o & S & N & E). rewrite E in H. clear E.
    assert (Fin : (exists r, constructed r /\ o_ctx r = m_ctx m /\ write_outbound r = Ok out) ->
      exists r m, constructed r /\ o_ctx r = m_ctx m /\ write_outbound r = Ok out /\
    (read_as (e_so ev) raw m \/ exists x, In x l /\ read_as (e_so ev) (snd x) m)).
    { intros (r & A & B & C). exists r, m. auto. }
    apply Fin. clear Fin. pose proof (seen_action _ _ S) as A.
    destruct (action_cases m) as [X|[X|[X|[X|X]]]]; rewrite <- ?A in X.
    + unfold is_init in X. rewrite <- A in X. rewrite dispatch_init in H by exact X. unfold handle_discovery in H.
      do 6 (apply hbind_inv in H as (? & ? & _ & H); cbv zeta in H).
      apply hbind_inv in H as (rm & h1 & _ & H). apply hbind_inv in H as (rr & h2 & Hr & H).
      apply hbind_inv in H as (? & h3 & _ & H). unfold send, hbind, hlift in H.
      destruct (write_outbound rr) as [b|e] eqn:W; [|discriminate]. unfold hret in H. assert (b = out) by congruence. subst b.
      exists rr. unfold hids in Hr. destruct (new_request _ _ _ _ _ _ _ _ (hs_next h1)) as [[rr'|e] n'] eqn:E; [|discriminate].
      assert (rr' = rr) by congruence. subst rr'. apply request_ctx in E as [E1 E2]. destruct S as (C & _). rewrite <- C. auto.
    + rewrite dispatch_rest in H by exact X. unfold handle_rest in H.
      do 4 (apply hbind_inv in H as (? & ? & _ & H); cbv zeta in H). eapply reply_constructed; eassumption.
    + rewrite dispatch_tcp in H by exact X. unfold handle_tcp_handshake in H.
      apply hbind_inv in H as (? & ? & _ & H). eapply reply_constructed; eassumption.
    + rewrite dispatch_transport in H by exact X. unfold handle_transport_handshake in H.
      apply hbind_inv in H as (? & ? & _ & H). eapply reply_constructed; eassumption.
    + rewrite dispatch_other in H by exact X. unfold handle_not_found in H.
      apply hbind_inv in H as (? & ? & _ & H). eapply reply_constructed; eassumption.
  - rewrite (on_response _ _ _ _ _ _ Hr) in H. destruct err; [discriminate|].
    destruct (history ev ext u l Hso) as [A B]. cbv zeta in A, B. set (h := feed ev ext (initial_host u) l) in *.
    unfold handle_response in H. cbn [hs_pending set_next] in H.
    destruct (dict_get Z.eqb k (hs_pending h)) as [[sr|]|] eqn:G; [| |discriminate]; cbv zeta in H.
    + apply (dict_get_In _ Z.eqb_eq) in G. destruct (B k sr G) as (m & (_ & x & Ix & Rx) & em & k2 & _ & _ & En & _).
      unfold handle_register in H. apply hbind_inv in H as (a & h1 & _ & H). destruct (fst a); [|discriminate].
      unfold send, hbind, hlift in H. destruct (write_outbound sr) as [b|e] eqn:W; [|discriminate].
      unfold hret in H. assert (b = out) by congruence. subst b. apply request_ctx in En as [E1 E2].
      exists sr, m. do 3 (split; [assumption|]). right. exists x. auto.
    + unfold handle_env in H. destruct (read_settings _ _ _) as [[x|e] d]; [|discriminate]. cbv zeta in H.
      cbn [hs_init set_settings set_pending set_next] in H. destruct (hs_init h) as [o|] eqn:I; [|discriminate].
      destruct (A o eq_refl) as (m & (_ & l1 & x' & l2 & El & Rx & _) & n & n' & _ & En).
      unfold send, hbind, hlift in H. destruct (write_outbound o) as [b|e] eqn:W; [|discriminate].
      unfold hret in H. assert (b = out) by congruence. subst b.
      exists o, m. split; [eapply con_response; exact En|]. split.
      { destruct (write_init_response _) as [p'|e].
        - change (Some (@Ok bytes p')) with (option_map Ok (Some p')) in En.
          destruct (new_response_fields _ _ _ _ _ _ _ _ _ _ En) as (_ & _ & _ & _ & _ & _ & _ & X & _). exact X.
        - exfalso. unfold new_response, new_outbound, new_header, ibind in En. rewrite pick_id_spec in En.
          destruct (draws (Some (m_id m))); cbn [iret ilift] in En; destruct (ctx_size _); cbn [ilift] in En; discriminate. }
      split; [exact W|]. right. exists x'. split; [rewrite El; apply in_elt|exact Rx].
  - destruct (He uuid (feed ev ext (initial_host u) l)) as (e & n & E & _). rewrite E in H. discriminate.
Qed.
Lemma replies_frames {U} ev (ext : extension U) u es c d : set_order_ok (e_so ev) ->
  (forall x, In x (log ev ext (initial_world u) (server_events es)) -> plain (e_so ev) (hd_raw x)) ->
  In d (replies ev ext u es c) -> one_frame d.
Proof.
  intros Hso Hp Hd. unfold replies, somes in Hd. apply in_flat_map in Hd as (o & Ho & Hd).
  destruct o as [d'|]; [|destruct Hd]. destruct Hd as [->|[]]. apply in_map_iff in Ho as (x & Hx & Ix).
  apply filter_In in Ix as [Ix _]. pose proof Ix as Ix'. apply in_split in Ix as (l1 & l2 & El).
  pose proof (PropsSession.C50_one_history U ev ext u (server_events es)) as [_ H]. cbv zeta in H. specialize (H l1 x l2 El). rewrite Hx in H.
  destruct (on_input _ _ _ _ _) as [[[out|]|e] h'] eqn:E; cbn [fst] in H; try discriminate. assert (d = out) by congruence. subst out.
  apply output_constructed in E as (r & m & C & Cx & W & R); [|exact Hso].
  eapply constructed_frame; [exact C| |exact W]. rewrite Cx. destruct R as [R|(y & Iy & R)].
  - apply (Hp x Ix' m R).
  - apply in_map_iff in Iy as (z & <- & Iz). cbn [snd] in R. apply (Hp z); [|exact R]. rewrite El. apply in_or_app. left. exact Iz.
Qed.

(** ** Facts: cutting *)
Lemma app_split A (a b c d : list A) : length a = length c -> a ++ b = c ++ d -> a = c /\ b = d.
Proof.
  revert c. induction a as [|x a IH]; intros [|y c] L H; try discriminate; [auto|]. cbn [app] in H.
  injection H as -> H. injection L as L. destruct (IH c L H) as [-> ->]. auto.
Qed.
Lemma frame_prefix f g s t : one_frame f -> one_frame g -> f ++ s = g ++ t -> f = g /\ s = t.
Proof.
  intros (z & b & -> & L & E) (z' & b' & -> & L' & E') H. rewrite <- !app_assoc in H. cbn [app] in H.
  injection H as H.
  assert (Z1 : z = z' /\ b ++ s = b' ++ t) by (apply app_split; [congruence|exact H]).
  destruct Z1 as [-> H2]. assert (Lb : length b = length b') by (unfold zlen in *; lia).
  apply app_split in H2 as [-> ->]; [auto|exact Lb].
Qed.

Lemma frame_pos f : one_frame f -> f <> [].
Proof. intros (z & b & -> & _). discriminate. Qed.
Lemma cut_concat s fs r : cut s fs r -> s = List.concat fs ++ r.
Proof. induction 1 as [|f s fs r F C IH]; [reflexivity|]. cbn [List.concat]. rewrite <- app_assoc, <- IH. reflexivity. Qed.
Lemma cut_unique s fs r : cut s fs r -> forall fs' r', cut s fs' r' -> fs' = fs /\ r' = r.
Proof.
  induction 1 as [s N|f s fs r F C IH]; intros fs' r' C'.
  - inversion C' as [|f s' fs2 r2 F C2 E]; subst; [auto|]. exfalso. exact (N f s' F eq_refl).
  - inversion C' as [s' N E|f' s' fs2 r2 F' C2 E]; subst.
    + exfalso. exact (N f s F eq_refl).
    + apply (frame_prefix _ _ _ _ F' F) in E as [-> ->]. apply IH in C2 as [-> ->]. auto.
Qed.
Lemma cut_frames fs r : Forall one_frame fs -> (forall f t, one_frame f -> r <> f ++ t) -> cut (List.concat fs ++ r) fs r.
Proof.
  intros F N. induction F as [|f fs Hf F IH]; [apply cut_rest, N|]. cbn [List.concat]. rewrite <- app_assoc. constructor; assumption.
Qed.
Lemma short_no_frame r d : one_frame d -> prefix r d -> r <> d -> forall f t, one_frame f -> r <> f ++ t.
Proof.
  intros Hd (t' & E) N f t Hf ->. rewrite <- app_assoc in E. rewrite <- (app_nil_r d) in E.
  apply (frame_prefix d f _ _ Hd Hf) in E as [-> E]. symmetry in E. apply app_eq_nil in E as [-> _]. rewrite app_nil_r in N. auto.
Qed.

(** ** C91 *)
(** Whatever the pieces and whatever happens: what the peer was handed is, reply after reply in
    order, the beginning of each.  Unless a send raised, all but the last are handed over
    completely, and so is the last once the connection is back to receiving. *)
Theorem C91_delivery : forall U ev (ext : extension U) u es c,
  let l := run_link ev ext (initial_link u) es in
  exists ps, Forall2 prefix ps (replies ev ext u es c) /\ received l c = List.concat ps /\
    (~ In (Host (SendDone c false)) es ->
       (ps = replies ev ext u es c \/ exists rs d p, replies ev ext u es c = rs ++ [d] /\ ps = rs ++ [p]) /\
       (conn_of (lk_world l) c = Some Receiving -> ps = replies ev ext u es c)).
Proof.
  intros U ev ext u es c. cbv zeta. destruct (sends_run ev ext u es c) as (ps & A & B & C). exists ps.
  split; [exact A|]. split; [exact B|]. intros O. destruct (conn_of _ c) as [[|d|]|].
  - auto.
  - split; [|discriminate]. right. destruct C as (ps' & rs' & p & C1 & C2 & _ & C4). exists rs', d, p. rewrite <- (C4 O) at 2. auto.
  - split; [|discriminate]. auto.
  - split; [|discriminate]. auto.
Qed.
Print Assumptions C91_delivery.

(** the peer finds exactly the replies by cutting at the length fields, in one way only; what is
    left over is the beginning of the reply being sent *)
Definition finds_replies {U} (ev : env) (ext : extension U) (u : U) (es : list levent) (c : Z) : Prop :=
  let l := run_link ev ext (initial_link u) es in
  exists fs r, cut (received l c) fs r /\
    (forall fs' r', cut (received l c) fs' r' -> fs' = fs /\ r' = r) /\
    (replies ev ext u es c = fs /\ r = [] \/
     exists d, replies ev ext u es c = fs ++ [d] /\ prefix r d /\ r <> d).
(** full statement: at any time, on any connection *)
Definition C91_statement : Prop := forall U ev (ext : extension U) u es c, set_order_ok (e_so ev) ->
  finds_replies ev ext u es c.
(** what holds: no send on the connection raised, and no request received (on any connection)
    had a context the length of which the SDK gets wrong (C22) *)
Theorem C91_framing_partial : forall U ev (ext : extension U) u es c, set_order_ok (e_so ev) ->
  (forall x, In x (log ev ext (initial_world u) (server_events es)) -> plain (e_so ev) (hd_raw x)) ->
  ~ In (Host (SendDone c false)) es -> finds_replies ev ext u es c.
Proof.
  intros U ev ext u es c Hso Hp O. unfold finds_replies. cbv zeta.
  destruct (C91_delivery U ev ext u es c) as (ps & A & B & C). cbv zeta in B, C. destruct (C O) as [D _]. rewrite B.
  pose proof (fun d => replies_frames ev ext u es c d Hso Hp) as Fr. set (rs := replies ev ext u es c) in *.
  assert (Fin : forall fs r, Forall one_frame fs -> (forall f t, one_frame f -> r <> f ++ t) -> List.concat ps = List.concat fs ++ r ->
    rs = fs /\ r = [] \/ (exists d, rs = fs ++ [d] /\ prefix r d /\ r <> d) ->
    exists fs r, cut (List.concat ps) fs r /\
    (forall fs' r', cut (List.concat ps) fs' r' -> fs' = fs /\ r' = r) /\ (rs = fs /\ r = [] \/ exists d, rs = fs ++ [d] /\ prefix r d /\ r <> d)).
  { intros fs r F N E X. pose proof (cut_frames fs r F N) as Ct. rewrite <- E in Ct. exists fs, r. split; [exact Ct|]. split; [|exact X].
    apply cut_unique, Ct. }
  assert (Nil : forall f t, one_frame f -> [] <> f ++ t) by (intros f t F E; symmetry in E; apply app_eq_nil in E as [E _]; exact (frame_pos f F E)).
  assert (All : Forall one_frame rs) by (apply Forall_forall; exact Fr).
  destruct D as [->|(rs' & d & p & E1 & ->)].
  - apply (Fin rs []); auto. rewrite app_nil_r. reflexivity.
  - rewrite E1 in A, All, Fin |- *. apply forall2_unsnoc in A as [_ P]. apply Forall_app in All as [All Fd]. inversion Fd; subst.
    destruct (list_eq_dec Byte.byte_eq_dec p d) as [->|N].
    + apply (Fin (rs' ++ [d]) []); [apply Forall_app; auto|exact Nil|symmetry; apply app_nil_r|auto].
    + apply (Fin rs' p); [exact All|eapply short_no_frame; eassumption|apply concat_snoc|]. right. exists d. auto.
Qed.
Print Assumptions C91_framing_partial.

(** a send that raises leaves the beginning of a reply behind, and the connection stays open *)
Definition ex_reply : bytes :=
  match fst (on_input ex_env ex_ext [] (ex_raw ex_tcp) (initial_host 0)) with Ok (Some d) => d | _ => [] end.
Definition ex_broken : list levent :=
  [Host (Accept 0); Host (Recv 0 (ex_raw ex_tcp) []); Pass 0 10; Host (SendDone 0 false);
   Host (Recv 0 (ex_raw ex_tcp) []); Host (SendDone 0 true)].
Theorem C91_failed_send_refuted : ~ C91_statement.
Proof.
  intros H. specialize (H Z ex_env ex_ext 0 ex_broken 0 ex_env_ok). unfold finds_replies in H. cbv zeta in H.
  assert (Rs : replies ex_env ex_ext 0 ex_broken 0 = [ex_reply; ex_reply]) by (vm_compute; reflexivity).
  assert (Rc : received (run_link ex_env ex_ext (initial_link 0) ex_broken) 0 = firstn 10 ex_reply ++ ex_reply) by (vm_compute; reflexivity).
  rewrite Rs, Rc in H. destruct H as (fs & r & C & _ & [[E ->]|(d & E & _)]); apply cut_concat in C.
  - subst fs. apply (f_equal (@length byte)) in C. vm_compute in C. discriminate C.
  - change [ex_reply; ex_reply] with ([ex_reply] ++ [ex_reply]) in E. apply app_inj_tail in E as [<- _].
    cbn [List.concat] in C. rewrite app_nil_r in C. apply (f_equal (firstn 12)) in C.
    rewrite (firstn_app 12 ex_reply r) in C. vm_compute in C. discriminate C.
Qed.
Print Assumptions C91_failed_send_refuted.
(** a request with a header of 100 characters and 200 bytes: no send fails, yet the peer does
    not find the reply *)
Definition ex_long : message :=
  mkMsg (mkCtx [(py "k", repeat 233 100)] []) [] (version_of_id 8000099) (py "internal:tcp/handshake") 5 false false
    (m_payload ex_tcp).
Definition ex_unplain : list levent :=
  [Host (Accept 0); Host (Recv 0 (ex_raw ex_long) []); Host (SendDone 0 true)].
Theorem C91_context_refuted : ~ finds_replies ex_env ex_ext 0 ex_unplain 0.
Proof.
  intros H. unfold finds_replies in H. cbv zeta in H.
  set (d := match replies ex_env ex_ext 0 ex_unplain 0 with [d] => d | _ => [] end).
  assert (Rs : replies ex_env ex_ext 0 ex_unplain 0 = [d]) by (vm_compute; reflexivity).
  assert (Rc : received (run_link ex_env ex_ext (initial_link 0) ex_unplain) 0 = d) by (vm_compute; reflexivity).
  assert (Bad : be_value (firstn 4 (skipn 2 d)) <> zlen d - 6) by (vm_compute; discriminate).
  rewrite Rs, Rc in H. clear Rs Rc. clearbody d. destruct H as (fs & r & C & _ & [[E ->]|(d' & E & _ & N)]).
  - subst fs. assert (F : one_frame d) by (inversion C; congruence). clear C. destruct F as (z & b & -> & L & E).
    apply Bad. cbn [skipn app]. rewrite firstn_app, L. cbn [Nat.sub]. rewrite <- L, firstn_all. cbn [firstn]. rewrite app_nil_r, E.
    change (zlen (x45 :: x53 :: z ++ b)) with (zlen ([x45; x53] ++ z ++ b)). rewrite zlen_app, (zlen_app _ z).
    assert (Ls : zlen z = 4) by (unfold zlen; rewrite L; reflexivity). rewrite Ls. change (zlen [x45; x53]) with 2. lia.
  - apply (f_equal (@length bytes)) in E as L. rewrite app_length in L. cbn in L. destruct fs; [|cbn in L; lia].
    injection E as <-. apply cut_concat in C. cbn in C. congruence.
Qed.
Print Assumptions C91_context_refuted.

(** the hypotheses of C91_framing_partial are met: two connections, replies handed over in pieces
    with others in between, the last one still under way *)
Definition ex_pieces : list levent :=
  [Host (Accept 0); Host (Accept 1); Host (Recv 0 (ex_raw ex_tcp) []); Pass 0 10; Host (Recv 1 (ex_raw ex_tcp) []); Pass 1 3; Pass 0 7;
   Host (SendDone 0 true); Host (Recv 0 (ex_raw ex_tcp) []); Pass 0 11; Host (SendDone 1 false)].
Example C91_case :
  (forall x, In x (log ex_env ex_ext (initial_world 0) (server_events ex_pieces)) -> plain (e_so ex_env) (hd_raw x)) /\
  ~ In (Host (SendDone 0 false)) ex_pieces /\
  length (replies ex_env ex_ext 0 ex_pieces 0) = 2%nat /\
  zlen (received (run_link ex_env ex_ext (initial_link 0) ex_pieces) 0) = zlen ex_reply + 11.
Proof.
  split; [|split; [|split; vm_compute; reflexivity]].
  - intros x Hx m Hm. assert (R : read_as (e_so ex_env) (ex_raw ex_tcp) ex_tcp) by apply C48_case.
    assert (E : hd_raw x = ex_raw ex_tcp).
    { apply (in_map hd_raw) in Hx. assert (M : map hd_raw (log ex_env ex_ext (initial_world 0) (server_events ex_pieces)) =
        [ex_raw ex_tcp; ex_raw ex_tcp; ex_raw ex_tcp]) by (vm_compute; reflexivity).
      rewrite M in Hx. repeat destruct Hx as [<-|Hx]; reflexivity || destruct Hx. }
    rewrite E in Hm. rewrite (read_as_fun _ _ _ _ Hm R). apply ex_prefix.
  - intros H. repeat destruct H as [H|H]; try discriminate H. destruct H.
Qed.
