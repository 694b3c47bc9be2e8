(** * Property C79: what the host remembers is bounded by what it was asked *)
From Coq Require Import String ZArith List Bool Lia ZifyBool.
From Coq Require Import Strings.Byte.
From Verif Require Import Py Stream Version Frame Proto Messages Rest Routes Settings Host PyFacts
  Spec FrameFacts Wire HostSpec HostFacts PropsHost PropsHistory.
Import ListNotations.
Open Scope list_scope.
Open Scope Z_scope.

(** ** ids drawn *)
Definition atmost {U A} (k : Z) (m : hm U A) : Prop := forall h r h', m h = (r, h') -> hs_next h' <= hs_next h + k.
Lemma atmost_bind {U A B} a b (m : hm U A) (k : A -> hm U B) : 0 <= b -> atmost a m -> (forall x, atmost b (k x)) ->
  atmost (a + b) (hbind m k).
Proof.
  intros Hb Hm Hk h r h' H. unfold hbind in H. destruct (m h) as [[x|e] h1] eqn:E.
  - apply Hm in E. apply Hk in H. lia.
  - apply pair_equal_spec in H as [_ <-]. apply Hm in E. lia.
Qed.
Lemma atmost_more {U A} a b (m : hm U A) : a <= b -> atmost a m -> atmost b m.
Proof. intros L Hm h r h' H. apply Hm in H. lia. Qed.
Lemma atmost_lift {U A} (x : res A) : atmost (U := U) 0 (hlift x).
Proof. intros h r h' H. apply pair_equal_spec in H as [_ <-]. lia. Qed.
Lemma atmost_ret {U A} (x : A) : atmost (U := U) 0 (hret x).
Proof. intros h r h' H. apply pair_equal_spec in H as [_ <-]. lia. Qed.
Lemma atmost_mod {U} (f : host U -> host U) : (forall h, hs_next (f h) = hs_next h) -> atmost 0 (hmod f).
Proof. intros E h r h' H. apply pair_equal_spec in H as [_ <-]. rewrite E. lia. Qed.
Lemma atmost_ids {U A} (m : idm A) : (forall n r n', m n = (r, n') -> n' <= n + 1) -> atmost (U := U) 1 (hids m).
Proof.
  intros Hm h r h' H. unfold hids in H. destruct (m (hs_next h)) as [x n] eqn:E. apply pair_equal_spec in H as [_ <-].
  cbn. eapply Hm, E.
Qed.
Lemma atmost_request {U} c f msg v a rid hs cp : atmost (U := U) 1 (hids (new_request c f msg v a rid hs cp)).
Proof. apply atmost_ids. intros n r n' H. apply new_request_ids in H as [-> _]. destruct (draws rid); lia. Qed.
Lemma atmost_response {U} c f msg v rid hs cp : atmost (U := U) 1 (hids (new_response c f msg v rid hs cp)).
Proof. apply atmost_ids. intros n r n' H. apply new_response_ids in H as ->. destruct (draws rid); lia. Qed.
Lemma atmost_reply {U} o msg : atmost (U := U) 1 (hids (reply_to o msg)).
Proof. apply atmost_response. Qed.
Lemma atmost_send {U} o : atmost (U := U) 0 (send o).
Proof. apply (atmost_bind 0 0); [lia|apply atmost_lift|intros; apply atmost_ret]. Qed.
Lemma atmost_user {U} (ext : extension U) n q : atmost 0 (call_user ext n q).
Proof.
  intros h r h' H. unfold call_user in H. destruct (xt_invoke ext n (hs_user h) q). apply pair_equal_spec in H as [_ <-]. cbn. lia.
Qed.
Ltac step0 := apply (atmost_bind 0); [lia|first [apply atmost_lift|apply atmost_user|apply atmost_mod; reflexivity]|intros ?].
Ltac step1 := apply (atmost_bind 1); [lia|first [apply atmost_reply|apply atmost_request|apply atmost_response]|intros ?].
Lemma atmost_handler {U} ev (ext : extension U) uuid o p : atmost 3 (handle_request ev ext uuid o p).
Proof.
  unfold handle_request. cbv zeta.
  destruct (streqb _ _); [|destruct (streqb _ _); [|destruct (streqb _ _); [|destruct (streqb _ _)]]];
    [|apply (atmost_more 1); [lia|]..].
  - unfold handle_discovery, register_response. change 3 with (0 + (1 + (0 + (0 + (1 + (0 + (0 + (1 + (0 + 0))))))))).
    step0. step1. step0. step0. step1. step0. step0. step1. step0. apply atmost_send.
  - unfold handle_rest. change 1 with (0 + (0 + (0 + (0 + (1 + 0))))). step0. step0. cbv zeta. step0. step0. step1. apply atmost_send.
  - unfold handle_tcp_handshake. change 1 with (0 + (1 + 0)). step0. step1. apply atmost_send.
  - unfold handle_transport_handshake. change 1 with (0 + (1 + 0)). step0. step1. apply atmost_send.
  - unfold handle_not_found. change 1 with (0 + (1 + 0)). step0. step1. apply atmost_send.
Qed.
Lemma atmost_env {U} ev p : atmost (U := U) 0 (handle_env ev p).
Proof.
  intros h r h' H. unfold handle_env in H. destruct (read_settings _ _ _) as [[t|e] d].
  - cbv zeta in H. cbn [hs_init set_settings] in H. destruct (hs_init h) as [o|].
    + apply atmost_send in H. exact H.
    + apply pair_equal_spec in H as [_ <-]. cbn. lia.
  - cbv zeta in H. apply pair_equal_spec in H as [_ <-]. cbn. lia.
Qed.
Lemma atmost_input {U} ev (ext : extension U) uuid raw : atmost 5 (on_input ev ext uuid raw).
Proof.
  unfold on_input. change 5 with (1 + (0 + (1 + (0 + 3)))).
  apply (atmost_bind 1); [lia| |intros _].
  { apply atmost_ids. intros n r n' H. apply pair_equal_spec in H as [_ <-]. lia. }
  step0. destruct x as [hd rest]. destruct (is_request hd).
  - step1. step0. apply atmost_handler.
  - step1. step0. apply (atmost_more 0); [lia|]. destruct (is_error hd); [apply atmost_ret|].
    intros h r h' H. unfold handle_response in H. destruct (dict_get Z.eqb _ _) as [[sr|]|].
    + cbv zeta in H. unfold handle_register in H. apply (atmost_bind 0 0) in H; [exact H|lia|apply atmost_lift|].
      intros y. destruct (fst y); [apply atmost_send|apply atmost_ret].
    + cbv zeta in H. apply atmost_env in H. exact H.
    + apply pair_equal_spec in H as [_ <-]. lia.
Qed.

(** ** how long the table of awaited responses is *)
Lemma dict_set_length {V} k (v : V) (d : list (Z * V)) : (length (dict_set Z.eqb k v d) <= S (length d))%nat.
Proof. induction d as [|[k' v'] d IH]; cbn; [lia|]. destruct (Z.eqb k k'); cbn; lia. Qed.
Lemma dict_del_length {V} k (d : list (Z * V)) : (length (dict_del Z.eqb k d) <= length d)%nat.
Proof. induction d as [|[k' v'] d IH]; cbn; [lia|]. destruct (Z.eqb k k'); cbn; lia. Qed.
Lemma pending_step {U} ev (ext : extension U) uuid raw h : set_order_ok (e_so ev) ->
  let h' := snd (on_input ev ext uuid raw h) in
  (length (pending_ids h') <= length (pending_ids h))%nat \/
  ((length (pending_ids h') <= 2 + length (pending_ids h))%nat /\ exists m, read_as (e_so ev) raw m /\ is_init m).
Proof.
  intros Hso h'. subst h'. destruct (on_input ev ext uuid raw h) as [r h'] eqn:E. cbn [snd]. unfold pending_ids. rewrite !map_length.
  destruct (init_input (e_so ev) raw) as [(m & Hm & Hi)|Hn].
  - right. split; [|eauto]. destruct (step_init ev ext uuid raw m h r h' Hso Hm Hi E) as (_ & _ & _ & G).
    destruct G as [(_ & G & _)|(resp & n & n' & _ & _ & _ & _ & [[G _]|[(k1 & _ & G & _)|(k1 & k2 & o & em & _ & _ & G & _)]])]; rewrite G.
    + lia.
    + lia.
    + pose proof (dict_set_length k1 EnvRH (hs_pending h)). lia.
    + pose proof (dict_set_length k1 EnvRH (hs_pending h)).
      pose proof (dict_set_length k2 (RegisterRH o) (dict_set Z.eqb k1 EnvRH (hs_pending h))). lia.
  - left. destruct (step_other ev ext uuid raw h r h' Hso Hn E) as (_ & _ & [G|(k & p & _ & _ & G)]); rewrite G; [lia|].
    apply dict_del_length.
Qed.

(** C79.  After any history of chunks: the responses awaited are at most two for each
    initialization request among the chunks (whatever else they were); at most five ids were
    drawn for each chunk, so that ids fit the header's 64 bits for the first 2^60 chunks. *)
Theorem C79_memory : forall U ev (ext : extension U) u l, set_order_ok (e_so ev) ->
  let h := feed ev ext (initial_host u) l in
  (exists inits, subsequence inits (map snd l) /\
     Forall (fun raw => exists m, read_as (e_so ev) raw m /\ is_init m) inits /\
     (length (pending_ids h) <= 2 * length inits)%nat) /\
  (forall k, In k (pending_ids h) -> 0 <= k < 5 * zlen l).
Proof.
  intros U ev ext u l Hso h. subst h. split.
  - induction l as [|x l IH] using rev_ind; [exists []; split; [constructor|]; split; [constructor|]; cbn; lia|].
    destruct IH as (is & S & F & L). rewrite feed_snoc, map_app. cbn [map].
    destruct (pending_step ev ext (fst x) (snd x) (feed ev ext (initial_host u) l) Hso) as [P|(P & M)]; cbv zeta in P.
    + exists is. split; [|split; [exact F|lia]]. rewrite <- (app_nil_r is).
      apply subsequence_app; [exact S|]. constructor. constructor.
    + exists (is ++ [snd x]). split; [apply subsequence_app; [exact S|apply subsequence_refl]|].
      split; [apply Forall_app; split; [exact F|constructor; [exact M|constructor]]|]. rewrite app_length. cbn [length]. lia.
  - assert (N : hs_next (feed ev ext (initial_host u) l) <= 5 * zlen l).
    { induction l as [|x l IH] using rev_ind; [cbn; lia|]. rewrite feed_snoc, zlen_app.
      destruct (on_input ev ext (fst x) (snd x) (feed ev ext (initial_host u) l)) as [r h'] eqn:E.
      apply atmost_input in E. cbn [snd]. change (zlen [x]) with 1. lia. }
    intros k I. destruct (feed_inv ev ext l Hso (initial_host u) (inv_initial u)) as ((_ & _ & P) & _). apply P in I. lia.
Qed.
Print Assumptions C79_memory.
Definition user_kept {U A} (m : hm U A) : Prop := forall h r h', m h = (r, h') -> hs_user h' = hs_user h.
Lemma kept_bind {U A B} (m : hm U A) (k : A -> hm U B) : user_kept m -> (forall x, user_kept (k x)) -> user_kept (hbind m k).
Proof.
  intros Hm Hk h r h' H. unfold hbind in H. destruct (m h) as [[x|e] h1] eqn:E.
  - apply Hm in E. apply Hk in H. congruence.
  - apply pair_equal_spec in H as [_ <-]. eapply Hm, E.
Qed.
Lemma kept_lift {U A} (x : res A) : user_kept (U := U) (hlift x).
Proof. intros h r h' H. apply pair_equal_spec in H as [_ <-]. reflexivity. Qed.
Lemma kept_ret {U A} (x : A) : user_kept (U := U) (hret x).
Proof. intros h r h' H. apply pair_equal_spec in H as [_ <-]. reflexivity. Qed.
Lemma kept_ids {U A} (m : idm A) : user_kept (U := U) (hids m).
Proof. intros h r h' H. unfold hids in H. destruct (m (hs_next h)). apply pair_equal_spec in H as [_ <-]. reflexivity. Qed.
Lemma kept_send {U} o : user_kept (U := U) (send o).
Proof. apply kept_bind; [apply kept_lift|intros; apply kept_ret]. Qed.
Lemma kept_env {U} ev p : user_kept (U := U) (handle_env ev p).
Proof.
  intros h r h' H. unfold handle_env in H. destruct (read_settings _ _ _) as [[t|e] d]; cbv zeta in H.
  - cbn [hs_init set_settings] in H. destruct (hs_init h) as [o|].
    + apply kept_send in H. exact H.
    + apply pair_equal_spec in H as [_ <-]. reflexivity.
  - apply pair_equal_spec in H as [_ <-]. reflexivity.
Qed.
Lemma kept_other {U} ev (ext : extension U) uuid o p : o_action o <> A_DISCOVERY -> o_action o <> A_REST ->
  user_kept (handle_request ev ext uuid o p).
Proof.
  intros D R. unfold handle_request. cbv zeta.
  destruct (streqb (o_action o) A_DISCOVERY) eqn:E1; [apply streqb_eq in E1; contradiction|].
  destruct (streqb (o_action o) A_REST) eqn:E2; [apply streqb_eq in E2; contradiction|].
  destruct (streqb (o_action o) A_TCP); [|destruct (streqb (o_action o) A_TRANSPORT)]; unfold handle_tcp_handshake, handle_transport_handshake, handle_not_found;
    (apply kept_bind; [apply kept_lift|intros ?]; apply kept_bind; [apply kept_ids|intros ?; apply kept_send]).
Qed.

(** ... and nothing but the acceptance of an awaited response changes the settings the host
    knows, nothing but an initialization the answer it is preparing *)
Theorem C79_kept : forall U ev (ext : extension U) uuid raw h, set_order_ok (e_so ev) ->
  let h' := snd (on_input ev ext uuid raw h) in
  ((forall k p, In k (pending_ids h) -> ~ response_in (e_so ev) raw false k p) -> hs_settings h' = hs_settings h) /\
  ((forall m, read_as (e_so ev) raw m -> ~ is_init m) -> hs_init h' = hs_init h) /\
  ((forall m, read_as (e_so ev) raw m -> m_action m <> py "internal:extensions/restexecuteonextensiontaction") ->
     hs_user h' = hs_user h).
Proof.
  intros U ev ext uuid raw h Hso h'. subst h'. destruct (on_input ev ext uuid raw h) as [r h'] eqn:H. cbn [snd].
  destruct (input_cases ev ext raw) as [[m Hm]|[(err & k & p & Hr)|Hx]].
  - destruct (is_init_dec m) as [Hi|Hi].
    + destruct (step_init ev ext uuid raw m h r h' Hso Hm Hi H) as (_ & S & W & _).
      split; [intros _; exact S|]. split; [intros N; destruct (N m Hm Hi)|intros _; exact W].
    + destruct (on_request ev ext raw m Hso Hm) as (o & S & _ & E). rewrite E in H. pose proof (seen_action _ _ S) as A.
      assert (D : o_action o <> A_DISCOVERY) by (rewrite A; exact Hi).
      destruct (quiet_not_init ev ext uuid o _ D _ _ _ H) as (_ & I & S' & _).
      split; [intros _; exact S'|]. split; [intros _; exact I|]. intros N.
      apply kept_other in H; [exact H|exact D|rewrite A; exact (N m Hm)].
  - rewrite (on_response _ _ _ _ _ _ Hr) in H. destruct err.
    + apply pair_equal_spec in H as [_ <-]. split; [|split]; reflexivity.
    + unfold handle_response in H. cbn [hs_pending set_next] in H.
      destruct (dict_get Z.eqb k (hs_pending h)) as [x|] eqn:G; [|apply pair_equal_spec in H as [_ <-]; split; [|split]; reflexivity].
      assert (I : In k (pending_ids h)) by (apply (dict_get_In _ Z.eqb_eq) in G; exact (in_map fst _ _ G)).
      split; [intros N; destruct (N k p I Hr)|].
      destruct x as [o|].
      * apply register_effect in H. subst h'. split; reflexivity.
      * pose proof (kept_env _ _ _ _ _ H) as W. apply env_effect in H. split; intros _; [apply H|exact W].
  - destruct (Hx uuid h) as (e & n & E & _). rewrite E in H. apply pair_equal_spec in H as [_ <-]. split; [|split]; reflexivity.
Qed.
Print Assumptions C79_kept.
Example C79_case : let h := feed ex_env ex_ext (initial_host 0) (firstn 2 ex_two_inits ++ [([], ex_garbage); ([], ex_raw ex_tcp)]) in
  length (pending_ids h) = 4%nat /\ set_order_ok (e_so ex_env) /\
  (forall k p, In k (pending_ids h) -> ~ response_in (e_so ex_env) (ex_raw ex_tcp) false k p).
Proof.
  cbv zeta. split; [vm_compute; reflexivity|]. split; [exact ex_env_ok|].
  intros k p _ R. destruct (read_as_frame (e_so ex_env) ex_tcp (ex_raw ex_tcp) ex_env_ok ltac:(apply C67_case)) as (c & _ & M).
  specialize (M []). rewrite app_nil_r in M. exact (request_or_response _ _ _ _ _ _ M R).
Qed.
