(** * Property C94 in a running extension: what handlers share reaches the wire *)
From Coq Require Import String ZArith List Bool Lia Permutation.
From Coq Require Import Strings.Byte.
From Verif Require Import Py Stream Version Frame Proto Messages Rest Routes Settings Host Objects PyFacts Spec SpecFacts RestFacts PropsMessages
  Wire WireFacts WireFacts2 WireFacts3 WireFacts4 HostSpec HostFacts PropsHost PropsMemory PropsObjects.
Import ListNotations.
Open Scope list_scope.
Open Scope Z_scope.

(** ** Specification *)
(** all that the process did, when it had done [os] and handler [n] was given the request [q] *)
Definition then_handled (script : nat -> heap -> list op) (os : list op) (n : nat) (q : rest_request) : list op :=
  os ++ NewRequest q :: script n (obj_run new_heap (os ++ [NewRequest q])).
(** handlers that use only objects there are *)
Definition behaved (script : nat -> heap -> list op) : Prop :=
  forall n os q, valid os -> valid (then_handled script os n q).

(** ** Proofs *)
Lemma run_app os os' h : obj_run h (os ++ os') = obj_run (obj_run h os) os'.
Proof. apply fold_left_app. Qed.
Lemma run_handled script os n q : fst (run_handler script n (obj_run new_heap os) q) = obj_run new_heap (then_handled script os n q).
Proof.
  unfold run_handler, then_handled. cbv zeta. cbn [fst].
  replace (os ++ NewRequest q :: script n (obj_run new_heap (os ++ [NewRequest q])))
    with ((os ++ [NewRequest q]) ++ script n (obj_run new_heap (os ++ [NewRequest q]))) by (rewrite <- app_assoc; reflexivity).
  rewrite run_app, run_app. reflexivity.
Qed.
(** what holds of the program's state, if every handler keeps it *)
Definition user_holds {U A} (P : U -> Prop) (m : hm U A) : Prop := forall h r h', m h = (r, h') -> P (hs_user h) -> P (hs_user h').
Lemma holds_kept {U A} (P : U -> Prop) (m : hm U A) : user_kept m -> user_holds P m.
Proof. intros K h r h' H X. rewrite (K h r h' H). exact X. Qed.
Lemma holds_bind {U A B} (P : U -> Prop) (m : hm U A) (k : A -> hm U B) : user_holds P m -> (forall x, user_holds P (k x)) -> user_holds P (hbind m k).
Proof.
  intros Hm Hk h r h' H X. unfold hbind in H. destruct (m h) as [[x|e] h1] eqn:E.
  - exact (Hk x h1 r h' H (Hm h _ h1 E X)).
  - apply pair_equal_spec in H as [_ <-]. exact (Hm h _ h1 E X).
Qed.
Lemma holds_call {U} (P : U -> Prop) (ext : extension U) n q : (forall n u q, P u -> P (fst (xt_invoke ext n u q))) -> user_holds P (call_user ext n q).
Proof.
  intros K h r h' H X. unfold call_user in H. specialize (K n (hs_user h) q X). destruct (xt_invoke ext n (hs_user h) q) as [u a].
  apply pair_equal_spec in H as [_ <-]. exact K.
Qed.
Lemma holds_input {U} (P : U -> Prop) ev (ext : extension U) uuid raw h : set_order_ok (e_so ev) -> (forall n u q, P u -> P (fst (xt_invoke ext n u q))) ->
  P (hs_user h) -> P (hs_user (snd (on_input ev ext uuid raw h))).
Proof.
  intros So K X. destruct (C79_kept U ev ext uuid raw h So) as (_ & _ & Q).
  destruct (request_dec (e_so ev) raw) as [[m Hm]|N].
  2: { rewrite Q; [exact X|]. intros m Hm. exfalso. exact (N m Hm). }
  destruct (list_eq_dec Z.eq_dec (m_action m) A_REST) as [Ea|Na].
  2: { rewrite Q; [exact X|]. intros m' Hm' E. apply Na. destruct (on_request ev ext raw m So Hm) as (o & S & _).
       destruct (on_request ev ext raw m' So Hm') as (o' & S' & _).
       assert (m = m') as -> by exact (read_as_fun _ _ _ _ Hm Hm'). exact E. }
  destruct (on_request ev ext raw m So Hm) as (o & S & _ & E). specialize (E uuid). destruct (on_input ev ext uuid raw h) as [r h'] eqn:H.
  rewrite E in H. unfold handle_request in H. cbv zeta in H. rewrite (seen_action _ _ S), Ea in H.
  change (streqb A_REST A_DISCOVERY) with false in H. cbv iota in H. rewrite streqb_refl in H.
  refine ((_ : user_holds P (handle_rest ev ext o (m_payload m))) _ _ _ H X).
  unfold handle_rest. repeat first [apply holds_kept, kept_lift|apply holds_kept, kept_ids|apply holds_kept, kept_send|apply holds_call, K|apply holds_kept, kept_ret|apply holds_bind; [|intros ?]].
Qed.
Lemma last_response script os n q os1 j st c ct hd os2 a : 
  then_handled script os n q = os1 ++ NewResponse j st c ct hd :: os2 -> n_responses os2 = 0%nat -> valid (then_handled script os n q) ->
  response_at (obj_run new_heap (then_handled script os n q)) (n_responses os1) = Some a ->
  run_handler script n (obj_run new_heap os) q = (obj_run new_heap (then_handled script os n q), Ok a).
Proof.
  intros E Z V R. rewrite (surjective_pairing (run_handler _ _ _ _)), run_handled. f_equal.
  pose proof (run_handled script os n q) as F. unfold run_handler in *. cbv zeta in *. cbn [fst snd] in *. rewrite F.
  rewrite (i_resps _ _ (inv_run _ V)). rewrite E in *. unfold n_responses in Z |- *. rewrite count_app. cbn [filter List.length]. rewrite Z.
  fold (n_responses os1). replace (pred (n_responses os1 + 1)) with (n_responses os1) by lia. rewrite R. reflexivity.
Qed.

(** In a running extension whose handlers use these operations, whatever has arrived, the
    objects of the process are what some history of operations made of them ... *)
Theorem C94_process_partial : forall ev (ext : extension heap) script l, set_order_ok (e_so ev) -> behaved script ->
  (forall n u q, xt_invoke ext n u q = run_handler script n u q) ->
  exists os, valid os /\ hs_user (feed ev ext (initial_host new_heap) l) = obj_run new_heap os.
Proof.
  intros ev ext script l So B X. induction l as [|x l IH] using rev_ind; [exists []; split; [constructor|reflexivity]|].
  rewrite feed_snoc. refine (holds_input (fun u => exists os, valid os /\ u = obj_run new_heap os) ev ext _ _ _ So _ IH).
  intros n u q (os & V & ->). exists (then_handled script os n q). split; [now apply B|]. rewrite X. apply run_handled.
Qed.
Print Assumptions C94_process_partial.

(** ... and the reply to a REST request says what the last response made says after the whole of
    that history, with every header set through any response that has its dict. *)
Theorem C94_replies_partial : forall ev (ext : extension heap) script strict m raw q z n q', set_order_ok (e_so ev) -> behaved script ->
  (forall n u q, xt_invoke ext n u q = run_handler script n u q) ->
  frame_of m raw -> m_action m = py "internal:extensions/restexecuteonextensiontaction" -> w_rest_request strict q (m_payload m) ->
  rq_method q = Some z -> find_handler (e_cls ev) (rg_map (xt_registry ext)) (mname z ++ [32] ++ rq_path q) = Ok n ->
  received_request q q' ->
  forall os, valid os -> forall os1 j st c ct hd os2, let os' := then_handled script os n q' in
  os' = os1 ++ NewResponse j st c ct hd :: os2 -> (forall j st c ct hd, ~ In (NewResponse j st c ct hd) os2) ->
  exists a d0 l,
    rp_status a = st /\ rp_content a = c /\ rp_ctype a = ct /\
    display os' hd d0 /\ stored os' hd l /\ NoDup (map fst (rp_headers a)) /\ (forall k v, In (k, v) (rp_headers a) <-> last_given k v (d0 ++ l)) /\
    NoDup (rp_consumed a) /\ (forall k, In k (rp_consumed a) <-> exists j', j = Some j' /\ In (CallRequest j' (CParam k)) os') /\
    (rp_content_consumed a = true <-> exists j', j = Some j' /\ In (CallRequest j' (CContent true)) os1) /\
    (rest_response_ok a -> exists p, w_exec_response true (exec_of a) p /\
      (zlen raw + zlen p < 2 ^ 31 -> exists out, answers m p out /\
        forall uuid s h, hs_user h = obj_run new_heap os ->
          fst (on_input ev ext uuid (raw ++ s) h) = Ok (Some out) /\
          hs_user (snd (on_input ev ext uuid (raw ++ s) h)) = obj_run new_heap os')).
Proof.
  intros ev ext script strict m raw q z n q' So B X F A W Z Fh Rq os V os1 j st c ct hd os2 os' E N.
  assert (V' : valid os') by now apply B.
  destruct (C94_history_partial os' os1 j st c ct hd os2 V' E) as (a & d0 & l & R & P1 & P2 & P3 & P4 & P5 & P6 & P7 & P8 & P9 & P10).
  exists a, d0, l. repeat (split; [assumption|]). intros Ok_a.
  destruct (rest_reply ev ext strict m raw q z n q' a So F A W Z Fh Rq (response_exec _ Ok_a)) as (p & _ & Wp & O). exists p. split; [exact Wp|].
  intros L. destruct (O L) as (out & An & In_). exists out. split; [exact An|]. intros uuid s h Hu.
  rewrite (In_ uuid s h (obj_run new_heap os')); [split; reflexivity|]. rewrite X, Hu.
  apply (last_response script os n q' os1 j st c ct hd os2 a E); [|exact V'|exact R].
  unfold n_responses. clear - N. induction os2 as [|o os2 IH]; [reflexivity|]. cbn. destruct o; try (apply IH; intros; intros I; eapply N; right; exact I).
  exfalso. eapply N. left. reflexivity.
Qed.
Print Assumptions C94_replies_partial.
(** the two handlers of C94_wire_refuted are such handlers *)
Example C94_process_case : behaved ex_script /\ (forall n u q, xt_invoke ex_site n u q = run_handler ex_script n u q) /\
  exists os1, then_handled ex_script [] 0 (ex_rest (py "/login")) =
    os1 ++ NewResponse (Some 0%nat) (Some 2) (map z2b (py "ok")) (py "text/plain") None :: [SetHeader 0 (py "Set-Cookie") [py "session=1"]].
Proof.
  split; [|split; [reflexivity|exists [NewRequest (ex_rest (py "/login"))]; reflexivity]].
  intros n os q V. pose proof (inv_run (os ++ [NewRequest q]) (valid_snoc os (NewRequest q) V I)) as J. unfold then_handled, ex_script.
  rewrite (i_reqs _ _ J), (i_resps _ _ J). destruct (counts os (NewRequest q)) as (_ & -> & ->).
  set (j := pred (n_requests os + 1)). set (p := NewResponse _ _ _ _ _).
  assert (V1 : valid (os ++ [NewRequest q])) by (constructor; [exact V|exact I]).
  assert (V2 : valid ((os ++ [NewRequest q]) ++ [p])).
  { constructor; [exact V1|]. unfold p. cbn [refers]. destruct (counts os (NewRequest q)) as (_ & -> & _). split; [|discriminate].
    intros n' E. injection E as <-. unfold j. lia. }
  destruct n as [|n]; [|rewrite <- app_assoc in V2; exact V2].
  replace (os ++ NewRequest q :: p :: [SetHeader (n_responses os + 0) (py "Set-Cookie") [py "session=1"]])
    with (((os ++ [NewRequest q]) ++ [p]) ++ [SetHeader (n_responses os + 0) (py "Set-Cookie") [py "session=1"]]) by (rewrite <- !app_assoc; reflexivity).
  constructor; [exact V2|]. cbn [refers]. destruct (counts (os ++ [NewRequest q]) p) as (_ & _ & ->). destruct (counts os (NewRequest q)) as (_ & _ & ->). unfold p. lia.
Qed.
