(** * Property C128, the other messages *)
From Coq Require Import String ZArith List Bool Lia.
From Coq Require Import Strings.Byte.
From Verif Require Import Py PyFacts Stream StreamFacts StreamFacts2 Version Frame Proto Messages Rest
  Spec SpecFacts FrameFacts Wire WireFacts WireFacts2 WireFacts3 WireFacts4 MsgFacts MsgFacts Reuse PropsReuse Half PropsHalf.
Import ListNotations.
Open Scope list_scope.
Open Scope Z_scope.

Definition mix_dep (k : nat) (new old : dependency) : dependency :=
  mkDep (if Nat.ltb 0 k then d_id new else d_id old) (if Nat.ltb 1 k then d_version new else d_version old).
Definition mix_tcp (k : nat) (new old : tcp_handshake_request) : tcp_handshake_request :=
  mkTcpReq (if Nat.ltb 0 k then tr_task new else tr_task old) (if Nat.ltb 1 k then tr_version new else tr_version old).
Definition mix_handshake (k : nat) (new old : handshake_response) : handshake_response :=
  mkHsResp (if Nat.ltb 0 k then hr_node new else hr_node old) (if Nat.ltb 1 k then hr_cluster new else hr_cluster old)
           (if Nat.ltb 2 k then hr_version new else hr_version old).
Definition mix_init_response (k : nat) (new old : init_response) : init_response :=
  mkInitResp (if Nat.ltb 0 k then is_name new else is_name old) (if Nat.ltb 1 k then is_interfaces new else is_interfaces old).

(** ** Headers and task ids are as they were: reading a header never raises, and that of a task id only before
    anything is assigned *)
Lemma long_total s : exists i t, read_long s = Ok (i, t). Proof. eexists _, _. reflexivity. Qed.
Theorem C128_kept_partial : kept half_task /\ kept half_header /\ forall s, exists h t, read_header s = Ok (h, t).
Proof.
  split; [|split].
  - intros [n i] s e o H. unfold half_task in H. rewrite then_take in H. destruct (read_string s) as [[x t]|e'].
    + cbn [t_node t_id] in H. destruct x; [discriminate|]. destruct (long_total t) as (j & t' & E). rewrite take_at, E in H. discriminate.
    + apply raised in H as [_ <-]. reflexivity.
  - intros old s e o H. discriminate H.
  - intros s. unfold read_header. cbn. eexists _, _. reflexivity.
Qed.
Print Assumptions C128_kept_partial.

(** ** The others *)
Ltac flat' := cbn [d_id d_version tr_task tr_version hr_node hr_cluster hr_version is_name is_interfaces] in *.
Ltac next' i := match goal with H : (take _ _ >>> _) _ _ = _ |- _ => rewrite then_take in H
    | H : take _ _ _ _ = _ |- _ => rewrite take_at in H end;
  match goal with H : match ?r ?x with Ok _ => _ | Raise _ => _ end = _ |- _ =>
    destruct (r x) as [[? ?]|?] eqn:?;
    [flat'|apply raised in H as [<- <-]; exists i; split; [lia|]; intros other;
      repeat first [rewrite then_take | match goal with E : ?r = _ |- context [?r] => rewrite E end; flat' | rewrite take_at]; destruct other; reflexivity] end.
Lemma dep_leaves : leaves 1 mix_dep half_dep.
Proof. intros s [a b] e o H. unfold half_dep in *. next' 0%nat. next' 1%nat. discriminate. Qed.
Lemma tcp_leaves : leaves 1 mix_tcp half_tcp_handshake_request.
Proof. intros s [a b] e o H. unfold half_tcp_handshake_request in *. next' 0%nat. next' 1%nat. discriminate. Qed.
Lemma handshake_leaves : leaves 2 mix_handshake half_handshake_response.
Proof. intros s [a b c] e o H. unfold half_handshake_response in *. next' 0%nat. next' 1%nat. next' 2%nat. discriminate. Qed.
Lemma init_response_leaves : leaves 1 mix_init_response half_init_response.
Proof. intros s [a b] e o H. unfold half_init_response in *. next' 0%nat. next' 1%nat. discriminate. Qed.
Theorem C128_others_leave_partial : leaves 1 mix_dep half_dep /\ leaves 1 mix_tcp half_tcp_handshake_request /\
  leaves 2 mix_handshake half_handshake_response /\ leaves 1 mix_init_response half_init_response.
Proof. exact (conj dep_leaves (conj tcp_leaves (conj handshake_leaves init_response_leaves))). Qed.
Print Assumptions C128_others_leave_partial.

Theorem C128_others_return : returns half_task (fun _ => read_task) /\ returns half_header (fun _ => read_header) /\
  returns half_dep (fun _ => read_dep) /\ returns half_tcp_handshake_request (fun _ => read_tcp_handshake_request) /\
  returns half_handshake_response (fun _ => read_handshake_response) /\ returns half_init_response (fun _ => read_init_response).
Proof.
  split; [|split; [|split; [|split; [|split]]]].
  - intros [n i] s. unfold half_task, read_task. rewrite then_take. unfold rbind at 1. destruct (read_string s) as [[x t]|e]; [|eauto].
    cbn [t_node t_id]. destruct x as [|c x]; [reflexivity|]. rewrite take_at. unfold rbind. destruct (read_long t) as [[j t']|e]; [reflexivity|eauto].
  - intros old s. reflexivity.
  - intros old s. unfold half_dep, read_dep. rewrite then_take. unfold rbind. destruct (read_string s) as [[x t]|e]; [|eauto].
    rewrite take_at. destruct (read_version t) as [[v t']|e]; [reflexivity|eauto].
  - intros old s. unfold half_tcp_handshake_request, read_tcp_handshake_request. rewrite then_take. unfold rbind at 1.
    destruct (read_transport_request s) as [[x t]|e]; [|eauto]. rewrite take_at. unfold rbind. destruct (read_v_int t) as [[k t1]|e]; [|eauto].
    destruct (read_version t1) as [[v t']|e]; [reflexivity|eauto].
  - intros old s. replace (read_handshake_response s) with
      ((n <~ (p <~ read_boolean ;; if p then (n <~ read_node ;; rret (Some n)) else rret None) ;;
        c <~ read_string ;; v <~ read_version ;; rret (mkHsResp n c v)) s)
      by (unfold read_handshake_response, rbind; destruct (read_boolean s) as [[[|] t]|e]; [destruct (read_node t) as [[n t']|e']; reflexivity| |]; reflexivity).
    unfold half_handshake_response. set (r := p <~ read_boolean ;; if p then (n <~ read_node ;; rret (Some n)) else rret None).
    rewrite then_take. unfold rbind. destruct (r s) as [[n t]|e]; [|eauto]. rewrite then_take. destruct (read_string t) as [[c t2]|e]; [|eauto].
    rewrite take_at. destruct (read_version t2) as [[v t3]|e]; [reflexivity|eauto].
  - intros old s. unfold half_init_response, read_init_response. rewrite then_take. unfold rbind. destruct (read_string s) as [[x t]|e]; [|eauto].
    rewrite take_at. destruct (read_string_array t) as [[v t']|e]; [reflexivity|eauto].
Qed.
Print Assumptions C128_others_return.

(** up to an attribute *)
Theorem C128_others_partial : forall strict s e,
  (forall old d a, w_string strict (d_id d) a -> rest read_version s = Raise e ->
     half_dep old (a ++ s) = (Raise e, mkDep (d_id d) (d_version old))) /\
  (forall old t a, w_task strict t a -> rest (_k <~ read_v_int ;; read_version) s = Raise e ->
     half_tcp_handshake_request old (a ++ s) = (Raise e, mkTcpReq t (tr_version old))) /\
  (forall old o a, low_opt o -> w_optional (w_node strict) o a -> rest read_string s = Raise e ->
     half_handshake_response old (a ++ s) = (Raise e, mkHsResp o (hr_cluster old) (hr_version old))) /\
  (forall old o c a, low_opt o -> parts [w_optional (w_node strict) o; w_string strict c] a -> rest read_version s = Raise e ->
     half_handshake_response old (a ++ s) = (Raise e, mkHsResp o c (hr_version old))) /\
  (forall old n a, w_string strict n a -> rest read_string_array s = Raise e ->
     half_init_response old (a ++ s) = (Raise e, mkInitResp n (is_interfaces old))).
Proof.
  intros strict s e.
  assert (O : forall o a t, low_opt o -> w_optional (w_node strict) o a ->
    (p <~ read_boolean ;; if p then (n <~ read_node ;; rret (Some n)) else rret None) (a ++ t) = Ok (o, t)).
  { intros o a t L P. destruct o as [n|]; cbn [w_optional] in P.
    - opened P. rewrite (rbind_step _ _ _ _ _ _ _ (bool_reads _ _ _ I P0)).
      match goal with P : w_node _ _ _ |- _ => rewrite (rbind_step _ _ _ _ _ _ _ (node_reads strict _ _ _ (L n eq_refl) P)) end. reflexivity.
    - rewrite (rbind_step _ _ _ _ _ _ _ (bool_reads _ _ _ I P)). reflexivity. }
  split; [|split; [|split; [|split]]].
  - intros old d a P E. apply rest_raise in E. unfold half_dep. rewrite then_take, (string_reads strict _ _ s I P), take_at, E. reflexivity.
  - intros old t a P E. apply rest_raise in E. unfold half_tcp_handshake_request, read_transport_request.
    rewrite then_take, (task_reads strict _ _ s I P), take_at, E. reflexivity.
  - intros old o a L P E. apply rest_raise in E. unfold half_handshake_response. rewrite then_take, (O o a s L P), then_take, E. reflexivity.
  - intros old o c a L H E. apply rest_raise in E. apply parts_cons_inv in H as (a1 & b1 & -> & P & H).
    apply parts_cons_inv in H as (a2 & b2 & -> & P2 & H). apply parts_nil_inv in H. subst b2. rewrite app_nil_r, <- app_assoc.
    unfold half_handshake_response. rewrite then_take, (O o a1 _ L P), then_take, (string_reads strict _ _ s I P2), take_at, E. reflexivity.
  - intros old n a P E. apply rest_raise in E. unfold half_init_response. rewrite then_take, (string_reads strict _ _ s I P), take_at, E. reflexivity.
Qed.
Print Assumptions C128_others_partial.
(** the hypotheses are met *)
Example C128_others_case : (exists e, rest read_version (repeat xff 5) = Raise e) /\
  (exists e, rest (_k <~ read_v_int ;; read_version) (repeat xff 5) = Raise e) /\ (exists e, rest read_string [x01; xff] = Raise e) /\
  (exists e, rest read_string_array [x01; x01; xff] = Raise e) /\ w_optional (w_node true) None [x00] /\ w_task true default_task [x00].
Proof.
  do 4 (split; [eexists; vm_compute; reflexivity|]). split; [reflexivity|]. left. split; [reflexivity|]. split; [reflexivity|].
  destruct (string_writes true [] text_ok_nil) as (b & W & F). vm_compute in W. apply Ok_inj in W. subst b. exact F.
Qed.

(** ** Other messages: after a read that raised, one with another context is as it was, one with the same
    context has of it what was read *)
Theorem C128_others_kept_partial : forall so req h st a s e st' a' b, (hd_ctx a < List.length st)%nat ->
  half_held so req st a h s = (Raise e, (st', a')) ->
  (hd_ctx b <> hd_ctx a -> whole st' b = whole st b) /\
  (hd_ctx b = hd_ctx a -> exists c, o_ctx (whole st' b) = c /\ whole st' b = mkOut (o_hdr (hd_out b)) c (o_var (hd_out b)) (o_msg (hd_out b))
       (o_features (hd_out b)) (o_action (hd_out b)) /\
     ((rest read_string_to_string_dict s = Raise e /\ c = nth (hd_ctx a) st empty_ctx) \/
      (exists x t, read_string_to_string_dict s = Ok (x, t) /\ rest (read_string_to_string_set_dict so) t = Raise e /\
         c = mkCtx x (c_res (nth (hd_ctx a) st empty_ctx))) \/
      (exists t, read_ctx so s = Ok (c, t)))).
Proof.
  intros so req h st a s e st' a' b L H. unfold half_held in H.
  destruct (half_outbound so req h (whole st a) s) as [x o] eqn:E. apply pair_equal_spec in H as [-> H]. apply pair_equal_spec in H as [<- _].
  apply C128_envelope_partial in E as (_ & _ & E). split; intros B; unfold whole; rewrite put_nth.
  - destruct (Nat.eqb_spec (hd_ctx a) (hd_ctx b)) as [X|_]; [congruence|reflexivity].
  - rewrite B, Nat.eqb_refl. apply Nat.ltb_lt in L. rewrite L. cbn [andb o_ctx].
    exists (o_ctx o). split; [reflexivity|]. split; [reflexivity|].
    destruct E as [(R & C & _)|[(y & t & R & R2 & C & _)|(c & t & R & _ & C & _)]].
    + left. split; [exact R|exact C].
    + right. left. exists y, t. split; [exact R|]. split; [exact R2|exact C].
    + right. right. exists t. rewrite C. exact R.
Qed.
Print Assumptions C128_others_kept_partial.
