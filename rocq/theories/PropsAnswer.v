(** * Property C43 made exact: which REST requests are answered; C93: on what answers depend *)
From Coq Require Import String ZArith List Bool Lia ZifyBool Permutation.
From Coq Require Import Strings.Byte.
From Verif Require Import Py Stream Version Frame Proto Messages Rest Routes Settings Host PyFacts StreamFacts
  Spec SpecFacts MsgFacts SettingsFacts PropsMessages Wire WireFacts WireFacts2 WireFacts3 WireFacts4 HostSpec HostFacts PropsHost FrameFacts.
Import ListNotations.
Open Scope list_scope.
Open Scope Z_scope.
Ltac Zify.zify_post_hook ::= idtac.

(** What a handler can return: the status, if any, is one of the 47 of RestStatus; the headers
    are a dict and the consumed parameters a set. *)
Definition response_value (a : rest_response) : Prop :=
  (forall z, rp_status a = Some z -> 0 <= z < 47) /\ NoDup (map fst (rp_headers a)) /\ NoDup (rp_consumed a).
(** A response that can be encoded: it has a status, and no string in it has a lone surrogate. *)
Definition encodable (a : rest_response) : Prop :=
  rp_status a <> None /\ Forall scalar (rp_ctype a) /\
  Forall (fun kv => Forall scalar (fst kv) /\ Forall (Forall scalar) (snd kv)) (rp_headers a) /\
  Forall (Forall scalar) (rp_consumed a).

Lemma wcat_each l : forall bs, wcat l = Ok bs ->
  Forall (fun w => exists b, w = Ok b /\ zlen b <= zlen bs) l.
Proof.
  induction l as [|w l IH]; intros bs H; [constructor|].
  apply wcat_cons_ok in H as (a & b & -> & H & ->). rewrite zlen_app.
  pose proof (zlen_nonneg _ a). pose proof (zlen_nonneg _ b).
  constructor; [exists a; split; [reflexivity|lia]|].
  eapply Forall_impl; [|apply IH, H]. intros w (c & -> & Hc). exists c. split; [reflexivity|lia].
Qed.
Lemma wcat_all l : Forall (fun w : res bytes => exists b, w = Ok b) l -> exists bs, wcat l = Ok bs.
Proof.
  induction 1 as [|w l (b & ->) H (c & IH)]; [eexists; reflexivity|].
  exists (b ++ c). apply wcat_cons_ok. eauto.
Qed.
(** pieces of at least a byte *)
Lemma wcat_count {A} (f : A -> res bytes) l : (forall x b, f x = Ok b -> 1 <= zlen b) ->
  forall bs, wcat (map f l) = Ok bs -> zlen l <= zlen bs.
Proof.
  intros Hf. induction l as [|x l IH]; intros bs H; [apply zlen_nonneg|].
  cbn [map] in H. apply wcat_cons_ok in H as (a & b & Hx & H & ->). apply Hf in Hx. apply IH in H.
  rewrite zlen_app, zlen_cons. lia.
Qed.
Lemma v_int_byte n b : 0 <= n -> write_v_int n = Ok b -> 1 <= zlen b.
Proof.
  intros Hn. revert b. revert n Hn. apply (vint_ind (fun n => forall b, write_v_int n = Ok b -> 1 <= zlen b)).
  - intros i Hi b. rewrite write_v_int_small by exact Hi. intros H. apply Ok_inj in H. subst b. reflexivity.
  - intros i Hi IH b. rewrite write_v_int_big by exact Hi. intros H.
    destruct (write_v_int _) as [c|e]; [|discriminate]. apply Ok_inj in H. subst b.
    rewrite zlen_cons. pose proof (zlen_nonneg _ c). lia.
Qed.
Lemma string_written x b : write_string x = Ok b -> Forall scalar x /\ 1 <= zlen b /\
  exists e, is_utf8 x e /\ zlen e <= zlen b.
Proof.
  intros H. apply write_string_form in H as (e & l & He & Hl & ->). apply v_int_byte in Hl; [|apply zlen_nonneg].
  apply is_utf8_encode in He. split; [apply scalar_text; eauto|]. rewrite zlen_app. pose proof (zlen_nonneg _ e).
  split; [lia|]. exists e. split; [exact He|lia].
Qed.
Lemma string_total x : Forall scalar x -> exists b, write_string x = Ok b.
Proof.
  intros H. apply scalar_text in H as (e & He). apply is_utf8_encode in He. unfold write_string. rewrite He. cbn [bind].
  apply wcat_all. constructor; [apply write_v_int_total, zlen_nonneg|]. constructor; [|constructor].
  destruct (0 <? zlen e); eauto.
Qed.
Lemma strings_written l b : write_string_array l = Ok b -> zlen l <= zlen b /\ Forall (Forall scalar) l /\
  Forall (fun x => exists e, is_utf8 x e /\ zlen e <= zlen b) l.
Proof.
  unfold write_string_array. intros H. apply wcat_cons_ok in H as (a & c & Ha & H & ->). rewrite zlen_app.
  pose proof (zlen_nonneg _ a). pose proof H as C.
  apply wcat_count in C; [|intros x y Hy; apply string_written in Hy; apply Hy].
  split; [lia|]. apply wcat_each in H. rewrite Forall_map in H.
  split; (eapply Forall_impl; [|exact H]); intros x (y & Hy & L); apply string_written in Hy as (S & _ & e & E & Le);
    [exact S|exists e; split; [exact E|lia]].
Qed.
Lemma strings_total l : Forall (Forall scalar) l -> exists b, write_string_array l = Ok b.
Proof.
  intros H. apply wcat_all. constructor; [apply write_v_int_total, zlen_nonneg|]. apply Forall_map.
  eapply Forall_impl; [|exact H]. apply string_total.
Qed.
Lemma headers_written d b : write_string_to_string_array_dict d = Ok b -> zlen d <= zlen b /\
  Forall (fun kv => Forall scalar (fst kv) /\ Forall (Forall scalar) (snd kv)) d /\
  Forall (fun kv => (exists e, is_utf8 (fst kv) e /\ zlen e <= zlen b) /\ zlen (snd kv) <= zlen b /\
    Forall (fun x => exists e, is_utf8 x e /\ zlen e <= zlen b) (snd kv)) d.
Proof.
  unfold write_string_to_string_array_dict. intros H. apply wcat_cons_ok in H as (a & c & Ha & H & ->). rewrite zlen_app.
  pose proof (zlen_nonneg _ a). pose proof H as C. apply wcat_count in C.
  2:{ intros x y Hy. apply wcat_cons_ok in Hy as (k & v & Hk & _ & ->). apply string_written in Hk as (_ & L & _).
      rewrite zlen_app. pose proof (zlen_nonneg _ v). lia. }
  split; [lia|]. apply wcat_each in H. rewrite Forall_map in H.
  split; (eapply Forall_impl; [|exact H]); intros [k v] (y & Hy & L); cbn [fst snd] in *;
    apply wcat_cons_ok in Hy as (y1 & y2 & Hk & Hy & ->); apply wcat_cons_ok in Hy as (y3 & y4 & Hv & _ & ->);
    apply string_written in Hk as (S & _ & e & E & Le); apply strings_written in Hv as (L1 & L2 & L3);
    rewrite !zlen_app in L; pose proof (zlen_nonneg _ y1); pose proof (zlen_nonneg _ y3); pose proof (zlen_nonneg _ y4).
  - auto.
  - split; [exists e; split; [exact E|lia]|]. split; [lia|]. eapply Forall_impl; [|exact L3].
    intros x (e' & E' & Le'). exists e'. split; [exact E'|lia].
Qed.
Lemma headers_total d : Forall (fun kv => Forall scalar (fst kv) /\ Forall (Forall scalar) (snd kv)) d ->
  exists b, write_string_to_string_array_dict d = Ok b.
Proof.
  intros H. apply wcat_all. constructor; [apply write_v_int_total, zlen_nonneg|]. apply Forall_map.
  eapply Forall_impl; [|exact H]. intros [k v] (Hk & Hv); cbn [fst snd] in *. apply wcat_all.
  constructor; [apply string_total, Hk|]. constructor; [apply strings_total, Hv|constructor].
Qed.
(** a response can be written exactly when it is [encodable]; and then, if it is of a possible
    size, it satisfies the conditions of C42 *)
Lemma response_written a : response_value a ->
  ((exists p, write_exec_response (exec_of a) = Ok p) <-> encodable a) /\
  (forall p, write_exec_response (exec_of a) = Ok p -> zlen p <= 2 ^ 31 -> rest_response_ok a).
Proof.
  intros (V1 & V2 & V3). destruct a as [st ct ty hd cs cc]. cbn [rp_status rp_headers rp_consumed rp_ctype rp_content] in *.
  unfold encodable, rest_response_ok, write_exec_response, exec_of.
  cbn [rp_status rp_headers rp_consumed rp_ctype rp_content rp_content_consumed ex_status ex_ctype ex_content ex_headers ex_consumed ex_content_consumed] in *.
  split; [split|].
  - intros (p & H). apply wcat_each in H. rewrite !Forall_cons_iff in H.
    destruct H as ((b1 & H1 & _) & (b2 & H2 & _) & _ & _ & (b3 & H3 & _) & (b4 & H4 & _) & _).
    split; [intros ->; discriminate H1|]. apply string_written in H2. apply headers_written in H3. apply strings_written in H4.
    split; [apply H2|]. split; [apply H3|apply H4].
  - intros (E1 & E2 & E3 & E4). apply wcat_all. destruct st as [z|]; [|contradiction E1; reflexivity].
    specialize (V1 z eq_refl). constructor; [apply write_v_int_total; lia|].
    constructor; [apply string_total, E2|]. constructor; [apply write_v_int_total, zlen_nonneg|]. constructor; [eauto|].
    constructor; [apply headers_total, E3|]. constructor; [apply strings_total, E4|]. constructor; [|constructor].
    destruct cc; eexists; reflexivity.
  - intros p H Hp. apply wcat_each in H. rewrite !Forall_cons_iff in H.
    destruct H as ((b1 & H1 & L1) & (b2 & H2 & L2) & _ & (b0 & H0 & L0) & (b3 & H3 & L3) & (b4 & H4 & L4) & _).
    apply Ok_inj in H0. subst b0.
    apply string_written in H2 as (_ & _ & e & E & Le). apply headers_written in H3 as (D1 & _ & D2). apply strings_written in H4 as (S1 & _ & S2).
    split; [destruct st as [z|]; [|discriminate]; exists z; split; [reflexivity|apply V1; reflexivity]|].
    split; [lia|]. split; [exists e; split; [exact E|lia]|]. split; [split; [|split; [exact V2|]]|split; [|exact V3]].
    + assert (2 ^ 31 < 2 ^ 35) by reflexivity. lia.
    + eapply Forall_impl; [|exact D2]. intros kv ((e' & E' & Le') & Lv & Fv). split; [exists e'; split; [exact E'|lia]|].
      split; [lia|]. eapply Forall_impl; [|exact Fv]. intros x (e2 & E2 & Le2). exists e2. split; [exact E2|lia].
    + split; [lia|]. eapply Forall_impl; [|exact S2]. intros x (e2 & E2 & Le2). exists e2. split; [exact E2|lia].
Qed.

(** C43 for REST requests, exactly.  The handler returns what a handler can return, of at most
    2^30 bytes encoded.  The request is answered if and only if a route is found, its handler
    returns and what it returns can be encoded. *)
Theorem C43_rest_exact_partial : forall U ev (ext : extension U) strict m raw q z q' uuid s h,
  set_order_ok (e_so ev) -> frame_of m raw -> zlen raw <= 2 ^ 29 ->
  m_action m = py "internal:extensions/restexecuteonextensiontaction" ->
  w_rest_request strict q (m_payload m) -> rq_method q = Some z -> received_request q q' ->
  (forall n u a, xt_invoke ext n (hs_user h) q' = (u, Ok a) -> response_value a /\
     forall p, write_exec_response (exec_of a) = Ok p -> zlen p <= 2 ^ 30) ->
  (exists out h', on_input ev ext uuid (raw ++ s) h = (Ok (Some out), h')) <->
  exists n u a, find_handler (e_cls ev) (rg_map (xt_registry ext)) (mname z ++ [32] ++ rq_path q) = Ok n /\
    xt_invoke ext n (hs_user h) q' = (u, Ok a) /\ encodable a.
Proof.
  intros U ev ext strict m raw q z q' uuid s h Hso Hf Hl Ha Wq Hz Hr Hv.
  assert (P30 : 2 ^ 29 + 2 ^ 30 < 2 ^ 31) by reflexivity. split.
  - intros (out & h' & H). destruct (on_frame ev ext m raw Hso Hf) as (c & o & Sc & N & S & R). rewrite R in H. clear R.
    rewrite dispatch_rest in H by (rewrite (seen_action _ _ S); exact Ha).
    destruct (find_handler _ _ _) as [n|e] eqn:Hn.
    2:{ rewrite (rest_no_route ev ext strict o q z _ _ _ Wq Hz _ Hn) in H. discriminate. }
    rewrite (rest_call ev ext strict o q z n q' _ _ _ Wq Hz Hn Hr) in H.
    replace (hs_user (set_next h (hs_next h + 2))) with (hs_user h) in H by (destruct h; reflexivity).
    destruct (xt_invoke ext n (hs_user h) q') as [u [a|e]] eqn:Hu; [|discriminate].
    exists n, u, a. split; [reflexivity|]. split; [exact Hu|].
    destruct (reply_sent _ _ _ _ _ _ S N (frame_id _ _ Hf) H) as (p & Wp & _).
    destruct (Hv _ _ _ Hu) as (V & _). apply (proj1 (response_written a V)). eauto.
  - intros (n & u & a & Hn & Hu & E). destruct (Hv _ _ _ Hu) as (V & B).
    destruct (response_written a V) as ((_ & T) & K). destruct (T E) as (p & Wp).
    specialize (B _ Wp). specialize (K p Wp ltac:(lia)).
    destruct (rest_reply ev ext strict m raw q z n q' a Hso Hf Ha Wq Hz Hn Hr (response_exec a K)) as (p' & Wp' & _ & X).
    rewrite Wp in Wp'. apply Ok_inj in Wp'. subst p'. destruct X as (out & _ & Y); [lia|]. eauto.
Qed.
Print Assumptions C43_rest_exact_partial.
(** the example extension meets the hypotheses; two responses that cannot be encoded *)
Example C43_rest_case : let m := ex_rest_msg (py "/hello/you") in
  frame_of m (ex_raw m) /\ zlen (ex_raw m) <= 2 ^ 29 /\ w_rest_request true (ex_rest (py "/hello/you")) (m_payload m) /\
  (forall n v q u a, xt_invoke ex_ext n v q = (u, Ok a) -> response_value a /\
     forall p, write_exec_response (exec_of a) = Ok p -> zlen p <= 2 ^ 30) /\
  find_handler (e_cls ex_env) (rg_map (xt_registry ex_ext)) (py "GET /hello/you") = Ok 0%nat /\
  encodable ex_response /\ ~ encodable (mkResp None [] (py "text/plain") [] [] false) /\
  ~ encodable (mkResp (Some 2) [] (py "text/plain") [(py "h", [[0xD800]])] [] false).
Proof.
  cbv zeta. split; [apply C42_case|]. split; [vm_compute; discriminate|]. split; [apply C42_case|]. split.
  { intros n v q u a H. cbn [xt_invoke ex_ext] in H. destruct (streqb (rq_path q) _); apply pair_equal_spec in H as [_ H]; [discriminate|].
    apply Ok_inj in H. subst a. split.
    - split; [cbn; intros z Hz; assert (2 = z) by congruence; lia|]. split; (constructor; [intros []|constructor]).
    - intros p H. vm_compute in H. apply Ok_inj in H. subst p. vm_compute. discriminate. }
  split; [vm_compute; reflexivity|]. split; [|split].
  - apply (proj1 (response_written ex_response ltac:(split; [cbn; intros z Hz; assert (2 = z) by congruence; lia|]; split; (constructor; [intros []|constructor])))).
    eexists. vm_compute. reflexivity.
  - intros (H & _). apply H. reflexivity.
  - intros (_ & _ & H & _). cbn [rp_headers] in H. apply Forall_inv in H as (_ & H). apply Forall_inv, Forall_inv in H.
    destruct H; lia.
Qed.

(** ** C93: the answer depends only on the question *)

(** [m1] and [m2] ask the same: the same action, and, if it is one with a handler, payloads that
    encode the same request, in whatever way; for the handshakes, any two requests.  Ids,
    contexts, features, flags and versions may differ. *)
Definition same_question (m1 m2 : message) : Prop :=
  m_action m1 = m_action m2 /\
  (~ In (m_action m1) known_actions \/
   (m_action m1 = py "internal:tcp/handshake" /\
    (exists strict r, w_tcp_handshake_request strict r (m_payload m1)) /\ (exists strict r, w_tcp_handshake_request strict r (m_payload m2))) \/
   (m_action m1 = py "internal:transport/handshake" /\
    (exists strict t, w_task strict t (m_payload m1)) /\ (exists strict t, w_task strict t (m_payload m2))) \/
   (m_action m1 = py "internal:extensions/restexecuteonextensiontaction" /\
    exists s1 s2 q, w_rest_request s1 q (m_payload m1) /\ w_rest_request s2 q (m_payload m2))).

Lemma reply_raise {U} m raw c o e (h : host U) : frame_of m raw -> same_ctx (m_ctx m) c -> 
  seen (mkMsg c (m_features m) (m_version m) (m_action m) (m_id m) (m_hs m) (m_cp m) (m_payload m)) o ->
  (r <== hids (reply_to o (Raise e)) ;; send r) h = (Raise e, h).
Proof.
  intros Hf S Hs. destruct (frame_sizes m raw Hf) as (sz & ae & E1 & _). pose proof (same_ctx_size _ _ _ S E1) as E.
  pose proof (frame_id _ _ Hf) as Hi. destruct Hs as (C & F & A & I & Hh & Cp). cbn [m_ctx m_id] in *.
  unfold hbind, hids, reply_to. cbv zeta. rewrite C, I.
  unfold new_response, new_outbound, new_header, pick_id, ibind.
  destruct (Z.eqb_spec (m_id m) 0); [contradiction|]. cbn [iret ilift]. rewrite E. cbn [ilift].
  rewrite set_next_same. reflexivity.
Qed.
(** the same message is sent to both *)
Lemma both_sent {U} m1 m2 o1 o2 msg (h1 h2 h1' h2' : host U) out1 out2 : seen m1 o1 -> seen m2 o2 ->
  nodup_ctx (m_ctx m1) -> nodup_ctx (m_ctx m2) -> m_id m1 <> 0 -> m_id m2 <> 0 ->
  (r <== hids (reply_to o1 msg) ;; send r) h1 = (Ok (Some out1), h1') ->
  (r <== hids (reply_to o2 msg) ;; send r) h2 = (Ok (Some out2), h2') ->
  exists p, answers m1 p out1 /\ answers m2 p out2.
Proof.
  intros S1 S2 N1 N2 I1 I2 H1 H2. apply (reply_sent m1) in H1 as (p & E1 & A1 & _); try assumption.
  apply (reply_sent m2) in H2 as (p2 & E2 & A2 & _); try assumption.
  rewrite E1 in E2. apply Ok_inj in E2. subst p2. eauto.
Qed.
Lemma answers_ctx m c p out : same_ctx (m_ctx m) c ->
  answers (mkMsg c (m_features m) (m_version m) (m_action m) (m_id m) (m_hs m) (m_cp m) (m_payload m)) p out -> answers m p out.
Proof. intros S A. unfold answers, response_to in *. cbn [m_ctx m_features m_id m_hs m_cp] in A. eapply carries_same; eassumption. Qed.

Theorem C93_same_question : forall U ev (ext : extension U) uuid h m1 raw1 s1 m2 raw2 s2,
  set_order_ok (e_so ev) -> (forall l, Permutation l (e_roles ev l)) -> length uuid = 16%nat ->
  frame_of m1 raw1 -> frame_of m2 raw2 -> zlen raw1 <= 2 ^ 29 -> zlen raw2 <= 2 ^ 29 -> same_question m1 m2 ->
  (forall n q u a p, xt_invoke ext n (hs_user h) q = (u, Ok a) -> write_exec_response (exec_of a) = Ok p -> zlen p <= 2 ^ 30) ->
  (exists p out1 out2 h', answers m1 p out1 /\ answers m2 p out2 /\
     on_input ev ext uuid (raw1 ++ s1) h = (Ok (Some out1), h') /\ on_input ev ext uuid (raw2 ++ s2) h = (Ok (Some out2), h')) \/
  (exists e h', on_input ev ext uuid (raw1 ++ s1) h = (Raise e, h') /\ on_input ev ext uuid (raw2 ++ s2) h = (Raise e, h')).
Proof.
  intros U ev ext uuid h m1 raw1 s1 m2 raw2 s2 Hso Hp Hu F1 F2 L1 L2 (Ea & Q) Hs.
  assert (P30 : 2 ^ 29 + 2 ^ 30 < 2 ^ 31) by reflexivity.
  destruct (on_frame ev ext m1 raw1 Hso F1) as (c1 & o1 & Sc1 & N1 & S1 & R1).
  destruct (on_frame ev ext m2 raw2 Hso F2) as (c2 & o2 & Sc2 & N2 & S2 & R2).
  pose proof (seen_action _ _ S1) as A1. pose proof (seen_action _ _ S2) as A2. cbn [m_action] in A1, A2.
  pose proof (frame_id _ _ F1) as I1. pose proof (frame_id _ _ F2) as I2.
  destruct Q as [Q|[(Q & (st1 & r1 & W1) & (st2 & r2 & W2))|[(Q & (st1 & r1 & W1) & (st2 & r2 & W2))|(Q & st1 & st2 & q & W1 & W2)]]].
  - left. destruct (not_found_reply ev ext m1 raw1 Hso F1 L1 Q) as (out1 & _ & _ & _ & _ & _ & X1).
    destruct (not_found_reply ev ext m2 raw2 Hso F2 L2 ltac:(rewrite <- Ea; exact Q)) as (out2 & _ & _ & _ & _ & _ & X2).
    specialize (X1 uuid s1 h). specialize (X2 uuid s2 h). pose proof X1 as Y1. pose proof X2 as Y2.
    rewrite R1, dispatch_other in Y1 by (rewrite A1; exact Q). rewrite R2, dispatch_other in Y2 by (rewrite A2, <- Ea; exact Q).
    unfold handle_not_found in Y1, Y2. rewrite A1 in Y1. rewrite A2, <- Ea in Y2.
    destruct (utf8_encode _) as [b|e]; [|discriminate]. rewrite hbind_hlift in Y1, Y2.
    destruct (both_sent _ _ _ _ _ _ _ _ _ _ _ S1 S2 N1 N2 I1 I2 Y1 Y2) as (p & G1 & G2).
    exists p, out1, out2. eexists. split; [exact (answers_ctx _ _ _ _ Sc1 G1)|]. split; [exact (answers_ctx _ _ _ _ Sc2 G2)|]. eauto.
  - left. destruct (tcp_reply ev ext st1 m1 raw1 r1 Hso F1 ltac:(lia) Q W1) as (out1 & _ & _ & _ & X1).
    destruct (tcp_reply ev ext st2 m2 raw2 r2 Hso F2 ltac:(lia) ltac:(rewrite <- Ea; exact Q) W2) as (out2 & _ & _ & _ & X2).
    specialize (X1 uuid s1 h). specialize (X2 uuid s2 h). pose proof X1 as Y1. pose proof X2 as Y2.
    rewrite R1, dispatch_tcp in Y1 by (rewrite A1; exact Q). rewrite R2, dispatch_tcp in Y2 by (rewrite A2, <- Ea; exact Q).
    unfold handle_tcp_handshake in Y1, Y2.
    rewrite (tcp_request_reads st1 r1 _ s1 I W1), hbind_hlift in Y1. rewrite (tcp_request_reads st2 r2 _ s2 I W2), hbind_hlift in Y2.
    destruct (both_sent _ _ _ _ _ _ _ _ _ _ _ S1 S2 N1 N2 I1 I2 Y1 Y2) as (p & G1 & G2).
    exists p, out1, out2. eexists. split; [exact (answers_ctx _ _ _ _ Sc1 G1)|]. split; [exact (answers_ctx _ _ _ _ Sc2 G2)|]. eauto.
  - left. destruct (transport_reply ev ext st1 m1 raw1 r1 uuid Hso F1 (Hp _) Hu ltac:(lia) Q W1) as (out1 & _ & _ & _ & X1).
    destruct (transport_reply ev ext st2 m2 raw2 r2 uuid Hso F2 (Hp _) Hu ltac:(lia) ltac:(rewrite <- Ea; exact Q) W2) as (out2 & _ & _ & _ & X2).
    specialize (X1 s1 h). specialize (X2 s2 h). pose proof X1 as Y1. pose proof X2 as Y2.
    rewrite R1, dispatch_transport in Y1 by (rewrite A1; exact Q). rewrite R2, dispatch_transport in Y2 by (rewrite A2, <- Ea; exact Q).
    unfold handle_transport_handshake, read_transport_request in Y1, Y2.
    rewrite (task_reads st1 r1 _ s1 I W1), hbind_hlift in Y1. rewrite (task_reads st2 r2 _ s2 I W2), hbind_hlift in Y2.
    destruct (both_sent _ _ _ _ _ _ _ _ _ _ _ S1 S2 N1 N2 I1 I2 Y1 Y2) as (p & G1 & G2).
    exists p, out1, out2. eexists. split; [exact (answers_ctx _ _ _ _ Sc1 G1)|]. split; [exact (answers_ctx _ _ _ _ Sc2 G2)|]. eauto.
  - destruct (rest_request_reads st1 q _ [] I W1) as (q' & _ & Hr).
    assert (exists z, rq_method q = Some z) as (z & Hz).
    { destruct W1 as (mm & hh & oo & Em & _). eauto. }
    rewrite R1, R2. rewrite !dispatch_rest by (rewrite ?A1, ?A2, <- ?Ea; exact Q).
    destruct (find_handler (e_cls ev) (rg_map (xt_registry ext)) (mname z ++ [32] ++ rq_path q)) as [n|e] eqn:Hn.
    2:{ right. exists e. eexists. split; eapply rest_no_route; eassumption. }
    rewrite (rest_call ev ext st1 o1 q z n q' _ _ _ W1 Hz Hn Hr), (rest_call ev ext st2 o2 q z n q' _ _ _ W2 Hz Hn Hr).
    replace (hs_user (set_next h (hs_next h + 2))) with (hs_user h) by (destruct h; reflexivity).
    destruct (xt_invoke ext n (hs_user h) q') as [u [a|e]] eqn:Hi; [|right; eauto].
    destruct (write_exec_response (exec_of a)) as [p|e] eqn:Wp.
    + left. specialize (Hs _ _ _ _ _ Hi Wp).
      destruct (reply_frame m1 raw1 c1 o1 p F1 Sc1 N1 S1) as (out1 & X1 & Y1); [lia|].
      destruct (reply_frame m2 raw2 c2 o2 p F2 Sc2 N2 S2) as (out2 & X2 & Y2); [lia|].
      exists p, out1, out2. eexists. split; [exact X1|]. split; [exact X2|]. rewrite Y1, Y2. split; reflexivity.
    + right. exists e. eexists. split; [exact (reply_raise m1 raw1 c1 o1 e _ F1 Sc1 S1)|exact (reply_raise m2 raw2 c2 o2 e _ F2 Sc2 S2)].
Qed.
Print Assumptions C93_same_question.
(** two REST requests that ask the same, with different ids and flags; two handshakes with
    different ids, the second encoded in an unusual way *)
Example C93_case :
  let m := ex_rest_msg (py "/hello/you") in let m' := ex_msg (m_action m) 99 true (m_payload m) in
  let t := ex_msg (py "internal:transport/handshake") 7 true [x80; x00] in
  frame_of m (ex_raw m) /\ frame_of m' (ex_raw m') /\ same_question m m' /\ m_id m <> m_id m' /\
  frame_of ex_transport (ex_raw ex_transport) /\ frame_of t (ex_raw t) /\ same_question ex_transport t.
Proof.
  cbv zeta. split; [apply C42_case|].
  split; [apply ex_frame; [text|discriminate|vm_compute; discriminate]|].
  split.
  { split; [reflexivity|]. right; right; right. split; [reflexivity|]. exists true, true, (ex_rest (py "/hello/you")). split; apply C42_case. }
  split; [vm_compute; discriminate|]. split; [apply C67_case|].
  split; [apply ex_frame; [text|discriminate|vm_compute; discriminate]|].
  split; [reflexivity|]. right; right; left. split; [reflexivity|]. split; [exists true; eexists; apply C67_case|].
  exists false, (mkTask [] None). left. split; [reflexivity|]. split; [reflexivity|]. exists []. split; [constructor|].
  split; [vm_compute; discriminate|]. change [x80; x00] with ([x80; x00] ++ ([] ++ [])).
  constructor; [|constructor; [reflexivity|constructor]].
  split; [|split; [vm_compute; discriminate|exact I]].
  apply (leb_more x80 [x00] 0); [vm_compute; discriminate|]. apply (leb_last x00). reflexivity.
Qed.
