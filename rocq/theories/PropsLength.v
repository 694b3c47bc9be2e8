(** * C127: no message is much longer than what was received *)
From Coq Require Import String ZArith List Bool Lia ZifyBool Permutation.
From Coq Require Import Strings.Byte.
From Verif Require Import Py Stream Version Frame Proto Messages Rest Routes Settings Host PyFacts Spec
  StreamFacts Utf8Facts FrameFacts Wire HostSpec HostFacts PropsHost SizeFacts.
Import ListNotations.
Open Scope list_scope.
Open Scope Z_scope.

(** ** Specification *)

(** What the extension itself has to say is at most [A] bytes long: its name and interfaces, the
    routes it announces, and every answer of its handlers. *)
Definition contributes {U} (ext : extension U) (A : Z) : Prop :=
  0 <= A /\
  (forall b, write_init_response (mkInitResp (xt_name ext) (xt_interfaces ext)) = Ok b -> zlen b <= A) /\
  (forall m b, new_register_request (xt_name ext) (rg_named (xt_registry ext)) [] = Ok m -> write_register_request m = Ok b -> zlen b <= A) /\
  (forall n u q u' a b, xt_invoke ext n u q = (u', Ok a) -> write_exec_response (exec_of a) = Ok b -> zlen b <= A).
(** the fixed parts: header, action names, the host's own node *)
Definition FIXED : Z := 450.
(** a request arrived, rather than a response *)
Definition is_a_request (raw : bytes) : Prop := exists hd rest, read_header raw = Ok (hd, rest) /\ is_request hd = true.

(** ** Facts *)
Definition fits (B : Z) (o : outbound) : Prop := forall b, write_outbound o = Ok b -> zlen b <= B.
Lemma out_weight o v b : frame_inv o -> h_version (o_hdr o) = HVer v -> write_outbound o = Ok b ->
  zlen b = 23 + context (o_ctx o) + opt_len (o_var o) + opt_len (o_msg o).
Proof.
  intros (P & _) V W. unfold write_outbound in W. apply wcat_cons_ok in W as (b1 & r1 & W1 & W & ->). apply wcat_cons_ok in W as (b2 & r2 & W2 & W & ->).
  apply wcat_cons_ok in W as (b3 & r3 & W3 & W & ->). apply wcat_cons_ok in W as (b4 & r4 & W4 & W & ->). apply wcat_nil_ok in W as ->.
  pose proof (header_23 _ _ (header_written_ok _ _ _ P V W1) W1) as H1. apply ctx_weight in W2. apply Ok_inj in W3, W4. subst b3 b4.
  rewrite !zlen_app, H1, W2. destruct (o_var o), (o_msg o); cbn [opt_len]; change (zlen (@nil byte)) with 0; lia.
Qed.
Lemma msg_ok c f r v rid hs cp n o n' : new_response c f (Some r) v rid hs cp n = (Ok o, n') -> exists p, r = Ok p.
Proof.
  intros H. unfold new_response, new_outbound, ibind in H. destruct r as [p|e]; [now exists p|]. exfalso.
  destruct (new_header ES rid STATUS_REQRES v MESSAGE_SIZE 0 n) as [[h|e1] n1]; [|discriminate H].
  destruct (ctx_size _); cbn [ilift] in H; discriminate H.
Qed.
Lemma req_msg_ok c f r v a rid hs cp n o n' : new_request c f (Some r) v a rid hs cp n = (Ok o, n') -> exists p, r = Ok p.
Proof.
  intros H. unfold new_request, new_outbound, ibind in H. destruct r as [p|e]; [now exists p|]. exfalso.
  destruct (new_header ES rid 0 v MESSAGE_SIZE 0 n) as [[h|e1] n1]; [|discriminate H].
  destruct (ctx_size _); cbn [ilift] in H; discriminate H.
Qed.
Lemma reply_fits m r n o n' K B : reply_to m r n = (Ok o, n') -> (forall p, r = Ok p -> zlen p <= K) -> 23 + context (o_ctx m) + K <= B -> fits B o.
Proof.
  intros H Hp L b W. unfold reply_to in H. cbv zeta in H. destruct (msg_ok _ _ _ _ _ _ _ _ _ _ H) as (p & ->). specialize (Hp p eq_refl).
  change (Some (Ok p)) with (option_map (@Ok bytes) (Some p)) in H. apply new_response_fields in H as (I & _ & V & _ & _ & _ & _ & C & M & X).
  rewrite (out_weight _ _ _ I V W), C, M, X. cbn [opt_len]. lia.
Qed.
Lemma request_fits c f r a n o n' K B : new_request (Some c) f (Some r) V_MIN_COMPAT a None false false n = (Ok o, n') -> (forall p, r = Ok p -> zlen p <= K) ->
  23 + context c + bunch f + weight a + K <= B -> fits B o.
Proof.
  intros H Hp L b W. destruct (req_msg_ok _ _ _ _ _ _ _ _ _ _ _ H) as (p & ->). specialize (Hp p eq_refl).
  change (Some (Ok p)) with (option_map (@Ok bytes) (Some p)) in H. apply new_request_fields in H as (I & _ & V & _ & _ & _ & _ & C & M & vb & Evb & X).
  rewrite (out_weight _ _ _ I V W), C, M, X. cbn [opt_len]. unfold request_variable_bytes in Evb.
  apply wcat_cons_ok in Evb as (b1 & r1 & W1 & E & ->). apply wcat_cons_ok in E as (b2 & r2 & W2 & E & ->). apply wcat_nil_ok in E as ->.
  rewrite app_nil_r, zlen_app, (array_weight _ _ W1), (write_string_weight _ _ W2). lia.
Qed.

(** what the host holds back fits *)
Definition within (B : option Z) (o : outbound) : Prop := forall b, B = Some b -> fits b o.
Definition goodh {U} (B : option Z) (h : host U) : Prop :=
  (forall o, hs_init h = Some o -> within B o) /\ (forall k o, In (k, RegisterRH o) (hs_pending h) -> within B o).
Definition gives {U A} (B : option Z) (Q : A -> Prop) (m : hm U A) : Prop :=
  forall h r h', goodh B h -> m h = (r, h') -> goodh B h' /\ forall a, r = Ok a -> Q a.
Definition short (C : Z) (r : option bytes) : Prop := forall d, r = Some d -> zlen d <= C.
Lemma gives_bind {U A A'} B (Q : A -> Prop) (R : A' -> Prop) (m : hm U A) k : gives B Q m -> (forall a, Q a -> gives B R (k a)) -> gives B R (hbind m k).
Proof.
  intros Hm Hk h r h' G H. unfold hbind in H. destruct (m h) as [[a|e] h1] eqn:E.
  - destruct (Hm _ _ _ G E) as (G1 & Qa). exact (Hk a (Qa a eq_refl) _ _ _ G1 H).
  - apply pair_equal_spec in H as [<- <-]. split; [exact (proj1 (Hm _ _ _ G E))|discriminate].
Qed.
Lemma gives_lift {U A} B (Q : A -> Prop) (x : res A) : (forall a, x = Ok a -> Q a) -> gives (U := U) B Q (hlift x).
Proof. intros Hx h r h' G H. apply pair_equal_spec in H as [<- <-]. split; [exact G|exact Hx]. Qed.
Lemma gives_ids {U A} B (Q : A -> Prop) (m : idm A) : (forall n a n', m n = (Ok a, n') -> Q a) -> gives (U := U) B Q (hids m).
Proof.
  intros Hm h r h' G H. unfold hids in H. destruct (m (hs_next h)) as [x n] eqn:E. apply pair_equal_spec in H as [<- <-]. split; [exact G|].
  intros a ->. exact (Hm _ _ _ E).
Qed.
Lemma gives_send {U} B C o : fits C o -> gives (U := U) B (short C) (send o).
Proof.
  intros F. unfold send. apply (gives_bind B (fun b => zlen b <= C)); [apply gives_lift; exact F|]. intros b L h r h' G H.
  apply pair_equal_spec in H as [<- <-]. split; [exact G|]. intros a E d ->. apply Ok_inj in E. injection E as <-. exact L.
Qed.
Lemma gives_user {U} B A (ext : extension U) n q : contributes ext A ->
  gives B (fun a => forall b, write_exec_response (exec_of a) = Ok b -> zlen b <= A) (call_user ext n q).
Proof.
  intros (_ & _ & _ & H) h r h' G E. unfold call_user in E. destruct (xt_invoke ext n (hs_user h) q) as [u a] eqn:X. apply pair_equal_spec in E as [<- <-].
  split; [exact G|]. intros a' -> b. exact (H _ _ _ _ _ _ X).
Qed.
Lemma gives_init {U} B o : within B o -> gives (U := U) B (fun _ => True) (hmod (fun h => set_init h o)).
Proof.
  intros F h r h' (_ & G) H. apply pair_equal_spec in H as [<- <-]. split; [|trivial]. split; [|exact G]. cbn. intros o' E. assert (o' = o) by congruence. subst o'. exact F.
Qed.
Lemma in_set {V} k (v : V) d x : In x (dict_set Z.eqb k v d) -> x = (k, v) \/ In x d.
Proof.
  induction d as [|[k' v'] d IH]; cbn; [intuition|]. destruct (Z.eqb k k') eqn:E; cbn; [apply Z.eqb_eq in E as ->|]; intuition.
Qed.
Lemma in_del {V} k (d : list (Z * V)) x : In x (dict_del Z.eqb k d) -> In x d.
Proof. induction d as [|[k' v'] d IH]; cbn; [trivial|]. destruct (Z.eqb k k'); cbn; intuition. Qed.
Lemma in_get {V} k (v : V) d : dict_get Z.eqb k d = Some v -> In (k, v) d.
Proof.
  induction d as [|[k' v'] d IH]; cbn; [discriminate|]. destruct (Z.eqb_spec k k') as [->|N]; [|auto]. intros E. left. congruence.
Qed.
Lemma gives_register {U} B k x : (forall o, x = RegisterRH o -> within B o) -> gives (U := U) B (fun _ => True) (register_response k x).
Proof.
  intros F h r h' (G1 & G2) H. apply pair_equal_spec in H as [<- <-]. split; [|trivial]. split; [exact G1|]. cbn. intros k' o I.
  apply in_set in I as [I|I]; [|exact (G2 _ _ I)]. apply F. congruence.
Qed.

(** ** the handlers, for a request that was read from [N] bytes *)
Section Handlers.
  Variables (U : Type) (ev : env) (ext : extension U) (A C N : Z) (B : option Z) (uuid : bytes).
  Hypothesis Hr : forall l, Permutation l (e_roles ev l).
  Hypothesis Hu : List.length uuid = 16%nat.
  Hypothesis Hx : contributes ext A.
  Hypothesis Hc : N + FIXED + A <= C.
  Hypothesis Hb : forall b, B = Some b -> C <= b.
  Lemma fits_within o : fits C o -> within B o.
  Proof. intros F b E w W. specialize (F w W). specialize (Hb b E). lia. Qed.
  Definition received (m : outbound) : Prop :=
    0 <= N /\ context (o_ctx m) <= N + 8 /\ (exists e, utf8_encode (o_action m) = Ok e) /\ context (o_ctx m) + weight (o_action m) <= N + 9 /\
    (o_action m <> [] -> context (o_ctx m) + bunch (o_features m) + weight (o_action m) <= N + 8).
  Lemma gives_reply m r K : received m -> (forall p, r = Ok p -> zlen p <= K) -> context (o_ctx m) + K <= N + 427 + A -> gives (U := U) B (fits C) (hids (reply_to m r)).
  Proof. intros (Hn & _) Hp L. apply gives_ids. intros n o n' H. eapply reply_fits; [exact H|exact Hp|]. unfold FIXED in *. lia. Qed.
  Lemma tcp_gives m i : received m -> gives (U := U) B (short C) (handle_tcp_handshake m i).
  Proof.
    intros R. unfold handle_tcp_handshake. apply (gives_bind B (fun _ => True)); [apply gives_lift; trivial|]. intros _ _.
    apply (gives_bind B (fits C)); [|intros o F; apply gives_send, F]. apply (gives_reply m _ 10); [exact R| |].
    - intros p E. assert (X : rmap zlen (write_tcp_handshake_response (Some (version_of_id CURRENT))) = Ok 4) by (vm_compute; reflexivity).
      rewrite E in X. cbn in X. apply Ok_inj in X. lia.
    - destruct R as (_ & R & _). destruct Hx as (HA & _). lia.
  Qed.
  Lemma transport_gives m i : received m -> gives (U := U) B (short C) (handle_transport_handshake ev uuid m i).
  Proof.
    intros R. unfold handle_transport_handshake. apply (gives_bind B (fun _ => True)); [apply gives_lift; trivial|]. intros _ _.
    apply (gives_bind B (fits C)); [|intros o F; apply gives_send, F]. apply (gives_reply m _ 400); [exact R| |].
    - intros p E. exact (own_written ev uuid p (Hr own_roles) Hu E).
    - destruct R as (_ & R & _). destruct Hx as (HA & _). lia.
  Qed.
  Lemma rest_gives m i : received m -> gives B (short C) (handle_rest ev ext m i).
  Proof.
    intros R. unfold handle_rest. apply (gives_bind B (fun _ => True)); [apply gives_lift; trivial|]. intros q _.
    apply (gives_bind B (fun _ => True)); [apply gives_lift; trivial|]. intros w _. cbv zeta.
    apply (gives_bind B (fun _ => True)); [apply gives_lift; trivial|]. intros n _.
    eapply gives_bind; [apply (gives_user B A), Hx|]. intros a Ha. cbv beta in Ha.
    apply (gives_bind B (fits C)); [|intros o F; apply gives_send, F]. apply (gives_reply m _ A); [exact R|exact Ha|].
    destruct R as (_ & R & _). destruct Hx as (HA & _). lia.
  Qed.
  Lemma not_found_gives m : received m -> gives (U := U) B (short C) (handle_not_found m).
  Proof.
    intros R. pose proof R as (_ & _ & (e & He) & Rw & _). destruct Hx as (HA & _). unfold handle_not_found.
    apply (gives_bind B (fun c => zlen c = zlen e + 34)).
    { apply gives_lift. intros c E. unfold not_found_text in E.
      assert (X : exists p q, utf8_encode (py "{""error"": ""No handler found for ") = Ok p /\ utf8_encode (py """}") = Ok q /\ zlen p + zlen q = 34).
      { do 2 eexists. split; [vm_compute; reflexivity|]. split; [vm_compute; reflexivity|]. vm_compute. reflexivity. }
      destruct X as (p & q & Ep & Eq & L). pose proof (utf8_encode_app _ _ _ _ Ep (utf8_encode_app _ _ _ _ He Eq)) as Y. rewrite E in Y. apply Ok_inj in Y. subst c.
      rewrite !zlen_app. lia. }
    intros c Lc. apply (gives_bind B (fits C)); [|intros o F; apply gives_send, F].
    apply (gives_reply m _ (weight (o_action m) + 100)); [exact R| |lia].
    intros p E. unfold write_exec_response in E. cbn [ex_status ex_ctype ex_content ex_headers ex_consumed ex_content_consumed] in E.
    apply wcat_cons_ok in E as (b1 & r1 & W1 & E & ->). apply wcat_cons_ok in E as (b2 & r2 & W2 & E & ->). apply wcat_cons_ok in E as (b3 & r3 & W3 & E & ->).
    apply wcat_cons_ok in E as (b4 & r4 & W4 & E & ->). apply wcat_cons_ok in E as (b5 & r5 & W5 & E & ->). apply wcat_cons_ok in E as (b6 & r6 & W6 & E & ->).
    apply wcat_cons_ok in E as (b7 & r7 & W7 & E & ->). apply wcat_nil_ok in E as ->. apply Ok_inj in W4. subst b4.
    assert (X1 : zlen b1 = 1) by (vm_compute in W1; apply Ok_inj in W1; now subst b1).
    assert (X2 : zlen b2 <= 32) by (apply write_string_weight in W2; rewrite W2; vm_compute; discriminate).
    assert (X5 : zlen b5 = 1) by (vm_compute in W5; apply Ok_inj in W5; now subst b5).
    assert (X6 : zlen b6 = 1) by (vm_compute in W6; apply Ok_inj in W6; now subst b6).
    assert (X7 : zlen b7 = 1) by (vm_compute in W7; apply Ok_inj in W7; now subst b7).
    rewrite !zlen_app, X1, X5, X6, X7, Lc. unfold weight. rewrite He.
    pose proof (zlen_nonneg _ e) as Le. pose proof (size_add (zlen e) 34 Le ltac:(lia)) as Sz. change (v_int_size 34) with 1 in Sz.
    pose proof (v_int_size_correct _ _ W3) as Y. rewrite Lc in Y. change (zlen (@nil byte)) with 0. lia.
  Qed.
  Lemma discovery_gives m i : received m -> o_action m <> [] -> gives B (short C) (handle_discovery ext m i).
  Proof.
    intros R Na. pose proof R as (Hn & Rc & _ & _ & Rf). specialize (Rf Na). destruct Hx as (HA & Hi & Hg & _). pose proof (weight_pos (o_action m)) as Wa.
    unfold FIXED in *. unfold handle_discovery. apply (gives_bind B (fun _ => True)); [apply gives_lift; trivial|]. intros _ _.
    apply (gives_bind B (fits C)); [apply (gives_reply m _ A R Hi); lia|]. intros resp F1.
    apply (gives_bind B (fun _ => True)); [apply gives_init, fits_within, F1|]. intros _ _.
    eapply gives_bind; [apply gives_lift; intros em E; exact E|]. intros em Em. cbv beta in Em.
    apply (gives_bind B (fits C)).
    { apply gives_ids. intros n o n' H. eapply (request_fits _ _ _ _ _ _ _ 60); [exact H| |].
      - intros p E. assert (X : rmap zlen (bind (new_ext_transport_request REQUEST_EXTENSION_ENVIRONMENT_SETTINGS []) write_ext_transport_request) = Ok 6) by (vm_compute; reflexivity).
        rewrite Em in X. cbn [bind] in X. rewrite E in X. cbn in X. apply Ok_inj in X. lia.
      - assert (X : weight ENV_ACTION = 39) by (vm_compute; reflexivity). lia. }
    intros sr F2. apply (gives_bind B (fun _ => True)); [apply gives_register; discriminate|]. intros _ _.
    eapply gives_bind; [apply gives_lift; intros gm E; exact E|]. intros gm Gm. cbv beta in Gm.
    apply (gives_bind B (fits C)).
    { apply gives_ids. intros n o n' H. eapply (request_fits _ _ _ _ _ _ _ A); [exact H| |].
      - intros p E. exact (Hg gm p Gm E).
      - assert (X : weight REGISTER_ACTION = 39) by (vm_compute; reflexivity). lia. }
    intros rq F3. apply (gives_bind B (fun _ => True)); [apply gives_register; intros o E; assert (o = sr) by congruence; subst o; apply fits_within, F2|]. intros _ _.
    apply gives_send, F3.
  Qed.
  Lemma request_gives m i : received m -> gives B (short C) (handle_request ev ext uuid m i).
  Proof.
    intros R. unfold handle_request. cbv zeta. destruct (streqb (o_action m) A_DISCOVERY) eqn:E.
    { apply discovery_gives; [exact R|]. intros X. rewrite X in E. discriminate E. }
    clear E. destruct (streqb _ _); [apply rest_gives, R|]. destruct (streqb _ _); [apply tcp_gives, R|]. destruct (streqb _ _); [apply transport_gives, R|].
    apply not_found_gives, R.
  Qed.
End Handlers.

Lemma bytes_take n s (a : bytes) s' : read_bytes n s = Ok (a, s') -> zlen a + zlen s' = zlen s.
Proof. unfold read_bytes. destruct (bio_read n s) as [x y] eqn:E. intros H. apply Ok_inj in H. apply pair_equal_spec in H as [<- <-]. exact (bio_len _ _ _ _ E). Qed.
Lemma fresh n o n' : new_request None [] None HNone [] None false false n = (Ok o, n') -> o_features o = [] /\ o_action o = [].
Proof. intros H. cbn in H. apply pair_equal_spec in H as [H _]. apply Ok_inj in H. subst o. split; reflexivity. Qed.
Lemma read_received so o h rest m i : set_order_ok so -> o_features o = [] -> o_action o = [] ->
  read_outbound so true o h rest = Ok (m, i) -> received (zlen rest) m.
Proof.
  intros Hso Of Oa H. unfold read_outbound in H. unfold rbind at 1 in H. destruct (read_ctx so rest) as [[c s1]|e] eqn:RC; [|discriminate H].
  apply (ctx_takes so _ _ _ Hso) in RC as (L1 & W1). pose proof (zlen_nonneg _ rest). pose proof (zlen_nonneg _ s1).
  destruct (0 <? h_vhs h).
  - unfold rbind at 1, rlift at 1 in H. destruct (ctx_size c) as [sz|e]; [|discriminate H].
    unfold rbind at 1 in H. destruct (read_bytes (h_vhs h - sz) s1) as [[vb s2]|e] eqn:RB; [|discriminate H]. apply bytes_take in RB.
    pose proof (zlen_nonneg _ s2). unfold rbind, rlift in H. destruct (read_variable vb) as [[f a]|e] eqn:RV; [|discriminate H].
    unfold rret in H. apply Ok_inj in H. apply pair_equal_spec in H as [<- <-]. pose proof (variable_takes _ _ _ RV) as (Wa & Wf). pose proof (variable_encodes _ _ _ RV).
    unfold received. cbn [o_ctx o_action o_features fst snd]. repeat split; try lia; [assumption|]. intros Na. specialize (Wf Na). lia.
  - unfold rret in H. apply Ok_inj in H. apply pair_equal_spec in H as [<- <-]. unfold received. cbn [o_ctx o_action o_features fst snd]. rewrite Oa, Of.
    rewrite weight_empty. repeat split; try lia; [now exists []|]. intros N. now contradiction N.
Qed.
Lemma read_takes {T} n (g : bytes -> T) s x s' : (b <~ read_bytes n ;; rret (g b)) s = Ok (x, s') -> zlen s' <= zlen s.
Proof.
  unfold rbind. destruct (read_bytes n s) as [[b t]|e] eqn:R; [|discriminate]. intros H. unfold rret in H. apply Ok_inj in H. apply pair_equal_spec in H as [_ <-].
  apply bytes_take in R. pose proof (zlen_nonneg _ b). lia.
Qed.
Lemma header_takes s h s' : read_header s = Ok (h, s') -> zlen s' <= zlen s.
Proof.
  intros H. unfold read_header, rbind, rret in H.
  destruct (read_bytes 2 s) as [[b1 s1]|e] eqn:R1; [|discriminate H]. destruct (read_int s1) as [[b2 s2]|e] eqn:R2; [|discriminate H].
  destruct (read_long s2) as [[b3 s3]|e] eqn:R3; [|discriminate H]. destruct (read_byte s3) as [[b4 s4]|e] eqn:R4; [|discriminate H].
  destruct (read_bytes 4 s4) as [[b5 s5]|e] eqn:R5; [|discriminate H]. destruct (read_int s5) as [[b6 s6]|e] eqn:R6; [|discriminate H].
  apply Ok_inj in H. apply pair_equal_spec in H as [_ <-].
  apply bytes_take in R1, R5. apply read_takes in R2, R3, R4, R6. pose proof (zlen_nonneg _ b1). pose proof (zlen_nonneg _ b5). lia.
Qed.

(** ** one chunk *)
Lemma input_gives {U} ev (ext : extension U) A B C uuid raw : set_order_ok (e_so ev) -> (forall l, Permutation l (e_roles ev l)) ->
  List.length uuid = 16%nat -> contributes ext A -> zlen raw + FIXED + A <= C -> (forall b, B = Some b -> C <= b) ->
  (~ is_a_request raw -> B = Some C) ->
  gives B (short C) (on_input ev ext uuid raw).
Proof.
  intros Hso Hr Hu Hx Lr LC HC. unfold on_input. apply (gives_bind B (fun _ => True)); [apply gives_ids; trivial|]. intros _ _.
  eapply gives_bind; [apply gives_lift; intros x E; exact E|]. intros [hd rest] E. cbv beta in E. pose proof (header_takes _ _ _ E) as Lh.
  destruct (is_request hd) eqn:R.
  - eapply gives_bind; [apply gives_ids; intros n o n' H; exact (fresh n o n' H)|]. intros o (Of & Oa).
    eapply gives_bind; [apply gives_lift; intros x X; exact X|]. intros [m i] X. cbv beta in X. cbn [fst snd].
    apply (request_gives U ev ext A C (zlen rest)); auto; [lia|]. exact (read_received _ _ _ _ _ _ Hso Of Oa X).
  - assert (EB : B = Some C) by (apply HC; intros (hd' & rest' & E' & R'); rewrite E in E'; apply Ok_inj in E'; apply pair_equal_spec in E' as [<- _]; congruence).
    clear HC LC. apply (gives_bind B (fun _ => True)); [apply gives_ids; trivial|]. intros o _.
    apply (gives_bind B (fun _ => True)); [apply gives_lift; trivial|]. intros m _. destruct (is_error hd).
    + intros h r h' G H. apply pair_equal_spec in H as [<- <-]. split; [exact G|]. intros a X d ->. discriminate X.
    + intros h r h' G H. unfold handle_response in H. destruct (dict_get Z.eqb (h_id hd) (hs_pending h)) as [x|] eqn:D.
      2:{ apply pair_equal_spec in H as [<- <-]. split; [exact G|]. intros a X d ->. discriminate X. }
      cbv zeta in H. set (h1 := set_pending h _) in H. assert (G1 : goodh B h1).
      { destruct G as (Ga & Gb). split; [exact Ga|]. intros k o' I. cbn in I. apply in_del in I. exact (Gb _ _ I). }
      destruct x as [sr|].
      * assert (F : fits C sr) by (apply in_get in D; exact (proj2 G _ _ D C EB)).
        assert (K : gives B (short C) (handle_register (U := U) sr (snd m))); [|exact (K h1 r h' G1 H)]. unfold handle_register.
        apply (gives_bind B (fun _ => True)); [apply gives_lift; trivial|]. intros a _. destruct (fst a); [apply gives_send, F|].
        intros h2 r2 h2' G2 H2. apply pair_equal_spec in H2 as [<- <-]. split; [exact G2|]. intros y Y d ->. discriminate Y.
      * unfold handle_env in H. destruct (read_settings _ _ _) as [t d]. cbv zeta in H. set (h2 := set_settings h1 d) in H.
        assert (G2 : goodh B h2) by exact G1. destruct t as [t|e].
        -- destruct (hs_init h2) as [o'|] eqn:I.
           ++ exact (gives_send B C o' (proj1 G2 _ I C EB) h2 r h' G2 H).
           ++ apply pair_equal_spec in H as [<- <-]. split; [exact G2|]. discriminate.
        -- apply pair_equal_spec in H as [<- <-]. split; [exact G2|]. discriminate.
Qed.

(** ** Theorems *)

(** The reply to a request, in whatever state the host is. *)
Theorem C127_reply : forall U ev (ext : extension U) A uuid raw h d h',
  set_order_ok (e_so ev) -> (forall l, Permutation l (e_roles ev l)) -> List.length uuid = 16%nat -> contributes ext A -> is_a_request raw ->
  on_input ev ext uuid raw h = (Ok (Some d), h') -> zlen d <= zlen raw + FIXED + A.
Proof.
  intros U ev ext A uuid raw h d h' Hso Hr Hu Hx Q H.
  assert (G : gives None (short (zlen raw + FIXED + A)) (on_input ev ext uuid raw)) by (eapply input_gives; try eassumption; [lia|discriminate|contradiction]).
  refine (proj2 (G h _ _ _ H) _ eq_refl d eq_refl). split; intros; discriminate.
Qed.
Print Assumptions C127_reply.

Lemma feed_good {U} ev (ext : extension U) A L l u : set_order_ok (e_so ev) -> (forall l, Permutation l (e_roles ev l)) -> contributes ext A ->
  Forall (fun x => List.length (fst x) = 16%nat /\ zlen (snd x) <= L) l -> goodh (Some (L + FIXED + A)) (feed ev ext (initial_host u) l).
Proof.
  intros Hso Hr Hx. induction l as [|x l IH] using rev_ind; intros F.
  - split; [discriminate|]. intros k o [].
  - apply Forall_app in F as (F & Fx). apply Forall_inv in Fx as (Hu & Lx). specialize (IH F). unfold feed. rewrite fold_left_app. cbn [fold_left].
    change (goodh (Some (L + FIXED + A)) (snd (on_input ev ext (fst x) (snd x) (feed ev ext (initial_host u) l)))). destruct (on_input ev ext (fst x) (snd x) (feed ev ext (initial_host u) l)) as [r h'] eqn:E. cbn [snd].
    assert (G : gives (Some (L + FIXED + A)) (short (L + FIXED + A)) (on_input ev ext (fst x) (snd x))).
    { eapply input_gives; try eassumption; [lia| |reflexivity]. intros b X. injection X as <-. lia. }
    exact (proj1 (G _ _ _ IH E)).
Qed.
(** After any history: what is sent in answer to a response, too, is no longer than that. *)
Theorem C127_history : forall U ev (ext : extension U) A L u l uuid raw d h',
  set_order_ok (e_so ev) -> (forall l, Permutation l (e_roles ev l)) -> contributes ext A ->
  Forall (fun x => List.length (fst x) = 16%nat /\ zlen (snd x) <= L) (l ++ [(uuid, raw)]) ->
  on_input ev ext uuid raw (feed ev ext (initial_host u) l) = (Ok (Some d), h') -> zlen d <= L + FIXED + A.
Proof.
  intros U ev ext A L u l uuid raw d h' Hso Hr Hx F H. apply Forall_app in F as (F & Fx). apply Forall_inv in Fx as (Hu & Lx). cbn [fst snd] in Hu, Lx.
  assert (G : gives (Some (L + FIXED + A)) (short (L + FIXED + A)) (on_input ev ext uuid raw)).
  { eapply input_gives; try eassumption; [lia| |reflexivity]. intros b X. injection X as <-. lia. }
  exact (proj2 (G _ _ _ (feed_good ev ext A L l u Hso Hr Hx F) H) _ eq_refl d eq_refl).
Qed.
Print Assumptions C127_history.

(** In every run of the server, everything that is sent or being sent. *)
Theorem C127_run : forall U ev (ext : extension U) A u es,
  set_order_ok (e_so ev) -> (forall l, Permutation l (e_roles ev l)) -> contributes ext A ->
  (forall c raw uuid, In (Recv c raw uuid) es -> List.length uuid = 16%nat) ->
  let w := run_world ev ext (initial_world u) es in
  (forall c d, In (c, d) (w_sent w) -> zlen d <= 10240 + FIXED + A) /\
  (forall c d, In (c, Sending d) (w_conns w) -> zlen d <= 10240 + FIXED + A).
Proof.
  intros U ev ext A u es Hso Hr Hx. set (B := 10240 + FIXED + A).
  enough (K : forall es, (forall c raw uuid, In (Recv c raw uuid) es -> List.length uuid = 16%nat) ->
    let w := run_world ev ext (initial_world u) es in goodh (Some B) (w_host w) /\
    (forall c d, In (c, d) (w_sent w) -> zlen d <= B) /\ (forall c d, In (c, Sending d) (w_conns w) -> zlen d <= B)).
  { intros H w. exact (proj2 (K es H)). }
  clear es. intros es. induction es as [|e es IH] using rev_ind; intros H w.
  - subst w. split; [split; [discriminate|intros k o []]|]. split; intros c d [].
  - specialize (IH (fun c raw uuid I => H c raw uuid (in_or_app _ _ _ (or_introl I)))). subst w. rewrite run_snoc. set (w := run_world ev ext (initial_world u) es) in *.
    cbv zeta in IH. destruct IH as (G & S & C).
    assert (P : forall c s, (forall d, s = Sending d -> zlen d <= B) -> forall c' d, In (c', Sending d) (set_conn c s (w_conns w)) -> zlen d <= B).
    { intros c s Hs c' d I. unfold set_conn in I. apply in_set in I as [I|I]; [|exact (C _ _ I)]. apply pair_equal_spec in I as [_ <-]. now apply Hs. }
    assert (Cl : forall c, goodh (Some B) (w_host (close_conn w c)) /\ (forall c' d, In (c', d) (w_sent (close_conn w c)) -> zlen d <= B) /\
      (forall c' d, In (c', Sending d) (w_conns (close_conn w c)) -> zlen d <= B)).
    { intros c. split; [exact G|]. split; [exact S|]. cbn. apply P. discriminate. }
    assert (Af : forall h c s, goodh (Some B) h -> (forall c' d, In (c', d) s -> zlen d <= B) ->
      goodh (Some B) (w_host (after_chunk h w c s)) /\ (forall c' d, In (c', d) (w_sent (after_chunk h w c s)) -> zlen d <= B) /\
      (forall c' d, In (c', Sending d) (w_conns (after_chunk h w c s)) -> zlen d <= B)).
    { intros h c s Gh Ss. unfold after_chunk. destruct (w_terminating w); (split; [exact Gh|split; [exact Ss|]]; cbn; apply P; discriminate). }
    assert (Same : goodh (Some B) (w_host w) /\ (forall c d, In (c, d) (w_sent w) -> zlen d <= B) /\ (forall c d, In (c, Sending d) (w_conns w) -> zlen d <= B)) by auto.
    destruct e as [a|a raw uuid|a ok|a|a| | |]; cbn [world_step].
    + destruct (dict_get Z.eqb a (w_conns w)); [exact Same|]. destruct (w_accepting w); [|exact Same]. split; [exact G|]. split; [exact S|]. cbn. apply P. discriminate.
    + change RECV_LIMIT with 10240. destruct (Z.ltb_spec 10240 (zlen raw)) as [|Lr]; [exact Same|]. destruct (dict_get Z.eqb a (w_conns w)) as [[|d|]|]; try exact Same.
      destruct raw as [|b raw]; [apply Cl|]. destruct (on_input ev ext uuid (b :: raw) (w_host w)) as [r h] eqn:E.
      assert (Q : gives (Some B) (short B) (on_input ev ext uuid (b :: raw))).
      { eapply input_gives; try eassumption; [|unfold B; lia| |reflexivity].
        - apply (H a (b :: raw) uuid), in_or_app. right. now left.
        - intros x X. injection X as <-. lia. }
      destruct (Q _ _ _ G E) as (Gh & Sh). destruct r as [[d|]|x]; [|apply Af; [exact Gh|exact S]..].
      split; [exact Gh|]. split; [exact S|]. cbn. apply P. intros d' X. injection X as <-. exact (Sh _ eq_refl d eq_refl).
    + destruct (dict_get Z.eqb a (w_conns w)) as [[|d|]|] eqn:D; try exact Same. apply Af; [exact G|]. destruct ok; [|exact S].
      intros c' d' I. apply in_app_or in I as [I|[I|[]]]; [exact (S _ _ I)|]. apply pair_equal_spec in I as [_ <-]. apply in_get in D. exact (C _ _ D).
    + destruct (dict_get Z.eqb a (w_conns w)) as [[|d|]|]; try exact Same. apply Cl.
    + destruct (dict_get Z.eqb a (w_conns w)); [apply Cl|exact Same].
    + exact Same.
    + destruct (w_accepting w); exact Same.
    + destruct (w_accepting w); exact Same.
Qed.
Print Assumptions C127_run.

(** Case: the extension of PropsHost.v contributes at most 200 bytes, and a request to it of 150 bytes *)
Lemma ex_contributes : contributes ex_ext 120.
Proof.
  split; [lia|]. split; [|split].
  - intros b E. assert (X : rmap zlen (write_init_response (mkInitResp (xt_name ex_ext) (xt_interfaces ex_ext))) = Ok 33) by (vm_compute; reflexivity).
    rewrite E in X. cbn in X. apply Ok_inj in X. lia.
  - intros m b E W. assert (X : rmap zlen (bind (new_register_request (xt_name ex_ext) (rg_named (xt_registry ex_ext)) []) write_register_request) = Ok 36) by (vm_compute; reflexivity).
    rewrite E in X. cbn [bind] in X. rewrite W in X. cbn in X. apply Ok_inj in X. lia.
  - intros n u q u' a b E W. cbn [xt_invoke ex_ext] in E. apply pair_equal_spec in E as [_ E].
    destruct (streqb (rq_path q) (py "/hello/x")); [discriminate E|]. apply Ok_inj in E. subst a.
    assert (X : rmap zlen (write_exec_response (exec_of ex_response)) = Ok 31) by (vm_compute; reflexivity). rewrite W in X. cbn in X. apply Ok_inj in X. lia.
Qed.
Example C127_case :
  contributes ex_ext 120 /\ is_a_request (ex_raw (ex_rest_msg (py "/hello/you"))) /\ zlen (ex_raw (ex_rest_msg (py "/hello/you"))) = 193 /\
  let w := run_world ex_env ex_ext (initial_world 0) [Accept 1; Recv 1 (ex_raw (ex_rest_msg (py "/hello/you"))) (repeat x01 16); SendDone 1 true] in
  exists d, w_sent w = [(1, d)] /\ zlen d = 79.
Proof.
  split; [exact ex_contributes|]. split; [do 2 eexists; split; vm_compute; reflexivity|]. split; [vm_compute; reflexivity|].
  cbv zeta. eexists. split; vm_compute; reflexivity.
Qed.
