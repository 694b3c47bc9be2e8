(** * Properties C98-C100: what the log tells about what is sent *)
From Coq Require Import String ZArith List Bool Lia.
From Coq Require Import Strings.Byte.
From Verif Require Import Py PyFacts Stream StreamFacts StreamFacts2 Version VersionFacts Frame Proto Messages Rest Routes Settings Host
  Spec SpecFacts FrameFacts Wire WireFacts WireFacts4 HostSpec HostFacts PropsMessages PropsHost Log PropsLog.
Import ListNotations.
Open Scope list_scope.
Open Scope Z_scope.

(** ** [says] is the host up to its send *)
Definition sends {U} (m : hm U (option outgoing)) : hm U (option bytes) :=
  fun h => match m h with
           | (Ok (Some x), h') => send (og_out x) h'
           | (Ok None, h') => (Ok None, h')
           | (Raise e, h') => (Raise e, h')
           end.
Lemma sends_bind U A (m : hm U A) k h : sends (hbind m k) h = hbind m (fun a => sends (k a)) h.
Proof. unfold sends, hbind. destruct (m h) as [[a|e] h']; reflexivity. Qed.
Lemma bind_same U A B (m : hm U A) (k k' : A -> hm U B) h : (forall a h, k a h = k' a h) -> hbind m k h = hbind m k' h.
Proof. intros H. unfold hbind. destruct (m h) as [[a|e] h']; [apply H|reflexivity]. Qed.
Ltac steps := repeat first [rewrite sends_bind; apply bind_same; intros ? ?|reflexivity].
Lemma says_request_ok U ev ds (ext : extension U) uuid o p h :
  sends (says_request ev ds ext uuid o p) h = handle_request ev ext uuid o p h.
Proof.
  unfold says_request, handle_request. cbv zeta.
  destruct (streqb _ A_DISCOVERY); [unfold says_discovery, handle_discovery; steps|].
  destruct (streqb _ A_REST); [unfold says_rest, handle_rest; steps|].
  destruct (streqb _ A_TCP); [unfold says_tcp_handshake, handle_tcp_handshake; steps|].
  destruct (streqb _ A_TRANSPORT); [unfold says_transport_handshake, handle_transport_handshake; steps|].
  unfold says_not_found, handle_not_found. steps.
Qed.
Lemma says_response_ok U ev ds (ext : extension U) k p h :
  sends (says_response ev ds ext k p) h = handle_response ev k p h.
Proof.
  unfold says_response, handle_response, sends at 1. destruct (dict_get _ _ _) as [[o|]|]; [| |reflexivity].
  - fold (sends (U := U) (says_register o p) (set_pending h (dict_del Z.eqb k (hs_pending h)))). unfold says_register, handle_register.
    rewrite sends_bind. apply bind_same. intros a h'. destruct (fst a); reflexivity.
  - unfold says_env, handle_env. destruct (read_settings _ _ _) as [[x|e] d]; [|reflexivity].
    destruct (hs_init _); reflexivity.
Qed.
Lemma says_ok U ev ds (ext : extension U) uuid raw h : sends (says ev ds ext uuid raw) h = on_input ev ext uuid raw h.
Proof.
  unfold says, on_input. rewrite sends_bind. apply bind_same. intros _ h1. rewrite sends_bind. apply bind_same. intros [hd rest] h2.
  destruct (is_request hd); rewrite sends_bind; apply bind_same; intros o h3; rewrite sends_bind; apply bind_same; intros m h4.
  - apply says_request_ok.
  - destruct (is_error hd); [reflexivity|]. apply says_response_ok.
Qed.

(** ** what is about to be sent was made by the constructors *)
Definition prepared {U} (h : host U) : Prop :=
  (forall k o, In (k, RegisterRH o) (hs_pending h) -> constructed o /\ o_action o = ENV_ACTION) /\
  (forall o, hs_init h = Some o -> constructed o).
Definition going (x : option outgoing) : Prop :=
  forall g, x = Some g -> constructed (og_out g) /\ (og_request g = true -> In (o_action (og_out g)) [ENV_ACTION; REGISTER_ACTION]).
(** keeps [prepared], and its result is so *)
Definition keeps {U A} (P : A -> Prop) (m : hm U A) : Prop :=
  forall h, prepared h -> (forall a h', m h = (Ok a, h') -> P a) /\ prepared (snd (m h)).
Lemma keeps_bind U A B (P : A -> Prop) (Q : B -> Prop) (m : hm U A) k : keeps P m -> (forall a, P a -> keeps Q (k a)) -> keeps Q (hbind m k).
Proof.
  intros M K h H. destruct (M h H) as [M1 M2]. unfold hbind. destruct (m h) as [[a|e] h'].
  - apply K; [eapply M1; reflexivity|exact M2].
  - split; [intros; discriminate|exact M2].
Qed.
Lemma keeps_lift U A (x : res A) : keeps (U := U) (fun a => x = Ok a) (hlift x).
Proof. intros h H. split; [|exact H]. intros a h' E. unfold hlift in E. apply pair_equal_spec in E. tauto. Qed.
Lemma keeps_ids U A (P : A -> Prop) (m : idm A) : (forall n a n', m n = (Ok a, n') -> P a) -> keeps (U := U) P (hids m).
Proof.
  intros M h H. unfold hids. destruct (m (hs_next h)) as [r n'] eqn:E. split; [|exact H].
  intros a h' F. apply pair_equal_spec in F as [F _]. eapply M. rewrite E, F. reflexivity.
Qed.
Lemma keeps_ret U A (P : A -> Prop) a : P a -> keeps (U := U) P (hret a).
Proof. intros H h Hh. split; [|exact Hh]. intros b h' E. unfold hret in E. apply pair_equal_spec in E as [E _]. apply Ok_inj in E. subst b. exact H. Qed.
Lemma keeps_user U (ext : extension U) n q : keeps (fun _ => True) (call_user ext n q).
Proof. intros h H. split; [intros; exact I|]. unfold call_user. destruct (xt_invoke _ _ _ _) as [u a]. exact H. Qed.
Lemma keeps_init U o : constructed o -> keeps (U := U) (fun _ => True) (hmod (fun h => set_init h o)).
Proof.
  intros C h [H1 H2]. split; [intros; exact I|]. split; [exact H1|]. cbn. intros o' E. injection E as <-. exact C.
Qed.
Lemma keeps_register U k x : (forall o, x = RegisterRH o -> constructed o /\ o_action o = ENV_ACTION) ->
  keeps (U := U) (fun _ => True) (register_response k x).
Proof.
  intros C h [H1 H2]. split; [intros; exact I|]. split; [|exact H2]. cbn. intros j o I. apply in_dict_set in I as [[_ E]|I]; [|eauto].
  apply C. symmetry. exact E.
Qed.
Lemma reply_constructed req msg n o n' : reply_to req msg n = (Ok o, n') -> constructed o.
Proof. intros E. eapply con_response. exact E. Qed.
Lemma request_constructed c f msg a rid hs cp n o n' : new_request c f msg V_MIN_COMPAT a rid hs cp n = (Ok o, n') -> constructed o /\ o_action o = a.
Proof.
  intros E. split; [eapply con_request; exact E|]. unfold new_request, ibind in E.
  destruct (new_outbound c V_MIN_COMPAT 0 rid msg f a n) as [[o1|] n1] eqn:E1; [|discriminate].
  destruct (request_variable_bytes f a) as [vb|]; cbn [ilift iret] in E; [|discriminate].
  apply pair_equal_spec in E; destruct E as [E _]; apply Ok_inj in E; subst o.
  apply new_outbound_inv in E1. destruct E1 as (_ & _ & _ & _ & _ & _ & E6 & _).
  destruct (set_flags_fields (set_variable_bytes o1 vb) hs cp) as (_ & _ & _ & _ & _ & _ & _ & _ & -> & _). exact E6.
Qed.
Lemma keeps_responds U o txt : constructed o -> keeps (U := U) going (responds o txt).
Proof. intros C. apply keeps_ret. intros g E. injection E as <-. cbn. split; [exact C|discriminate]. Qed.
Lemma keeps_requests U o : constructed o -> In (o_action o) [ENV_ACTION; REGISTER_ACTION] -> keeps (U := U) going (requests o).
Proof. intros C A. apply keeps_ret. intros g E. injection E as <-. cbn [og_out og_request]. auto. Qed.
Ltac kb := eapply keeps_bind; [first [apply keeps_lift|apply keeps_user|apply keeps_ids; first [exact (reply_constructed _ _)|intros ? ? ?; apply request_constructed]]|intros ? ?].
Lemma keeps_request U ev ds (ext : extension U) uuid o p : keeps going (says_request ev ds ext uuid o p).
Proof.
  unfold says_request. cbv zeta.
  destruct (streqb _ A_DISCOVERY); [|destruct (streqb _ A_REST); [|destruct (streqb _ A_TCP); [|destruct (streqb _ A_TRANSPORT)]]].
  - unfold says_discovery. kb. kb. eapply keeps_bind; [apply keeps_init; assumption|intros _ _]. kb. kb.
    eapply keeps_bind; [apply keeps_register; intros; discriminate|intros _ _]. kb. kb.
    eapply keeps_bind; [apply keeps_register; intros ? E; injection E as <-; assumption|intros _ _].
    cbv beta in *. match goal with H : constructed ?a /\ _ = REGISTER_ACTION |- _ => destruct H as [C E] end.
    apply keeps_requests; [exact C|rewrite E; right; left; reflexivity].
  - unfold says_rest. do 5 kb. apply keeps_responds. assumption.
  - unfold says_tcp_handshake. do 2 kb. apply keeps_responds. assumption.
  - unfold says_transport_handshake. do 2 kb. apply keeps_responds. assumption.
  - unfold says_not_found. do 2 kb. apply keeps_responds. assumption.
Qed.
Lemma keeps_response U ev ds (ext : extension U) k p : keeps going (says_response ev ds ext k p).
Proof.
  intros h H. unfold says_response. destruct (dict_get Z.eqb k (hs_pending h)) as [x|] eqn:G.
  2: { cbn. split; [|exact H]. intros a h' E g ->. apply pair_equal_spec in E as [E _]. discriminate. }
  cbv zeta. assert (H' : prepared (set_pending h (dict_del Z.eqb k (hs_pending h)))).
  { destruct H as [H1 H2]. split; [|exact H2]. cbn. intros j o I. apply in_dict_del in I. eauto. }
  apply (dict_get_In _ Z.eqb_eq) in G. destruct x as [o|].
  - revert H'. generalize (set_pending h (dict_del Z.eqb k (hs_pending h))). apply keeps_bind with (P := fun a => read_ack p = Ok a); [apply keeps_lift|].
    intros [[|] t] _; cbn [fst].
    + destruct (proj1 H _ _ G) as [C E]. apply keeps_requests; [exact C|rewrite E; left; reflexivity].
    + apply keeps_ret. intros g E. discriminate.
  - unfold says_env. destruct (read_settings _ _ _) as [[x|e] d]; [|split; [intros; discriminate|exact H']].
    cbn [hs_init set_settings set_pending]. destruct (hs_init h) as [o|] eqn:I; [|split; [intros; discriminate|exact H']].
    apply keeps_responds; [|exact H']. apply H. exact I.
Qed.
Lemma says_keeps U ev ds (ext : extension U) uuid raw : keeps going (says ev ds ext uuid raw).
Proof.
  unfold says. eapply keeps_bind; [apply keeps_ids with (P := fun _ => True); intros; exact I|intros _ _].
  kb. destruct a as [hd rest]. destruct (is_request hd).
  - eapply keeps_bind; [apply keeps_ids with (P := fun _ => True); intros; exact I|intros o _]. kb. apply keeps_request.
  - eapply keeps_bind; [apply keeps_ids with (P := fun _ => True); intros; exact I|intros o _]. kb.
    destruct (is_error hd); [apply keeps_ret; intros g E; discriminate|]. apply keeps_response.
Qed.
Lemma send_state U o (h : host U) : snd (send o h) = h.
Proof. unfold send, hbind, hlift. destruct (write_outbound o); reflexivity. Qed.
Lemma running_prepared U ev (ext : extension U) h : running ev ext h -> prepared h.
Proof.
  intros (u & l & ->). induction l as [|x l IH] using rev_ind; [split; [intros k o []|discriminate]|].
  rewrite feed_snoc. rewrite <- (says_ok U ev (mkDisplay (fun _ => false) (fun _ => []))).
  unfold sends. destruct (says_keeps U ev (mkDisplay (fun _ => false) (fun _ => [])) ext (fst x) (snd x) _ IH) as [_ K].
  destruct (says _ _ _ _ _ _) as [[[g|]|e] h']; [|exact K|exact K]. rewrite send_state. exact K.
Qed.

(** ** repr() of bytes can be read back *)
Fixpoint prefixb (x y : pystr) : bool :=
  match x, y with [], _ => true | a :: x, b :: y => (a =? b) && prefixb x y | _ :: _, [] => false end.
Lemma prefix_app x y s t : x ++ s = y ++ t -> prefixb x y || prefixb y x = true.
Proof.
  revert y. induction x as [|a x IH]; intros y E; [reflexivity|]. destruct y as [|b y]; [reflexivity|].
  cbn [app] in E. injection E as <- E. cbn [prefixb]. rewrite Z.eqb_refl. apply IH, E.
Qed.
Definition codes : list Z := map Z.of_nat (seq 0 256).
Definition apart (q : Z) : bool :=
  forallb (fun c => forallb (fun d => (c =? d) || negb (prefixb (repr_byte q c) (repr_byte q d) || prefixb (repr_byte q d) (repr_byte q c))) codes
                    && negb (prefixb (repr_byte q c) [q] || prefixb [q] (repr_byte q c))) codes.
Lemma in_codes b : In (b2z b) codes.
Proof.
  pose proof (b2z_range b). unfold codes. replace (b2z b) with (Z.of_nat (Z.to_nat (b2z b))) by lia. apply in_map, in_seq. lia.
Qed.
Lemma apart_both : apart 39 = true /\ apart 34 = true. Proof. split; vm_compute; reflexivity. Qed.
Lemma repr_inj_in q l l' s t : apart q = true ->
  flat_map (repr_byte q) (map b2z l) ++ q :: s = flat_map (repr_byte q) (map b2z l') ++ q :: t -> l = l' /\ s = t.
Proof.
  intros A. assert (B : forall b u w, repr_byte q (b2z b) ++ u = q :: w -> False).
  { intros b u w E. unfold apart in A. rewrite forallb_forall in A. specialize (A _ (in_codes b)). apply andb_true_iff in A as [_ A].
    change (q :: w) with ([q] ++ w) in E. rewrite (prefix_app _ _ _ _ E) in A. discriminate. }
  revert l'. induction l as [|b l IH]; intros [|b' l'] E; cbn [map flat_map] in E; rewrite <- ?app_assoc in E.
  - split; [reflexivity|]. injection E. auto.
  - destruct (B b' _ _ (eq_sym E)).
  - destruct (B b _ _ E).
  - assert (C : b = b').
    { unfold apart in A. rewrite forallb_forall in A. specialize (A _ (in_codes b)). apply andb_true_iff in A as [A _].
      rewrite forallb_forall in A. specialize (A _ (in_codes b')). rewrite (prefix_app _ _ _ _ E), orb_false_r in A.
      apply Z.eqb_eq in A. apply b2z_inj, A. }
    subst b'. apply app_inv_head in E. destruct (IH _ E) as [-> ->]. auto.
Qed.
Lemma repr_bytes_inj b b' s t : repr_bytes b ++ s = repr_bytes b' ++ t -> b = b' /\ s = t.
Proof.
  unfold repr_bytes. cbv zeta. cbn [app]. intros E. injection E as Q E. rewrite <- Q in E. rewrite <- !app_assoc in E. cbn [app] in E.
  eapply repr_inj_in; [|exact E]. destruct (quote_two (map b2z b)) as [-> | ->]; apply apart_both.
Qed.

(** ** C98 *)
Lemma outgoing_header ds g : exists about, str_outgoing ds g = str_header ds (o_hdr (og_out g)) ++ py ", ctx=" ++ about.
Proof.
  unfold str_outgoing, str_request, str_response, str_envelope. destruct (og_request g); eexists; rewrite <- !app_assoc; reflexivity.
Qed.

(** Whatever arrives at a running host: if it sends a message for it, it logs, in this order, at
    INFO the header of the message that is sent and its number of bytes, and twice at DEBUG
    the bytes; if it sends nothing, it logs nothing of the kind. *)
Theorem C98_sent : forall U ev ds (ext : extension U) uuid raw h, running ev ext h ->
  match fst (on_input ev ext uuid raw h) with
  | Ok (Some d) =>
      exists hd t about, read_header d = Ok (hd, t) /\
        log_reply ev ds ext uuid raw h =
          [(INFO, py "> " ++ str_header ds hd ++ py ", ctx=" ++ about ++ py ", size=" ++ str_int (zlen d) ++ py " byte(s)");
           (DEBUG, py "> #" ++ repr_bytes d);
           (DEBUG, py "> #" ++ repr_bytes d ++ py ", size=" ++ str_int (zlen d) ++ py " byte(s)")]
  | _ => log_reply ev ds ext uuid raw h = []
  end.
Proof.
  intros U ev ds ext uuid raw h R. rewrite <- (says_ok U ev ds). unfold sends, log_reply.
  destruct (says_keeps U ev ds ext uuid raw h (running_prepared _ _ _ _ R)) as [K _].
  destruct (says ev ds ext uuid raw h) as [[[g|]|e] h']; cbn [fst]; [|reflexivity|reflexivity].
  destruct (K _ _ eq_refl _ eq_refl) as [C _]. unfold send, hbind, hlift, log_send.
  destruct (write_outbound (og_out g)) as [d|e] eqn:W; cbn [fst]; [|reflexivity].
  destruct (frame_written _ _ (constructed_inv _ C) W) as (Hok & hdr & cb & sz & Wh & _ & _ & _ & E & _).
  destruct (header_wire _ Hok) as (a1 & a2 & a3 & a4 & a5 & Wh' & _ & _ & _ & _ & _ & _ & _ & _ & _ & _ & Rh).
  rewrite Wh in Wh'. apply Ok_inj in Wh'. subst hdr. destruct (outgoing_header ds g) as [about A].
  exists (o_hdr (og_out g)). eexists. exists about. split; [rewrite E; apply Rh|].
  rewrite A, <- !app_assoc. reflexivity.
Qed.
Print Assumptions C98_sent.

(** The log determines what was received and what was sent: two hosts, in whatever state,
    that log the same received the same bytes and sent the same bytes. *)
Theorem C98_recovered : forall U U' ev ev' ds ds' (ext : extension U) (ext' : extension U') uuid uuid' raw raw' h h' d d',
  (log_chunk ev ds raw h = log_chunk ev' ds' raw' h' -> raw = raw') /\
  (fst (on_input ev ext uuid raw h) = Ok (Some d) -> fst (on_input ev' ext' uuid' raw' h') = Ok (Some d') ->
   log_reply ev ds ext uuid raw h = log_reply ev' ds' ext' uuid' raw' h' -> d = d').
Proof.
  intros U U' ev ev' ds ds' ext ext' uuid uuid' raw raw' h h' d d'. split.
  - unfold log_chunk. intros E. apply (f_equal (fun l => match l with (_, x) :: _ => x | [] => [] end)) in E.
    rewrite <- (app_nil_r (repr_bytes raw)), <- (app_nil_r (repr_bytes raw')) in E. apply repr_bytes_inj in E. tauto.
  - assert (L : forall V v w (x : extension V) u r k b, fst (on_input v x u r k) = Ok (Some b) -> exists y z, log_reply v w x u r k = [y; (DEBUG, py "> #" ++ repr_bytes b); z]).
    { clear. intros V v w x u r k b. rewrite <- (says_ok V v w). unfold sends, log_reply.
      destruct (says v w x u r k) as [[[g|]|e] k']; cbn [fst]; try discriminate. unfold send, hbind, hlift, log_send.
      destruct (write_outbound (og_out g)) as [d|e]; cbn [fst]; [|discriminate]. intros E. apply Ok_inj in E. injection E as ->. eauto. }
    intros H H' E. destruct (L _ _ ds _ _ _ _ _ H) as (y & z & E1). destruct (L _ _ ds' _ _ _ _ _ H') as (y' & z' & E2). rewrite E1, E2 in E.
    apply (f_equal (fun l => match l with [_; (_, x); _] => x | _ => [] end)) in E. apply app_inv_head in E.
    rewrite <- (app_nil_r (repr_bytes d)), <- (app_nil_r (repr_bytes d')) in E. apply repr_bytes_inj in E. tauto.
Qed.
Print Assumptions C98_recovered.

(** ** C99 *)

(** replies that differ at most in their content, of the same length *)
Definition same_but_content (a b : rest_response) : Prop :=
  rp_status a = rp_status b /\ rp_ctype a = rp_ctype b /\ rp_headers a = rp_headers b /\ rp_consumed a = rp_consumed b /\
  rp_content_consumed a = rp_content_consumed b /\ zlen (rp_content a) = zlen (rp_content b).
(** Extensions of the same name, interfaces and routes whose handlers, whenever their programs
    are in states related by [R], answer a request with replies that differ only in content
    (or raise the same) and stay related. *)
Definition alike_extensions {U U'} (R : U -> U' -> Prop) (x : extension U) (x' : extension U') : Prop :=
  xt_name x = xt_name x' /\ xt_interfaces x = xt_interfaces x' /\ xt_registry x = xt_registry x' /\
  forall n u u' q, R u u' ->
    R (fst (xt_invoke x n u q)) (fst (xt_invoke x' n u' q)) /\
    match snd (xt_invoke x n u q), snd (xt_invoke x' n u' q) with
    | Ok a, Ok b => same_but_content a b
    | Raise e, Raise e' => e = e'
    | _, _ => False
    end.
(** all that is logged while the host handles the chunks [l] *)
Fixpoint log_run {U} (ev : env) (ds : display) (ext : extension U) (h : host U) (l : list (bytes * bytes)) : list record :=
  match l with
  | [] => []
  | (uuid, raw) :: t =>
      log_chunk ev ds raw h ++ log_reply ev ds ext uuid raw h ++ log_run ev ds ext (snd (on_input ev ext uuid raw h)) t
  end.
(** the log if the level is INFO or higher *)
Definition above_debug (l : list record) : list record :=
  filter (fun r => match fst r with DEBUG => false | _ => true end) l.

Definition alike {U U'} (R : U -> U' -> Prop) (h : host U) (h' : host U') : Prop :=
  hs_next h = hs_next h' /\ hs_pending h = hs_pending h' /\ hs_init h = hs_init h' /\ hs_settings h = hs_settings h' /\
  R (hs_user h) (hs_user h').
Definition rel {U U' A A'} (R : U -> U' -> Prop) (P : A -> A' -> Prop) (m : hm U A) (m' : hm U' A') : Prop :=
  forall h h', alike R h h' -> alike R (snd (m h)) (snd (m' h')) /\
    match fst (m h), fst (m' h') with Ok a, Ok a' => P a a' | Raise e, Raise e' => e = e' | _, _ => False end.
Lemma rel_bind U U' R A A' B B' (P : A -> A' -> Prop) (Q : B -> B' -> Prop) (m : hm U A) (m' : hm U' A') k k' :
  rel R P m m' -> (forall a a', P a a' -> rel R Q (k a) (k' a')) -> rel R Q (hbind m k) (hbind m' k').
Proof.
  intros M K h h' H. specialize (M h h' H). unfold hbind. destruct (m h) as [[a|e] h1], (m' h') as [[a'|e'] h1']; cbn [fst snd] in *;
    destruct M as [M1 M2]; try contradiction.
  - apply (K a a' M2). exact M1.
  - auto.
Qed.
Lemma rel_lift U U' (R : U -> U' -> Prop) A (x : res A) : rel R eq (hlift x) (hlift x).
Proof. intros h h' H. cbn. split; [exact H|]. destruct x; reflexivity. Qed.
Lemma rel_ret U U' (R : U -> U' -> Prop) A A' (P : A -> A' -> Prop) a a' : P a a' -> rel R P (hret a) (hret a').
Proof. intros H h h' L. cbn. auto. Qed.
(** computations that draw ids *)
Definition irel {A A'} (P : A -> A' -> Prop) (m : idm A) (m' : idm A') : Prop :=
  forall n, snd (m n) = snd (m' n) /\ match fst (m n), fst (m' n) with Ok a, Ok a' => P a a' | Raise e, Raise e' => e = e' | _, _ => False end.
Lemma rel_ids U U' (R : U -> U' -> Prop) A A' (P : A -> A' -> Prop) (m : idm A) (m' : idm A') : irel P m m' -> rel R P (hids m) (hids m').
Proof.
  intros M h h' H. unfold hids. pose proof H as (N & H2). rewrite <- N. specialize (M (hs_next h)).
  destruct (m (hs_next h)) as [r n], (m' (hs_next h)) as [r' n']. cbn [fst snd] in *. destruct M as [-> M].
  split; [|exact M]. split; [reflexivity|exact H2].
Qed.
Lemma irel_eq A (m : idm A) : irel eq m m.
Proof. intros n. split; [reflexivity|]. destruct (fst (m n)); reflexivity. Qed.
Lemma irel_bind A A' B B' (P : A -> A' -> Prop) (Q : B -> B' -> Prop) (m : idm A) (m' : idm A') k k' :
  irel P m m' -> (forall a a', P a a' -> irel Q (k a) (k' a')) -> irel Q (ibind m k) (ibind m' k').
Proof.
  intros M K n. specialize (M n). unfold ibind. destruct (m n) as [[a|e] n1], (m' n) as [[a'|e'] n1']; cbn [fst snd] in *;
    destruct M as [-> M2]; try contradiction.
  - apply (K a a' M2).
  - auto.
Qed.
Lemma irel_ret A A' (P : A -> A' -> Prop) a a' : P a a' -> irel P (iret a) (iret a').
Proof. intros H n. cbn. auto. Qed.
(** results of the same size *)
Definition sized (r r' : res bytes) : Prop :=
  match r, r' with Ok b, Ok b' => zlen b = zlen b' | Raise e, Raise e' => e = e' | _, _ => False end.
Lemma sized_refl r : sized r r. Proof. destruct r; reflexivity. Qed.
Lemma wcat_sized l l' : Forall2 sized l l' -> sized (wcat l) (wcat l').
Proof.
  induction 1 as [|r r' l l' H _ IH]; [reflexivity|]. cbn [wcat]. unfold bind. destruct r as [b|e], r' as [b'|e']; cbn [sized] in H; try contradiction; [|exact H].
  destruct (wcat l) as [c|e], (wcat l') as [c'|e']; cbn [sized] in IH; try contradiction; [|exact IH].
  cbn [sized]. rewrite !zlen_app. lia.
Qed.
(** messages that differ at most in their payload, of the same length *)
Definition same_shape (o o' : outbound) : Prop :=
  o_hdr o = o_hdr o' /\ o_ctx o = o_ctx o' /\ o_var o = o_var o' /\ o_features o = o_features o' /\ o_action o = o_action o' /\
  opt_len (o_msg o) = opt_len (o_msg o').
Lemma same_shape_refl o : same_shape o o. Proof. repeat split. Qed.
Lemma shape_sized o o' : same_shape o o' -> sized (write_outbound o) (write_outbound o').
Proof.
  intros (E1 & E2 & E3 & _ & _ & E4). unfold write_outbound. rewrite E1, E2, E3. apply wcat_sized.
  repeat (constructor; [apply sized_refl|]). constructor; [|constructor]. cbn [sized].
  destruct (o_msg o), (o_msg o'); cbn [opt_len] in E4; change (zlen (@nil byte)) with 0; congruence.
Qed.
Lemma reply_shape req r r' : sized r r' -> irel same_shape (reply_to req r) (reply_to req r').
Proof.
  intros S. unfold reply_to, new_response. cbv zeta. eapply irel_bind.
  - unfold new_outbound. eapply irel_bind; [apply irel_eq|]. intros h ? <-. eapply irel_bind; [apply irel_eq|]. intros sz ? <-.
    eapply irel_bind with (P := fun b b' : option bytes => opt_len b = opt_len b').
    + intros n. unfold ibind, ilift. destruct r as [b|e], r' as [b'|e']; cbn in S |- *; try contradiction; auto.
    + intros b b' E. apply irel_ret with (P := same_shape). rewrite E. repeat split. exact E.
  - intros o o' (E1 & E2 & E3 & E4 & E5 & E6). apply irel_ret.
    destruct (set_flags_fields o (is_handshake (o_hdr req)) (is_compress (o_hdr req))) as (_ & _ & _ & _ & _ & F6 & F7 & F8 & F9 & F10).
    unfold set_flags, with_hdr. rewrite E1. repeat split; cbn [o_ctx o_var o_features o_action o_msg]; assumption.
Qed.
Definition same_outgoing (x x' : option outgoing) : Prop :=
  match x, x' with
  | Some g, Some g' => same_shape (og_out g) (og_out g') /\ og_request g = og_request g' /\ og_text g = og_text g'
  | None, None => True
  | _, _ => False
  end.
Lemma same_outgoing_refl x : same_outgoing x x.
Proof. destruct x; cbn; auto. split; [apply same_shape_refl|auto]. Qed.
Lemma rel_responds U U' (R : U -> U' -> Prop) o o' txt : same_shape o o' -> rel R same_outgoing (responds o txt) (responds o' txt).
Proof. intros H. apply rel_ret. cbn. auto. Qed.
Lemma rel_requests U U' (R : U -> U' -> Prop) o : rel R same_outgoing (requests o) (requests o).
Proof. apply rel_ret, same_outgoing_refl. Qed.
Ltac rb := eapply rel_bind; [first [apply rel_lift|apply rel_ids, irel_eq]|intros ? ? <-].
Lemma rel_request U U' (R : U -> U' -> Prop) ev ds (x : extension U) (x' : extension U') uuid o p : alike_extensions R x x' ->
  rel R same_outgoing (says_request ev ds x uuid o p) (says_request ev ds x' uuid o p).
Proof.
  intros (E1 & E2 & E3 & X). unfold says_request. cbv zeta.
  assert (Rf : forall o txt, rel R same_outgoing (responds o txt) (responds o txt)) by (intros; apply rel_responds, same_shape_refl).
  destruct (streqb _ A_DISCOVERY); [|destruct (streqb _ A_REST); [|destruct (streqb _ A_TCP); [|destruct (streqb _ A_TRANSPORT)]]].
  - unfold says_discovery. rewrite E1, E2, E3. rb. rb.
    eapply rel_bind with (P := eq); [|intros ? ? _]. { intros h h' (H1 & H2 & H3 & H4 & H5). cbn. repeat split; assumption. }
    rb. rb. eapply rel_bind with (P := eq); [|intros ? ? _]. { intros h h' (H1 & H2 & H3 & H4 & H5). cbn. rewrite H2. repeat split; assumption. }
    rb. rb. eapply rel_bind with (P := eq); [|intros ? ? _]. { intros h h' (H1 & H2 & H3 & H4 & H5). cbn. rewrite H2. repeat split; assumption. }
    apply rel_requests.
  - unfold says_rest. rewrite E3. rb. rb. rb. eapply rel_bind with (P := same_but_content).
    + intros h h' (H1 & H2 & H3 & H4 & H5). unfold call_user. match goal with |- context [xt_invoke x ?n _ ?q] => specialize (X n _ _ q H5) end.
      destruct (xt_invoke x _ _ _) as [u r], (xt_invoke x' _ _ _) as [u' r']. cbn [fst snd] in *. destruct X as [X1 X2].
      split; [repeat split; assumption|exact X2].
    + intros r1 r2 (S1 & S2 & S3 & S4 & S5 & S6). eapply rel_bind; [apply rel_ids, reply_shape|].
      * unfold write_exec_response, exec_of. cbn [ex_status ex_ctype ex_content ex_headers ex_consumed ex_content_consumed].
        rewrite S1, S2, S3, S4, S5, S6. apply wcat_sized. repeat (constructor; [first [apply sized_refl|exact S6]|]). constructor.
      * intros o1 o2 S. unfold str_exec, exec_of. cbn [ex_status ex_ctype ex_content ex_headers]. rewrite S1, S2, S3, S6. apply rel_responds, S.
  - unfold says_tcp_handshake. rb. rb. apply Rf.
  - unfold says_transport_handshake. rb. rb. apply Rf.
  - unfold says_not_found. rb. rb. apply Rf.
Qed.
Lemma rel_response U U' (R : U -> U' -> Prop) ev ds (x : extension U) (x' : extension U') k p : alike_extensions R x x' ->
  rel R same_outgoing (says_response ev ds x k p) (says_response ev ds x' k p).
Proof.
  intros (E1 & E2 & _) h h' H. pose proof H as (H1 & H2 & H3 & H4 & H5). unfold says_response. rewrite <- H2.
  destruct (dict_get _ _ _) as [[o|]|].
  - cbv zeta. assert (H' : alike R (set_pending h (dict_del Z.eqb k (hs_pending h))) (set_pending h' (dict_del Z.eqb k (hs_pending h)))) by (repeat split; assumption).
    revert H'. generalize (set_pending h (dict_del Z.eqb k (hs_pending h))). generalize (set_pending h' (dict_del Z.eqb k (hs_pending h))).
    intros g' g G. revert g g' G. fold (rel R same_outgoing (says_register o p) (says_register (U := U') o p)).
    unfold says_register. rb. destruct (fst a); [apply rel_requests|apply rel_ret; exact I].
  - cbv zeta. unfold says_env. cbn [hs_settings set_pending]. rewrite <- H4. destruct (read_settings _ _ _) as [[s|e] d].
    + cbn [hs_init set_settings set_pending]. rewrite <- H3, E1, E2. destruct (hs_init h) as [o|] eqn:Hi.
      * apply rel_responds; [apply same_shape_refl|]. split; [exact H1|]. split; [reflexivity|]. split; [cbn; congruence|]. split; [reflexivity|exact H5].
      * cbn. repeat split; cbn; congruence.
    + cbn. repeat split; assumption.
  - cbn. split; [exact H|exact I].
Qed.
Lemma rel_says U U' (R : U -> U' -> Prop) ev ds (x : extension U) (x' : extension U') uuid raw : alike_extensions R x x' ->
  rel R same_outgoing (says ev ds x uuid raw) (says ev ds x' uuid raw).
Proof.
  intros X. unfold says. rb. rb. destruct a0 as [hd rest]. destruct (is_request hd); rb; rb.
  - apply rel_request, X.
  - destruct (is_error hd); [apply rel_ret; exact I|]. apply rel_response, X.
Qed.
Lemma log_chunk_alike U U' (R : U -> U' -> Prop) ev ds raw (h : host U) (h' : host U') : alike R h h' -> log_chunk ev ds raw h = log_chunk ev ds raw h'.
Proof.
  intros (H1 & H2 & H3 & H4 & _). unfold log_chunk, log_input, log_response. rewrite H1, H2, H4. reflexivity.
Qed.
Lemma log_send_shape ds g g' : same_outgoing (Some g) (Some g') -> above_debug (log_send ds g) = above_debug (log_send ds g').
Proof.
  intros (S & Q & T). pose proof (shape_sized _ _ S) as W. unfold log_send.
  destruct (write_outbound (og_out g)) as [b|e], (write_outbound (og_out g')) as [b'|e']; cbn [sized] in W; try contradiction; [|reflexivity].
  unfold above_debug. cbn [filter fst]. f_equal. f_equal. f_equal. destruct S as (S1 & S2 & _ & S4 & S5 & _).
  unfold str_outgoing, str_request, str_response, str_envelope. rewrite Q, T, S1, S2, S4, S5, W. reflexivity.
Qed.
Lemma sends_alike U U' (R : U -> U' -> Prop) (m : hm U (option outgoing)) (m' : hm U' (option outgoing)) :
  rel R same_outgoing m m' -> forall h h', alike R h h' -> alike R (snd (sends m h)) (snd (sends m' h')).
Proof.
  intros M h h' H. destruct (M h h' H) as [A B]. unfold sends. destruct (m h) as [[[g|]|e] k], (m' h') as [[[g'|]|e'] k']; cbn [fst snd same_outgoing] in *; try contradiction; rewrite ?send_state; auto.
Qed.
Lemma above_app x y : above_debug (x ++ y) = above_debug x ++ above_debug y.
Proof. apply filter_app. Qed.

(** What the host logs above DEBUG while it handles any sequence of chunks is the same whatever
    the contents of the replies, their lengths given. *)
Theorem C99_content : forall U U' (R : U -> U' -> Prop) ev ds (x : extension U) (x' : extension U') u u' l,
  alike_extensions R x x' -> R u u' ->
  above_debug (log_run ev ds x (initial_host u) l) = above_debug (log_run ev ds x' (initial_host u') l).
Proof.
  intros U U' R ev ds x x' u u' l X Hu.
  assert (H : alike R (initial_host u) (initial_host u')) by (repeat split; exact Hu). revert H.
  generalize (initial_host u) (initial_host u'). induction l as [|[uuid raw] l IH]; intros h h' H; [reflexivity|].
  cbn [log_run]. rewrite !above_app. pose proof (rel_says U U' R ev ds x x' uuid raw X) as S. f_equal; [|f_equal].
  - rewrite (log_chunk_alike U U' R ev ds raw h h' H). reflexivity.
  - destruct (S h h' H) as [_ B]. unfold log_reply.
    destruct (fst (says ev ds x uuid raw h)) as [[g|]|e], (fst (says ev ds x' uuid raw h')) as [[g'|]|e']; cbn [same_outgoing] in B; try contradiction; try reflexivity.
    apply log_send_shape. exact B.
  - apply IH. pose proof (sends_alike U U' R _ _ S h h' H) as A. rewrite !says_ok in A. exact A.
Qed.
Print Assumptions C99_content.

Lemma says_on_request U ev ds (ext : extension U) raw m : read_as (e_so ev) raw m ->
  exists o, seen m o /\ forall uuid h, says ev ds ext uuid raw h = says_request ev ds ext uuid o (m_payload m) (set_next h (hs_next h + 2)).
Proof.
  intros (hd & t & n & o0 & n' & o & Rh & Eq & En & Ro & C & F & V & A & Id & Hs & Cp).
  rewrite new_blank_request in En. apply pair_equal_spec in En as [En _]. apply Ok_inj in En. subst o0.
  assert (Eh : o_hdr o = hd).
  { unfold read_outbound in Ro. apply rbind_ok in Ro as (c & s1 & _ & Ro). destruct (0 <? h_vhs hd).
    - apply rbind_ok in Ro as (z & s2 & _ & Ro). apply rbind_ok in Ro as (vb & s3 & _ & Ro).
      apply rbind_ok in Ro as (fa & s4 & _ & Ro). apply Ok_inj, pair_equal_spec in Ro as [<- _]. reflexivity.
    - apply Ok_inj, pair_equal_spec in Ro as [<- _]. reflexivity. }
  exists o. split; [repeat split; congruence|]. intros uuid h. unfold says.
  rewrite (hbind_hids default_header _ h (mkHeader ES 17 (hs_next h) 0 (HInt CURRENT) 0) (hs_next h + 1) eq_refl).
  rewrite Rh, hbind_hlift, Eq. rewrite (hbind_hids _ _ _ _ _ (new_blank_request _)).
  rewrite (blank_req _ n), Ro, hbind_hlift. cbn [fst snd]. rewrite set_next_next. cbn [hs_next set_next]. f_equal. f_equal. lia.
Qed.
Lemma name_at l name v : (fix go (l : list pystr) (i : Z) : option Z :=
     match l with [] => None | x :: t => if streqb name x then Some i else go t (i + 1) end) l v = None \/
  exists k, (fix go (l : list pystr) (i : Z) : option Z :=
     match l with [] => None | x :: t => if streqb name x then Some i else go t (i + 1) end) l v = Some (v + Z.of_nat k) /\ nth k l [] = name.
Proof.
  revert v. induction l as [|x l IH]; intros v; [left; reflexivity|]. destruct (streqb name x) eqn:E.
  - right. exists O. apply streqb_eq in E. split; [f_equal; lia|cbn; congruence].
  - destruct (IH (v + 1)) as [H|(k & H & N)]; [left; exact H|]. right. exists (S k). rewrite H. split; [f_equal; lia|exact N].
Qed.
Lemma status_name name v : status_value name = Some v -> str_status (Some v) = py "RestStatus." ++ name.
Proof.
  unfold status_value. destruct (name_at status_names name 0) as [H|(k & H & N)]; rewrite H; [discriminate|].
  intros E. assert (v = Z.of_nat k) as -> by (injection E; lia). cbn [str_status]. rewrite Nat2Z.id, N. reflexivity.
Qed.

(** Of a REST reply the log tells at INFO the name of its status, its media type, its headers
    and the length of its content. *)
Theorem C99_described : forall U ev ds (ext : extension U) uuid raw m h q t d,
  read_as (e_so ev) raw m ->
  m_action m = py "internal:extensions/restexecuteonextensiontaction" -> read_rest_request (m_payload m) = Ok (q, t) ->
  fst (on_input ev ext uuid raw h) = Ok (Some d) ->
  exists method n a, method_name (rq_method q) = Ok method /\
    find_handler (e_cls ev) (rg_map (xt_registry ext)) (method ++ py " " ++ rq_path q) = Ok n /\
    snd (xt_invoke ext n (hs_user h) q) = Ok a /\
    forall status, rp_status a = status_value status -> exists before after rest,
    log_reply ev ds ext uuid raw h =
      (INFO, before ++ py "status=RestStatus." ++ status ++ py ", content_type=" ++ rp_ctype a
        ++ py ", headers=" ++ repr_dict ds (fun l => repr_list (map (repr_str ds) l)) (rp_headers a)
        ++ py ", content=" ++ str_int (zlen (rp_content a)) ++ py " byte(s)" ++ after) :: rest.
Proof.
  intros U ev ds ext uuid raw m h q t d Hm A Rq. rewrite <- (says_ok U ev ds). unfold log_reply, sends.
  destruct (says_on_request U ev ds ext raw m Hm) as (o & S & ->). pose proof (seen_action _ _ S) as Ea. rewrite A in Ea.
  unfold says_request. rewrite Ea. change (streqb _ A_DISCOVERY) with false. change (streqb _ A_REST) with true. cbn [andb].
  unfold says_rest. rewrite Rq, hbind_hlift. cbn [fst]. destruct (method_name (rq_method q)) as [mn|e]; [|discriminate].
  rewrite hbind_hlift. destruct (find_handler _ _ _) as [n|e] eqn:Fh; [|discriminate]. rewrite hbind_hlift.
  unfold hbind, call_user, hids, responds, hret. cbn [hs_user set_next]. destruct (xt_invoke ext n (hs_user h) q) as [u [a|e]] eqn:X; [|discriminate].
  destruct (reply_to _ _ _) as [[o'|e] n'] eqn:Er; [|discriminate]. cbn [fst snd og_out].
  unfold send, hbind, hlift, log_send. cbn [og_out]. destruct (write_outbound o') as [b|e]; [|discriminate]. intros _.
  exists mn, n, a. split; [reflexivity|]. split; [exact Fh|]. split; [rewrite X; reflexivity|]. intros status Es.
  destruct (status_value status) as [v|] eqn:Ev.
  - unfold str_outgoing. cbn [og_request og_text og_out]. unfold str_response, str_envelope, str_exec, exec_of.
    cbn [ex_status ex_ctype ex_content ex_headers]. rewrite Es, (status_name _ _ Ev).
    exists (py "> " ++ str_header ds (o_hdr o') ++ py ", ctx=" ++ str_ctx ds (o_ctx o') ++ py ", "). eexists _, _.
    rewrite <- !app_assoc. reflexivity.
  - exfalso. unfold reply_to, write_exec_response, exec_of in Er. cbn [ex_status] in Er. rewrite Es in Er.
    change (wcat (write_opt_enum None :: _)) with (@Raise bytes EAttr) in Er. unfold new_response, ibind, new_outbound, ibind in Er.
    destruct (new_header _ _ _ _ _ _ _) as [[hh|?] ?]; [|discriminate]. unfold ilift in Er. destruct (ctx_size _); discriminate.
Qed.
Print Assumptions C99_described.

(** ** C100 *)
Definition gives {U A} (P : A -> Prop) (m : hm U A) : Prop := forall h a h', m h = (Ok a, h') -> P a.
Lemma gives_bind U A B (P : A -> Prop) (Q : B -> Prop) (m : hm U A) k : gives P m -> (forall a, P a -> gives Q (k a)) -> gives Q (hbind m k).
Proof. intros M K h b h' E. apply hbind_inv in E as (a & h1 & E1 & E2). exact (K a (M _ _ _ E1) _ _ _ E2). Qed.
Lemma gives_any U A (m : hm U A) : gives (fun _ => True) m. Proof. intros h a h' _. exact I. Qed.
Lemma gives_ret U A (P : A -> Prop) a : P a -> gives (U := U) P (hret a).
Proof. intros H h b h' E. unfold hret in E. apply pair_equal_spec in E as [E _]. apply Ok_inj in E. subst. exact H. Qed.
Definition tidy (x : option outgoing) : Prop := forall g, x = Some g -> one_line (og_text g).
Lemma gives_responds U o txt : one_line txt -> gives (U := U) tidy (responds o txt).
Proof. intros H. apply gives_ret. intros g E. injection E as <-. exact H. Qed.
Lemma gives_requests U o : gives (U := U) tidy (requests o).
Proof. apply gives_ret. intros g E. injection E as <-. cbn [og_text]. lit. Qed.
Lemma one_status st : one_line (str_status st).
Proof.
  destruct st as [v|]; [|lit]. cbn [str_status]. apply one_app. split; [lit|]. apply one_nth.
  apply Forall_forall. intros x I. apply one_lineb_ok. revert x I. apply forallb_forall. vm_compute. reflexivity.
Qed.
Lemma one_exec ds r : display_ok ds -> one_line (ex_ctype r) -> one_line (str_exec ds r).
Proof.
  intros D H. unfold str_exec. ol D; [apply one_status|]. apply one_repr_dict; [exact D|]. intros v. ol D.
Qed.
Ltac gb := eapply gives_bind; [apply gives_any|intros ? _].
Lemma says_tidy U ev ds (ext : extension U) uuid raw : display_ok ds -> one_line (xt_name ext) ->
  (forall n u q u' a, xt_invoke ext n u q = (u', Ok a) -> one_line (rp_ctype a)) -> gives tidy (says ev ds ext uuid raw).
Proof.
  intros D N X. assert (E0 : forall r, gives (U := U) tidy (fun h => (Ok None, h)) /\ gives (U := U) tidy (fun h => (Raise r, h))).
  { intros r. split; intros h a h' E; apply pair_equal_spec in E as [E _]; [|discriminate]. apply Ok_inj in E. subst a. intros g E. discriminate. }
  unfold says. gb. gb. destruct a0 as [hd rest]. destruct (is_request hd); gb; gb.
  - unfold says_request. cbv zeta.
    destruct (streqb _ A_DISCOVERY); [|destruct (streqb _ A_REST); [|destruct (streqb _ A_TCP); [|destruct (streqb _ A_TRANSPORT)]]].
    + unfold says_discovery. do 9 gb. apply gives_requests.
    + unfold says_rest. do 3 gb. eapply gives_bind with (P := fun a => one_line (rp_ctype a)).
      { intros h b h' E. unfold call_user in E. destruct (xt_invoke ext _ _ _) as [u r] eqn:Ex. apply pair_equal_spec in E as [-> _]. exact (X _ _ _ _ _ Ex). }
      intros r Hr. gb. apply gives_responds, one_exec; assumption.
    + unfold says_tcp_handshake. do 2 gb. apply gives_responds. lit.
    + unfold says_transport_handshake. do 2 gb. apply gives_responds. unfold str_handshake_response.
      apply one_app. split; [|lit]. apply one_node_with; [exact D| |].
      * apply one_repr_set, one_map. intros r. apply one_role, D.
      * repeat constructor; cbn [own_node new_node n_id n_name n_host n_hostaddr]; lit.
    + unfold says_not_found. do 2 gb. apply gives_responds, one_exec; [exact D|cbn [ex_ctype]; lit].
  - destruct (is_error hd); [apply (E0 EGeneric)|]. unfold says_response. intros h a2 h'.
    destruct (dict_get _ _ _) as [[o|]|].
    + cbv zeta. unfold says_register. intros E. apply hbind_inv in E as (r & h1 & _ & E). destruct (fst r).
      * exact (gives_requests _ _ _ _ _ E).
      * exact (proj1 (E0 EGeneric) _ _ _ E).
    + cbv zeta. unfold says_env. destruct (read_settings _ _ _) as [[s|e] d]; [|discriminate].
      destruct (hs_init _) as [o|]; [|discriminate]. intros E. revert E. apply gives_responds. unfold str_init_response. cbn [is_name is_interfaces]. ol D.
    + apply (E0 EGeneric).
Qed.

(** If the extension's name and the media types its handlers choose have no line breaks, every
    record about what is sent is one line, whatever peers send and have sent before. *)
Theorem C100_lines : forall U ev ds (ext : extension U) uuid raw h, display_ok ds -> running ev ext h ->
  one_line (xt_name ext) -> (forall n u q u' a, xt_invoke ext n u q = (u', Ok a) -> one_line (rp_ctype a)) ->
  forall l x, In (l, x) (log_reply ev ds ext uuid raw h) -> one_line x.
Proof.
  intros U ev ds ext uuid raw h D R N X l x. unfold log_reply.
  destruct (says_keeps U ev ds ext uuid raw h (running_prepared _ _ _ _ R)) as [K _].
  pose proof (says_tidy U ev ds ext uuid raw D N X h) as T.
  destruct (says ev ds ext uuid raw h) as [[[g|]|e] h']; cbn [fst]; [|intros []|intros []].
  destruct (K _ _ eq_refl _ eq_refl) as [_ A]. specialize (T _ _ eq_refl _ eq_refl). unfold log_send.
  destruct (write_outbound (og_out g)) as [d|e]; [|intros []].
  intros [E|[E|[E|[]]]]; apply pair_equal_spec in E as [_ <-]; ol D.
  unfold str_outgoing. destruct (og_request g).
  - apply one_request_with; [exact D|exact T|]. destruct (A eq_refl) as [<-|[<-|[]]]; lit.
  - apply one_response_with; assumption.
Qed.
Print Assumptions C100_lines.

(** what the host logs at INFO about the reply of the example, and that the same is logged if
    the handler says something else of the same length *)
Definition ex_other : extension Z :=
  mkExtn Z (xt_name ex_ext) (xt_interfaces ex_ext) (xt_registry ex_ext)
    (fun n u q => (u + 1, if streqb (rq_path q) (py "/hello/x") then Raise EGeneric
       else Ok (mkResp (Some 2) (map z2b (py "secret")) (py "text/plain") [(py "h", [py "1"; py "2"])] [py "p"] true))).
Definition ex_sent : pystr := py "> prefix=b'ES', version=7.9.99.99, type=['response'], message=73 byte(s), id=9, ctx=req={'tenant': 't1'}, res={'Warning': {'a', 'b'}}, status=RestStatus.OK, content_type=text/plain, headers={'h': ['1', '2']}, content=6 byte(s), features=['feature'], size=79 byte(s)".
Example C98_case : running ex_env ex_ext (initial_host 0) /\ display_ok ex_ds /\
  let raw := ex_raw (ex_rest_msg (py "/hello/you")) in
  (exists d, fst (on_input ex_env ex_ext [] raw (initial_host 0)) = Ok (Some d) /\ zlen d = 79) /\
  above_debug (log_reply ex_env ex_ds ex_ext [] raw (initial_host 0)) = [(INFO, ex_sent)] /\
  alike_extensions eq ex_ext ex_other /\ snd (xt_invoke ex_ext 0 0 (ex_rest [])) <> snd (xt_invoke ex_other 0 0 (ex_rest [])) /\
  above_debug (log_reply ex_env ex_ds ex_other [] raw (initial_host 0)) = [(INFO, ex_sent)] /\
  one_line (xt_name ex_ext) /\ (forall n u q u' a, xt_invoke ex_ext n u q = (u', Ok a) -> one_line (rp_ctype a)).
Proof.
  split; [exists 0, []; reflexivity|]. split; [exact ex_ds_ok|]. cbv zeta.
  split; [eexists; split; vm_compute; reflexivity|]. split; [vm_compute; reflexivity|].
  split. { split; [reflexivity|]. split; [reflexivity|]. split; [reflexivity|]. intros n u ? q <-. cbn [ex_ext ex_other xt_invoke fst snd].
    split; [reflexivity|]. destruct (streqb _ _); [reflexivity|]. repeat split. }
  split; [vm_compute; discriminate|]. split; [vm_compute; reflexivity|]. split; [lit|].
  intros n u q u' a. cbn [ex_ext xt_invoke]. destruct (streqb _ _); intros E; apply pair_equal_spec in E as [_ E]; [discriminate|].
  apply Ok_inj in E. subst a. lit.
Qed.
