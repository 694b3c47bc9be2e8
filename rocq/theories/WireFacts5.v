(** * One strict encoding per value; frames *)
From Coq Require Import ZArith List Bool Lia ZifyBool Permutation.
From Coq Require Import Strings.Byte.
From Verif Require Import Py Stream Version Frame Proto Messages Rest Settings PyFacts Utf8Facts
  StreamFacts StreamFacts2 Spec SpecFacts VersionFacts FrameFacts Wire MsgFacts ProtoFacts RestFacts SettingsFacts
  WireFacts WireFacts2 WireFacts3 WireFacts4.
Import ListNotations.
Open Scope list_scope.
Open Scope Z_scope.
Ltac Zify.zify_post_hook ::= Z.to_euclidean_division_equations.

(** ** at most one encoding *)
Lemma parts_single l : Forall single l -> single (parts l).
Proof.
  induction 1 as [|P l HP _ IH]; intros a b Ha Hb.
  - apply parts_nil_inv in Ha, Hb. congruence.
  - apply parts_cons_inv in Ha as (a1 & a2 & -> & H1 & H2). apply parts_cons_inv in Hb as (b1 & b2 & -> & H3 & H4).
    rewrite (HP _ _ H1 H3), (IH _ _ H2 H4). reflexivity.
Qed.
Lemma exactly_single x : single (exactly x). Proof. intros a b Ha Hb. unfold exactly in *. congruence. Qed.
Lemma leb_zero bs : leb128 bs 0 -> last bs x00 = x00.
Proof.
  remember 0 as z eqn:Ez. intros H. revert Ez. induction H as [b Hb|b bs i Hb H IH]; intros Ez.
  - cbn. apply b2z_inj. rewrite Ez. reflexivity.
  - pose proof (leb128_range _ _ H). pose proof (leb128_nonempty _ _ H). pose proof (b2z_range b). assert (i = 0) by lia. subst i.
    destruct bs; [contradiction|]. exact (IH eq_refl).
Qed.
Lemma shortest_cons b bs : bs <> [] -> shortest (b :: bs) -> last bs x00 <> x00.
Proof.
  intros N S E. destruct bs as [|c bs]; [contradiction|].
  specialize (S E). rewrite !zlen_cons in S. pose proof (zlen_nonneg _ bs). lia.
Qed.
Lemma leb_single i : single (fun bs => leb128 bs i /\ shortest bs).
Proof.
  intros a b [Ha Sa] [Hb Sb]. revert b Hb Sa Sb. induction Ha as [x Hx|x bs i Hx Ha IH]; intros b Hb Sa Sb.
  - remember (b2z x) as z eqn:Ez. destruct Hb as [y Hy|y b i Hy Hb].
    + f_equal. apply b2z_inj. congruence.
    + exfalso. pose proof (leb128_range _ _ Hb). pose proof (b2z_range y). assert (i = 0) by lia. subst i.
      apply leb_zero in Hb as Hz. apply shortest_cons in Sb; [|apply leb128_nonempty in Hb; exact Hb]. contradiction.
  - remember (b2z x - 128 + 128 * i) as z eqn:Ez. destruct Hb as [y Hy|y b j Hy Hb].
    + exfalso. pose proof (leb128_range _ _ Ha). pose proof (b2z_range x). assert (i = 0) by lia. subst i.
      apply leb_zero in Ha as Hz. apply shortest_cons in Sa; [|apply leb128_nonempty in Ha; exact Ha]. contradiction.
    + pose proof (b2z_range x). pose proof (b2z_range y). assert (j = i) by lia. subst j.
      f_equal; [apply b2z_inj; lia|]. apply IH; [exact Hb| |].
      * intros E. apply shortest_cons in Sa; [contradiction|apply leb128_nonempty in Ha; exact Ha].
      * intros E. apply shortest_cons in Sb; [contradiction|apply leb128_nonempty in Hb; exact Hb].
Qed.
Lemma vint_single i : single (w_vint true i).
Proof. intros a b (H1 & _ & H2) (H3 & _ & H4). apply (leb_single i); split; assumption. Qed.
Lemma vlong_single i : single (w_vlong true i).
Proof. intros a b (H1 & _ & _ & H2) (H3 & _ & _ & H4). apply (leb_single i); split; assumption. Qed.
Lemma be_value_inj a b : zlen a = zlen b -> be_value a = be_value b -> a = b.
Proof.
  intros L E. rewrite !be_from in E. rewrite <- (be_from_bytes a), <- (be_from_bytes b).
  replace (length b) with (length a) by (unfold zlen in L; lia). congruence.
Qed.
Lemma signed_single n i : single (w_signed n i).
Proof. intros a b (H1 & _ & H2) (H3 & _ & H4). apply be_value_inj; congruence. Qed.
Lemma unsigned_single n i : single (w_unsigned n i).
Proof. intros a b (H1 & H2) (H3 & H4). apply be_value_inj; congruence. Qed.
Lemma bool_single x : single (w_bool x). Proof. intros a b Ha Hb. unfold w_bool in *. congruence. Qed.
Lemma bytes_single x : single (w_bytes true x).
Proof.
  intros a b [_ Ha] [_ Hb]. revert a b Ha Hb. apply parts_single.
  constructor; [apply vint_single|]. constructor; [apply exactly_single|constructor].
Qed.
Lemma string_single x : single (w_string true x).
Proof.
  intros a b (e & He & Ha) (e' & He' & Hb). apply is_utf8_encode in He, He'.
  assert (e' = e) by congruence. subst e'. revert Ha Hb. apply bytes_single.
Qed.
Lemma map_single A (F : fmt A) l : (forall a, single (F a)) -> Forall single (map F l).
Proof. intros H. apply Forall_map, Forall_forall. intros; apply H. Qed.
Lemma list_single A (F : fmt A) l : (forall a, single (F a)) -> single (w_list true F l).
Proof. intros H. apply parts_single. constructor; [apply vint_single|apply map_single, H]. Qed.
Lemma strings_single l : single (w_strings true l).
Proof. intros a b [_ Ha] [_ Hb]. revert Ha Hb. apply list_single, string_single. Qed.
Lemma dict_single V (F : fmt V) d : (forall a, single (F a)) -> single (w_dict true F d).
Proof.
  intros H a b (l & _ & -> & Ha) (l' & _ & -> & Hb). revert Ha Hb. apply list_single. intros kv.
  apply parts_single. constructor; [apply string_single|]. constructor; [apply H|constructor].
Qed.

(** what a format encodes fits *)
Lemma vint_range strict i bs : w_vint strict i bs -> 0 <= i < 2 ^ 35.
Proof.
  intros (H & L & _). apply leb128_range in H. split; [apply H|]. eapply Z.lt_le_trans; [apply H|].
  change (2 ^ 35) with (128 ^ 5). apply Z.pow_le_mono_r; lia.
Qed.
Lemma string_text strict x bs : w_string strict x bs -> text_ok x.
Proof. intros (e & He & H & _). exists e. split; assumption. Qed.
Lemma parts_forall A (F : fmt A) (P : A -> Prop) l bs : (forall a b, F a b -> P a) -> parts (map F l) bs -> Forall P l.
Proof.
  intros H. revert bs. induction l as [|a l IH]; intros bs Hb; [constructor|].
  apply parts_cons_inv in Hb as (x & y & -> & H1 & H2). constructor; [eapply H, H1|eapply IH, H2].
Qed.
Lemma list_fits strict A (F : fmt A) (P : A -> Prop) l bs : (forall a b, F a b -> P a) -> w_list strict F l bs ->
  zlen l < 2 ^ 35 /\ Forall P l.
Proof.
  intros H Hb. apply parts_cons_inv in Hb as (x & y & -> & H1 & H2). split; [apply vint_range in H1; lia|].
  eapply parts_forall; eassumption.
Qed.
Lemma strings_texts strict l bs : w_strings strict l bs -> texts_ok l.
Proof.
  intros [Hl H]. split; [exact Hl|]. eapply (list_fits strict _ _ text_ok) in H; [apply H|]. intros a b. apply string_text.
Qed.
Lemma dict_fits V (F : fmt V) (P : V -> Prop) d bs : (forall a b, F a b -> P a) -> w_dict true F d bs -> dict_ok P d.
Proof.
  intros H (l & Hd & -> & Hb). apply dict_from_nodup in Hd.
  eapply (list_fits true _ _ (fun kv => text_ok (fst kv) /\ P (snd kv))) in Hb as [H1 H2].
  - split; [exact H1|]. split; [exact Hd|exact H2].
  - intros [k v] b Hkv. apply parts_cons_inv in Hkv as (x & y & -> & Hk & Hv). apply parts_cons_inv in Hv as (z & w & -> & Hv & _).
    split; [eapply string_text, Hk|eapply H, Hv].
Qed.

(** ** written exactly so *)
Lemma written A (w : A -> res bytes) F P a bs : writes w F P -> single (F a) -> P a -> F a bs -> w a = Ok bs.
Proof. intros W S HP HF. destruct (W a HP) as (b & Wb & Fb). rewrite Wb. f_equal. apply S; assumption. Qed.
Lemma signed_written n w r i b : twos_complement n w r -> w_signed (Z.of_nat n) i b -> w i = Ok b.
Proof.
  intros T H. eapply written; [eapply signed_writes, T|apply signed_single|apply H|exact H].
Qed.
Lemma int_written i b : w_signed 4 i b <-> write_int i = Ok b.
Proof.
  split; intros H.
  - eapply written; [apply int_writes|apply signed_single|apply H|exact H].
  - pose proof (to_bytes_signed_range _ _ _ H) as Hr. destruct (int_writes i Hr) as (b' & W & F).
    unfold write_int in *. assert (b' = b) by congruence. subst. exact F.
Qed.
Lemma long_written i b : w_signed 8 i b <-> write_long i = Ok b.
Proof.
  split; intros H.
  - eapply written; [apply long_writes|apply signed_single|apply H|exact H].
  - pose proof (to_bytes_signed_range _ _ _ H) as Hr. destruct (long_writes i Hr) as (b' & W & F).
    unfold write_long in *. assert (b' = b) by congruence. subst. exact F.
Qed.
Lemma byte_written i b : w_signed 1 i b <-> write_byte i = Ok b.
Proof.
  split; intros H.
  - eapply written; [apply byte_writes|apply signed_single|apply H|exact H].
  - pose proof (to_bytes_signed_range _ _ _ H) as Hr. destruct (byte_writes i Hr) as (b' & W & F).
    unfold write_byte in *. assert (b' = b) by congruence. subst. exact F.
Qed.
Lemma version4_written v b : w_unsigned 4 (vid v) b <-> version_to_bytes v = Ok b.
Proof.
  split; intros H.
  - destruct H as [Hl Hv]. pose proof (from_bytes_unsigned_range b) as Hr. rewrite <- be_from, Hv, Hl in Hr.
    change (256 ^ 4) with (2 ^ 32) in Hr. destruct (version_bytes_ok v Hr) as (b' & W & Lb & Hb & _).
    rewrite W. f_equal. apply be_value_inj; [unfold zlen in *; lia|congruence].
  - unfold version_to_bytes in H. apply to_bytes_unsigned_ok in H as (_ & L & E). split; [unfold zlen; lia|].
    rewrite be_from. exact E.
Qed.
Lemma header_written p sz i st v vhs b : w_header p sz i st v vhs b <-> write_header (mkHeader p sz i st (HVer v) vhs) = Ok b.
Proof.
  unfold w_header, write_header. cbn [h_prefix h_size h_id h_status h_version h_vhs hver_bytes]. split; intros H.
  - parts_in H. apply int_written in P0, P4. apply long_written in P1. apply byte_written in P2. apply version4_written in P3.
    unfold exactly in P. subst. repeat apply wcat_cons_eq; try assumption; reflexivity.
  - repeat (apply wcat_cons_ok in H as (? & ? & ? & H & ->)). apply wcat_nil_ok in H as ->.
    match goal with H : Ok _ = Ok _ |- _ => apply Ok_inj in H; subst end.
    constructor; [reflexivity|]. constructor; [apply int_written; assumption|]. constructor; [apply long_written; assumption|].
    constructor; [apply byte_written; assumption|]. constructor; [apply version4_written; assumption|].
    constructor; [apply int_written; assumption|constructor].
Qed.

(** ** contexts *)
Lemma ctx_format c bs : ctx_ok c -> write_ctx c = Ok bs -> w_ctx true c bs.
Proof. intros H W. destruct (ctx_writes true c H) as (b & W' & F). assert (b = bs) by congruence. subst. exact F. Qed.
Lemma w_set_perm strict s s' bs : Permutation s s' -> w_set strict s bs -> w_set strict s' bs.
Proof. intros P (l & d & H1 & H2 & H3). exists l, d. split; [exact H1|]. split; [eapply perm_trans; eassumption|exact H3]. Qed.
Lemma parts_map2 A (F G : fmt A) (R : A -> A -> Prop) l l' bs : (forall a a' b, R a a' -> F a b -> G a' b) ->
  Forall2 R l l' -> parts (map F l) bs -> parts (map G l') bs.
Proof.
  intros H HR. revert bs. induction HR as [|a a' l l' Ha _ IH]; intros bs Hb; [exact Hb|].
  apply parts_cons_inv in Hb as (x & y & -> & H1 & H2). constructor; [eapply H; eassumption|apply IH, H2].
Qed.
Lemma set_dict_same d d' bs : same_set_dict d d' -> w_dict true (w_set true) d bs -> w_dict true (w_set true) d' bs.
Proof.
  intros S (l & Hd & -> & H). exists d'. split; [|split; [reflexivity|]].
  - apply dict_from_self. apply dict_from_nodup in Hd. replace (map fst d') with (map fst d); [exact Hd|].
    clear -S. induction S as [|a b d d' [E _] _ IH]; [reflexivity|]. cbn [map]. rewrite E, IH. reflexivity.
  - apply parts_cons_inv in H as (x & y & -> & H1 & H2). constructor.
    + replace (zlen d') with (zlen d) by (unfold zlen; rewrite (forall2_length _ _ _ _ _ S); reflexivity). exact H1.
    + eapply parts_map2; [|exact S|exact H2]. intros [k v] [k' v'] b [E P] Hb. cbn [fst snd] in *. subst k'.
      parts_in Hb. rewrite app_nil_r. constructor; [exact P0|]. apply parts_one. eapply w_set_perm; eassumption.
Qed.
Lemma ctx_same c c' bs : same_ctx c c' -> w_ctx true c bs -> w_ctx true c' bs.
Proof.
  intros [E S] H. unfold w_ctx in *. rewrite <- E. parts_in H. constructor; [exact P|].
  rewrite app_nil_r. apply parts_one. eapply set_dict_same; eassumption.
Qed.
(** the sets of a context in the order in which they are in the encoding *)
Lemma sets_ordered l : forall bs, parts (map (fun kv => parts [w_string true (fst kv); w_set true (snd kv)]) l) bs ->
  exists l', same_set_dict l l' /\ Forall (fun kv => text_ok (fst kv) /\ set_ok (snd kv)) l' /\
    parts (map (fun kv => parts [w_string true (fst kv); w_strings true (snd kv)]) l') bs.
Proof.
  induction l as [|[k v] l IH]; intros bs H.
  - exists []. split; [constructor|]. split; [constructor|exact H].
  - cbn [map] in H. apply parts_cons_inv in H as (x & y & -> & Hx & Hy). destruct (IH y Hy) as (l' & S & F & Hl).
    cbn [fst snd] in Hx. parts_in Hx. destruct P0 as (e & d & Hd & Pd & Ed & Hs). cbn in Ed. subst d.
    exists ((k, e) :: l'). split; [constructor; [split; [reflexivity|symmetry; exact Pd]|exact S]|].
    split; [constructor; [|exact F]|].
    + cbn [fst snd]. split; [eapply string_text, P|]. split; [eapply strings_texts, Hs|].
      apply deduped_set in Hd. rewrite <- Hd. apply set_of_list_nodup.
    + cbn [map]. constructor; [|exact Hl]. cbn [fst snd]. constructor; [exact P|]. rewrite app_nil_r. apply parts_one, Hs.
Qed.
Lemma ctx_ordered c bs : w_ctx true c bs -> exists c', same_ctx c c' /\ ctx_ok c' /\ write_ctx c' = Ok bs.
Proof.
  intros H. destruct c as [a b]. unfold w_ctx in H. cbn [c_req c_res] in H. parts_in H.
  destruct P0 as (l & Hd & -> & Hl). apply parts_cons_inv in Hl as (x & y & -> & Hx & Hy).
  destruct (sets_ordered b y Hy) as (b' & S & F & Hb').
  assert (Lb : zlen b' = zlen b) by (unfold zlen; rewrite (forall2_length _ _ _ _ _ S); reflexivity).
  assert (Nb : NoDup (map fst b')).
  { apply dict_from_nodup in Hd. replace (map fst b') with (map fst b); [exact Hd|].
    clear -S. induction S as [|u v d d' [E _] _ IH]; [reflexivity|]. cbn [map]. rewrite E, IH. reflexivity. }
  pose proof (vint_range _ _ _ Hx) as Rb.
  exists (mkCtx a b'). split; [split; [reflexivity|exact S]|].
  assert (Ha : dict_ok text_ok a) by (eapply dict_fits; [|exact P]; intros u v; apply string_text).
  split; [split; [exact Ha|split; [cbn [c_res]; lia|split; assumption]]|].
  unfold write_ctx. cbn [c_req c_res]. apply wcat_cons_eq.
  - eapply written; [apply (string_dict_writes true)|apply dict_single, string_single|exact Ha|exact P].
  - rewrite app_nil_r. rewrite <- (app_nil_r (x ++ y)). apply wcat_cons_eq; [|apply wcat_nil_eq].
    eapply written; [apply (strings_dict_writes true)|apply dict_single, strings_single| |].
    + split; [lia|]. split; [exact Nb|]. eapply Forall_impl; [|exact F]. intros kv [H1 [H2 _]]. split; assumption.
    + exists b'. split; [apply dict_from_self, Nb|]. split; [reflexivity|]. constructor; [rewrite Lb; exact Hx|exact Hb'].
Qed.
Lemma ctx_sized c bs : ctx_ok c -> Forall length_prefix_ok (ctx_strings c) -> write_ctx c = Ok bs -> ctx_size c = Ok (zlen bs).
Proof.
  intros Hc F W. destruct (ctx_size_total c Hc) as (n & Hn). destruct (agree_ctx c n bs Hn W) as [_ E].
  rewrite Hn. f_equal. apply E. exact F.
Qed.

(** ** frames *)
Definition frame_out (resp : bool) (m : message) (sz : Z) (var : option bytes) : outbound :=
  mkOut (mkHeader ES (17 + sz + zlen (m_payload m) + opt_len var) (m_id m) (status_of resp false (m_cp m) (m_hs m))
           (HVer (m_version m)) (sz + opt_len var))
    (m_ctx m) var (Some (m_payload m)) (m_features m) (m_action m).
Lemma request_form m rid n o n' :
  new_request (Some (m_ctx m)) (m_features m) (Some (Ok (m_payload m))) (HVer (m_version m)) (m_action m) rid
    (m_hs m) (m_cp m) n = (Ok o, n') -> m_id m = h_id (o_hdr o) ->
  exists sz vb, ctx_size (m_ctx m) = Ok sz /\ request_variable_bytes (m_features m) (m_action m) = Ok vb /\
    o = frame_out false m sz (Some vb).
Proof.
  intros H Hi. destruct m as [c f v a i hs cp p]. cbn [m_ctx m_features m_version m_action m_id m_hs m_cp m_payload] in *.
  unfold new_request, new_outbound, new_header, ibind in H. rewrite pick_id_spec in H. destruct (draws rid); cbn [iret ilift] in H;
  (destruct (ctx_size c) as [sz|] eqn:E; cbn [ilift] in H; [|discriminate]);
  (destruct (request_variable_bytes f a) as [vb|] eqn:Ev; cbn [ilift] in H; [|discriminate]);
  apply pair_equal_spec in H as [H _]; apply Ok_inj in H; exists sz, vb; (split; [reflexivity|]); (split; [reflexivity|]);
  subst o; unfold frame_out, set_flags, set_variable_bytes, with_hdr, with_sizes, set_is_handshake, set_is_compress,
    with_status, set_status in *;
  cbn [o_hdr o_ctx o_var o_msg o_features o_action h_prefix h_size h_id h_status h_version h_vhs opt_len
       m_ctx m_features m_version m_action m_id m_hs m_cp m_payload] in *;
  destruct hs, cp; cbn [h_prefix h_size h_id h_status h_version h_vhs] in *; subst i; unfold MESSAGE_SIZE; f_equal; f_equal; lia.
Qed.
Lemma response_form m rid n o n' : m_action m = [] ->
  new_response (Some (m_ctx m)) (m_features m) (Some (Ok (m_payload m))) (HVer (m_version m)) rid
    (m_hs m) (m_cp m) n = (Ok o, n') -> m_id m = h_id (o_hdr o) ->
  exists sz, ctx_size (m_ctx m) = Ok sz /\ o = frame_out true m sz None.
Proof.
  intros Ha H Hi. destruct m as [c f v a i hs cp p]. cbn [m_ctx m_features m_version m_action m_id m_hs m_cp m_payload] in *. subst a.
  unfold new_response, new_outbound, new_header, ibind in H. rewrite pick_id_spec in H. destruct (draws rid); cbn [iret ilift] in H;
  (destruct (ctx_size c) as [sz|] eqn:E; cbn [ilift] in H; [|discriminate]);
  apply pair_equal_spec in H as [H _]; apply Ok_inj in H; exists sz; (split; [reflexivity|]);
  subst o; unfold frame_out, set_flags, with_hdr, with_sizes, set_is_handshake, set_is_compress, with_status, set_status in *;
  cbn [o_hdr o_ctx o_var o_msg o_features o_action h_prefix h_size h_id h_status h_version h_vhs opt_len
       m_ctx m_features m_version m_action m_id m_hs m_cp m_payload] in *;
  destruct hs, cp; cbn [h_prefix h_size h_id h_status h_version h_vhs] in *; subst i; unfold MESSAGE_SIZE; f_equal; f_equal; lia.
Qed.
Lemma frame_format resp m sz var out : ctx_ok (m_ctx m) -> Forall length_prefix_ok (ctx_strings (m_ctx m)) ->
  ctx_size (m_ctx m) = Ok sz -> w_variable true resp m (opt_bytes var) ->
  write_outbound (frame_out resp m sz var) = Ok out -> w_frame resp m out.
Proof.
  intros Hc Hp Hs Hv H. unfold write_outbound, frame_out in H. cbn [o_hdr o_ctx o_var o_msg] in H.
  apply wcat_cons_ok in H as (hb & r1 & Wh & H & ->). apply wcat_cons_ok in H as (cb & r2 & Wc & H & ->).
  apply wcat_cons_ok in H as (vb & r3 & Wv & H & ->). apply wcat_cons_ok in H as (pb & r4 & Wp & H & ->).
  apply wcat_nil_ok in H as ->. apply Ok_inj in Wv, Wp. subst vb pb.
  change (match var with Some b => b | None => [] end) with (opt_bytes var).
  pose proof (ctx_sized _ _ Hc Hp Wc) as Hs'. rewrite Hs in Hs'. apply Ok_inj in Hs'. subst sz.
  assert (Eo : opt_len var = zlen (opt_bytes var)) by (destruct var; reflexivity). rewrite Eo in Wh. clear Eo.
  apply header_written in Wh.
  assert (L : zlen hb = 23).
  { unfold w_header in Wh. parts_in Wh. unfold exactly, ES in P. destruct P0, P1, P2, P3, P4. subst. rewrite !zlen_app.
    change (zlen [x45; x53]) with 2. change (zlen (@nil byte)) with 0. lia. }
  exists cb, (opt_bytes var). split; [apply ctx_format; assumption|]. split; [exact Hv|].
  unfold w_frame_with. rewrite !zlen_app. change (zlen (@nil byte)) with 0. constructor.
  - replace (zlen hb + (zlen cb + (zlen (opt_bytes var) + (zlen (m_payload m) + 0))) - 6) with
      (17 + zlen cb + zlen (m_payload m) + zlen (opt_bytes var)) by lia. exact Wh.
  - repeat (constructor; [reflexivity|]). constructor.
Qed.
Lemma variable_format f a vb : texts_ok f -> text_ok a -> request_variable_bytes f a = Ok vb ->
  parts [w_strings true f; w_string true a] vb.
Proof.
  intros Hf Ha H. unfold request_variable_bytes in H. apply wcat_cons_ok in H as (fb & r & Wf & H & ->).
  apply wcat_cons_ok in H as (ab & r' & Wa & H & ->). apply wcat_nil_ok in H as ->.
  destruct (strings_writes true f Hf) as (fb' & Wf' & Ff). destruct (string_writes true a Ha) as (ab' & Wa' & Fa).
  assert (fb' = fb) by congruence. assert (ab' = ab) by congruence. subst. constructor; [exact Ff|]. rewrite app_nil_r. apply parts_one, Fa.
Qed.
Lemma request_frame c f p v a rid hs cp n o n' out : ctx_ok c -> texts_ok f -> text_ok a ->
  new_request (Some c) f (Some (Ok p)) (HVer v) a rid hs cp n = (Ok o, n') -> write_outbound o = Ok out ->
  Forall length_prefix_ok (ctx_strings c) -> w_frame false (mkMsg c f v a (h_id (o_hdr o)) hs cp p) out.
Proof.
  intros Hc Hf Ha Hn Hw Hp. destruct (request_form (mkMsg c f v a (h_id (o_hdr o)) hs cp p) rid n o n' Hn eq_refl) as (sz & vb & Hs & Hv & Ho).
  rewrite Ho in Hw. eapply frame_format in Hw; try eassumption. cbn [w_variable opt_bytes m_features m_action]. apply variable_format; assumption.
Qed.
Lemma response_frame c f p v i hs cp n o n' out : ctx_ok c -> i <> 0 ->
  new_response (Some c) f (Some (Ok p)) (HVer v) (Some i) hs cp n = (Ok o, n') -> write_outbound o = Ok out ->
  Forall length_prefix_ok (ctx_strings c) -> w_frame true (mkMsg c f v [] i hs cp p) out.
Proof.
  intros Hc Hi Hn Hw Hp.
  assert (Ei : i = h_id (o_hdr o)).
  { change (Some (@Ok bytes p)) with (option_map Ok (Some p)) in Hn.
    destruct (new_response_fields _ _ _ _ _ _ _ _ _ _ Hn) as (_ & E & _).
    assert (D : draws (Some i) = false) by (cbn; destruct (Z.eqb_spec i 0); congruence). specialize (E D). congruence. }
  destruct (response_form (mkMsg c f v [] i hs cp p) (Some i) n o n' eq_refl Hn Ei) as (sz & Hs & Ho).
  rewrite Ho in Hw. eapply frame_format in Hw; try eassumption. reflexivity.
Qed.
Lemma frame_same resp m m' out : same_ctx (m_ctx m) (m_ctx m') -> m_features m = m_features m' -> m_version m = m_version m' ->
  m_action m = m_action m' -> m_id m = m_id m' -> m_hs m = m_hs m' -> m_cp m = m_cp m' -> m_payload m = m_payload m' ->
  w_frame resp m out -> w_frame resp m' out.
Proof.
  destruct m as [c f v a i hs cp p], m' as [c' f' v' a' i' hs' cp' p'].
  cbn [m_ctx m_features m_version m_action m_id m_hs m_cp m_payload]. intros S -> -> -> -> -> -> -> (cb & vb & H1 & H2 & H3).
  exists cb, vb. split; [eapply ctx_same; [exact S|exact H1]|]. split; [exact H2|exact H3].
Qed.
(** every frame in the wire format is what the SDK would write for it *)
Lemma frame_writes m raw : w_frame false m raw -> m_id m <> 0 -> Forall length_prefix_ok (ctx_strings (m_ctx m)) ->
  exists c, same_ctx (m_ctx m) c /\ ctx_ok c /\ texts_ok (m_features m) /\ text_ok (m_action m) /\
    forall n, exists o n', new_request (Some c) (m_features m) (Some (Ok (m_payload m))) (HVer (m_version m))
      (m_action m) (Some (m_id m)) (m_hs m) (m_cp m) n = (Ok o, n') /\ write_outbound o = Ok raw.
Proof.
  intros (cb & vb & Hc & Hv & Hf) Hi Hp. destruct (ctx_ordered _ _ Hc) as (c & S & Oc & Wc).
  exists c. split; [exact S|]. split; [exact Oc|]. unfold w_variable in Hv. parts_in Hv.
  pose proof (strings_texts _ _ _ P) as Tf. pose proof (string_text _ _ _ P0) as Ta. split; [exact Tf|]. split; [exact Ta|].
  intros n.
  assert (Hp' : Forall length_prefix_ok (ctx_strings c)).
  { clear -S Hp. destruct S as [E S]. unfold ctx_strings in *. rewrite <- E. apply Forall_app in Hp as [H1 H2]. apply Forall_app. split; [exact H1|].
    clear -S H2. induction S as [|[k v] [k' v'] d d' [Ek Pv] _ IH]; [constructor|]. cbn [flat_map fst snd] in *. subst k'.
    apply Forall_app in H2 as [H2 H3]. apply Forall_cons_iff in H2 as [H1 H2]. apply Forall_app. split; [|apply IH, H3].
    constructor; [exact H1|]. eapply Permutation_Forall; eassumption. }
  pose proof (ctx_sized _ _ Oc Hp' Wc) as Hs.
  assert (Wv : request_variable_bytes (m_features m) (m_action m) = Ok (a ++ a0 ++ [])).
  { unfold request_variable_bytes. apply wcat_cons_eq; [|apply wcat_cons_eq; [|apply wcat_nil_eq]].
    - eapply written; [apply (strings_writes true)|apply strings_single|exact Tf|exact P].
    - eapply written; [apply (string_writes true)|apply string_single|exact Ta|exact P0]. }
  unfold w_frame_with in Hf. apply parts_cons_inv in Hf as (hb & r & -> & Hh & Hf).
  assert (Hr : parts [exactly cb; exactly (a ++ a0 ++ []); exactly (m_payload m)] r) by exact Hf. clear Hf.
  apply parts_cons_inv in Hr as (x1 & r1 & -> & X1 & Hr). apply parts_cons_inv in Hr as (x2 & r2 & -> & X2 & Hr).
  apply parts_cons_inv in Hr as (x3 & r3 & -> & X3 & Hr). apply parts_nil_inv in Hr. unfold exactly in X1, X2, X3. subst x1 x2 x3 r3.
  set (vb := a ++ a0 ++ []) in *. clearbody vb.
  assert (R : zlen hb = 23 /\ - 2 ^ 63 <= m_id m < 2 ^ 63 /\ 0 <= vid (m_version m) < 2 ^ 32).
  { unfold w_header in Hh. clear -Hh. parts_in Hh. unfold exactly in P. destruct P0 as (? & ? & ?), P1 as (? & ? & ?), P2 as (? & ? & ?), P3 as (? & V), P4 as (? & ? & ?). subst.
    rewrite !zlen_app. change (zlen [x45; x53]) with 2. change (zlen (@nil byte)) with 0. split; [lia|]. split; [assumption|].
    rewrite <- V, be_from. pose proof (from_bytes_unsigned_range a3) as Hr. replace (zlen a3) with 4 in Hr. exact Hr. }
  destruct R as (R1 & R2 & R3).
  destruct (new_request_total c (m_features m) (Some (m_payload m)) (m_version m) (m_action m) (m_id m) (m_hs m) (m_cp m) n Oc Tf Ta Hi R2 R3)
    as (o & Ho & _). cbn [option_map] in Ho.
  exists o, n. split; [exact Ho|].
  assert (Ei : m_id m = h_id (o_hdr o)).
  { change (Some (@Ok bytes (m_payload m))) with (option_map Ok (Some (m_payload m))) in Ho.
    destruct (new_request_fields _ _ _ _ _ _ _ _ _ _ _ Ho) as (_ & E & _).
    assert (D : draws (Some (m_id m)) = false) by (cbn; destruct (Z.eqb_spec (m_id m) 0); congruence). specialize (E D). congruence. }
  destruct (request_form (mkMsg c (m_features m) (m_version m) (m_action m) (m_id m) (m_hs m) (m_cp m) (m_payload m)) _ n o n Ho Ei) as (sz & vb' & Hs' & Hv' & Eo).
  cbn [m_ctx m_features m_action] in Hs', Hv'. rewrite Hs in Hs'. apply Ok_inj in Hs'. subst sz.
  rewrite Wv in Hv'. apply Ok_inj in Hv'. subst vb'. rewrite Eo.
  unfold write_outbound, frame_out. cbn [o_hdr o_ctx o_var o_msg m_ctx m_features m_version m_action m_id m_hs m_cp m_payload opt_len].
  apply wcat_cons_eq.
  - apply header_written. rewrite !zlen_app in Hh. change (zlen (@nil byte)) with 0 in Hh.
    replace (zlen hb + (zlen cb + (zlen vb + (zlen (m_payload m) + 0))) - 6) with (17 + zlen cb + zlen (m_payload m) + zlen vb) in Hh by lia.
    exact Hh.
  - apply wcat_cons_eq; [exact Wc|]. apply wcat_cons_eq; [reflexivity|]. apply wcat_cons_eq; [reflexivity|apply wcat_nil_eq].
Qed.

(** ** reading frames *)
Lemma header_reads p sz i st v vhs b s : zlen p = 2 -> w_header p sz i st v vhs b ->
  read_header (b ++ s) = Ok (mkHeader p sz i st (HVer v) vhs, s).
Proof.
  intros Lp H. unfold w_header in H. parts_in H. unfold exactly in P. subst a. rewrite !app_nil_r, <- !app_assoc. unfold read_header.
  rewrite (rbind_step _ _ _ _ _ _ _ (read_bytes_app_n 2 p _ Lp)).
  rewrite (rbind_step _ _ _ _ _ _ _ (int_reads _ _ _ I P0)). rewrite (rbind_step _ _ _ _ _ _ _ (long_reads _ _ _ I P1)).
  rewrite (rbind_step _ _ _ _ _ _ _ (byte_reads _ _ _ I P2)).
  destruct P3 as [L3 V3]. rewrite (rbind_step _ _ _ _ _ _ _ (read_bytes_app_n 4 a3 _ L3)).
  rewrite (rbind_step _ _ _ _ _ _ _ (int_reads _ _ _ I P4)). unfold rret, version_from_bytes. rewrite <- be_from, V3. destruct v; reflexivity.
Qed.
Lemma frame_reads resp err m raw so s : w_message resp err m raw -> Forall length_prefix_ok (ctx_strings (m_ctx m)) ->
  set_order_ok so -> exists h t,
    read_header (raw ++ s) = Ok (h, t) /\
    is_response h = resp /\ is_error h = err /\ h_id h = m_id m /\ h_version h = HVer (m_version m) /\
    is_handshake h = m_hs m /\ is_compress h = m_cp m /\ h_size h = zlen raw - 6 /\
    forall o0, exists o', read_outbound so (negb resp) o0 h t = Ok (o', m_payload m ++ s) /\
      o_hdr o' = h /\ same_ctx (m_ctx m) (o_ctx o') /\
      (resp = false -> o_features o' = m_features m /\ o_action o' = m_action m).
Proof.
  intros (cb & vb & Hc & Hv & Hf) Hp Hso. unfold w_frame_with in Hf. apply parts_cons_inv in Hf as (hb & r & E & Hh & Hr).
  apply parts_cons_inv in Hr as (x1 & r1 & -> & X1 & Hr). apply parts_cons_inv in Hr as (x2 & r2 & -> & X2 & Hr).
  apply parts_cons_inv in Hr as (x3 & r3 & -> & X3 & Hr). apply parts_nil_inv in Hr. unfold exactly in X1, X2, X3. subst x1 x2 x3 r3.
  eexists _, (cb ++ vb ++ m_payload m ++ s). split.
  { assert (E' : raw ++ s = hb ++ cb ++ vb ++ m_payload m ++ s) by (rewrite E, app_nil_r, <- !app_assoc; reflexivity).
    rewrite E'. apply (header_reads [x45; x53]); [reflexivity|exact Hh]. }
  cbn [h_status h_id h_version h_size h_vhs].
  split; [destruct resp, err, (m_cp m), (m_hs m); reflexivity|]. split; [destruct resp, err, (m_cp m), (m_hs m); reflexivity|].
  split; [reflexivity|]. split; [reflexivity|].
  split; [destruct resp, err, (m_cp m), (m_hs m); reflexivity|]. split; [destruct resp, err, (m_cp m), (m_hs m); reflexivity|].
  split; [reflexivity|]. intros o0.
  destruct (ctx_reads true so Hso (m_ctx m) cb (vb ++ m_payload m ++ s) I Hc) as (c & Rc & Sc).
  destruct (ctx_ordered _ _ Hc) as (c2 & S2 & Oc & Wc).
  assert (Hp' : Forall length_prefix_ok (ctx_strings c2)).
  { clear -S2 Hp. destruct S2 as [E S]. unfold ctx_strings in *. rewrite <- E. apply Forall_app in Hp as [H1 H2]. apply Forall_app. split; [exact H1|].
    clear -S H2. induction S as [|[k v] [k' v'] d d' [Ek Pv] _ IH]; [constructor|]. cbn [flat_map fst snd] in *. subst k'.
    apply Forall_app in H2 as [H2 H3]. apply Forall_cons_iff in H2 as [H1 H2]. apply Forall_app. split; [|apply IH, H3].
    constructor; [exact H1|]. eapply Permutation_Forall; eassumption. }
  pose proof (ctx_sized _ _ Oc Hp' Wc) as Hs.
  assert (Hs' : ctx_size c = Ok (zlen cb)).
  { eapply same_ctx_size; [exact Sc|]. eapply same_ctx_size; [|exact Hs].
    destruct S2 as [E2 S2]. split; [congruence|]. clear -S2. induction S2 as [|a b d d' [E P] _ IH]; constructor; [split; [congruence|apply Permutation_sym, P]|exact IH]. }
  assert (Pc : 0 < zlen cb).
  { clear -Hc. unfold w_ctx in Hc. parts_in Hc. destruct P as (l & _ & _ & Hl). apply parts_cons_inv in Hl as (x & y & -> & (Hx & _) & _).
    apply leb128_nonempty in Hx. destruct x as [|b x]; [contradiction|]. rewrite <- app_assoc, zlen_app, zlen_cons, zlen_app.
    pose proof (zlen_nonneg _ x). pose proof (zlen_nonneg _ y). rewrite zlen_app. pose proof (zlen_nonneg _ a0). change (zlen (@nil byte)) with 0. lia. }
  pose proof (zlen_nonneg _ vb). unfold read_outbound. rewrite (rbind_step _ _ _ _ _ _ _ Rc). cbn [h_vhs].
  destruct (Z.ltb_spec 0 (zlen cb + zlen vb)); [|lia]. rewrite Hs'. unfold rlift at 1, rbind at 1.
  rewrite (rbind_step _ _ _ _ _ _ _ (read_bytes_app_n (zlen cb + zlen vb - zlen cb) vb _ ltac:(lia))).
  destruct resp; cbn [negb].
  - eexists. split; [reflexivity|]. cbn [o_hdr o_ctx]. split; [reflexivity|]. split; [exact Sc|discriminate].
  - unfold w_variable in Hv. parts_in Hv.
    assert (Rv : read_variable (a ++ a0 ++ []) = Ok (m_features m, m_action m)).
    { unfold read_variable. rewrite (rbind_step _ _ _ _ _ _ _ (strings_reads true _ _ _ I P)).
      rewrite (rbind_step _ _ _ _ _ _ _ (string_reads true _ _ _ I P0)). reflexivity. }
    rewrite Rv. eexists. split; [reflexivity|]. cbn [o_hdr o_ctx o_features o_action fst snd]. split; [reflexivity|]. split; [exact Sc|]. split; reflexivity.
Qed.
(** a written message is a frame only if its size field is right *)
Lemma frame_size_right o out resp err m : frame_inv o -> write_outbound o = Ok out -> w_message resp err m out ->
  Forall length_prefix_ok (ctx_strings (o_ctx o)).
Proof.
  intros Hi W (cb & vb & _ & _ & Hf). destruct (frame_written o out Hi W) as (_ & hdr & cb' & sz & Wh & _ & Wc & Ws & E & Hd & _).
  destruct Hi as (Lp & (v & Ev) & _). destruct (o_hdr o) as [p hsz i st v' vhs] eqn:Eo. cbn [h_prefix h_version h_size] in *. subst v'.
  apply header_written in Wh. unfold w_frame_with in Hf. apply parts_cons_inv in Hf as (hb & r & E' & Hh & _).
  pose proof (header_reads _ _ _ _ _ _ _ (cb' ++ opt_bytes (o_var o) ++ opt_bytes (o_msg o)) (f_equal Z.of_nat Lp) Wh) as R1.
  rewrite <- E, E' in R1. rewrite (header_reads [x45; x53] _ _ _ _ _ hb r eq_refl Hh) in R1. apply Ok_inj, pair_equal_spec in R1 as [R1 _].
  apply (f_equal h_size) in R1. cbn [h_size] in R1.
  destruct (agree_ctx (o_ctx o) sz cb' Ws Wc) as [_ A]. apply A. lia.
Qed.
(** what a header is read from *)
Lemma header_only : reads_only read_header (fun h bs => exists v, h_version h = HVer v /\ zlen (h_prefix h) = 2 /\
  w_header (h_prefix h) (h_size h) (h_id h) (h_status h) v (h_vhs h) bs).
Proof.
  intros s h s' H Hne. unfold read_header in H. fwd H R1. fwd H R2. fwd H R3. fwd H R4. fwd H R5. fwd H R6. ret H.
  back R6 int_only. backto R5 bytes_only as [-> L5]. back R4 byte_only. back R3 long_only. back R2 int_only. backto R1 bytes_only as [-> L1].
  cbn [h_version h_prefix h_size h_id h_status h_vhs].
  match goal with |- context [version_from_bytes ?b] => assert (Hv : w_unsigned 4 (vid (version_from_bytes b)) b) by (split; [exact L5|apply be_from]) end.
  match goal with |- exists bs, ?l = bs ++ ?t /\ _ => enough (exists bs, l = bs ++ t /\ w_header x x1 x3 x5 (version_from_bytes x7) x9 bs) as (bs & E & Hb) end.
  - exists bs. split; [exact E|]. eexists. split; [reflexivity|]. split; [exact L1|exact Hb].
  - unfold w_header. apply asm_cons; [reflexivity|]. assemble.
Qed.
Lemma response_frame' c f p v rid hs cp n o n' out : ctx_ok c ->
  new_response (Some c) f (Some (Ok p)) (HVer v) rid hs cp n = (Ok o, n') -> write_outbound o = Ok out ->
  Forall length_prefix_ok (ctx_strings c) -> w_frame true (mkMsg c f v [] (h_id (o_hdr o)) hs cp p) out.
Proof.
  intros Hc Hn Hw Hp. destruct (response_form (mkMsg c f v [] (h_id (o_hdr o)) hs cp p) rid n o n' eq_refl Hn eq_refl) as (sz & Hs & Ho).
  rewrite Ho in Hw. eapply frame_format in Hw; try eassumption. reflexivity.
Qed.
