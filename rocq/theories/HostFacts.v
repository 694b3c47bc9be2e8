(** * Facts about the host *)
From Coq Require Import String ZArith List Bool Lia ZifyBool Permutation.
From Coq Require Import Strings.Byte.
From Verif Require Import Py Stream Version Frame Proto Messages Rest Routes Settings Host PyFacts
  Utf8Facts StreamFacts StreamFacts2 Spec SpecFacts VersionFacts FrameFacts MsgFacts RestFacts SettingsFacts Wire WireFacts WireFacts2 WireFacts3 WireFacts4 WireFacts5 HostSpec.
Import ListNotations.
Open Scope list_scope.
Open Scope Z_scope.
Ltac Zify.zify_post_hook ::= idtac.

(** ** contexts that were read are dicts and sets *)
Definition nodup_ctx (c : ctx) : Prop :=
  NoDup (map fst (c_req c)) /\ NoDup (map fst (c_res c)) /\ Forall (fun kv => NoDup (snd kv)) (c_res c).
Lemma dict_of_pairs_nodup V (l : list (pystr * V)) : NoDup (map fst (dict_of_pairs l)).
Proof.
  unfold dict_of_pairs.
  assert (H : forall l (d : sdict V), NoDup (map fst d) ->
    NoDup (map fst (fold_left (fun d kv => dict_set streqb (fst kv) (snd kv) d) l d))).
  { clear l. induction l as [|x l IH]; intros d Hd; [exact Hd|]. cbn [fold_left]. apply IH, (dict_set_NoDup _ streqb_eq), Hd. }
  apply H. constructor.
Qed.
Lemma dict_set_values V (P : V -> Prop) k v (d : sdict V) : P v -> Forall (fun kv => P (snd kv)) d ->
  Forall (fun kv => P (snd kv)) (dict_set streqb k v d).
Proof.
  intros Hv. induction 1 as [|[k' v'] d H1 H2 IH]; cbn [dict_set]; [repeat constructor; exact Hv|].
  destruct (streqb k k'); constructor; auto.
Qed.
Lemma dict_of_pairs_values V (P : V -> Prop) (l : list (pystr * V)) : Forall (fun kv => P (snd kv)) l ->
  Forall (fun kv => P (snd kv)) (dict_of_pairs l).
Proof.
  unfold dict_of_pairs. intros H.
  assert (G : forall d : sdict V, Forall (fun kv => P (snd kv)) d ->
    Forall (fun kv => P (snd kv)) (fold_left (fun d kv => dict_set streqb (fst kv) (snd kv) d) l d)).
  { induction H as [|x l Hx Hl IH]; intros d Hd; [exact Hd|]. cbn [fold_left]. apply IH. apply dict_set_values; assumption. }
  apply G. constructor.
Qed.
Lemma read_n_all A (r : reader A) (P : A -> Prop) n : (forall s a t, r s = Ok (a, t) -> P a) ->
  forall s l t, read_n r n s = Ok (l, t) -> Forall P l.
Proof.
  intros H. induction n as [|n IH]; intros s l t Hr; cbn [read_n] in Hr.
  - apply Ok_inj, pair_equal_spec in Hr as [<- _]. constructor.
  - apply rbind_ok in Hr as (a & s1 & Ha & Hr). apply rbind_ok in Hr as (l' & s2 & Hl & Hr).
    apply Ok_inj, pair_equal_spec in Hr as [<- _]. constructor; [eapply H; eassumption|eapply IH; eassumption].
Qed.
Lemma read_dict_nodup V (rv : reader V) s d t : read_dict rv s = Ok (d, t) -> NoDup (map fst d).
Proof.
  unfold read_dict. intros H. apply rbind_ok in H as (n & s1 & _ & H). destruct (n =? 0).
  - apply Ok_inj, pair_equal_spec in H as [<- _]. constructor.
  - apply rbind_ok in H as (l & s2 & _ & H). apply Ok_inj, pair_equal_spec in H as [<- _]. apply dict_of_pairs_nodup.
Qed.
Lemma read_dict_values V (rv : reader V) (P : V -> Prop) s d t : (forall s a t, rv s = Ok (a, t) -> P a) ->
  read_dict rv s = Ok (d, t) -> Forall (fun kv => P (snd kv)) d.
Proof.
  unfold read_dict. intros HP H. apply rbind_ok in H as (n & s1 & _ & H). destruct (n =? 0).
  - apply Ok_inj, pair_equal_spec in H as [<- _]. constructor.
  - apply rbind_ok in H as (l & s2 & Hl & H). apply Ok_inj, pair_equal_spec in H as [<- _].
    apply dict_of_pairs_values. eapply read_n_all; [|exact Hl].
    intros s0 a t0 Ha. unfold read_pair in Ha. apply rbind_ok in Ha as (k & s3 & _ & Ha).
    apply rbind_ok in Ha as (v & s4 & Hv & Ha). apply Ok_inj, pair_equal_spec in Ha as [<- _]. eapply HP, Hv.
Qed.
Lemma read_ctx_nodup so s c t : set_order_ok so -> read_ctx so s = Ok (c, t) -> nodup_ctx c.
Proof.
  intros Hso H. unfold read_ctx in H. apply rbind_ok in H as (a & s1 & Ha & H).
  apply rbind_ok in H as (b & s2 & Hb & H). apply Ok_inj, pair_equal_spec in H as [<- _].
  split; [|split]; cbn [c_req c_res].
  - eapply read_dict_nodup, Ha.
  - eapply read_dict_nodup, Hb.
  - eapply read_dict_values; [|exact Hb]. intros s0 v t0 Hv. unfold read_string_set in Hv.
    apply rbind_ok in Hv as (l & s3 & _ & Hv). apply Ok_inj, pair_equal_spec in Hv as [<- _].
    eapply Permutation_NoDup; [apply Permutation_sym, Hso|apply set_of_list_nodup].
Qed.

(** a context whose size is below 2^31 can be written *)
Lemma str_size_text x n : str_size x = Ok n -> n <= 2 ^ 31 -> text_ok x /\ 1 <= n.
Proof.
  unfold str_size, utf8_len. intros H Hn. destruct (utf8_encode x) as [e|] eqn:E; cbn [rmap] in H; [|discriminate].
  apply Ok_inj in H. pose proof (v_int_size_pos (zlen x)). pose proof (zlen_nonneg _ e).
  split; [|lia]. exists e. split; [apply is_utf8_encode, E|lia].
Qed.
Lemma sum_res_each A (f : A -> res Z) (P : A -> Prop) l n N :
  (forall a k, f a = Ok k -> 0 <= k) ->
  (forall a k, f a = Ok k -> k <= N -> P a /\ 1 <= k) -> sum_res (map f l) = Ok n -> n <= N ->
  Forall P l /\ zlen l <= n.
Proof.
  intros H0 H. revert n. induction l as [|a l IH]; intros n Hn HN.
  - apply Ok_inj in Hn. split; [constructor|]. change (zlen (@nil A)) with 0. lia.
  - cbn [map sum_res] in Hn. apply bind_ok in Hn as (k & Hk & Hn). apply bind_ok in Hn as (m & Hm & Hn).
    apply Ok_inj in Hn. rewrite zlen_cons. pose proof (H0 _ _ Hk).
    assert (0 <= m).
    { apply sum_res_nonneg in Hm; [exact Hm|]. apply Forall_map, Forall_forall. intros x _ j. apply H0. }
    destruct (IH m Hm) as [F L]; [lia|]. pose proof (zlen_nonneg _ l).
    destruct (H a k Hk) as [Pa K]; [lia|]. split; [constructor; assumption|lia].
Qed.
Lemma ctx_sized_ok c sz : nodup_ctx c -> ctx_size c = Ok sz -> sz <= 2 ^ 31 -> ctx_ok c.
Proof.
  intros (N1 & N2 & N3) Hs Hle. unfold ctx_size in Hs. cbn [sum_res] in Hs.
  apply bind_ok in Hs as (a & Ha & H). apply bind_ok in H as (b & Hb & H). apply Ok_inj in H.
  apply bind_ok in Hb as (b' & Hb' & Hb). cbn [bind] in Hb. apply Ok_inj in Hb.
  unfold string_to_string_dict_size in Ha. unfold string_to_string_collection_dict_size in Hb'.
  cbn [sum_res] in Ha, Hb'.
  apply bind_ok in Ha as (x0 & Hx0 & Ha). apply Ok_inj in Hx0.
  apply bind_ok in Ha as (x & Hx & Ha). apply Ok_inj in Ha.
  apply bind_ok in Hb' as (y0 & Hy0 & Hb'). apply Ok_inj in Hy0.
  apply bind_ok in Hb' as (y & Hy & Hb'). apply Ok_inj in Hb'.
  pose proof (v_int_size_pos (zlen (c_req c))). pose proof (v_int_size_pos (zlen (c_res c))).
  assert (Px : forall kv k, sum_res [str_size (fst kv); str_size (snd kv)] = Ok k -> 0 <= k).
  { intros kv k Hk. apply sum_res_nonneg in Hk; [exact Hk|]. repeat constructor; intros; eapply str_size_nonneg; eassumption. }
  assert (Py : forall kv k, sum_res (str_size (fst kv) :: Ok (v_int_size (zlen (snd kv))) :: map str_size (snd kv)) = Ok k -> 0 <= k).
  { intros kv k Hk. apply sum_res_nonneg in Hk; [exact Hk|].
    constructor; [intros; eapply str_size_nonneg; eassumption|].
    constructor; [intros j Hj; apply Ok_inj in Hj; pose proof (v_int_size_pos (zlen (snd kv))); lia|].
    apply Forall_map, Forall_forall. intros z _ j Hj. eapply str_size_nonneg; eassumption. }
  assert (0 <= x) by (apply sum_res_nonneg in Hx; [exact Hx|]; apply Forall_map, Forall_forall; intros kv _ k Hk; eapply Px, Hk).
  assert (0 <= y) by (apply sum_res_nonneg in Hy; [exact Hy|]; apply Forall_map, Forall_forall; intros kv _ k Hk; eapply Py, Hk).
  assert (Fx : Forall (fun kv => text_ok (fst kv) /\ text_ok (snd kv)) (c_req c) /\ zlen (c_req c) <= x).
  { eapply sum_res_each with (N := 2 ^ 31); [exact Px| |exact Hx|lia].
    intros kv k Hk Lk. cbn [sum_res] in Hk. apply bind_ok in Hk as (i & Hi & Hk). apply bind_ok in Hk as (j & Hj & Hk).
    apply bind_ok in Hj as (j' & Hj' & Hj). cbn [bind] in Hj. apply Ok_inj in Hj, Hk.
    pose proof (str_size_nonneg _ _ Hi). pose proof (str_size_nonneg _ _ Hj').
    destruct (str_size_text _ _ Hi) as [T1 ?]; [lia|]. destruct (str_size_text _ _ Hj') as [T2 ?]; [lia|].
    split; [split; assumption|lia]. }
  assert (Fy : Forall (fun kv => text_ok (fst kv) /\ texts_ok (snd kv)) (c_res c) /\ zlen (c_res c) <= y).
  { eapply sum_res_each with (N := 2 ^ 31); [exact Py| |exact Hy|lia].
    intros kv k Hk Lk. cbn [sum_res] in Hk. apply bind_ok in Hk as (i & Hi & Hk). apply bind_ok in Hk as (j & Hj & Hk).
    cbn [bind] in Hj. apply bind_ok in Hj as (j' & Hj' & Hj). apply Ok_inj in Hj, Hk.
    pose proof (str_size_nonneg _ _ Hi). pose proof (v_int_size_pos (zlen (snd kv))).
    assert (0 <= j') by (apply sum_res_nonneg in Hj'; [exact Hj'|]; apply Forall_map, Forall_forall; intros z _ q Hq; eapply str_size_nonneg, Hq).
    destruct (str_size_text _ _ Hi) as [T1 ?]; [lia|].
    destruct (sum_res_each _ str_size text_ok (snd kv) j' (2 ^ 31)) as [T2 T3]; [exact str_size_nonneg| |exact Hj'|lia|].
    { intros z q Hq Lq. apply str_size_text; assumption. }
    split; [split; [exact T1|split; [lia|exact T2]]|lia]. }
  destruct Fx as [Fx Lx], Fy as [Fy Ly].
  split; (split; [lia|]); (split; [assumption|]).
  - exact Fx.
  - clear - Fy N3. induction Fy as [|kv d [T1 T2] F IH]; inversion N3; subst; constructor; auto.
    split; [exact T1|]. split; assumption.
Qed.
Lemma nodup_ctx_ok c : ctx_ok c -> nodup_ctx c.
Proof.
  intros [(_ & N1 & _) (_ & N2 & F)]. split; [exact N1|]. split; [exact N2|].
  eapply Forall_impl; [|exact F]. intros kv [_ [_ H]]. exact H.
Qed.

(** ** what is written carries the message *)
Lemma new_id_kept c f msg v i hs cp n o n' : i <> 0 ->
  new_response c f msg v (Some i) hs cp n = (Ok o, n') -> n' = n.
Proof.
  intros Hi H. unfold new_response, new_outbound, new_header, pick_id, ibind in H.
  destruct (Z.eqb_spec i 0); [contradiction|]. cbn [iret ilift] in H.
  destruct (ctx_size _); cbn [ilift] in H; [|discriminate].
  destruct msg as [[b|]|]; cbn [ilift iret] in H; try discriminate; apply pair_equal_spec in H as [_ <-]; reflexivity.
Qed.
Lemma response_carries c f msg v i hs cp n o n' out : nodup_ctx c -> i <> 0 ->
  new_response (Some c) f (Some msg) (HVer v) (Some i) hs cp n = (Ok o, n') -> write_outbound o = Ok out ->
  exists p, msg = Ok p /\ n' = n /\ carries true (mkMsg c f v [] i hs cp p) out.
Proof.
  intros Hc Hi Hn Hw. pose proof (new_id_kept _ _ _ _ _ _ _ _ _ _ Hi Hn) as ->.
  destruct msg as [p|e].
  2: { exfalso. unfold new_response, new_outbound, new_header, pick_id, ibind in Hn.
       destruct (Z.eqb_spec i 0); cbn [iret ilift] in Hn; destruct (ctx_size c); cbn [ilift] in Hn; discriminate. }
  exists p. split; [reflexivity|]. split; [reflexivity|].
  pose proof (con_response _ _ _ _ _ _ _ _ _ _ Hn) as Hcon.
  change (Some (@Ok bytes p)) with (option_map Ok (Some p)) in Hn.
  destruct (new_response_fields _ _ _ _ _ _ _ _ _ _ Hn) as (I & _ & _ & _ & _ & _ & _ & Hctx & _). cbn in Hctx.
  destruct (frame_written o out I Hw) as ((_ & Hsz & _) & hdr & cb & sz & _ & _ & _ & Hcs & _).
  destruct I as (_ & _ & sz' & Hcs' & Hs' & _). rewrite Hcs in Hcs'. apply Ok_inj in Hcs'. subst sz'.
  assert (forall b, 0 <= opt_len b) by (intros [b|]; cbn; [apply zlen_nonneg|lia]).
  pose proof (H (o_var o)). pose proof (H (o_msg o)).
  assert (Hok : ctx_ok c) by (eapply ctx_sized_ok; [exact Hc|rewrite <- Hctx; exact Hcs|lia]).
  split; [cbn [m_ctx]; intros F; eapply response_frame; eassumption|].
  intros so s Hso.
  destruct (response_roundtrip so c f (Some p) v i hs cp n o n out s Hso Hok Hi Hn Hw)
    as (h & t & Rh & E1 & E2 & E3 & E4 & E5 & E6 & R).
  exists h, t. cbn [m_id m_version m_hs m_cp m_ctx m_payload m_features m_action].
  split; [exact Rh|]. split; [unfold is_request in E3; destruct (is_response h); [reflexivity|discriminate]|].
  do 5 (split; [assumption|]). split.
  - intros F. pose proof (frame_lengths o [] out Hcon Hw) as L. cbn [fold_left] in L. rewrite Hctx in L.
    destruct (proj2 L F) as [L' _].
    assert (Eh : h = o_hdr o).
    { destruct (frame_read so o out s (opt_bytes (o_var o)) Hso) as (t' & Rh' & _).
      - apply constructed_inv, Hcon.
      - exact Hw.
      - rewrite Hctx. exact Hok.
      - destruct (o_var o) eqn:Ev; reflexivity.
      - rewrite Rh in Rh'. apply Ok_inj, pair_equal_spec in Rh' as [-> _]. reflexivity. }
    rewrite Eh. exact L'.
  - intros o0. destruct (R o0) as (o' & Ro & Eo & Sc). exists o'. cbn [opt_bytes] in Ro.
    split; [exact Ro|]. split; [exact Eo|]. split; [exact Sc|discriminate].
Qed.
Lemma request_carries c f msg v a rid hs cp n o n' out : nodup_ctx c -> texts_ok f -> text_ok a ->
  new_request (Some c) f (Some msg) (HVer v) a rid hs cp n = (Ok o, n') -> write_outbound o = Ok out ->
  exists p, msg = Ok p /\ carries false (mkMsg c f v a (h_id (o_hdr o)) hs cp p) out.
Proof.
  intros Hc Hf Ha Hn Hw.
  destruct msg as [p|e].
  2: { exfalso. unfold new_request, new_outbound, new_header, ibind in Hn. rewrite pick_id_spec in Hn.
       destruct (draws rid); cbn [iret ilift] in Hn; destruct (ctx_size c); cbn [ilift] in Hn; discriminate. }
  exists p. split; [reflexivity|].
  pose proof (con_request _ _ _ _ _ _ _ _ _ _ _ Hn) as Hcon.
  change (Some (@Ok bytes p)) with (option_map Ok (Some p)) in Hn.
  destruct (new_request_fields _ _ _ _ _ _ _ _ _ _ _ Hn) as (I & _ & Ev & F1 & F2 & F3 & F4 & Hctx & Hmsg & vb & Hvb & Hvar).
  cbn in Hctx. pose proof I as I0.
  destruct (frame_written o out I Hw) as ((_ & Hsz & _) & hdr & cb & sz & _ & _ & _ & Hcs & _).
  destruct I as (_ & _ & sz' & Hcs' & Hs' & _). rewrite Hcs in Hcs'. apply Ok_inj in Hcs'. subst sz'.
  assert (forall b, 0 <= opt_len b) by (intros [b|]; cbn; [apply zlen_nonneg|lia]).
  pose proof (H (o_var o)). pose proof (H (o_msg o)).
  assert (Hok : ctx_ok c) by (eapply ctx_sized_ok; [exact Hc|rewrite <- Hctx; exact Hcs|lia]).
  split; [cbn [m_ctx]; intros F; eapply request_frame; eassumption|].
  intros so s Hso.
  destruct (frame_read so o out s vb Hso I0 Hw) as (t & Rh & c' & Sc & Ro).
  { rewrite Hctx. exact Hok. } { rewrite Hvar. reflexivity. }
  exists (o_hdr o), t. cbn [m_id m_version m_hs m_cp m_ctx m_payload m_features m_action].
  split; [exact Rh|]. split; [unfold is_request in F1; destruct (is_response (o_hdr o)); [discriminate|reflexivity]|].
  split; [exact F2|]. split; [reflexivity|]. do 3 (split; [assumption|]). split.
  - intros F. pose proof (frame_lengths o [] out Hcon Hw) as L. cbn [fold_left] in L. rewrite Hctx in L.
    destruct (proj2 L F) as [L' _]. exact L'.
  - intros o0. cbn [negb]. rewrite (Ro true o0), (variable_roundtrip f a vb Hf Ha Hvb).
    unfold rbind, rlift, rret. rewrite Hmsg. eexists. split; [reflexivity|].
    cbn [o_hdr o_ctx o_features o_action fst snd]. rewrite Hctx in Sc. auto.
Qed.

(** ** how input is read *)
Definition blank_request (n : Z) : outbound :=
  mkOut (mkHeader ES 21 n 0 HNone 4) empty_ctx (Some [x00; x00]) None [] [].
Definition blank_response (n : Z) : outbound :=
  mkOut (mkHeader ES 19 n 1 HNone 2) empty_ctx None None [] [].
Lemma new_blank_request n : new_request None [] None HNone [] None false false n = (Ok (blank_request n), n + 1).
Proof. reflexivity. Qed.
Lemma new_blank_response n : new_response None [] None HNone None false false n = (Ok (blank_response n), n + 1).
Proof. reflexivity. Qed.
Lemma blank_req so b a hd t : read_outbound so true (blank_request a) hd t = read_outbound so true (blank_request b) hd t.
Proof. reflexivity. Qed.
Lemma blank_resp so b a hd t : read_outbound so false (blank_response a) hd t = read_outbound so false (blank_response b) hd t.
Proof. reflexivity. Qed.

Lemma local_read_header : local read_header. Proof. unfold read_header. loc. Qed.
Lemma local_read_ctx so : local (read_ctx so).
Proof. unfold read_ctx. apply local_bind; [apply local_read_string_to_string_dict|]. intros a.
  apply local_bind; [apply local_read_string_to_string_set_dict|]. intros b. loc. Qed.
Lemma local_read_outbound so req o h : local (read_outbound so req o h).
Proof. unfold read_outbound. apply local_bind; [apply local_read_ctx|]. intros c. loc. Qed.
Lemma same_set_dict_trans a b c : same_set_dict a b -> same_set_dict b c -> same_set_dict a c.
Proof.
  unfold same_set_dict. intros H. revert c. induction H as [|x y l l' [H1 H2] _ IH]; intros c Hc; inversion Hc as [|y' z l2 l3 [H3 H4] F]; subst.
  - constructor.
  - constructor; [split; [congruence|eapply Permutation_trans; eassumption]|]. apply IH, F.
Qed.
Lemma same_ctx_trans a b c : same_ctx a b -> same_ctx b c -> same_ctx a c.
Proof. intros [E1 S1] [E2 S2]. split; [congruence|]. eapply same_set_dict_trans; eassumption. Qed.
Lemma same_set_dict_sym a b : same_set_dict a b -> same_set_dict b a.
Proof. induction 1 as [|x y l l' [H1 H2] _ IH]; constructor; auto. split; [congruence|apply Permutation_sym, H2]. Qed.
Lemma same_ctx_sym a b : same_ctx a b -> same_ctx b a.
Proof. intros [E S]. split; [congruence|]. apply same_set_dict_sym, S. Qed.
Lemma same_ctx_strings P a b : same_ctx a b -> Forall P (ctx_strings a) -> Forall P (ctx_strings b).
Proof.
  intros [E S]. unfold ctx_strings. rewrite E, !Forall_app. intros [F1 F2]. split; [exact F1|]. clear F1.
  unfold same_set_dict in S. induction S as [|x y l l' [H1 H2] _ IH]; [constructor|].
  cbn [flat_map] in *. rewrite Forall_app in F2 |- *. destruct F2 as [F2 F3]. split; [|apply IH, F3].
  inversion F2; subst. constructor; [congruence|]. eapply Permutation_Forall; eassumption.
Qed.
Lemma same_ctx_refl c : same_ctx c c.
Proof.
  split; [reflexivity|]. unfold same_set_dict. induction (c_res c) as [|kv l IH]; constructor; [|exact IH]. auto.
Qed.
Definition with_ctx (m : message) (c : ctx) : message :=
  mkMsg c (m_features m) (m_version m) (m_action m) (m_id m) (m_hs m) (m_cp m) (m_payload m).
(** every frame is one the SDK writes, for some order of the sets *)
Lemma frame_as_written m raw : frame_of m raw -> exists c, same_ctx (m_ctx m) c /\ written_frame (with_ctx m c) raw.
Proof.
  intros [(Hi & F & W)|H].
  - destruct (frame_writes m raw W Hi F) as (c & Sc & Hc & Hf & Ha & X). exists c. split; [exact Sc|].
    destruct (X 0) as (o & n' & Hn & Hw). unfold written_frame, with_ctx; cbn [m_ctx m_features m_payload m_version m_action m_id m_hs m_cp].
    split; [exact Hc|]. split; [exact Hf|]. split; [exact Ha|]. split; [exact Hi|]. exists 0, o, n'. split; assumption.
  - exists (m_ctx m). split; [apply same_ctx_refl|]. destruct m; exact H.
Qed.
Lemma frame_id m raw : frame_of m raw -> m_id m <> 0.
Proof. intros [H|H]; apply H. Qed.
Lemma frame_features_ok m raw : frame_of m raw -> texts_ok (m_features m).
Proof. intros H. apply frame_as_written in H as (c & _ & _ & H & _). exact H. Qed.
Lemma read_written so m raw : set_order_ok so -> written_frame m raw ->
  exists c hd o, same_ctx (m_ctx m) c /\ is_request hd = true /\ o_ctx o = c /\ o_features o = m_features m /\
    h_version hd = HVer (m_version m) /\ o_action o = m_action m /\ h_id hd = m_id m /\
    is_handshake hd = m_hs m /\ is_compress hd = m_cp m /\
    forall s, exists t, read_header (raw ++ s) = Ok (hd, t) /\
      read_outbound so true (blank_request 0) hd t = Ok (o, m_payload m ++ s).
Proof.
  intros Hso (Hc & Hf & Ha & Hi & n & o & n' & Hn & Hw).
  change (Some (@Ok bytes (m_payload m))) with (option_map Ok (Some (m_payload m))) in Hn.
  destruct (request_roundtrip so _ _ (Some (m_payload m)) _ _ _ _ _ _ _ _ _ [x00] Hso Hc Hf Ha Hi Hn Hw)
    as (h & t & Rh & E1 & E2 & E3 & E4 & E5 & E6 & R).
  destruct (R (blank_request 0)) as (o' & Ro & Eo & Sc & Ef & Ea). cbn [opt_bytes] in Ro.
  exists (o_ctx o'), h, o'. split; [exact Sc|]. do 8 (split; [first [assumption|congruence]|]).
  destruct (local_read_header _ _ _ Rh) as (ph & Eph & Lh).
  destruct (local_read_outbound _ _ _ _ _ _ _ Ro) as (po & -> & Lo).
  assert (N : m_payload m ++ [x00] <> []) by (destruct (m_payload m); discriminate).
  specialize (Lo N). assert (N' : po ++ m_payload m ++ [x00] <> []) by (destruct po; [exact N|discriminate]).
  specialize (Lh N').
  assert (Er : raw = ph ++ po ++ m_payload m).
  { rewrite !app_assoc in Eph. apply app_inj_tail in Eph as [-> _]. rewrite app_assoc. reflexivity. }
  intros s. exists (po ++ m_payload m ++ s). split; [|apply Lo].
  rewrite Er, <- !app_assoc. apply Lh.
Qed.
Lemma read_frame so m raw : set_order_ok so -> frame_of m raw ->
  exists c hd o, same_ctx (m_ctx m) c /\ is_request hd = true /\ o_ctx o = c /\ o_features o = m_features m /\
    h_version hd = HVer (m_version m) /\ o_action o = m_action m /\ h_id hd = m_id m /\
    is_handshake hd = m_hs m /\ is_compress hd = m_cp m /\
    forall s, exists t, read_header (raw ++ s) = Ok (hd, t) /\
      read_outbound so true (blank_request 0) hd t = Ok (o, m_payload m ++ s).
Proof.
  intros Hso Hf. apply frame_as_written in Hf as (c0 & Sc & Hw).
  destruct (read_written so _ raw Hso Hw) as (c & hd & o & Sc' & X). exists c, hd, o.
  split; [eapply same_ctx_trans; eassumption|exact X].
Qed.
Lemma read_as_frame so m raw : set_order_ok so -> frame_of m raw ->
  exists c, same_ctx (m_ctx m) c /\ forall s,
    read_as so (raw ++ s) (mkMsg c (m_features m) (m_version m) (m_action m) (m_id m) (m_hs m) (m_cp m) (m_payload m ++ s)).
Proof.
  intros Hso Hf. destruct (read_frame so m raw Hso Hf) as (c & hd & o & Sc & E3 & Eo & Ef & Ev & Ea & Ei & Eh & Ec & R).
  exists c. split; [exact Sc|]. intros s. destruct (R s) as (t & Rh & Ro).
  exists hd, t, 0, (blank_request 0), 1, o. cbn [m_ctx m_features m_version m_action m_id m_hs m_cp m_payload].
  split; [exact Rh|]. split; [exact E3|]. split; [reflexivity|]. split; [exact Ro|].
  repeat (split; [congruence|]). congruence.
Qed.

(** the OutboundMessageRequest the handlers see *)
Definition seen (m : message) (o : outbound) : Prop :=
  o_ctx o = m_ctx m /\ o_features o = m_features m /\ o_action o = m_action m /\
  h_id (o_hdr o) = m_id m /\ is_handshake (o_hdr o) = m_hs m /\ is_compress (o_hdr o) = m_cp m.

Lemma set_next_next {U} (h : host U) a b : set_next (set_next h a) b = set_next h b.
Proof. destruct h; reflexivity. Qed.
Lemma hbind_ok {U A B} (m : hm U A) (k : A -> hm U B) h a h' : m h = (Ok a, h') -> hbind m k h = k a h'.
Proof. unfold hbind. intros ->. reflexivity. Qed.
Lemma hids_ok {U A} (m : idm A) (h : host U) a n : m (hs_next h) = (Ok a, n) -> hids m h = (Ok a, set_next h n).
Proof. unfold hids. intros ->. reflexivity. Qed.
Lemma hbind_hids {U A B} (m : idm A) (k : A -> hm U B) (h : host U) a n :
  m (hs_next h) = (Ok a, n) -> hbind (hids m) k h = k a (set_next h n).
Proof. unfold hbind, hids. intros ->. reflexivity. Qed.
Lemma hbind_hlift {U A B} (x : A) (k : A -> hm U B) (h : host U) : hbind (hlift (Ok x)) k h = k x h.
Proof. reflexivity. Qed.

Lemma on_request {U} ev (ext : extension U) raw m : set_order_ok (e_so ev) -> read_as (e_so ev) raw m ->
  exists o, seen m o /\ nodup_ctx (m_ctx m) /\ forall uuid h,
    on_input ev ext uuid raw h = handle_request ev ext uuid o (m_payload m) (set_next h (hs_next h + 2)).
Proof.
  intros Hso (hd & t & n & o0 & n' & o & Rh & Eq & En & Ro & C & F & V & A & Id & Hs & Cp).
  rewrite new_blank_request in En. apply pair_equal_spec in En as [En _]. apply Ok_inj in En. subst o0.
  assert (Eh : o_hdr o = hd).
  { unfold read_outbound in Ro. apply rbind_ok in Ro as (c & s1 & _ & Ro). destruct (0 <? h_vhs hd).
    - apply rbind_ok in Ro as (z & s2 & _ & Ro). apply rbind_ok in Ro as (vb & s3 & _ & Ro).
      apply rbind_ok in Ro as (fa & s4 & _ & Ro). apply Ok_inj, pair_equal_spec in Ro as [<- _]. reflexivity.
    - apply Ok_inj, pair_equal_spec in Ro as [<- _]. reflexivity. }
  exists o. split; [|split].
  - repeat split; congruence.
  - rewrite C. unfold read_outbound in Ro. apply rbind_ok in Ro as (c & s1 & Rc & Ro).
    replace (o_ctx o) with c; [eapply read_ctx_nodup; eassumption|]. destruct (0 <? h_vhs hd).
    + apply rbind_ok in Ro as (z & s2 & _ & Ro). apply rbind_ok in Ro as (vb & s3 & _ & Ro).
      apply rbind_ok in Ro as (fa & s4 & _ & Ro). apply Ok_inj, pair_equal_spec in Ro as [<- _]. reflexivity.
    + apply Ok_inj, pair_equal_spec in Ro as [<- _]. reflexivity.
  - intros uuid h. unfold on_input.
    rewrite (hbind_hids default_header _ h (mkHeader ES 17 (hs_next h) 0 (HInt CURRENT) 0) (hs_next h + 1) eq_refl).
    rewrite Rh, hbind_hlift, Eq.
    rewrite (hbind_hids _ _ _ _ _ (new_blank_request _)).
    rewrite (blank_req _ n), Ro, hbind_hlift.
    cbn [fst snd]. rewrite set_next_next. cbn [hs_next set_next]. f_equal. f_equal. lia.
Qed.
Lemma on_response {U} ev (ext : extension U) raw err k p : response_in (e_so ev) raw err k p ->
  forall uuid h, on_input ev ext uuid raw h =
    if err then (Ok None, set_next h (hs_next h + 2)) else handle_response ev k p (set_next h (hs_next h + 2)).
Proof.
  intros (hd & t & n & o0 & n' & o & Rh & Eq & Ee & Ek & En & Ro) uuid h.
  rewrite new_blank_response in En. apply pair_equal_spec in En as [En _]. apply Ok_inj in En. subst o0.
  unfold on_input.
  rewrite (hbind_hids default_header _ h (mkHeader ES 17 (hs_next h) 0 (HInt CURRENT) 0) (hs_next h + 1) eq_refl).
  rewrite Rh, hbind_hlift, Eq.
  rewrite (hbind_hids _ _ _ _ _ (new_blank_response _)).
  rewrite (blank_resp _ n), Ro, hbind_hlift.
  cbn [fst snd]. rewrite set_next_next. cbn [hs_next set_next]. rewrite Ee, Ek.
  replace (hs_next h + 1 + 1) with (hs_next h + 2) by lia. destruct err; reflexivity.
Qed.
(** every input is one of: unreadable, a request, a response *)
Lemma input_cases {U} ev (ext : extension U) raw :
  (exists m, read_as (e_so ev) raw m) \/ (exists err k p, response_in (e_so ev) raw err k p) \/
  (forall uuid h, exists e n, on_input ev ext uuid raw h = (Raise e, set_next h n) /\ hs_next h <= n).
Proof.
  destruct (read_header raw) as [[hd t]|e] eqn:Rh.
  2: { right; right. intros uuid h. exists e, (hs_next h + 1). split; [|lia]. unfold on_input.
       rewrite (hbind_hids default_header _ h (mkHeader ES 17 (hs_next h) 0 (HInt CURRENT) 0) (hs_next h + 1) eq_refl).
       rewrite Rh. reflexivity. }
  destruct (is_request hd) eqn:Eq.
  - destruct (read_outbound (e_so ev) true (blank_request 0) hd t) as [[o p]|e] eqn:Ro.
    + left. destruct (h_version hd) as [v|z|] eqn:Ev.
      * exists (mkMsg (o_ctx o) (o_features o) v (o_action o) (h_id hd) (is_handshake hd) (is_compress hd) p).
        exists hd, t, 0, (blank_request 0), 1, o. cbn. rewrite Ev. repeat (split; [first [assumption|reflexivity]|]). reflexivity.
      * exfalso. unfold read_header in Rh. repeat (apply rbind_ok in Rh as (? & ? & _ & Rh)).
        apply Ok_inj, pair_equal_spec in Rh as [<- _]. discriminate.
      * exfalso. unfold read_header in Rh. repeat (apply rbind_ok in Rh as (? & ? & _ & Rh)).
        apply Ok_inj, pair_equal_spec in Rh as [<- _]. discriminate.
    + right; right. intros uuid h. exists e, (hs_next h + 2). split; [|lia]. unfold on_input.
      rewrite (hbind_hids default_header _ h (mkHeader ES 17 (hs_next h) 0 (HInt CURRENT) 0) (hs_next h + 1) eq_refl).
      rewrite Rh, hbind_hlift, Eq. rewrite (hbind_hids _ _ _ _ _ (new_blank_request _)).
      rewrite (blank_req _ 0), Ro.
      cbn. f_equal. rewrite set_next_next. f_equal. lia.
  - destruct (read_outbound (e_so ev) false (blank_response 0) hd t) as [[o p]|e] eqn:Ro.
    + right; left. exists (is_error hd), (h_id hd), p. exists hd, t, 0, (blank_response 0), 1, o.
      repeat (split; [first [assumption|reflexivity]|]). assumption.
    + right; right. intros uuid h. exists e, (hs_next h + 2). split; [|lia]. unfold on_input.
      rewrite (hbind_hids default_header _ h (mkHeader ES 17 (hs_next h) 0 (HInt CURRENT) 0) (hs_next h + 1) eq_refl).
      rewrite Rh, hbind_hlift, Eq. rewrite (hbind_hids _ _ _ _ _ (new_blank_response _)).
      rewrite (blank_resp _ 0), Ro.
      cbn. f_equal. rewrite set_next_next. f_equal. lia.
Qed.

(** ** replies *)
Lemma set_next_same {U} (h : host U) : set_next h (hs_next h) = h.
Proof. destruct h; reflexivity. Qed.
Lemma reply_sent {U} m o msg (h h' : host U) out : seen m o -> nodup_ctx (m_ctx m) -> m_id m <> 0 ->
  (r <== hids (reply_to o msg) ;; send r) h = (Ok (Some out), h') ->
  exists p, msg = Ok p /\ answers m p out /\ h' = h.
Proof.
  intros (C & F & A & I & Hs & Cp) N Hi H. unfold hbind, hids in H.
  destruct (reply_to o msg (hs_next h)) as [[r|e] n'] eqn:E; [|discriminate].
  unfold send, hbind, hlift in H. destruct (write_outbound r) as [b|e] eqn:W; [|discriminate].
  unfold hret in H. apply pair_equal_spec in H as [H <-]. apply Ok_inj in H.
  assert (Hb : b = out) by congruence. subst b.
  unfold reply_to in E. cbv zeta in E. rewrite C, F, I, Hs, Cp in E.
  destruct (response_carries _ _ _ _ _ _ _ _ _ _ _ N Hi E W) as (p & -> & -> & X).
  exists p. split; [reflexivity|]. split; [exact X|apply set_next_same].
Qed.
Lemma new_response_any c f msg v i hs cp n r n' : i <> 0 ->
  new_response c f msg v (Some i) hs cp n = (Ok r, n') -> forall k, new_response c f msg v (Some i) hs cp k = (Ok r, k).
Proof.
  intros Hi H k. unfold new_response, new_outbound, new_header, pick_id, ibind in *.
  destruct (Z.eqb_spec i 0); [contradiction|]. cbn [iret ilift] in *.
  destruct (ctx_size _); cbn [ilift] in *; [|discriminate].
  destruct msg as [[b|]|]; cbn [ilift iret] in *; try discriminate; apply pair_equal_spec in H as [<- _]; reflexivity.
Qed.
Lemma reply_total m o p : seen m o -> ctx_ok (m_ctx m) -> m_id m <> 0 ->
  - 2 ^ 63 <= m_id m < 2 ^ 63 ->
  (forall sz, ctx_size (m_ctx m) = Ok sz -> 17 + sz + zlen p < 2 ^ 31) ->
  exists out, answers m p out /\
    forall U (h : host U), (r <== hids (reply_to o (Ok p)) ;; send r) h = (Ok (Some out), h).
Proof.
  intros S Hc Hi Hid Hsz. pose proof S as (C & F & A & I & Hs & Cp).
  destruct (new_response_total (m_ctx m) (m_features m) (Some p) min_compat (m_id m) (m_hs m) (m_cp m) 0 Hc Hi Hid)
    as (r & Hr & Hw).
  { vm_compute. split; [discriminate|reflexivity]. }
  destruct (new_response_fields _ _ _ _ _ _ _ _ _ _ Hr) as (Iv & _ & _ & _ & _ & _ & _ & Hctx & Hmsg & Hvar).
  destruct Iv as (_ & _ & sz & Hcs & Hs' & _). rewrite Hctx in Hcs. rewrite Hmsg, Hvar in Hs'. cbn [opt_len] in Hs'.
  specialize (Hsz sz Hcs). destruct Hw as [out Hw]; [lia|].
  assert (E : forall U (h : host U), (r <== hids (reply_to o (Ok p)) ;; send r) h = (Ok (Some out), h)).
  { intros U h. unfold hbind, hids, reply_to. cbv zeta. rewrite C, F, I, Hs, Cp.
    change V_MIN_COMPAT with (HVer min_compat). change (Some (Ok p)) with (option_map (@Ok bytes) (Some p)).
    rewrite (new_response_any _ _ _ _ _ _ _ _ _ _ Hi Hr). unfold send, hbind, hlift. rewrite Hw. unfold hret. rewrite set_next_same. reflexivity. }
  exists out. split; [|exact E].
  destruct (reply_sent m o (Ok p) _ _ out S (nodup_ctx_ok _ Hc) Hi (E unit (initial_host tt))) as (p' & E' & X & _).
  apply Ok_inj in E'. subst. exact X.
Qed.
Lemma hbind_inv {U A B} (m : hm U A) (k : A -> hm U B) h b h' : hbind m k h = (Ok b, h') ->
  exists a h1, m h = (Ok a, h1) /\ k a h1 = (Ok b, h').
Proof. unfold hbind. destruct (m h) as [[a|e] h1]; [|discriminate]. eauto. Qed.
Lemma hlift_inv {U A} (x : res A) (h : host U) a h' : hlift x h = (Ok a, h') -> x = Ok a /\ h' = h.
Proof. unfold hlift. intros H. apply pair_equal_spec in H as [-> ->]. auto. Qed.

Lemma action_cases m : let a := m_action m in
  is_init m \/ a = A_REST \/ a = A_TCP \/ a = A_TRANSPORT \/ ~ In a known_actions.
Proof.
  intros a. destruct (streqb a A_DISCOVERY) eqn:E1; [left; apply streqb_eq, E1|].
  destruct (streqb a A_REST) eqn:E2; [right; left; apply streqb_eq, E2|].
  destruct (streqb a A_TCP) eqn:E3; [right; right; left; apply streqb_eq, E3|].
  destruct (streqb a A_TRANSPORT) eqn:E4; [right; right; right; left; apply streqb_eq, E4|].
  right; right; right; right. apply streqb_neq in E1, E2, E3, E4. intros [X|[X|[X|[X|[]]]]]; symmetry in X; contradiction.
Qed.
Lemma dispatch_init {U} ev (ext : extension U) uuid o p : o_action o = A_DISCOVERY ->
  handle_request ev ext uuid o p = handle_discovery ext o p.
Proof. intros E. unfold handle_request. cbv zeta. rewrite E. reflexivity. Qed.
Lemma dispatch_rest {U} ev (ext : extension U) uuid o p : o_action o = A_REST ->
  handle_request ev ext uuid o p = handle_rest ev ext o p.
Proof. intros E. unfold handle_request. cbv zeta. rewrite E. reflexivity. Qed.
Lemma dispatch_tcp {U} ev (ext : extension U) uuid o p : o_action o = A_TCP ->
  handle_request ev ext uuid o p = handle_tcp_handshake o p.
Proof. intros E. unfold handle_request. cbv zeta. rewrite E. reflexivity. Qed.
Lemma dispatch_transport {U} ev (ext : extension U) uuid o p : o_action o = A_TRANSPORT ->
  handle_request ev ext uuid o p = handle_transport_handshake ev uuid o p.
Proof. intros E. unfold handle_request. cbv zeta. rewrite E. reflexivity. Qed.
Lemma dispatch_other {U} ev (ext : extension U) uuid o p : ~ In (o_action o) known_actions ->
  handle_request ev ext uuid o p = handle_not_found o.
Proof.
  intros E. unfold handle_request. cbv zeta.
  destruct (streqb _ A_DISCOVERY) eqn:E1; [apply streqb_eq in E1; contradiction E; rewrite E1; cbn; auto|].
  destruct (streqb _ A_REST) eqn:E2; [apply streqb_eq in E2; contradiction E; rewrite E2; cbn; auto|].
  destruct (streqb _ A_TCP) eqn:E3; [apply streqb_eq in E3; contradiction E; rewrite E3; cbn; auto|].
  destruct (streqb _ A_TRANSPORT) eqn:E4; [apply streqb_eq in E4; contradiction E; rewrite E4; cbn; auto|].
  reflexivity.
Qed.
Lemma seen_action m o : seen m o -> o_action o = m_action m.
Proof. intros (_ & _ & A & _). exact A. Qed.

(** C40 *)
Lemma immediate_reply {U} ev (ext : extension U) uuid raw m h out h' :
  set_order_ok (e_so ev) -> read_as (e_so ev) raw m -> m_id m <> 0 -> ~ is_init m ->
  on_input ev ext uuid raw h = (Ok (Some out), h') -> exists p, answers m p out.
Proof.
  intros Hso Hr Hi Hn H. destruct (on_request ev ext raw m Hso Hr) as (o & S & N & E).
  rewrite E in H. clear E. pose proof (seen_action _ _ S) as A.
  destruct (action_cases m) as [X|[X|[X|[X|X]]]]; [contradiction| | | |]; rewrite <- A in X.
  - rewrite dispatch_rest in H by exact X. unfold handle_rest in H.
    do 4 (apply hbind_inv in H as (? & ? & _ & H); cbv zeta in H).
    apply (reply_sent m) in H as (p & _ & G & _); eauto.
  - rewrite dispatch_tcp in H by exact X. unfold handle_tcp_handshake in H.
    apply hbind_inv in H as (? & ? & _ & H). apply (reply_sent m) in H as (p & _ & G & _); eauto.
  - rewrite dispatch_transport in H by exact X. unfold handle_transport_handshake in H.
    apply hbind_inv in H as (? & ? & _ & H). apply (reply_sent m) in H as (p & _ & G & _); eauto.
  - rewrite dispatch_other in H by exact X. unfold handle_not_found in H.
    apply hbind_inv in H as (? & ? & _ & H). apply (reply_sent m) in H as (p & _ & G & _); eauto.
Qed.

Lemma carries_same resp c c' f v a i hs cp p out : same_ctx c c' ->
  carries resp (mkMsg c' f v a i hs cp p) out -> carries resp (mkMsg c f v a i hs cp p) out.
Proof.
  intros S [Hw H]. split.
  { cbn [m_ctx] in *. intros F. eapply frame_same; [..|apply Hw; eapply same_ctx_strings; eassumption]; try reflexivity.
    apply same_ctx_sym, S. }
  intros so s Hso. destruct (H so s Hso) as (h & t & H1 & H2 & H3 & H4 & H5 & H6 & H7 & H8 & H9).
  exists h, t. cbn [m_id m_version m_hs m_cp m_ctx m_payload m_features m_action] in *.
  repeat (split; [assumption|]). split.
  - intros F. apply H8. eapply same_ctx_strings; eassumption.
  - intros o0. destruct (H9 o0) as (o' & R1 & R2 & R3 & R4). exists o'. split; [exact R1|]. split; [exact R2|].
    split; [eapply same_ctx_trans; eassumption|exact R4].
Qed.

(** sizes in a frame *)
Lemma written_sizes m raw : written_frame m raw -> exists sz e, ctx_size (m_ctx m) = Ok sz /\
  utf8_encode (m_action m) = Ok e /\ 24 + sz + zlen e + zlen (m_payload m) <= zlen raw /\
  - 2 ^ 63 <= m_id m < 2 ^ 63.
Proof.
  intros (Hc & Hf & Ha & Hi & n & o & n' & Hn & Hw).
  pose proof (con_request _ _ _ _ _ _ _ _ _ _ _ Hn) as Hcon.
  change (Some (@Ok bytes (m_payload m))) with (option_map Ok (Some (m_payload m))) in Hn.
  destruct (new_request_fields _ _ _ _ _ _ _ _ _ _ _ Hn) as (I & Hid & Ev & F1 & F2 & F3 & F4 & Hctx & Hmsg & vb & Hvb & Hvar).
  cbn in Hctx.
  destruct (frame_written o raw I Hw) as ((_ & _ & Hr & _) & hdr & cb & sz & Wh & H23 & Wc & Hcs & Hraw & _).
  assert (D : draws (Some (m_id m)) = false) by (cbn; destruct (Z.eqb_spec (m_id m) 0); congruence).
  specialize (Hid D).
  destruct (agree_ctx (o_ctx o) sz cb Hcs Wc) as [L _].
  unfold request_variable_bytes in Hvb. apply wcat_cons_ok in Hvb as (fb & b1 & Wf & Hvb & ->).
  apply wcat_cons_ok in Hvb as (ab & b2 & Wa & Hvb & ->). apply wcat_nil_ok in Hvb as ->.
  apply write_string_form in Wa as (e & l & He & Hl & ->).
  exists sz, e. split; [rewrite <- Hctx; exact Hcs|]. split; [exact He|]. split; [|congruence].
  rewrite Hraw, Hvar, Hmsg. cbn [opt_bytes]. rewrite !zlen_app.
  pose proof (zlen_nonneg _ fb). pose proof (zlen_nonneg _ l). change (zlen (@nil byte)) with 0.
  apply v_int_size_correct in Hl. pose proof (v_int_size_pos (zlen e)). lia.
Qed.
Lemma frame_sizes m raw : frame_of m raw -> exists sz e, ctx_size (m_ctx m) = Ok sz /\
  utf8_encode (m_action m) = Ok e /\ 24 + sz + zlen e + zlen (m_payload m) <= zlen raw /\
  - 2 ^ 63 <= m_id m < 2 ^ 63.
Proof.
  intros Hf. apply frame_as_written in Hf as (c & Sc & Hw). destruct (written_sizes _ raw Hw) as (sz & e & E1 & X).
  exists sz, e. split; [|exact X]. eapply same_ctx_size; [apply same_ctx_sym, Sc|exact E1].
Qed.
Lemma reply_frame m raw c o p : frame_of m raw -> same_ctx (m_ctx m) c -> 
  nodup_ctx c ->
  seen (mkMsg c (m_features m) (m_version m) (m_action m) (m_id m) (m_hs m) (m_cp m) (m_payload m)) o ->
  zlen raw + zlen p < 2 ^ 31 ->
  exists out, answers m p out /\
    forall U (h : host U), (r <== hids (reply_to o (Ok p)) ;; send r) h = (Ok (Some out), h).
Proof.
  intros Hf S N Hs Hl. destruct (frame_sizes m raw Hf) as (sz & e & E1 & E2 & E3 & E4).
  pose proof (zlen_nonneg _ e). pose proof (zlen_nonneg _ (m_payload m)). pose proof (zlen_nonneg _ p).
  pose proof (same_ctx_size _ _ _ S E1) as E1'.
  destruct (reply_total _ o p Hs) as (out & Y & X).
  - cbn [m_ctx]. eapply ctx_sized_ok; [exact N|exact E1'|lia].
  - cbn [m_id]. apply (frame_id _ _ Hf).
  - cbn [m_id]. exact E4.
  - cbn [m_ctx]. intros sz' Hsz'. rewrite E1' in Hsz'. apply Ok_inj in Hsz'. lia.
  - exists out. split; [|exact X]. unfold answers, response_to in *. cbn [m_ctx m_features m_id m_hs m_cp] in Y.
    eapply carries_same; eassumption.
Qed.

(** a complete frame, whatever follows it in the same chunk *)
Lemma on_frame {U} ev (ext : extension U) m raw : set_order_ok (e_so ev) -> frame_of m raw ->
  exists c o, same_ctx (m_ctx m) c /\ nodup_ctx c /\
    seen (mkMsg c (m_features m) (m_version m) (m_action m) (m_id m) (m_hs m) (m_cp m) (m_payload m)) o /\
    forall uuid s h, on_input ev ext uuid (raw ++ s) h =
      handle_request ev ext uuid o (m_payload m ++ s) (set_next h (hs_next h + 2)).
Proof.
  intros Hso Hf. destruct (read_frame _ m raw Hso Hf) as (c & hd & o & Sc & E3 & Eo & Ef & Ev & Ea & Ei & Eh & Ec & R).
  destruct (read_as_frame _ m raw Hso Hf) as (c' & _ & RA).
  exists c, o. split; [exact Sc|].
  assert (Hd : o_hdr o = hd).
  { destruct (R []) as (t & _ & Ro). unfold read_outbound in Ro. apply rbind_ok in Ro as (c0 & s1 & _ & Ro). destruct (0 <? h_vhs hd).
    - apply rbind_ok in Ro as (z & s2 & _ & Ro). apply rbind_ok in Ro as (vb & s3 & _ & Ro).
      apply rbind_ok in Ro as (fa & s4 & _ & Ro). apply Ok_inj, pair_equal_spec in Ro as [<- _]. reflexivity.
    - apply Ok_inj, pair_equal_spec in Ro as [<- _]. reflexivity. }
  split; [|split].
  - destruct (R []) as (t & _ & Ro). rewrite <- Eo. unfold read_outbound in Ro. apply rbind_ok in Ro as (c0 & s1 & Rc & Ro).
    replace (o_ctx o) with c0; [eapply read_ctx_nodup; eassumption|]. destruct (0 <? h_vhs hd).
    + apply rbind_ok in Ro as (z & s2 & _ & Ro). apply rbind_ok in Ro as (vb & s3 & _ & Ro).
      apply rbind_ok in Ro as (fa & s4 & _ & Ro). apply Ok_inj, pair_equal_spec in Ro as [<- _]. reflexivity.
    + apply Ok_inj, pair_equal_spec in Ro as [<- _]. reflexivity.
  - unfold seen. cbn. rewrite Hd. auto 10.
  - intros uuid s h. destruct (R s) as (t & Rh & Ro). unfold on_input.
    rewrite (hbind_hids default_header _ h (mkHeader ES 17 (hs_next h) 0 (HInt CURRENT) 0) (hs_next h + 1) eq_refl).
    rewrite Rh, hbind_hlift, E3. rewrite (hbind_hids _ _ _ _ _ (new_blank_request _)).
    rewrite (blank_req _ 0), Ro, hbind_hlift.
    cbn [fst snd]. rewrite set_next_next. cbn [hs_next set_next]. f_equal. f_equal. lia.
Qed.

(** ** unknown actions *)
Lemma v_int_bytes i b : 0 <= i < 2 ^ 31 -> write_v_int i = Ok b -> zlen b <= 5.
Proof.
  intros Hi Hb. apply v_int_size_correct in Hb. rewrite <- Hb.
  pose proof (v_int_size_mono i (2 ^ 31 - 1) ltac:(lia)). change (v_int_size (2 ^ 31 - 1)) with 5 in H. exact H.
Qed.
Lemma not_found_encode a e : utf8_encode a = Ok e -> exists b, utf8_encode (not_found_text a) = Ok b /\ zlen b = 34 + zlen e.
Proof.
  intros H. unfold not_found_text.
  exists (map z2b (py "{""error"": ""No handler found for ") ++ e ++ map z2b (py """}")). split.
  - apply utf8_encode_app; [reflexivity|]. apply utf8_encode_app; [exact H|reflexivity].
  - rewrite !zlen_app, !zlen_map. change (zlen (py "{""error"": ""No handler found for ")) with 32.
    change (zlen (py """}")) with 2. lia.
Qed.
Lemma not_found_seen m raw c o : frame_of m raw -> same_ctx (m_ctx m) c -> nodup_ctx c ->
  seen (mkMsg c (m_features m) (m_version m) (m_action m) (m_id m) (m_hs m) (m_cp m) (m_payload m)) o ->
  zlen raw <= 2 ^ 29 ->
  exists out p e, answers m p out /\ is_utf8 (not_found_text (m_action m)) e /\
    w_exec_response true (mkExec (Some STATUS_NOT_FOUND) JSON_CONTENT_TYPE e [] [] false) p /\
    forall U (h : host U), handle_not_found o h = (Ok (Some out), h).
Proof.
  intros Hf Sc N S Hl.
  destruct (frame_sizes m raw Hf) as (sz & ae & E1 & E2 & E3 & E4).
  pose proof (ctx_size_pos _ _ E1). pose proof (zlen_nonneg _ (m_payload m)).
  pose proof (zlen_nonneg _ ae).
  destruct (not_found_encode _ _ E2) as (b & Eb & Lb).
  destruct (exec_response_writes true (mkExec (Some STATUS_NOT_FOUND) JSON_CONTENT_TYPE b [] [] false)) as (p & Wp & Rp).
  { repeat split; cbn [ex_content ex_ctype ex_headers ex_consumed ex_status].
    - exists STATUS_NOT_FOUND. repeat split; discriminate.
    - exists (map z2b JSON_CONTENT_TYPE). split; [apply is_utf8_encode; reflexivity|vm_compute; discriminate].
    - lia.
    - constructor.
    - constructor.
    - change (zlen (@nil pystr)) with 0. lia.
    - constructor. }
  assert (Lp : zlen p <= 50 + zlen b).
  { unfold write_exec_response in Wp. cbn [ex_content ex_ctype ex_headers ex_consumed ex_status ex_content_consumed] in Wp.
    apply wcat_cons_ok in Wp as (w1 & r1 & W1 & Wp & ->). apply wcat_cons_ok in Wp as (w2 & r2 & W2 & Wp & ->).
    apply wcat_cons_ok in Wp as (w3 & r3 & W3 & Wp & ->). apply wcat_cons_ok in Wp as (w4 & r4 & W4 & Wp & ->).
    assert (Er : r4 = [x00; x00; x00]) by (vm_compute in Wp; congruence). subst r4.
    assert (E1' : w1 = [x15]) by (vm_compute in W1; congruence). subst w1.
    assert (E2' : zlen w2 = 32) by (apply Ok_inj in W2; rewrite <- W2; reflexivity).
    apply v_int_bytes in W3; [|lia]. apply Ok_inj in W4. subst w4.
    rewrite !zlen_app, E2'. change (zlen [x15]) with 1. change (zlen [x00; x00; x00]) with 3. lia. }
  destruct (reply_frame m raw c o p Hf Sc N S) as (out & X & Y); [lia|].
  exists out, p, b. split; [exact X|]. split; [apply is_utf8_encode, Eb|].
  split; [exact Rp|].
  intros U h. unfold handle_not_found. rewrite (seen_action _ _ S). cbn [m_action]. rewrite Eb, hbind_hlift, Wp. apply Y.
Qed.
Lemma not_found_reply {U} ev (ext : extension U) m raw : set_order_ok (e_so ev) -> frame_of m raw ->
  zlen raw <= 2 ^ 29 -> ~ In (m_action m) known_actions ->
  exists out p e, answers m p out /\ is_utf8 (not_found_text (m_action m)) e /\
    w_exec_response true (mkExec (Some STATUS_NOT_FOUND) JSON_CONTENT_TYPE e [] [] false) p /\
    forall uuid s h, on_input ev ext uuid (raw ++ s) h = (Ok (Some out), set_next h (hs_next h + 2)).
Proof.
  intros Hso Hf Hl Ha. destruct (on_frame ev ext m raw Hso Hf) as (c & o & Sc & N & S & R).
  destruct (not_found_seen m raw c o Hf Sc N S Hl) as (out & p & e & X1 & X2 & X3 & X4).
  exists out, p, e. do 3 (split; [assumption|]).
  intros uuid s h. rewrite R, dispatch_other by (rewrite (seen_action _ _ S); exact Ha). apply X4.
Qed.

(** ** REST requests *)
Lemma received_same q a b : received_request q a -> received_request q b -> a = b.
Proof.
  intros (A1 & A2 & A3 & A4 & A5 & A6 & A7 & A8 & A9 & A10 & A11 & A12)
    (B1 & B2 & B3 & B4 & B5 & B6 & B7 & B8 & B9 & B10 & B11 & B12).
  destruct a, b; cbn in *. f_equal; congruence.
Qed.
Lemma method_name_ok m : member 9 m -> exists z, m = Some z /\ method_name m = Ok (mname z).
Proof.
  intros (z & -> & Hz). exists z. split; [reflexivity|]. unfold method_name, mname.
  assert (L : (Z.to_nat z < length method_names)%nat) by (change (length method_names) with 9%nat; lia).
  rewrite (nth_error_nth' _ ([] : pystr) L). destruct (Z.ltb_spec z 0); [lia|reflexivity].
Qed.
Lemma rest_call {U} ev (ext : extension U) strict o q z n q' input s (h : host U) :
  w_rest_request strict q input -> rq_method q = Some z ->
  find_handler (e_cls ev) (rg_map (xt_registry ext)) (mname z ++ [32] ++ rq_path q) = Ok n ->
  received_request q q' ->
  handle_rest ev ext o (input ++ s) h =
    match xt_invoke ext n (hs_user h) q' with
    | (u, Ok a) => (r <== hids (reply_to o (write_exec_response (exec_of a))) ;; send r) (set_user h u)
    | (u, Raise e) => (Raise e, set_user h u)
    end.
Proof.
  intros Wq Hz Hn Hr. destruct (rest_request_reads strict q input s I Wq) as (q'' & Rq & E).
  assert (q'' = q') by (eapply received_same; eassumption). subst q''.
  unfold handle_rest. rewrite Rq, hbind_hlift. cbn [fst].
  destruct Hr as (_ & Em & _ & Ep & _).
  destruct (method_name_ok (rq_method q')) as (z' & Ez & Em').
  { rewrite Em. destruct Wq as (mm & hh & oo & Em0 & _ & _ & _ & Wq). parts_in Wq. exists mm. split; [exact Em0|]. apply P0. }
  assert (z' = z) by congruence. subst z'.
  rewrite Em', hbind_hlift. cbv zeta. rewrite Ep. change [SPACE] with [32]. rewrite Hn, hbind_hlift.
  unfold hbind at 1, call_user. destruct (xt_invoke ext n (hs_user h) q') as [u [a|e]]; reflexivity.
Qed.
Lemma rest_no_route {U} ev (ext : extension U) strict o q z input s (h : host U) :
  w_rest_request strict q input -> rq_method q = Some z ->
  forall e, find_handler (e_cls ev) (rg_map (xt_registry ext)) (mname z ++ [32] ++ rq_path q) = Raise e ->
  handle_rest ev ext o (input ++ s) h = (Raise e, h).
Proof.
  intros Wq Hz e Hn. destruct (rest_request_reads strict q input s I Wq) as (q'' & Rq & E).
  unfold handle_rest. rewrite Rq, hbind_hlift. cbn [fst].
  destruct E as (_ & Em & _ & Ep & _).
  destruct (method_name_ok (rq_method q'')) as (z' & Ez & Em').
  { rewrite Em. destruct Wq as (mm & hh & oo & Em0 & _ & _ & _ & Wq). parts_in Wq. exists mm. split; [exact Em0|]. apply P0. }
  assert (z' = z) by congruence. subst z'.
  rewrite Em', hbind_hlift. cbv zeta. rewrite Ep. change [SPACE] with [32]. rewrite Hn. reflexivity.
Qed.
Lemma rest_reply {U} ev (ext : extension U) strict m raw q z n q' a : set_order_ok (e_so ev) -> frame_of m raw ->
  m_action m = A_REST -> w_rest_request strict q (m_payload m) ->
  rq_method q = Some z -> find_handler (e_cls ev) (rg_map (xt_registry ext)) (mname z ++ [32] ++ rq_path q) = Ok n ->
  received_request q q' -> exec_response_ok (exec_of a) ->
  exists p, write_exec_response (exec_of a) = Ok p /\ w_exec_response true (exec_of a) p /\
    (zlen raw + zlen p < 2 ^ 31 -> exists out, answers m p out /\
      forall uuid s h u, xt_invoke ext n (hs_user h) q' = (u, Ok a) ->
        on_input ev ext uuid (raw ++ s) h = (Ok (Some out), set_user (set_next h (hs_next h + 2)) u)).
Proof.
  intros Hso Hf Ha Wq Hz Hn Hr Hok.
  destruct (exec_response_writes true _ Hok) as (p & Wp & Rp). exists p. split; [exact Wp|].
  split; [exact Rp|]. intros Hl.
  destruct (on_frame ev ext m raw Hso Hf) as (c & o & Sc & N & S & R).
  destruct (reply_frame m raw c o p Hf Sc N S Hl) as (out & X & Y).
  exists out. split; [exact X|]. intros uuid s h u Hu.
  rewrite R, dispatch_rest by (rewrite (seen_action _ _ S); exact Ha).
  rewrite (rest_call ev ext strict o q z n q' _ _ _ Wq Hz Hn Hr).
  replace (hs_user (set_next h (hs_next h + 2))) with (hs_user h) by (destruct h; reflexivity).
  rewrite Hu, Wp. apply Y.
Qed.

(** ** handshakes *)
Lemma version_bytes v b : write_version v = Ok b -> 0 <= vid v < 2 ^ 31 -> zlen b <= 5.
Proof. unfold write_version. intros H Hv. eapply v_int_bytes; eassumption. Qed.
Lemma tcp_reply {U} ev (ext : extension U) strict m raw r : set_order_ok (e_so ev) -> frame_of m raw ->
  zlen raw <= 2 ^ 30 -> m_action m = A_TCP ->
  w_tcp_handshake_request strict r (m_payload m) ->
  exists out p, answers m p out /\ w_version true (version_of_id CURRENT) p /\
    forall uuid s h, on_input ev ext uuid (raw ++ s) h = (Ok (Some out), set_next h (hs_next h + 2)).
Proof.
  intros Hso Hf Hl Ha Wr. destruct (on_frame ev ext m raw Hso Hf) as (c & o & Sc & N & S & R).
  destruct (tcp_response_writes true (version_of_id CURRENT)) as (p & Wp & Rp).
  { vm_compute. split; [discriminate|reflexivity]. }
  assert (Lp : zlen p <= 5).
  { apply (version_bytes _ _ Wp). vm_compute. split; [discriminate|reflexivity]. }
  destruct (reply_frame m raw c o p Hf Sc N S) as (out & X & Y); [lia|].
  exists out, p. split; [exact X|]. split; [exact Rp|].
  intros uuid s h. rewrite R, dispatch_tcp by (rewrite (seen_action _ _ S); exact Ha).
  unfold handle_tcp_handshake. rewrite (tcp_request_reads strict r _ s I Wr), hbind_hlift, Wp. apply Y.
Qed.

Lemma wcat_perm A (f : A -> res bytes) l l' b : Permutation l l' -> wcat (map f l) = Ok b ->
  exists b', wcat (map f l') = Ok b' /\ zlen b' = zlen b.
Proof.
  intros P. revert b. induction P as [|x l l' P IH|x y l|l1 l2 l3 P1 IH1 P2 IH2]; intros b H.
  - eauto.
  - cbn [map] in *. apply wcat_cons_ok in H as (b1 & b2 & H1 & H2 & ->). destruct (IH _ H2) as (b' & Hb & Lb).
    exists (b1 ++ b'). split; [apply wcat_cons_ok; eauto|]. rewrite !zlen_app, Lb. reflexivity.
  - cbn [map] in *. apply wcat_cons_ok in H as (b1 & b2 & H1 & H & ->). apply wcat_cons_ok in H as (b3 & b4 & H3 & H4 & ->).
    exists (b3 ++ b1 ++ b4). split; [|rewrite !zlen_app; lia].
    apply wcat_cons_ok. exists b3, (b1 ++ b4). split; [exact H3|]. split; [|reflexivity]. apply wcat_cons_ok. eauto.
  - destruct (IH1 _ H) as (b' & Hb & Lb). destruct (IH2 _ Hb) as (b2 & Hb2 & Lb2). exists b2. split; [exact Hb2|lia].
Qed.
Lemma ephemeral_ascii u : length u = 16%nat ->
  length (new_ephemeral_id u) = 22%nat /\ Forall (fun c => 0 <= c < 128) (new_ephemeral_id u).
Proof.
  intros H. destruct (ephemeral_shape u H) as (ds & L & F & _ & ->). rewrite map_length. split; [exact L|].
  rewrite Forall_map. revert F. apply Forall_impl. intros d D.
  assert (E : forallb (fun c => (0 <=? c) && (c <? 128)) base64url = true) by reflexivity.
  rewrite forallb_forall in E. specialize (E (nth (Z.to_nat d) base64url 0) ltac:(apply nth_In; change (length base64url) with 64%nat; lia)). lia.
Qed.
Lemma ascii_encode x : Forall (fun c => 0 <= c < 128) x -> utf8_encode x = Ok (map z2b x).
Proof.
  intros F. apply is_utf8_encode. unfold is_utf8. induction F as [|c x Hc F IH]; [constructor|]. cbn [map].
  rewrite b2z_z2b_small by lia. change (c :: map b2z (map z2b x)) with ([c] ++ map b2z (map z2b x)).
  constructor; [constructor; exact Hc|exact IH].
Qed.
Definition own_roles : list role := [CLUSTER_MANAGER_ROLE; DATA_ROLE; INGEST_ROLE; REMOTE_CLUSTER_CLIENT_ROLE].
Lemma own_roles_ok : NoDup own_roles /\ Forall role_ok own_roles.
Proof.
  split.
  - repeat constructor; intros X; vm_compute in X; repeat (destruct X as [X|X]; [discriminate|]); exact X.
  - assert (T : forall x, forallb (fun c => (0 <=? c) && (c <? 128)) x = true -> zlen x <= 2 ^ 31 -> text_ok x).
    { intros x Hx L. exists (map z2b x). split; [|rewrite zlen_map; exact L]. apply is_utf8_encode, ascii_encode.
      rewrite forallb_forall in Hx. apply Forall_forall. intros c Hc. specialize (Hx c Hc). lia. }
    repeat constructor; cbn [fst snd]; (apply T; [vm_compute; reflexivity|vm_compute; discriminate]).
Qed.
Lemma own_node_ok ev uuid : Permutation own_roles (e_roles ev own_roles) -> length uuid = 16%nat ->
  node_ok (own_node ev uuid) /\ low_node (own_node ev uuid).
Proof.
  intros P Hu. destruct (ephemeral_ascii _ Hu) as [Le Fe].
  assert (T : forall x, forallb (fun c => (0 <=? c) && (c <? 128)) x = true -> zlen x <= 2 ^ 31 -> text_ok x).
  { intros x Hx L. exists (map z2b x). split; [|rewrite zlen_map; exact L]. apply is_utf8_encode, ascii_encode.
    rewrite forallb_forall in Hx. apply Forall_forall. intros c Hc. specialize (Hx c Hc). lia. }
  assert (Te : text_ok (new_ephemeral_id uuid)).
  { exists (map z2b (new_ephemeral_id uuid)). split; [apply is_utf8_encode, ascii_encode, Fe|].
    rewrite zlen_map. unfold zlen. rewrite Le. vm_compute. discriminate. }
  split; [|vm_compute; reflexivity]. unfold own_node, new_node. cbn [or_else].
  split; [|split; [|split; [|split; [|split; [|split]]]]]; cbn [n_name n_id n_eph n_host n_hostaddr n_addr n_attrs n_roles n_version].
  - repeat (constructor; [first [exact Te|apply T; [vm_compute; reflexivity|vm_compute; discriminate]]|]). constructor.
  - split; [split; [vm_compute; discriminate|vm_compute; reflexivity]|]. split; [apply T; [vm_compute; reflexivity|vm_compute; discriminate]|].
    vm_compute. split; [discriminate|reflexivity].
  - split; [vm_compute; reflexivity|]. split; [constructor|constructor].
  - pose proof (Permutation_length P) as L. unfold zlen. fold own_roles. rewrite <- L. vm_compute. reflexivity.
  - eapply Permutation_NoDup; [exact P|apply own_roles_ok].
  - eapply Permutation_Forall; [exact P|apply own_roles_ok].
  - vm_compute. split; [discriminate|reflexivity].
Qed.
Lemma roles_written : exists b, wcat (map write_role own_roles) = Ok b /\ zlen b = 62.
Proof. eexists. split; [vm_compute; reflexivity|vm_compute; reflexivity]. Qed.
Lemma own_written ev uuid p : Permutation own_roles (e_roles ev own_roles) -> length uuid = 16%nat ->
  write_handshake_response (mkHsResp (Some (own_node ev uuid)) [] (version_of_id CURRENT)) = Ok p ->
  zlen p <= 400.
Proof.
  intros P Hu W. unfold write_handshake_response in W. cbn [hr_node hr_cluster hr_version] in W.
  apply wcat_cons_ok in W as (w1 & r1 & W1 & W & ->). apply wcat_cons_ok in W as (w2 & r2 & W2 & W & ->).
  apply wcat_cons_ok in W as (w3 & r3 & W3 & W & ->). apply wcat_nil_ok in W as ->.
  apply version_bytes in W3; [|vm_compute; split; [discriminate|reflexivity]].
  assert (E2 : zlen w2 = 1) by (apply Ok_inj in W2; rewrite <- W2; reflexivity).
  apply wcat_cons_ok in W1 as (w4 & r4 & W4 & W & ->). apply wcat_cons_ok in W as (w5 & r5 & W5 & W & ->).
  apply wcat_nil_ok in W as ->.
  assert (E4 : zlen w4 = 1) by (apply Ok_inj in W4; rewrite <- W4; reflexivity).
  unfold write_node, own_node, new_node in W5.
  cbn [n_name n_id n_eph n_host n_hostaddr n_addr n_attrs n_roles n_version or_else] in W5.
  apply wcat_cons_ok in W5 as (a1 & r6 & A1 & W & ->). apply wcat_cons_ok in W as (a2 & r7 & A2 & W & ->).
  apply wcat_cons_ok in W as (a3 & r8 & A3 & W & ->). apply wcat_cons_ok in W as (a4 & r9 & A4 & W & ->).
  apply wcat_cons_ok in W as (a5 & r10 & A5 & W & ->). apply wcat_cons_ok in W as (a6 & r11 & A6 & W & ->).
  apply wcat_cons_ok in W as (a7 & r12 & A7 & W & ->). apply wcat_cons_ok in W as (a8 & r13 & A8 & W & ->).
  apply wcat_cons_ok in W as (a9 & r14 & A9 & W & ->). apply wcat_nil_ok in W as ->.
  assert (L1 : zlen a1 = 12) by (apply Ok_inj in A1; rewrite <- A1; reflexivity).
  assert (L2 : zlen a2 = 12) by (apply Ok_inj in A2; rewrite <- A2; reflexivity).
  assert (L4 : zlen a4 = 10) by (apply Ok_inj in A4; rewrite <- A4; reflexivity).
  assert (L5 : zlen a5 = 10) by (apply Ok_inj in A5; rewrite <- A5; reflexivity).
  assert (L6 : zlen a6 = 19) by (apply Ok_inj in A6; rewrite <- A6; reflexivity).
  assert (L7 : zlen a7 = 1) by (apply Ok_inj in A7; rewrite <- A7; reflexivity).
  apply version_bytes in A9; [|vm_compute; split; [discriminate|reflexivity]].
  assert (L3 : zlen a3 <= 27).
  { apply write_string_form in A3 as (e & l & He & Hl & ->). destruct (ephemeral_ascii _ Hu) as [Le Fe].
    rewrite (ascii_encode _ Fe) in He. apply Ok_inj in He. subst e. rewrite zlen_map in Hl.
    apply v_int_bytes in Hl; [|unfold zlen; rewrite Le; lia]. rewrite zlen_app, zlen_map. unfold zlen at 2. rewrite Le. lia. }
  assert (L8 : zlen a8 <= 67).
  { apply wcat_cons_ok in A8 as (b1 & b2 & B1 & B2 & ->). destruct roles_written as (b & Wb & Lb).
    destruct (wcat_perm _ _ _ _ _ P Wb) as (b' & Wb' & Lb'). fold own_roles in B2. rewrite Wb' in B2. apply Ok_inj in B2. subst b2.
    fold own_roles in B1. rewrite zlen_app. apply v_int_bytes in B1; [lia|]. 
    unfold zlen. rewrite <- (Permutation_length P). vm_compute. split; [discriminate|reflexivity]. }
  rewrite !zlen_app. change (zlen (@nil byte)) with 0. lia.
Qed.
(** 127.0.0.1:1234 *)
Definition hello_node (eph : pystr) (roles : list role) : node :=
  mkNode (py "hello-world") (py "hello-world") eph (py "127.0.0.1") (py "127.0.0.1")
    (mkAddr (127 * 2 ^ 24 + 1) (py "127.0.0.1") 1234) [] roles (version_of_id 3000099).
Lemma own_hello ev uuid : own_node ev uuid = hello_node (or_else None (new_ephemeral_id uuid)) (e_roles ev own_roles).
Proof. reflexivity. Qed.
Lemma transport_reply {U} ev (ext : extension U) strict m raw t uuid : set_order_ok (e_so ev) -> frame_of m raw ->
  Permutation own_roles (e_roles ev own_roles) -> length uuid = 16%nat ->
  zlen raw <= 2 ^ 30 -> m_action m = A_TRANSPORT ->
  w_task strict t (m_payload m) ->
  exists out p, answers m p out /\
    w_handshake_response true (mkHsResp (Some (own_node ev uuid)) [] (version_of_id CURRENT)) p /\
    forall s h, on_input ev ext uuid (raw ++ s) h = (Ok (Some out), set_next h (hs_next h + 2)).
Proof.
  intros Hso Hf P Hu Hl Ha Wr. destruct (on_frame ev ext m raw Hso Hf) as (c & o & Sc & N & S & R).
  destruct (own_node_ok ev uuid P Hu) as [Hn Hlow].
  destruct (handshake_response_writes true (mkHsResp (Some (own_node ev uuid)) [] (version_of_id CURRENT))) as (p & Wp & Rp).
  { split; [|intros n En; cbn [hr_node] in En; match type of En with Some ?a = Some ?b => assert (n = a) by congruence end; subst n; exact Hlow].
    split; [intros n En; cbn [hr_node] in En; match type of En with Some ?a = Some ?b => assert (n = a) by congruence end; subst n; exact Hn|]. split; [|vm_compute; split; [discriminate|reflexivity]].
    exists []. split; [constructor|vm_compute; discriminate]. }
  pose proof (own_written _ _ _ P Hu Wp) as Lp.
  destruct (reply_frame m raw c o p Hf Sc N S) as (out & X & Y); [lia|].
  exists out, p. split; [exact X|]. split; [exact Rp|].
  intros s h. rewrite R, dispatch_transport by (rewrite (seen_action _ _ S); exact Ha).
  unfold handle_transport_handshake, read_transport_request. rewrite (task_reads strict t _ s I Wr), hbind_hlift, Wp. apply Y.
Qed.

(** ** what one input does to the state *)
Lemma new_request_ids c f msg v a rid hs cp n r n' : new_request c f msg v a rid hs cp n = (r, n') ->
  n' = (if draws rid then n + 1 else n) /\
  forall o, r = Ok o -> h_id (o_hdr o) = (if draws rid then n else match rid with Some i => i | None => 0 end).
Proof.
  intros H. pose proof (make_id (MkRequest c f msg v a rid hs cp) n) as M. cbn [make making_id] in M.
  unfold ibind in M. rewrite H in M. destruct r as [o|e]; cbn [iret] in M; destruct M as [M1 M2].
  - split; [exact M1|]. intros o' Ho. apply Ok_inj in Ho. subst o'. apply M2. reflexivity.
  - split; [exact M1|discriminate].
Qed.
Lemma new_response_ids c f msg v rid hs cp n r n' : new_response c f msg v rid hs cp n = (r, n') ->
  n' = (if draws rid then n + 1 else n).
Proof.
  intros H. pose proof (make_id (MkResponse c f msg v rid hs cp) n) as M. cbn [make making_id] in M.
  unfold ibind in M. rewrite H in M. destruct r as [o|e]; cbn [iret] in M; apply M.
Qed.
Definition quiet {U A} (m : hm U A) : Prop := forall h r h', m h = (r, h') ->
  hs_pending h' = hs_pending h /\ hs_init h' = hs_init h /\ hs_settings h' = hs_settings h /\ hs_next h <= hs_next h'.
Lemma quiet_bind {U A B} (m : hm U A) (k : A -> hm U B) : quiet m -> (forall a, quiet (k a)) -> quiet (hbind m k).
Proof.
  intros Hm Hk h r h' H. unfold hbind in H. destruct (m h) as [[a|e] h1] eqn:E.
  - destruct (Hm _ _ _ E) as (E1 & E2 & E3 & E4). destruct (Hk a _ _ _ H) as (F1 & F2 & F3 & F4).
    repeat split; try congruence. lia.
  - apply pair_equal_spec in H as [_ <-]. eapply Hm, E.
Qed.
Lemma quiet_lift {U A} (x : res A) : quiet (U := U) (hlift x).
Proof. intros h r h' H. apply pair_equal_spec in H as [_ <-]. repeat split; lia. Qed.
Lemma quiet_ret {U A} (x : A) : quiet (U := U) (hret x).
Proof. intros h r h' H. apply pair_equal_spec in H as [_ <-]. repeat split; lia. Qed.
Lemma quiet_ids {U A} (m : idm A) : (forall n r n', m n = (r, n') -> n <= n') -> quiet (U := U) (hids m).
Proof.
  intros Hm h r h' H. unfold hids in H. destruct (m (hs_next h)) as [x n] eqn:E. apply pair_equal_spec in H as [_ <-].
  repeat split. cbn. eapply Hm, E.
Qed.
Lemma quiet_reply {U} o msg : quiet (U := U) (hids (reply_to o msg)).
Proof.
  apply quiet_ids. intros n r n' H. unfold reply_to in H. cbv zeta in H. apply new_response_ids in H.
  destruct (draws _); lia.
Qed.
Lemma quiet_send {U} o : quiet (U := U) (send o).
Proof. apply quiet_bind; [apply quiet_lift|intros; apply quiet_ret]. Qed.
Lemma quiet_user {U} (ext : extension U) n q : quiet (call_user ext n q).
Proof.
  intros h r h' H. unfold call_user in H. destruct (xt_invoke ext n (hs_user h) q). apply pair_equal_spec in H as [_ <-].
  repeat split; cbn; lia.
Qed.
Ltac quiet := repeat first [apply quiet_bind|apply quiet_lift|apply quiet_reply|apply quiet_send|apply quiet_user
                           |apply quiet_ret|progress intros].
Lemma quiet_not_init {U} ev (ext : extension U) uuid o p : o_action o <> A_DISCOVERY ->
  quiet (handle_request ev ext uuid o p).
Proof.
  intros H. unfold handle_request. cbv zeta. destruct (streqb (o_action o) A_DISCOVERY) eqn:E.
  { apply streqb_eq in E. contradiction. }
  destruct (streqb _ A_REST); [unfold handle_rest; quiet; cbv zeta; quiet|].
  destruct (streqb _ A_TCP); [unfold handle_tcp_handshake; quiet|].
  destruct (streqb _ A_TRANSPORT); [unfold handle_transport_handshake; quiet|]. unfold handle_not_found. quiet.
Qed.

(** everything that is not an initialization request *)
Lemma env_effect {U} ev p (h : host U) r h' : handle_env ev p h = (r, h') ->
  hs_pending h' = hs_pending h /\ hs_init h' = hs_init h /\ hs_next h' = hs_next h.
Proof.
  unfold handle_env. destruct (read_settings _ _ _) as [x d]. cbv zeta. intros H. destruct x as [x|e].
  - destruct (hs_init (set_settings h d)) as [o|] eqn:E.
    + unfold send, hbind, hlift in H. destruct (write_outbound o); apply pair_equal_spec in H as [_ <-]; auto.
    + apply pair_equal_spec in H as [_ <-]; auto.
  - apply pair_equal_spec in H as [_ <-]; auto.
Qed.
Lemma register_effect {U} o p (h : host U) r h' : handle_register o p h = (r, h') -> h' = h.
Proof.
  unfold handle_register, hbind, hlift. destruct (read_ack p) as [a|e]; [|intros H; apply pair_equal_spec in H as [_ <-]; reflexivity].
  destruct (fst a).
  - unfold send, hbind, hlift. destruct (write_outbound o); intros H; apply pair_equal_spec in H as [_ <-]; reflexivity.
  - intros H; apply pair_equal_spec in H as [_ <-]; reflexivity.
Qed.
Lemma step_other {U} ev (ext : extension U) uuid raw h r h' : set_order_ok (e_so ev) ->
  (forall m, read_as (e_so ev) raw m -> ~ is_init m) -> on_input ev ext uuid raw h = (r, h') ->
  hs_next h <= hs_next h' /\ hs_init h' = hs_init h /\
  (hs_pending h' = hs_pending h \/
   exists k p, response_in (e_so ev) raw false k p /\ In k (pending_ids h) /\ hs_pending h' = dict_del Z.eqb k (hs_pending h)).
Proof.
  intros Hso Hn H. destruct (input_cases ev ext raw) as [[m Hm]|[(err & k & p & Hr)|Hx]].
  - destruct (on_request ev ext raw m Hso Hm) as (o & S & _ & E). rewrite E in H.
    apply quiet_not_init in H. 2: { rewrite (seen_action _ _ S). apply (Hn m Hm). }
    destruct H as (P & I & _ & N). cbn in P, I, N. split; [lia|]. split; [exact I|]. left. exact P.
  - rewrite (on_response _ _ _ _ _ _ Hr) in H. destruct err.
    + apply pair_equal_spec in H as [_ <-]. cbn. split; [lia|]. auto.
    + unfold handle_response in H. cbn [hs_pending set_next] in H. 
      destruct (dict_get Z.eqb k (hs_pending h)) as [x|] eqn:G.
      * assert (P : hs_pending h' = dict_del Z.eqb k (hs_pending h) /\ hs_init h' = hs_init h /\ hs_next h' = hs_next h + 2).
        { cbv zeta in H. destruct x as [o|].
          - apply register_effect in H. subst h'. auto.
          - apply env_effect in H. destruct H as (H1 & H2 & H3). rewrite H1, H2, H3. auto. }
        destruct P as (P & I & N). split; [lia|]. split; [exact I|]. right. exists k, p. split; [exact Hr|]. split; [|exact P].
        unfold pending_ids. apply (dict_get_In _ Z.eqb_eq) in G. apply (in_map fst) in G. exact G.
      * apply pair_equal_spec in H as [_ <-]. cbn. split; [lia|]. auto.
  - destruct (Hx uuid h) as (e & n & E & L). rewrite E in H. apply pair_equal_spec in H as [_ <-]. cbn. auto.
Qed.
Lemma step_init {U} ev (ext : extension U) uuid raw m h r h' : set_order_ok (e_so ev) ->
  read_as (e_so ev) raw m -> is_init m -> on_input ev ext uuid raw h = (r, h') ->
  hs_next h <= hs_next h' /\ hs_settings h' = hs_settings h /\ hs_user h' = hs_user h /\
  ((hs_init h' = hs_init h /\ hs_pending h' = hs_pending h /\ exists e, r = Raise e) \/
   (exists resp n n', nodup_ctx (m_ctx m) /\
      new_response (Some (m_ctx m)) (m_features m) (Some (write_init_response (mkInitResp (xt_name ext) (xt_interfaces ext))))
        (HVer min_compat) (Some (m_id m)) (m_hs m) (m_cp m) n = (Ok resp, n') /\ hs_init h' = Some resp /\
      (exists q t, read_init_request (m_payload m) = Ok (q, t)) /\
      ((hs_pending h' = hs_pending h /\ exists e, r = Raise e) \/
       (exists k1, hs_next h <= k1 < hs_next h' /\ hs_pending h' = dict_set Z.eqb k1 EnvRH (hs_pending h) /\ exists e, r = Raise e) \/
       (exists k1 k2 o em, hs_next h <= k1 < k2 /\ k2 < hs_next h' /\
          hs_pending h' = dict_set Z.eqb k2 (RegisterRH o) (dict_set Z.eqb k1 EnvRH (hs_pending h)) /\
          new_ext_transport_request 4 [] = Ok em /\
          new_request (Some (m_ctx m)) (m_features m) (Some (write_ext_transport_request em)) (HVer min_compat)
            ENV_ACTION None false false k1 = (Ok o, k2))))).
Proof.
  intros Hso Hm Hi H. destruct (on_request ev ext raw m Hso Hm) as (o & S & Nd & E). rewrite E in H.
  rewrite dispatch_init in H by (rewrite (seen_action _ _ S); exact Hi). clear E.
  destruct S as (C & F & A & I & Hs & Cp). unfold handle_discovery in H.
  unfold hbind at 1, hlift at 1 in H. destruct (read_init_request (m_payload m)) as [[q t]|e] eqn:Rq.
  2: { apply pair_equal_spec in H as [<- <-]. cbn. split; [lia|]. split; [reflexivity|]. split; [reflexivity|]. left. eauto. }
  unfold hbind at 1, hids at 1 in H. cbn [hs_next set_next] in H.
  destruct (reply_to o _ (hs_next h + 2)) as [[resp|e] n1] eqn:Er.
  2: { apply pair_equal_spec in H as [<- <-]. unfold reply_to in Er. cbv zeta in Er. apply new_response_ids in Er.
       cbn. split; [destruct (draws _); lia|]. split; [reflexivity|]. split; [reflexivity|]. left. eauto. }
  assert (N1 : hs_next h + 2 <= n1).
  { unfold reply_to in Er. cbv zeta in Er. apply new_response_ids in Er. destruct (draws _); lia. }
  unfold reply_to in Er. cbv zeta in Er. rewrite C, F, I, Hs, Cp in Er. change V_MIN_COMPAT with (HVer min_compat) in *.
  unfold hbind at 1, hmod at 1 in H. rewrite set_next_next in H.
  assert (G : hs_next h <= hs_next h' /\ hs_settings h' = hs_settings h /\ hs_user h' = hs_user h /\
     hs_init h' = Some resp /\
      ((hs_pending h' = hs_pending h /\ exists e, r = Raise e) \/
       (exists k1, hs_next h <= k1 < hs_next h' /\ hs_pending h' = dict_set Z.eqb k1 EnvRH (hs_pending h) /\ exists e, r = Raise e) \/
       (exists k1 k2 o em, hs_next h <= k1 < k2 /\ k2 < hs_next h' /\
          hs_pending h' = dict_set Z.eqb k2 (RegisterRH o) (dict_set Z.eqb k1 EnvRH (hs_pending h)) /\
          new_ext_transport_request 4 [] = Ok em /\
          new_request (Some (m_ctx m)) (m_features m) (Some (write_ext_transport_request em)) (HVer min_compat)
            ENV_ACTION None false false k1 = (Ok o, k2)))).
  { unfold hbind at 1, hlift at 1 in H. unfold REQUEST_EXTENSION_ENVIRONMENT_SETTINGS in H. destruct (new_ext_transport_request 4 []) as [em|e] eqn:Em.
    2: { apply pair_equal_spec in H as [<- <-]. cbn. repeat (split; [first [reflexivity|lia]|]). left. eauto. }
    unfold hbind at 1, hids at 1 in H. cbn [hs_next set_next set_init] in H.
    destruct (new_request _ _ _ _ ENV_ACTION _ _ _ n1) as [[sr|e] n2] eqn:Es;
      destruct (new_request_ids _ _ _ _ _ _ _ _ _ _ _ Es) as [N2 K1]; cbn [draws] in N2, K1.
    2: { apply pair_equal_spec in H as [<- <-]. cbn. repeat (split; [first [reflexivity|lia]|]). left. eauto. }
    specialize (K1 sr eq_refl). rewrite K1 in H.
    unfold hbind at 1, register_response at 1, hmod at 1 in H.
    cbn [hs_next set_next set_init hs_pending set_pending] in H.
    unfold hbind at 1, hlift at 1 in H. destruct (new_register_request _ _ _) as [rm|e].
    2: { apply pair_equal_spec in H as [<- <-]. cbn. repeat (split; [first [reflexivity|lia]|]). right; left. exists n1. split; [lia|]. eauto. }
    unfold hbind at 1, hids at 1 in H. cbn [hs_next set_next set_init set_pending] in H.
    destruct (new_request _ _ _ _ REGISTER_ACTION _ _ _ n2) as [[rr|e] n3] eqn:Ex;
      destruct (new_request_ids _ _ _ _ _ _ _ _ _ _ _ Ex) as [N3 K2]; cbn [draws] in N3, K2.
    2: { apply pair_equal_spec in H as [<- <-]. cbn. repeat (split; [first [reflexivity|lia]|]). right; left. exists n1. split; [lia|]. eauto. }
    specialize (K2 rr eq_refl). rewrite K2 in H.
    unfold hbind at 1, register_response at 1, hmod at 1 in H.
    cbn [hs_next set_next set_init hs_pending set_pending] in H.
    unfold send, hbind, hlift in H.
    destruct (write_outbound rr); apply pair_equal_spec in H as [<- <-]; cbn; (repeat (split; [first [reflexivity|lia]|]));
      right; right; exists n1, n2, sr, em; (split; [lia|]); (split; [lia|]); (split; [reflexivity|]); (split; [reflexivity|]); rewrite <- C, <- F; exact Es. }
  destruct G as (G1 & G2 & G3 & G4 & G5). do 3 (split; [assumption|]). right. exists resp, (hs_next h + 2), n1. eauto 10.
Qed.

(** ** registrations in any history *)
Lemma request_or_response so raw m err k p : read_as so raw m -> response_in so raw err k p -> False.
Proof.
  intros (hd & t & _ & _ & _ & _ & R & Q & _) (hd' & t' & _ & _ & _ & _ & R' & Q' & _).
  rewrite R in R'. apply Ok_inj, pair_equal_spec in R' as [<- _]. congruence.
Qed.
Lemma is_init_dec m : is_init m \/ ~ is_init m.
Proof.
  destruct (streqb (m_action m) A_DISCOVERY) eqn:E; [left; apply streqb_eq, E|right; apply streqb_neq, E].
Qed.
Lemma read_as_fun so raw m m' : read_as so raw m -> read_as so raw m' -> m = m'.
Proof.
  intros (hd & t & n & o0 & n' & o & R & Q & B & O & A1 & A2 & A3 & A4 & A5 & A6 & A7)
    (hd' & t' & k & o0' & k' & o' & R' & Q' & B' & O' & A1' & A2' & A3' & A4' & A5' & A6' & A7').
  rewrite R in R'. apply Ok_inj, pair_equal_spec in R' as [<- <-].
  rewrite new_blank_request in B, B'. apply pair_equal_spec in B as [B _], B' as [B' _]. apply Ok_inj in B, B'. subst o0 o0'.
  rewrite (blank_req _ n), O in O'. apply Ok_inj, pair_equal_spec in O' as [<- P].
  assert (V : m_version m = m_version m') by congruence. destruct m, m'; cbn in *. f_equal; congruence.
Qed.
Lemma request_dec so raw : (exists m, read_as so raw m) \/ (forall m, ~ read_as so raw m).
Proof.
  destruct (read_header raw) as [[hd t]|e] eqn:Rh.
  2: { right. intros m (hd & t & n & o0 & n' & o & R & _). congruence. }
  destruct (is_request hd) eqn:Q.
  2: { right. intros m (hd' & t' & n & o0 & n' & o & R & Q' & _). rewrite Rh in R.
       apply Ok_inj, pair_equal_spec in R as [<- _]. congruence. }
  destruct (read_outbound so true (blank_request 0) hd t) as [[o p]|e] eqn:Ro.
  - left. assert (exists v, h_version hd = HVer v) as [v Ev].
    { unfold read_header in Rh. repeat (apply rbind_ok in Rh as (? & ? & _ & Rh)).
      apply Ok_inj, pair_equal_spec in Rh as [<- _]. cbn. eauto. }
    exists (mkMsg (o_ctx o) (o_features o) v (o_action o) (h_id hd) (is_handshake hd) (is_compress hd) p).
    exists hd, t, 0, (blank_request 0), 1, o. cbn. rewrite Ev. repeat (split; [first [assumption|reflexivity]|]). reflexivity.
  - right. intros m (hd' & t' & n & o0 & n' & o & R & Q' & B & O & _). rewrite Rh in R.
    apply Ok_inj, pair_equal_spec in R as [<- <-]. rewrite new_blank_request in B. apply pair_equal_spec in B as [B _].
    apply Ok_inj in B. subst o0. rewrite (blank_req _ 0), Ro in O. discriminate.
Qed.
Lemma init_input so raw : (exists m, read_as so raw m /\ is_init m) \/ (forall m, read_as so raw m -> ~ is_init m).
Proof.
  destruct (request_dec so raw) as [[m Hm]|N]; [|right; intros m Hm; exfalso; exact (N m Hm)].
  destruct (is_init_dec m) as [I|I]; [left; eauto|right]. intros m' Hm'. rewrite (read_as_fun _ _ _ _ Hm' Hm). exact I.
Qed.
Definition inv {U} (h : host U) : Prop :=
  0 <= hs_next h /\ NoDup (pending_ids h) /\ forall k, In k (pending_ids h) -> 0 <= k < hs_next h.
Lemma step_inv {U} ev (ext : extension U) uuid raw h r h' : set_order_ok (e_so ev) -> inv h ->
  on_input ev ext uuid raw h = (r, h') ->
  inv h' /\ hs_next h <= hs_next h' /\
  (forall k, In k (pending_ids h') -> In k (pending_ids h) \/ hs_next h <= k) /\
  (forall k x, dict_get Z.eqb k (hs_pending h) = Some x ->
     dict_get Z.eqb k (hs_pending h') = Some x \/
     ((exists p, response_in (e_so ev) raw false k p) /\ ~ In k (pending_ids h'))).
Proof.
  intros Hso (P0 & Nd & Pk) H. destruct (init_input (e_so ev) raw) as [(m & Hm & Hi)|Hn].
  - destruct (step_init ev ext uuid raw m h r h' Hso Hm Hi H) as (N & _ & _ & G).
    assert (Pe : forall k x, dict_get Z.eqb k (hs_pending h) = Some x -> k < hs_next h).
    { intros k x Hk. apply Pk. unfold pending_ids. apply (dict_get_In _ Z.eqb_eq) in Hk. apply (in_map fst) in Hk. exact Hk. }
    assert (C : hs_pending h' = hs_pending h \/
       (exists k1, hs_next h <= k1 < hs_next h' /\ hs_pending h' = dict_set Z.eqb k1 EnvRH (hs_pending h)) \/
       (exists k1 k2 o, hs_next h <= k1 < k2 /\ k2 < hs_next h' /\
          hs_pending h' = dict_set Z.eqb k2 (RegisterRH o) (dict_set Z.eqb k1 EnvRH (hs_pending h)))).
    { destruct G as [(_ & G & _)|(resp & n & n' & _ & _ & _ & _ & [[G _]|[(k1 & G1 & G2 & _)|(k1 & k2 & o & em & G1 & G2 & G3 & _)]])]; eauto 10. }
    clear G. destruct C as [C|[(k1 & L & C)|(k1 & k2 & o & L1 & L2 & C)]].
    + unfold inv, pending_ids in *. rewrite C. split; [split; [lia|]; split; [exact Nd|]; intros k Hk; specialize (Pk k Hk); lia|].
      auto.
    + split; [split; [lia|]; split|split; [exact N|split]]; unfold pending_ids in *; rewrite ?C.
      * apply (dict_set_NoDup _ Z.eqb_eq), Nd.
      * intros k Hk. apply (dict_set_keys _ Z.eqb_eq) in Hk as [->|Hk]; [lia|]. specialize (Pk k Hk). lia.
      * intros k Hk. apply (dict_set_keys _ Z.eqb_eq) in Hk as [->|Hk]; [right; lia|auto].
      * intros k x Hk. left. pose proof (Pe k x Hk). rewrite (dict_get_set_other _ Z.eqb_eq) by lia. exact Hk.
    + split; [split; [lia|]; split|split; [exact N|split]]; unfold pending_ids in *; rewrite ?C.
      * apply (dict_set_NoDup _ Z.eqb_eq), (dict_set_NoDup _ Z.eqb_eq), Nd.
      * intros k Hk. apply (dict_set_keys _ Z.eqb_eq) in Hk as [->|Hk]; [lia|]. apply (dict_set_keys _ Z.eqb_eq) in Hk as [->|Hk]; [lia|].
        specialize (Pk k Hk). lia.
      * intros k Hk. apply (dict_set_keys _ Z.eqb_eq) in Hk as [->|Hk]; [right; lia|]. apply (dict_set_keys _ Z.eqb_eq) in Hk as [->|Hk]; [right; lia|auto].
      * intros k x Hk. left. pose proof (Pe k x Hk). rewrite !(dict_get_set_other _ Z.eqb_eq) by lia. exact Hk.
  - destruct (step_other ev ext uuid raw h r h' Hso Hn H) as (N & _ & C).
    destruct C as [C|(k & p & Hr & Hk & C)].
    + unfold inv, pending_ids in *. rewrite C. split; [split; [lia|]; split; [exact Nd|]; intros k Hk; specialize (Pk k Hk); lia|].
      auto.
    + split; [split; [lia|]; split|split; [exact N|split]]; unfold pending_ids in *; rewrite ?C.
      * apply dict_del_NoDup, Nd.
      * intros j Hj. apply dict_del_keys in Hj. specialize (Pk j Hj). lia.
      * intros j Hj. apply dict_del_keys in Hj. auto.
      * intros j x Hj. rewrite (dict_del_get _ Z.eqb_eq) by exact Nd. destruct (Z.eqb_spec k j) as [<-|E]; [right|left; exact Hj].
        split; [eauto|]. apply (dict_get_None _ Z.eqb_eq). rewrite (dict_del_get _ Z.eqb_eq), Z.eqb_refl by exact Nd. reflexivity.
Qed.
Lemma inv_initial {U} (u : U) : inv (initial_host u).
Proof. split; [reflexivity|]. split; [constructor|]. intros k []. Qed.
Lemma feed_inv {U} ev (ext : extension U) l : set_order_ok (e_so ev) -> forall h, inv h ->
  inv (feed ev ext h l) /\ hs_next h <= hs_next (feed ev ext h l) /\
  (forall k, In k (pending_ids (feed ev ext h l)) -> In k (pending_ids h) \/ hs_next h <= k).
Proof.
  intros Hso. induction l as [|[u raw] l IH]; intros h I; [cbn; split; [exact I|]; split; [lia|auto]|].
  cbn [feed fold_left fst snd]. destruct (on_input ev ext u raw h) as [r h1] eqn:E. cbn [snd].
  destruct (step_inv _ _ _ _ _ _ _ Hso I E) as (I1 & N1 & K1 & _). destruct (IH h1 I1) as (I2 & N2 & K2).
  unfold feed in *. split; [exact I2|]. split; [lia|]. intros k Hk. destruct (K2 k Hk) as [H|H]; [auto|right; lia].
Qed.
Lemma running_inv {U} ev (ext : extension U) h : set_order_ok (e_so ev) -> running ev ext h -> inv h.
Proof. intros Hso (u & l & ->). apply feed_inv; [exact Hso|apply inv_initial]. Qed.
Lemma running_feed {U} ev (ext : extension U) h l : running ev ext h -> running ev ext (feed ev ext h l).
Proof. intros (u & l0 & ->). exists u, (l0 ++ l). unfold feed. rewrite fold_left_app. reflexivity. Qed.
Lemma running_next {U} ev (ext : extension U) h uuid raw : running ev ext h -> running ev ext (snd (on_input ev ext uuid raw h)).
Proof. intros H. apply (running_feed ev ext h [(uuid, raw)] H). Qed.

(** ** the initialization exchange *)
Lemma written_features m raw : written_frame m raw -> exists sz fb, ctx_size (m_ctx m) = Ok sz /\
  write_string_array (m_features m) = Ok fb /\ 23 + sz + zlen fb + zlen (m_payload m) <= zlen raw.
Proof.
  intros (Hc & Hf & Ha & Hi & n & o & n' & Hn & Hw).
  change (Some (@Ok bytes (m_payload m))) with (option_map Ok (Some (m_payload m))) in Hn.
  destruct (new_request_fields _ _ _ _ _ _ _ _ _ _ _ Hn) as (I & Hid & Ev & F1 & F2 & F3 & F4 & Hctx & Hmsg & vb & Hvb & Hvar).
  cbn in Hctx.
  destruct (frame_written o raw I Hw) as ((_ & _ & Hr & _) & hdr & cb & sz & Wh & H23 & Wc & Hcs & Hraw & _).
  destruct (agree_ctx (o_ctx o) sz cb Hcs Wc) as [L _].
  unfold request_variable_bytes in Hvb. apply wcat_cons_ok in Hvb as (fb & b1 & Wf & Hvb & ->).
  exists sz, fb. split; [rewrite <- Hctx; exact Hcs|]. split; [exact Wf|].
  rewrite Hraw, Hvar, Hmsg. cbn [opt_bytes]. rewrite !zlen_app. pose proof (zlen_nonneg _ b1). lia.
Qed.
Lemma frame_features m raw : frame_of m raw -> exists sz fb, ctx_size (m_ctx m) = Ok sz /\
  write_string_array (m_features m) = Ok fb /\ 23 + sz + zlen fb + zlen (m_payload m) <= zlen raw.
Proof.
  intros Hf. apply frame_as_written in Hf as (c & Sc & Hw). destruct (written_features _ raw Hw) as (sz & e & E1 & X).
  exists sz, e. split; [|exact X]. eapply same_ctx_size; [apply same_ctx_sym, Sc|exact E1].
Qed.
Lemma new_request_drawn c f msg v a hs cp n k o k' : k <> 0 ->
  new_request c f msg v a (Some k) hs cp n = (Ok o, k') -> new_request c f msg v a None hs cp k = (Ok o, k + 1).
Proof.
  intros Hk H. unfold new_request, new_outbound, new_header, pick_id, ibind in *.
  destruct (Z.eqb_spec k 0); [contradiction|]. cbn [iret ilift] in *.
  destruct (ctx_size _); cbn [ilift] in *; [|discriminate].
  destruct msg as [[b|]|]; cbn [ilift iret] in *; try discriminate;
    (destruct (request_variable_bytes f a); cbn [ilift] in *; [|discriminate]); apply pair_equal_spec in H as [<- _]; reflexivity.
Qed.
Lemma sent_request m raw c o a p k : frame_of m raw -> same_ctx (m_ctx m) c -> nodup_ctx c ->
  seen (mkMsg c (m_features m) (m_version m) (m_action m) (m_id m) (m_hs m) (m_cp m) (m_payload m)) o ->
  Forall (fun x => 0 <= x < 128) a -> zlen a < 64 ->
  zlen raw + zlen p + 100 < 2 ^ 31 -> 0 < k < 2 ^ 63 ->
  exists r out, new_request (Some (o_ctx o)) (o_features o) (Some (Ok p)) V_MIN_COMPAT a None false false k = (Ok r, k + 1) /\
    write_outbound r = Ok out /\ h_id (o_hdr r) = k /\ carries false (request_for m k a p) out.
Proof.
  intros Hf Sc N (C & F & A & I & Hs & Cp) Ha La Hl Hk. cbn [m_ctx m_features] in C, F. rewrite C, F.
  destruct (frame_features m raw Hf) as (sz & fb & E1 & E2 & E3).
  pose proof (same_ctx_size _ _ _ Sc E1) as E1'. pose proof (zlen_nonneg _ fb). pose proof (zlen_nonneg _ (m_payload m)).
  pose proof (zlen_nonneg _ p). pose proof (zlen_nonneg _ a). pose proof (ctx_size_pos _ _ E1).
  assert (Hc : ctx_ok c) by (eapply ctx_sized_ok; [exact N|exact E1'|lia]).
  pose proof (frame_features_ok _ _ Hf) as Hft.
  assert (Ta : text_ok a) by (exists (map z2b a); split; [apply is_utf8_encode, ascii_encode, Ha|rewrite zlen_map; lia]).
  destruct (new_request_total c (m_features m) (Some p) min_compat a k false false k Hc Hft Ta ltac:(lia) ltac:(lia))
    as (r & Hr & Hw). { vm_compute. split; [discriminate|reflexivity]. }
  pose proof (new_request_drawn _ _ _ _ _ _ _ _ k _ _ ltac:(lia) Hr) as Hr'.
  destruct (new_request_fields _ _ _ _ _ _ _ _ _ _ _ Hr) as (Iv & Hid & _ & _ & _ & _ & _ & Hctx & Hmsg & vb & Hvb & Hvar).
  assert (Ei : h_id (o_hdr r) = k).
  { assert (D : draws (Some k) = false) by (cbn; destruct (Z.eqb_spec k 0); [lia|reflexivity]). specialize (Hid D). congruence. }
  destruct Iv as (_ & _ & sz' & Hcs & Hsz & _). rewrite Hctx, E1' in Hcs. apply Ok_inj in Hcs. subst sz'.
  rewrite Hvar, Hmsg in Hsz. cbn [opt_len] in Hsz.
  assert (Lv : zlen vb <= zlen fb + 70).
  { unfold request_variable_bytes in Hvb. apply wcat_cons_ok in Hvb as (fb' & b1 & Wf & Hvb & ->).
    rewrite E2 in Wf. apply Ok_inj in Wf. subst fb'.
    apply wcat_cons_ok in Hvb as (ab & b2 & Wa & Hvb & ->). apply wcat_nil_ok in Hvb as ->.
    apply write_string_form in Wa as (e & l & He & Hl' & ->). rewrite (ascii_encode _ Ha) in He. apply Ok_inj in He. subst e.
    rewrite zlen_map in Hl'. apply v_int_bytes in Hl'; [|lia]. rewrite !zlen_app, zlen_map. change (zlen (@nil byte)) with 0. lia. }
  destruct Hw as [out Hw]; [lia|].
  exists r, out. change V_MIN_COMPAT with (HVer min_compat). split; [exact Hr'|]. split; [exact Hw|]. split; [exact Ei|].
  destruct (request_carries _ _ _ _ _ _ _ _ _ _ _ _ N Hft Ta Hr Hw) as (p' & Ep & X). apply Ok_inj in Ep. subst p'.
  rewrite Ei in X. unfold request_for. eapply carries_same; eassumption.
Qed.
Lemma init_started {U} ev (ext : extension U) strict m raw q : set_order_ok (e_so ev) -> frame_of m raw -> is_init m ->
  low_node (ir_source q) -> low_node (x_node (ir_ext q)) -> w_init_request strict q (m_payload m) ->
  text_ok (xt_name ext) -> texts_ok (xt_interfaces ext) -> Forall text_ok (rg_named (xt_registry ext)) ->
  exists pe pr pi,
    w_ext_transport_request (mkTask [] None) [] 4 pe /\
    (zlen pr < 2 ^ 35 -> w_register_request (mkTask [] None) (xt_name ext) (rg_named (xt_registry ext)) [] pr) /\
    w_init_response true (mkInitResp (xt_name ext) (xt_interfaces ext)) pi /\
    (zlen raw <= 2 ^ 30 -> zlen pr < 2 ^ 29 -> zlen pi < 2 ^ 29 ->
     forall h, 0 <= hs_next h -> hs_next h + 4 < 2 ^ 63 ->
     exists out1 sr out2 resp out3,
       carries false (request_for m (hs_next h + 3) REGISTER_ACTION pr) out1 /\
       carries false (request_for m (hs_next h + 2) ENV_ACTION pe) out2 /\
       answers m pi out3 /\
       write_outbound sr = Ok out2 /\ write_outbound resp = Ok out3 /\
       forall uuid s, on_input ev ext uuid (raw ++ s) h =
         (Ok (Some out1),
          mkHost (hs_next h + 4)
            (dict_set Z.eqb (hs_next h + 3) (RegisterRH sr) (dict_set Z.eqb (hs_next h + 2) EnvRH (hs_pending h)))
            (Some resp) (hs_settings h) (hs_user h))).
Proof.
  intros Hso Hf Hi L1 L2 Wq Tn Ti Tr.
  pose proof (fun s => init_request_reads strict q _ s (conj L1 L2) Wq) as Rq. assert (Dt : task_ok default_task) by (left; split; reflexivity).
  destruct (new_etr_survives 4 [] _ ltac:(lia) eq_refl) as (_ & pe & We & Re).
  assert (Lpe : zlen pe < 100) by (apply Ok_inj in We; rewrite <- We; reflexivity).
  destruct (new_rrr_total (xt_name ext) (rg_named (xt_registry ext)) [] Tn Tr ltac:(constructor)) as [rr Er].
  destruct (new_rrr_survives _ _ _ _ Er) as (Frr & pr & Wr & Rr).
  destruct (init_response_writes true (mkInitResp (xt_name ext) (xt_interfaces ext)) (conj Tn Ti)) as (pi & Wi & Ri).
  exists pe, pr, pi. split; [apply (etr_writes default_task); [exact Dt|lia|exact We|lia]|].
  assert (Er' : rr = mkRRR default_task (mkRRA (Some (xt_name ext)) (rg_named (xt_registry ext)) [])).
  { unfold new_register_request in Er. apply bind_ok in Er as (? & _ & Er). apply bind_ok in Er as (? & _ & Er).
    apply bind_ok in Er as (? & _ & Er). apply Ok_inj in Er. congruence. }
  split; [intros Hlr; apply (rrr_writes default_task); [exact Dt|rewrite Er' in Wr; exact Wr|exact Hlr]|].
  split; [exact Ri|]. intros Lraw Lpr Lpi h Hn0 Hn1.
  destruct (on_frame ev ext m raw Hso Hf) as (c & o & Sc & N & S & R).
  assert (Asc : Forall (fun x => 0 <= x < 128) ENV_ACTION /\ Forall (fun x => 0 <= x < 128) REGISTER_ACTION).
  { split; apply Forall_forall; intros x Hx; vm_compute in Hx; repeat (destruct Hx as [<-|Hx]; [split; [discriminate|reflexivity]|]); destruct Hx. }
  destruct (sent_request m raw c o ENV_ACTION pe (hs_next h + 2) Hf Sc N S (proj1 Asc)) as (sr & out2 & Ms & Ws & Is & Cs);
    [vm_compute; reflexivity|lia|lia|].
  destruct (sent_request m raw c o REGISTER_ACTION pr (hs_next h + 3) Hf Sc N S (proj2 Asc)) as (rg & out1 & Mr & Wr1 & Ir & Cr);
    [vm_compute; reflexivity|lia|lia|].
  destruct (reply_frame m raw c o pi Hf Sc N S) as (out3 & X3 & Y3); [lia|].
  specialize (Y3 U (set_next h (hs_next h + 2))). apply hbind_inv in Y3 as (resp & h1 & Y3 & Y4).
  unfold send in Y4. apply hbind_inv in Y4 as (b & h2 & Y4 & Y5). apply hlift_inv in Y4 as [Wresp ->].
  assert (b = out3) by (unfold hret in Y5; congruence). subst b.
  assert (Eh1 : h1 = set_next h (hs_next h + 2)) by (unfold hret in Y5; congruence). subst h1.
  exists out1, sr, out2, resp, out3. do 5 (split; [assumption|]).
  intros uuid s. rewrite R, dispatch_init by (rewrite (seen_action _ _ S); exact Hi).
  unfold handle_discovery. rewrite Rq, hbind_hlift, Wi.
  rewrite (hbind_ok _ _ _ _ _ Y3). unfold hbind at 1, hmod at 1.
  unfold REQUEST_EXTENSION_ENVIRONMENT_SETTINGS.
  change (new_ext_transport_request 4 []) with (Ok (mkETR default_task (mkER (Some []) 4))). rewrite hbind_hlift.
  match goal with |- context [write_ext_transport_request ?x] => replace (write_ext_transport_request x) with (@Ok bytes pe) by (symmetry; exact We) end.
  rewrite (hbind_hids _ _ _ sr (hs_next h + 3)).
  2: { cbn [hs_next set_next set_init]. etransitivity; [exact Ms|]. f_equal. lia. }
  unfold hbind at 1, register_response at 1, hmod at 1. cbn [hs_next set_next set_init hs_pending]. rewrite Is.
  rewrite Er, hbind_hlift, Wr.
  rewrite (hbind_hids _ _ _ rg (hs_next h + 4)).
  2: { cbn [hs_next set_next set_init set_pending]. etransitivity; [exact Mr|]. f_equal. lia. }
  unfold hbind at 1, register_response at 1, hmod at 1. cbn [hs_next set_next set_init hs_pending set_pending]. rewrite Ir.
  unfold send. rewrite Wr1, hbind_hlift. reflexivity.
Qed.
Lemma feed_unrelated {U} ev (ext : extension U) ks l : set_order_ok (e_so ev) ->
  Forall (fun x => unrelated (e_so ev) ks (snd x)) l -> forall h, inv h ->
  inv (feed ev ext h l) /\ hs_init (feed ev ext h l) = hs_init h /\
  forall k, In k ks -> dict_get Z.eqb k (hs_pending (feed ev ext h l)) = dict_get Z.eqb k (hs_pending h).
Proof.
  intros Hso F. induction F as [|[u raw] l [N1 N2] F IH]; intros h I; [cbn; auto|].
  cbn [feed fold_left fst snd] in *. destruct (on_input ev ext u raw h) as [r h1] eqn:E. cbn [snd].
  destruct (step_inv _ _ _ _ _ _ _ Hso I E) as (I1 & _). destruct (step_other _ _ _ _ _ _ _ Hso N1 E) as (_ & E1 & P).
  destruct (IH h1 I1) as (I2 & E2 & P2). unfold feed in *. split; [exact I2|]. split; [congruence|].
  intros k Hk. rewrite (P2 k Hk). destruct P as [->|(j & p & Hr & _ & ->)]; [reflexivity|].
  rewrite (dict_del_get _ Z.eqb_eq) by apply I. destruct (Z.eqb_spec j k) as [->|]; [|reflexivity].
  exfalso. exact (N2 k p Hk Hr).
Qed.
Lemma acked {U} ev (ext : extension U) uuid raw k p t sr out b h :
  response_in (e_so ev) raw false k p -> dict_get Z.eqb k (hs_pending h) = Some (RegisterRH sr) ->
  write_outbound sr = Ok out -> read_ack p = Ok (b, t) ->
  on_input ev ext uuid raw h =
    (Ok (if b then Some out else None), set_pending (set_next h (hs_next h + 2)) (dict_del Z.eqb k (hs_pending h))).
Proof.
  intros Hr G W Ra. rewrite (on_response _ _ _ _ _ _ Hr). unfold handle_response. cbn [hs_pending set_next]. rewrite G. cbv zeta.
  unfold handle_register. rewrite Ra, hbind_hlift. cbn [fst]. destruct b; [|reflexivity].
  unfold send. rewrite W, hbind_hlift. reflexivity.
Qed.
Lemma env_answered {U} ev (ext : extension U) uuid raw k p x d resp out h :
  response_in (e_so ev) raw false k p -> dict_get Z.eqb k (hs_pending h) = Some EnvRH ->
  hs_init h = Some resp -> write_outbound resp = Ok out -> read_settings (e_fuel ev) (hs_settings h) p = (Ok x, d) ->
  on_input ev ext uuid raw h =
    (Ok (Some out), set_settings (set_pending (set_next h (hs_next h + 2)) (dict_del Z.eqb k (hs_pending h))) d).
Proof.
  intros Hr G I W Rs. rewrite (on_response _ _ _ _ _ _ Hr). unfold handle_response. cbn [hs_pending set_next]. rewrite G. cbv zeta.
  unfold handle_env. cbn [hs_settings set_pending set_next]. rewrite Rs. cbv zeta. cbn [hs_init set_settings set_pending set_next]. rewrite I.
  unfold send. rewrite W, hbind_hlift. reflexivity.
Qed.

(** ** what is sent in answer to responses *)
Lemma feed_snoc {U} ev (ext : extension U) h l x :
  feed ev ext h (l ++ [x]) = snd (on_input ev ext (fst x) (snd x) (feed ev ext h l)).
Proof. unfold feed. rewrite fold_left_app. reflexivity. Qed.
Lemma snoc_split A (l : list A) x l3 y l4 : l ++ [x] = l3 ++ y :: l4 ->
  (l4 = [] /\ l = l3 /\ x = y) \/ exists l5, l4 = l5 ++ [x] /\ l = l3 ++ y :: l5.
Proof.
  intros H. destruct l4 as [|z l4 _] using rev_ind.
  - apply app_inj_tail in H as [-> ->]. auto.
  - right. rewrite app_comm_cons, app_assoc in H. apply app_inj_tail in H as [-> ->]. eauto.
Qed.
Lemma latest_snoc {U} ev (ext : extension U) h0 l m x : latest_init ev ext h0 l m ->
  (forall m', read_as (e_so ev) (snd x) m' -> is_init m' ->
     exists e, fst (on_input ev ext (fst x) (snd x) (feed ev ext h0 l)) = Raise e) ->
  latest_init ev ext h0 (l ++ [x]) m.
Proof.
  intros (Hi & l1 & y & l2 & -> & Hr & Hl) Hx. split; [exact Hi|]. exists l1, y, (l2 ++ [x]).
  split; [rewrite <- app_assoc; reflexivity|]. split; [exact Hr|].
  intros l3 z l4 m' E R I. apply snoc_split in E as [(-> & -> & ->)|(l5 & -> & ->)].
  - eapply Hx; eassumption.
  - eapply Hl; eauto.
Qed.
Lemma received_snoc so l m x : received_init so l m -> received_init so (l ++ [x]) m.
Proof. intros (Hi & y & Hy & R). split; [exact Hi|]. exists y. split; [apply in_or_app; auto|exact R]. Qed.
Lemma latest_received {U} ev (ext : extension U) h0 l m : latest_init ev ext h0 l m -> received_init (e_so ev) l m.
Proof.
  intros (Hi & l1 & x & l2 & -> & Hr & _). split; [exact Hi|]. exists x. split; [apply in_or_app; right; left; reflexivity|exact Hr].
Qed.
Lemma in_dict_set {V} k k' (v v' : V) d : In (k, v) (dict_set Z.eqb k' v' d) -> (k = k' /\ v = v') \/ In (k, v) d.
Proof.
  induction d as [|[a b] d IH]; cbn [dict_set].
  - intros [H|[]]. left. apply pair_equal_spec in H as [-> ->]. auto.
  - destruct (Z.eqb k' a) eqn:E; intros [H|H].
    + apply Z.eqb_eq in E. subst a. apply pair_equal_spec in H as [-> ->]. auto.
    + right; right; exact H.
    + right; left; exact H.
    + destruct (IH H) as [X|X]; [auto|right; right; exact X].
Qed.
Lemma in_dict_del {V} k k' (v : V) d : In (k, v) (dict_del Z.eqb k' d) -> In (k, v) d.
Proof.
  induction d as [|[a b] d IH]; cbn [dict_del]; [auto|]. destruct (Z.eqb k' a); [right; assumption|].
  intros [H|H]; [left; exact H|right; auto].
Qed.
Definition init_built {U} (ext : extension U) (m : message) (resp : outbound) : Prop :=
  exists n n', nodup_ctx (m_ctx m) /\
    new_response (Some (m_ctx m)) (m_features m) (Some (write_init_response (mkInitResp (xt_name ext) (xt_interfaces ext))))
        (HVer min_compat) (Some (m_id m)) (m_hs m) (m_cp m) n = (Ok resp, n').
Definition env_built (m : message) (k : Z) (sr : outbound) : Prop :=
  exists em k2, nodup_ctx (m_ctx m) /\ new_ext_transport_request 4 [] = Ok em /\
    new_request (Some (m_ctx m)) (m_features m) (Some (write_ext_transport_request em)) (HVer min_compat)
            ENV_ACTION None false false k = (Ok sr, k2) /\ k2 = k + 1.
Lemma history {U} ev (ext : extension U) u l : set_order_ok (e_so ev) ->
  let h := feed ev ext (initial_host u) l in
  (forall resp, hs_init h = Some resp -> exists m, latest_init ev ext (initial_host u) l m /\ init_built ext m resp) /\
  (forall k sr, In (k, RegisterRH sr) (hs_pending h) -> exists m, received_init (e_so ev) l m /\ env_built m (k - 1) sr).
Proof.
  intros Hso. induction l as [|x l [IH1 IH2]] using rev_ind.
  { split; [discriminate|]. intros k sr []. }
  cbv zeta in *. rewrite feed_snoc. set (h := feed ev ext (initial_host u) l) in *.
  destruct (on_input ev ext (fst x) (snd x) h) as [r h'] eqn:E. cbn [snd].
  destruct (init_input (e_so ev) (snd x)) as [(m & Hm & Hi)|Hn].
  - destruct (step_init ev ext _ _ m h r h' Hso Hm Hi E) as (_ & _ & _ & [(E1 & E2 & e & Ee)|G]).
    + rewrite E1, E2. split.
      * intros resp Hr. destruct (IH1 resp Hr) as (m0 & L & B). exists m0. split; [|exact B]. apply latest_snoc; [exact L|].
        intros m' _ _. exists e. fold h. rewrite E. exact Ee.
      * intros k sr Hk. destruct (IH2 k sr Hk) as (m0 & L & B). exists m0. split; [apply received_snoc, L|exact B].
    + destruct G as (resp & n & n' & Nd & Hr & E1 & _ & G). rewrite E1.
      assert (Lx : latest_init ev ext (initial_host u) (l ++ [x]) m).
      { split; [exact Hi|]. exists l, x, []. split; [reflexivity|]. split; [exact Hm|]. intros l3 y l4 m' Hx. destruct l3; discriminate. }
      split.
      * intros resp' Hr'. assert (resp' = resp) by congruence. subst resp'. exists m. split; [exact Lx|]. exists n, n'. auto.
      * assert (Old : forall k sr, In (k, RegisterRH sr) (hs_pending h) -> exists m0, received_init (e_so ev) (l ++ [x]) m0 /\ env_built m0 (k - 1) sr).
        { intros k sr Hk. destruct (IH2 k sr Hk) as (m0 & L & B). exists m0. split; [apply received_snoc, L|exact B]. }
        intros k sr Hk. destruct G as [[G _]|[(k1 & _ & G & _)|(k1 & k2 & o & em & L1 & L2 & G & Em & Ho)]]; rewrite G in Hk.
        -- auto.
        -- apply in_dict_set in Hk as [[_ Hk]|Hk]; [discriminate|auto].
        -- apply in_dict_set in Hk as [[Hk Hs]|Hk].
           ++ exists m. split; [eapply latest_received, Lx|]. assert (sr = o) by congruence. subst sr k.
              pose proof (proj1 (new_request_ids _ _ _ _ _ _ _ _ _ _ _ Ho)) as E2. cbn [draws] in E2. subst k2.
              exists em, (k1 + 1). replace (k1 + 1 - 1) with k1 by lia. auto.
           ++ apply in_dict_set in Hk as [[_ Hk]|Hk]; [discriminate|auto].
  - destruct (step_other ev ext _ _ h r h' Hso Hn E) as (_ & E1 & P). rewrite E1. split.
    + intros resp Hr. destruct (IH1 resp Hr) as (m0 & L & B). exists m0. split; [|exact B]. apply latest_snoc; [exact L|].
      intros m' Hm' I. exfalso. exact (Hn m' Hm' I).
    + intros k sr Hk. assert (Hk' : In (k, RegisterRH sr) (hs_pending h)).
      { destruct P as [P|(j & p & _ & _ & P)]; rewrite P in Hk; [exact Hk|apply in_dict_del in Hk; exact Hk]. }
      destruct (IH2 k sr Hk') as (m0 & L & B). exists m0. split; [apply received_snoc, L|exact B].
Qed.
Lemma strings_written l : forall b, wcat (map write_string l) = Ok b -> zlen l <= zlen b /\ (zlen b <= 2 ^ 31 -> Forall text_ok l).
Proof.
  induction l as [|x l IH]; intros b H.
  - apply wcat_nil_ok in H as ->. split; [change (zlen (@nil pystr)) with 0; change (zlen (@nil byte)) with 0; lia|constructor].
  - cbn [map] in H. apply wcat_cons_ok in H as (b1 & b2 & H1 & H2 & ->). destruct (IH _ H2) as [L F].
    apply write_string_form in H1 as (e & n & He & Hn & ->). rewrite zlen_cons, !zlen_app.
    apply v_int_size_correct in Hn. pose proof (v_int_size_pos (zlen e)). pose proof (zlen_nonneg _ e). pose proof (zlen_nonneg _ b2).
    split; [lia|]. intros Hl. constructor; [|apply F; lia]. exists e. split; [apply is_utf8_encode, He|lia].
Qed.
Lemma array_written l b : write_string_array l = Ok b -> zlen b <= 2 ^ 31 -> texts_ok l.
Proof.
  unfold write_string_array. intros H L. apply wcat_cons_ok in H as (b1 & b2 & H1 & H2 & ->). rewrite zlen_app in L.
  pose proof (zlen_nonneg _ b1). pose proof (zlen_nonneg _ b2).
  destruct (strings_written l b2 H2) as [L1 F]. split; [lia|apply F; lia].
Qed.
Lemma env_carried m k sr out : env_built m k sr -> write_outbound sr = Ok out ->
  exists pe, w_ext_transport_request (mkTask [] None) [] 4 pe /\
    carries false (request_for m k ENV_ACTION pe) out.
Proof.
  intros (em & k2 & N & Em & Hr & ->) W.
  destruct (new_etr_survives 4 [] em ltac:(lia) Em) as (_ & pe & We & Re). rewrite We in Hr.
  assert (Lpe : zlen pe < 100).
  { assert (Eem : em = mkETR default_task (mkER (Some []) 4)) by (apply Ok_inj; rewrite <- Em; reflexivity).
    subst em. apply Ok_inj in We; rewrite <- We; reflexivity. }
  assert (Eem : em = mkETR default_task (mkER (Some []) 4)) by (apply Ok_inj; rewrite <- Em; reflexivity).
  exists pe. split; [apply (etr_writes default_task); [left; split; reflexivity|lia|rewrite Eem in We; exact We|lia]|].
  pose proof (proj2 (new_request_ids _ _ _ _ _ _ _ _ _ _ _ Hr) sr eq_refl) as Ei. cbn [draws] in Ei.
  assert (Ta : text_ok ENV_ACTION).
  { exists (map z2b ENV_ACTION). split; [apply is_utf8_encode; reflexivity|vm_compute; discriminate]. }
  assert (Tf : texts_ok (m_features m)).
  { pose proof Hr as Hr'. change (Some (@Ok bytes pe)) with (option_map Ok (Some pe)) in Hr'.
    destruct (new_request_fields _ _ _ _ _ _ _ _ _ _ _ Hr') as (I & _ & _ & _ & _ & _ & _ & Hctx & Hmsg & vb & Hvb & Hvar).
    destruct (frame_written sr out I W) as ((_ & Hsz & _) & hdr & cb & sz & _ & _ & _ & Hcs & _).
    destruct I as (_ & _ & sz' & Hcs' & Hs' & _). rewrite Hcs in Hcs'. apply Ok_inj in Hcs'. subst sz'.
    rewrite Hvar, Hmsg in Hs'. cbn [opt_len] in Hs'. pose proof (ctx_size_pos _ _ Hcs). pose proof (zlen_nonneg _ pe).
    unfold request_variable_bytes in Hvb. apply wcat_cons_ok in Hvb as (fb & b1 & Wf & _ & ->). rewrite zlen_app in Hs'.
    pose proof (zlen_nonneg _ b1). eapply array_written; [exact Wf|lia]. }
  destruct (request_carries _ _ _ _ _ _ _ _ _ _ _ _ N Tf Ta Hr W) as (p' & Ep & X). apply Ok_inj in Ep. subst p'.
  rewrite Ei in X. exact X.
Qed.
Lemma init_carried {U} (ext : extension U) m resp out : text_ok (xt_name ext) -> texts_ok (xt_interfaces ext) ->
  init_built ext m resp -> write_outbound resp = Ok out ->
  exists pi, w_init_response true (mkInitResp (xt_name ext) (xt_interfaces ext)) pi /\
    (m_id m <> 0 -> answers m pi out).
Proof.
  intros Tn Ti (n & n' & N & Hr) W.
  destruct (init_response_writes true (mkInitResp (xt_name ext) (xt_interfaces ext)) (conj Tn Ti)) as (pi & Wi & Ri).
  rewrite Wi in Hr. exists pi. split; [exact Ri|]. intros Hi.
  destruct (response_carries _ _ _ _ _ _ _ _ _ _ _ N Hi Hr W) as (p & Ep & _ & X). apply Ok_inj in Ep. subst p. exact X.
Qed.
Lemma response_output {U} ev (ext : extension U) u l uuid raw k p out h' : set_order_ok (e_so ev) ->
  text_ok (xt_name ext) -> texts_ok (xt_interfaces ext) -> response_in (e_so ev) raw false k p ->
  on_input ev ext uuid raw (feed ev ext (initial_host u) l) = (Ok (Some out), h') ->
  (exists m pe, received_init (e_so ev) l m /\ (exists t, read_ack p = Ok (true, t)) /\
     w_ext_transport_request (mkTask [] None) [] 4 pe /\
     carries false (request_for m (k - 1) ENV_ACTION pe) out) \/
  (exists m pi, latest_init ev ext (initial_host u) l m /\
     w_init_response true (mkInitResp (xt_name ext) (xt_interfaces ext)) pi /\
     (m_id m <> 0 -> answers m pi out)).
Proof.
  intros Hso Tn Ti Hr H. destruct (history ev ext u l Hso) as [A B]. cbv zeta in A, B.
  set (h := feed ev ext (initial_host u) l) in *.
  rewrite (on_response _ _ _ _ _ _ Hr) in H. unfold handle_response in H. cbn [hs_pending set_next] in H.
  destruct (dict_get Z.eqb k (hs_pending h)) as [[sr|]|] eqn:G; [| |discriminate]; cbv zeta in H.
  - left. apply (dict_get_In _ Z.eqb_eq) in G. destruct (B k sr G) as (m & Rm & Bm).
    unfold handle_register in H. apply hbind_inv in H as ([b t] & h1 & H1 & H). apply hlift_inv in H1 as [Ra ->].
    cbn [fst] in H. destruct b; [|discriminate]. unfold send in H. apply hbind_inv in H as (o & h2 & H1 & H).
    apply hlift_inv in H1 as [W ->]. assert (o = out) by (unfold hret in H; congruence). subst o.
    destruct (env_carried m _ sr out Bm W) as (pe & Re & Ce). exists m, pe. eauto.
  - right. unfold handle_env in H. destruct (read_settings _ _ _) as [[x|e] d]; [|discriminate]. cbv zeta in H.
    cbn [hs_init set_settings set_pending set_next] in H. destruct (hs_init h) as [o|] eqn:I; [|discriminate].
    destruct (A o eq_refl) as (m & Lm & Bm).
    unfold send in H. apply hbind_inv in H as (o' & h2 & H1 & H).
    apply hlift_inv in H1 as [W ->]. assert (o' = out) by (unfold hret in H; congruence). subst o'.
    destruct (init_carried ext m o out Tn Ti Bm W) as (pi & Ri & Ci). exists m, pi. auto.
Qed.

(** ** independence of the state *)
Definition pure_handlers {U} (ext : extension U) : Prop :=
  forall n u u' q, snd (xt_invoke ext n u q) = snd (xt_invoke ext n u' q).
Lemma fst_bind {U A B} (m : hm U A) (k : A -> hm U B) h h' : fst (m h) = fst (m h') ->
  (forall a g g', fst (k a g) = fst (k a g')) -> fst (hbind m k h) = fst (hbind m k h').
Proof.
  intros Hm Hk. unfold hbind. destruct (m h) as [r g] eqn:E, (m h') as [r' g'] eqn:E'. cbn [fst] in Hm. subst r'.
  destruct r; [apply Hk|reflexivity].
Qed.
Lemma reply_stateless {U} o msg (h h' : host U) : h_id (o_hdr o) <> 0 ->
  fst ((r <== hids (reply_to o msg) ;; send r) h) = fst ((r <== hids (reply_to o msg) ;; send r) h').
Proof.
  intros Hi. apply fst_bind.
  - unfold hids, reply_to. cbv zeta. set (i := h_id (o_hdr o)) in *. unfold new_response, new_outbound, new_header, pick_id, ibind.
    destruct (Z.eqb_spec i 0); [contradiction|]. cbn [iret ilift].
    destruct (ctx_size _); cbn [ilift]; [|reflexivity]. destruct msg as [b|e]; cbn [ilift iret]; reflexivity.
  - intros a g g'. unfold send, hbind, hlift. destruct (write_outbound a); reflexivity.
Qed.
Lemma lift_stateless {U A B} (x : res A) (k : A -> hm U B) h h' :
  (forall a g g', fst (k a g) = fst (k a g')) -> fst (hbind (hlift x) k h) = fst (hbind (hlift x) k h').
Proof. apply fst_bind. reflexivity. Qed.
Lemma stateless {U} ev (ext : extension U) uuid raw m h h' : set_order_ok (e_so ev) -> read_as (e_so ev) raw m ->
  m_id m <> 0 -> ~ is_init m -> (m_action m = A_REST -> pure_handlers ext) ->
  fst (on_input ev ext uuid raw h) = fst (on_input ev ext uuid raw h').
Proof.
  intros Hso Hr Hi Hn Hp. destruct (on_request ev ext raw m Hso Hr) as (o & S & N & E). rewrite !E. clear E.
  pose proof (seen_action _ _ S) as A. pose proof S as (_ & _ & _ & I & _). rewrite <- I in Hi.
  destruct (action_cases m) as [X|[X|[X|[X|X]]]]; [contradiction| | | |]; pose proof X as X'; rewrite <- A in X.
  - rewrite dispatch_rest by exact X. unfold handle_rest.
    apply lift_stateless. intros q g g'. apply lift_stateless. intros mn g1 g1'. cbv zeta. apply lift_stateless. intros n g2 g2'.
    apply fst_bind; [|intros; apply reply_stateless, Hi].
    unfold call_user. specialize (Hp X' n (hs_user g2) (hs_user g2') (fst q)).
    destruct (xt_invoke ext n (hs_user g2) (fst q)), (xt_invoke ext n (hs_user g2') (fst q)). cbn [fst snd] in *. exact Hp.
  - rewrite dispatch_tcp by exact X. unfold handle_tcp_handshake. apply lift_stateless. intros; apply reply_stateless, Hi.
  - rewrite dispatch_transport by exact X. unfold handle_transport_handshake. apply lift_stateless. intros; apply reply_stateless, Hi.
  - rewrite dispatch_other by exact X. unfold handle_not_found. apply lift_stateless. intros; apply reply_stateless, Hi.
Qed.

(** ** runs of the server *)
Lemma subsequence_refl A (l : list A) : subsequence l l.
Proof. induction l; constructor; assumption. Qed.
Lemma subsequence_app A (a b c d : list A) : subsequence a b -> subsequence c d -> subsequence (a ++ c) (b ++ d).
Proof. intros H1 H2. induction H1; cbn [app]; [exact H2|constructor; assumption|constructor; assumption]. Qed.
Lemma subsequence_nil A (l : list A) : subsequence [] l.
Proof. induction l; constructor; assumption. Qed.
Lemma subsequence_prefix A (a b c : list A) : subsequence (a ++ b) c -> subsequence a c.
Proof.
  intros H. remember (a ++ b) as x eqn:E. revert a E. induction H as [|x l l' H IH|x l l' H IH]; intros a E.
  - destruct a; [constructor|discriminate].
  - destruct a as [|y a]; [apply subsequence_nil|]. cbn [app] in E. injection E as <- ->. apply sub_keep, IH. reflexivity.
  - apply sub_skip, IH, E.
Qed.
Lemma run_snoc {U} ev (ext : extension U) w es e :
  run_world ev ext w (es ++ [e]) = world_step ev ext (run_world ev ext w es) e.
Proof. unfold run_world. rewrite fold_left_app. reflexivity. Qed.
Lemma log_snoc {U} ev (ext : extension U) es : forall w e,
  log ev ext w (es ++ [e]) = log ev ext w es ++ handles ev ext (run_world ev ext w es) e.
Proof.
  induction es as [|x es IH]; intros w e; cbn [log app run_world fold_left]; [rewrite app_nil_r; reflexivity|].
  rewrite IH, <- app_assoc. reflexivity.
Qed.
Lemma conn_set {U} (h : host U) t a l s c c' x :
  conn_of (mkWorld h t a (set_conn c x l) s) c' = if c =? c' then Some x else dict_get Z.eqb c' l.
Proof.
  unfold conn_of, set_conn. cbn [w_conns]. destruct (Z.eqb_spec c c') as [->|E].
  - apply (dict_get_set_same _ Z.eqb_eq).
  - apply (dict_get_set_other _ Z.eqb_eq), E.
Qed.
Lemma sent_snoc {U} (h : host U) t a l s c d c' :
  sent_on (mkWorld h t a l (s ++ [(c, d)])) c' = sent_on (mkWorld h t a l s) c' ++ (if c =? c' then [d] else []).
Proof.
  unfold sent_on. cbn [w_sent]. rewrite filter_app, map_app. cbn [filter fst]. destruct (c =? c'); reflexivity.
Qed.
Lemma after_conn {U} (h : host U) w c s c' :
  conn_of (after_chunk h w c s) c' = if c =? c' then Some (if w_terminating w then Closed else Receiving) else conn_of w c'.
Proof. unfold after_chunk. destruct (w_terminating w); apply conn_set. Qed.
Lemma after_sent {U} (h : host U) w c s : w_sent (after_chunk h w c s) = s.
Proof. unfold after_chunk. destruct (w_terminating w); reflexivity. Qed.
Lemma after_host {U} (h : host U) w c s : w_host (after_chunk h w c s) = h.
Proof. unfold after_chunk. destruct (w_terminating w); reflexivity. Qed.
Lemma after_term {U} (h : host U) w c s : w_terminating (after_chunk h w c s) = w_terminating w.
Proof. unfold after_chunk. destruct (w_terminating w); reflexivity. Qed.
Lemma close_conn_of {U} (w : world U) c c' : conn_of (close_conn w c) c' = if c =? c' then Some Closed else conn_of w c'.
Proof. apply conn_set. Qed.
Lemma sent_of {U} (w w' : world U) c : w_sent w = w_sent w' -> sent_on w c = sent_on w' c.
Proof. unfold sent_on. intros ->. reflexivity. Qed.

(** one event, seen from connection [c] *)
Lemma others_kept {U} ev (ext : extension U) w e c : event_conn e <> Some c ->
  conn_of (world_step ev ext w e) c = conn_of w c /\ sent_on (world_step ev ext w e) c = sent_on w c /\
  log_of c (handles ev ext w e) = [].
Proof.
  assert (E : forall a, Some a <> Some c -> (a =? c) = false) by (intros a N; apply Z.eqb_neq; congruence).
  intros H. destruct e as [a|a raw uuid|a ok|a|a| | |]; cbn [world_step handles event_conn] in *; try apply E in H;
    try change (dict_get Z.eqb a (w_conns w)) with (conn_of w a).
  - destruct (conn_of w a); [auto|]. destruct (w_accepting w); [|auto]. rewrite conn_set, H. auto.
  - change RECV_LIMIT with 10240. destruct (10240 <? zlen raw); [auto|].
    destruct (conn_of w a) as [[|d|]|]; auto. destruct raw as [|b raw].
    + rewrite close_conn_of, H. auto.
    + cbn [log_of filter hd_conn]. rewrite H.
      destruct (on_input ev ext uuid (b :: raw) (w_host w)) as [[[d|]|e] h]; [rewrite conn_set, H; auto| |];
        rewrite after_conn, H; (split; [reflexivity|]; split; [apply sent_of, after_sent|reflexivity]).
  - destruct (conn_of w a) as [[|d|]|]; auto. rewrite after_conn, H. split; [reflexivity|]. split; [|reflexivity].
    unfold sent_on. rewrite after_sent. destruct ok; [|reflexivity]. rewrite filter_app, map_app. cbn [filter fst]. rewrite H. apply app_nil_r.
  - destruct (conn_of w a) as [[|d|]|]; auto. rewrite close_conn_of, H. auto.
  - destruct (conn_of w a) as [s|]; auto. rewrite close_conn_of, H. auto.
  - auto.
  - destruct (w_accepting w); auto.
  - destruct (w_accepting w); auto.
Qed.
(** the events on [c] that lose a reply *)
Definition loses (c : Z) (e : event) : Prop := e = SendDone c false \/ e = Cancelled c.
Lemma event_conn_dec e c : event_conn e = Some c \/ event_conn e <> Some c.
Proof.
  destruct (event_conn e) as [a|]; [|right; discriminate]. destruct (Z.eq_dec a c) as [->|N]; [auto|right; congruence].
Qed.
Lemma event_effect {U} ev (ext : extension U) w e c :
  let w' := world_step ev ext w e in
  exists new, somes (map hd_reply (log_of c (handles ev ext w e))) = new /\
   ((sent_on w' c = sent_on w c /\ (in_flight w' c = in_flight w c /\ new = [] \/ in_flight w c = [] /\ in_flight w' c = new)) \/
    (new = [] /\ in_flight w' c = [] /\ sent_on w' c = sent_on w c ++ in_flight w c) \/
    (loses c e /\ new = [] /\ in_flight w' c = [] /\ sent_on w' c = sent_on w c)).
Proof.
  cbv zeta. destruct (event_conn_dec e c) as [D|D].
  2:{ destruct (others_kept ev ext w e c D) as (K & S & L). exists []. rewrite L. split; [reflexivity|]. left.
      split; [exact S|]. left. unfold in_flight. rewrite K. auto. }
  assert (T : forall t : bool, match Some (if t then Closed else Receiving) with Some (Sending d) => [d] | _ => [] end = []) by (intros []; reflexivity).
  destruct e as [a|a raw uuid|a ok|a|a| | |]; cbn [event_conn] in D; try discriminate;
    (assert (a = c) by congruence; subst a); clear D; cbn [world_step handles log_of filter map somes flat_map];
    change (dict_get Z.eqb c (w_conns w)) with (conn_of w c); change RECV_LIMIT with 10240.
  - exists []. split; [reflexivity|]. left. destruct (conn_of w c) eqn:G; [auto|].
    destruct (w_accepting w); [|auto]. split; [reflexivity|]. left. split; [|reflexivity].
    unfold in_flight. rewrite conn_set, Z.eqb_refl, G. reflexivity.
  - destruct (10240 <? zlen raw); [exists []; split; [reflexivity|]; left; auto|].
    destruct (conn_of w c) as [[|d|]|] eqn:G; try (exists []; split; [reflexivity|]; left; auto; fail).
    assert (F0 : in_flight w c = []) by (unfold in_flight; rewrite G; reflexivity).
    destruct raw as [|b raw].
    + exists []. split; [reflexivity|]. left. split; [reflexivity|]. left. split; [|reflexivity].
      rewrite F0. unfold in_flight. rewrite close_conn_of, Z.eqb_refl. reflexivity.
    + destruct (on_input ev ext uuid (b :: raw) (w_host w)) as [r h] eqn:E. cbn [fst].
      cbn [log_of filter hd_conn]. rewrite Z.eqb_refl.
      cbn [map hd_reply somes flat_map]. eexists. split; [reflexivity|]. left.
      destruct r as [[d|]|e].
      * split; [reflexivity|]. right; (split; [exact F0|]); unfold in_flight; rewrite conn_set, Z.eqb_refl. reflexivity.
      * split; [apply sent_of, after_sent|]. right; (split; [exact F0|]); unfold in_flight; rewrite after_conn, Z.eqb_refl. apply T.
      * split; [apply sent_of, after_sent|]. right; (split; [exact F0|]); unfold in_flight; rewrite after_conn, Z.eqb_refl. apply T.
  - exists []. split; [reflexivity|].
    destruct (conn_of w c) as [[|d|]|] eqn:G; try (left; auto; fail).
    assert (F : in_flight w c = [d]) by (unfold in_flight; rewrite G; reflexivity).
    assert (F' : forall s, in_flight (after_chunk (w_host w) w c s) c = []) by (intros s; unfold in_flight; rewrite after_conn, Z.eqb_refl; apply T).
    destruct ok.
    + right; left. split; [reflexivity|]. split; [apply F'|]. unfold sent_on. rewrite after_sent, filter_app, map_app. cbn [filter fst].
      rewrite Z.eqb_refl, F. reflexivity.
    + right; right. split; [left; reflexivity|]. split; [reflexivity|]. split; [apply F'|]. apply sent_of, after_sent.
  - exists []. split; [reflexivity|]. left.
    destruct (conn_of w c) as [[|d|]|] eqn:G; auto. split; [reflexivity|]. left. split; [|reflexivity].
    unfold in_flight. rewrite close_conn_of, Z.eqb_refl, G. reflexivity.
  - exists []. split; [reflexivity|]. destruct (conn_of w c) as [s|] eqn:G; [|left; auto]. right; right. split; [right; reflexivity|].
    split; [reflexivity|]. split; [|reflexivity]. unfold in_flight. rewrite close_conn_of, Z.eqb_refl. reflexivity.
Qed.
Lemma somes_app A (a b : list (option A)) : somes (a ++ b) = somes a ++ somes b.
Proof. unfold somes. apply flat_map_app. Qed.
Lemma log_of_app c a b : log_of c (a ++ b) = log_of c a ++ log_of c b.
Proof. unfold log_of. apply filter_app. Qed.
Lemma replies_sent {U} ev (ext : extension U) u es c :
  let w := run_world ev ext (initial_world u) es in
  let replies := somes (map hd_reply (log_of c (log ev ext (initial_world u) es))) in
  subsequence (sent_on w c ++ in_flight w c) replies /\
  (~ In (SendDone c false) es -> ~ In (Cancelled c) es -> sent_on w c ++ in_flight w c = replies).
Proof.
  cbv zeta. induction es as [|e es [IH1 IH2]] using rev_ind.
  { cbn. split; [constructor|reflexivity]. }
  rewrite run_snoc, log_snoc, log_of_app, map_app, somes_app. set (w := run_world ev ext (initial_world u) es) in *.
  assert (N : forall x, ~ In x (es ++ [e]) -> ~ In x es) by (intros x N X; apply N, in_or_app; auto).
  destruct (event_effect ev ext w e c) as (new & -> & [(S & [(F & ->)|(F & F')])|[(-> & F & S)|(Ee & -> & F & S)]]).
  - rewrite S, F, !app_nil_r. auto.
  - rewrite S, F'. rewrite F, app_nil_r in IH1, IH2. split; [apply subsequence_app; [exact IH1|apply subsequence_refl]|].
    intros N1 N2. rewrite IH2; auto.
  - rewrite S, F, !app_nil_r. auto.
  - rewrite S, F, !app_nil_r. split.
    + eapply subsequence_prefix, IH1.
    + intros N1 N2. exfalso. destruct Ee as [-> | ->]; [apply N1|apply N2]; apply in_or_app; right; left; reflexivity.
Qed.
Lemma host_of_run {U} ev (ext : extension U) u es :
  w_host (run_world ev ext (initial_world u) es) =
  feed ev ext (initial_host u) (map (fun x => (hd_uuid x, hd_raw x)) (log ev ext (initial_world u) es)).
Proof.
  induction es as [|e es IH] using rev_ind; [reflexivity|].
  rewrite run_snoc, log_snoc, map_app. unfold feed. rewrite fold_left_app. fold (feed ev ext (initial_host u) (map (fun x => (hd_uuid x, hd_raw x)) (log ev ext (initial_world u) es))).
  rewrite <- IH. set (w := run_world ev ext (initial_world u) es). clearbody w. clear.
  destruct e as [a|a raw uuid|a ok|a|a| | |]; cbn [world_step handles map fold_left];
    try change (dict_get Z.eqb a (w_conns w)) with (conn_of w a).
  - destruct (conn_of w a); [reflexivity|]. destruct (w_accepting w); reflexivity.
  - change RECV_LIMIT with 10240. destruct (10240 <? zlen raw); [reflexivity|].
    destruct (conn_of w a) as [[|d|]|]; try reflexivity.
    destruct raw as [|b raw]; [reflexivity|]. cbn [map fold_left fst snd hd_uuid hd_raw].
    destruct (on_input ev ext uuid (b :: raw) (w_host w)) as [[[d|]|e] h]; [reflexivity| |]; apply after_host.
  - destruct (conn_of w a) as [[|d|]|]; try reflexivity. apply after_host.
  - destruct (conn_of w a) as [[|d|]|]; reflexivity.
  - destruct (conn_of w a) as [s|]; reflexivity.
  - reflexivity.
  - destruct (w_accepting w); reflexivity.
  - destruct (w_accepting w); reflexivity.
Qed.
Lemma run_running {U} ev (ext : extension U) u es : running ev ext (w_host (run_world ev ext (initial_world u) es)).
Proof. rewrite host_of_run. eexists _, _. reflexivity. Qed.
Lemma closed_step {U} ev (ext : extension U) w e c : conn_of w c = Some Closed ->
  conn_of (world_step ev ext w e) c = Some Closed /\ sent_on (world_step ev ext w e) c = sent_on w c /\
  log_of c (handles ev ext w e) = [].
Proof.
  intros H. destruct (event_conn_dec e c) as [D|D].
  2:{ destruct (others_kept ev ext w e c D) as (K & S & L). rewrite K. auto. }
  destruct e as [a|a raw uuid|a ok|a|a| | |]; cbn [event_conn] in D; try discriminate;
    (assert (a = c) by congruence; subst a); clear D; cbn [world_step handles log_of filter map somes flat_map];
    change (dict_get Z.eqb c (w_conns w)) with (conn_of w c); rewrite ?H; auto.
  - change RECV_LIMIT with 10240. destruct (10240 <? zlen raw); auto.
  - rewrite close_conn_of, Z.eqb_refl. auto.
Qed.
Lemma closed_forever {U} ev (ext : extension U) es c : forall w, conn_of w c = Some Closed ->
  conn_of (run_world ev ext w es) c = Some Closed /\ sent_on (run_world ev ext w es) c = sent_on w c /\
  log_of c (log ev ext w es) = [].
Proof.
  induction es as [|e es IH]; intros w H; [cbn; auto|]. destruct (closed_step ev ext w e c H) as (C & S & L).
  destruct (IH _ C) as (C' & S' & L'). cbn [run_world fold_left log]. rewrite log_of_app, L, L'.
  unfold run_world in *. rewrite S', S. auto.
Qed.
Lemma terminating_step {U} ev (ext : extension U) w e : w_terminating w = true -> w_terminating (world_step ev ext w e) = true.
Proof.
  intros H. destruct e as [a|a raw uuid|a ok|a|a| | |]; cbn [world_step];
    try change (dict_get Z.eqb a (w_conns w)) with (conn_of w a).
  - destruct (conn_of w a); [exact H|]. destruct (w_accepting w); exact H.
  - destruct (RECV_LIMIT <? zlen raw); [exact H|].
    destruct (conn_of w a) as [[|d|]|]; try exact H. destruct raw; [exact H|].
    destruct (on_input ev ext uuid _ (w_host w)) as [[[d|]|e] h]; try exact H; rewrite after_term; exact H.
  - destruct (conn_of w a) as [[|d|]|]; try exact H. rewrite after_term. exact H.
  - destruct (conn_of w a) as [[|d|]|]; exact H.
  - destruct (conn_of w a) as [s|]; exact H.
  - reflexivity.
  - destruct (w_accepting w); [reflexivity|exact H].
  - destruct (w_accepting w); exact H.
Qed.
Lemma terminated_log {U} ev (ext : extension U) es c : forall w, w_terminating w = true ->
  (length (log_of c (log ev ext w es)) <= match conn_of w c with Some Receiving | None => 1 | _ => 0 end)%nat.
Proof.
  induction es as [|e es IH]; intros w T; [cbn; lia|]. cbn [log]. rewrite log_of_app, app_length.
  specialize (IH (world_step ev ext w e) (terminating_step ev ext w e T)).
  destruct (event_conn_dec e c) as [D|D].
  2:{ destruct (others_kept ev ext w e c D) as (K & S & L). rewrite K in IH. rewrite L. exact IH. }
  destruct e as [a|a raw uuid|a ok|a|a| | |]; cbn [event_conn] in D; try discriminate;
    (assert (a = c) by congruence; subst a); clear D; cbn [world_step handles log_of filter length] in *;
    change (dict_get Z.eqb c (w_conns w)) with (conn_of w c) in *.
  - destruct (conn_of w c) as [x|] eqn:E; [rewrite E in IH; exact IH|].
    destruct (w_accepting w); [rewrite conn_set, Z.eqb_refl in IH; exact IH|rewrite E in IH; exact IH].
  - change RECV_LIMIT with 10240 in *. destruct (10240 <? zlen raw); [exact IH|].
    destruct (conn_of w c) as [[|d|]|] eqn:E; try (rewrite E in IH; exact IH).
    destruct raw as [|b raw]; [rewrite close_conn_of, Z.eqb_refl in IH; cbn in *; lia|].
    cbn [log_of filter hd_conn]. rewrite Z.eqb_refl. cbn [length].
    destruct (on_input ev ext uuid (b :: raw) (w_host w)) as [[[d|]|e] h];
      [rewrite conn_set, Z.eqb_refl in IH|rewrite after_conn, Z.eqb_refl, T in IH..]; cbn in *; lia.
  - destruct (conn_of w c) as [[|d|]|] eqn:E; try (rewrite E in IH; exact IH). rewrite after_conn, Z.eqb_refl, T in IH. exact IH.
  - destruct (conn_of w c) as [[|d|]|] eqn:E; try (rewrite E in IH; exact IH). rewrite close_conn_of, Z.eqb_refl in IH. cbn in *. lia.
  - destruct (conn_of w c) as [x|] eqn:E; [|rewrite E in IH; exact IH]. rewrite close_conn_of, Z.eqb_refl in IH. cbn in *. destruct x; lia.
Qed.
(** how many connections there can be once terminating *)
Lemma set_conn_length c x l : length (set_conn c x l) = match dict_get Z.eqb c l with Some _ => length l | None => S (length l) end.
Proof.
  unfold set_conn. induction l as [|[k v] l IH]; [reflexivity|]. cbn [dict_set dict_get]. destruct (c =? k) eqn:E.
  - cbn [length]. reflexivity.
  - cbn [length]. rewrite IH. destruct (dict_get Z.eqb c l); reflexivity.
Qed.
Lemma terminated_conns {U} ev (ext : extension U) es : forall w, w_terminating w = true ->
  (length (w_conns (run_world ev ext w es)) <= length (w_conns w) + if w_accepting w then 1 else 0)%nat.
Proof.
  induction es as [|e es IH]; intros w T; [cbn; lia|]. cbn [run_world fold_left].
  specialize (IH (world_step ev ext w e) (terminating_step ev ext w e T)). unfold run_world in IH.
  eapply Nat.le_trans; [exact IH|]. clear IH.
  assert (A : forall h c s x, conn_of w c = Some x -> length (w_conns (after_chunk h w c s)) = length (w_conns w) /\ w_accepting (after_chunk h w c s) = false).
  { intros h c s x G. unfold after_chunk. rewrite T. cbn [w_conns w_accepting]. rewrite set_conn_length. unfold conn_of in G. rewrite G. auto. }
  assert (B : forall c x, conn_of w c = Some x -> length (w_conns (close_conn w c)) = length (w_conns w)).
  { intros c x G. unfold close_conn. cbn [w_conns]. rewrite set_conn_length. unfold conn_of in G. rewrite G. auto. }
  destruct e as [a|a raw uuid|a ok|a|a| | |]; cbn [world_step];
    try change (dict_get Z.eqb a (w_conns w)) with (conn_of w a).
  - destruct (conn_of w a) eqn:G; [lia|]. destruct (w_accepting w) eqn:Q; [|rewrite Q; lia]. cbn [w_conns w_accepting]. rewrite T, set_conn_length.
    unfold conn_of in G. rewrite G. cbn. lia.
  - destruct (RECV_LIMIT <? zlen raw); [lia|].
    destruct (conn_of w a) as [[|d|]|] eqn:G; try lia. destruct raw as [|b raw]; [rewrite (B _ _ G); cbn [close_conn w_accepting]; lia|].
    destruct (on_input ev ext uuid _ (w_host w)) as [[[d|]|e] h].
    + cbn [w_conns w_accepting]. rewrite set_conn_length. unfold conn_of in G. rewrite G. lia.
    + destruct (A h a (w_sent w) _ G) as [-> ->]. lia.
    + destruct (A h a (w_sent w) _ G) as [-> ->]. lia.
  - destruct (conn_of w a) as [[|d|]|] eqn:G; try lia. destruct (A (w_host w) a (if ok then w_sent w ++ [(a, d)] else w_sent w) _ G) as [-> ->]. lia.
  - destruct (conn_of w a) as [[|d|]|] eqn:G; try lia. rewrite (B _ _ G). cbn [close_conn w_accepting]. lia.
  - destruct (conn_of w a) as [x|] eqn:G; [|lia]. rewrite (B _ _ G). cbn [close_conn w_accepting]. lia.
  - cbn [w_conns w_accepting]. lia.
  - destruct (w_accepting w) eqn:Q; [cbn [w_conns w_accepting]|rewrite Q]; lia.
  - destruct (w_accepting w) eqn:Q; [cbn [w_conns w_accepting]|rewrite Q]; lia.
Qed.
