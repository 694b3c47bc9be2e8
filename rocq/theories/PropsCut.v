(** * Properties C116, C117: requests longer than what is received at once *)
From Coq Require Import String ZArith List Bool Lia Permutation.
From Coq Require Import Strings.Byte.
From Verif Require Import Py PyFacts Utf8Facts Stream StreamFacts StreamFacts2 Version Frame Messages Rest Routes Settings Host
  Spec SpecFacts FrameFacts Wire WireFacts WireFacts2 WireFacts3 WireFacts4 WireFacts5 HostSpec HostFacts
  PropsMessages PropsHost PropsMemory.
Import ListNotations.
Open Scope list_scope.
Open Scope Z_scope.

(** ** Specification *)
(** the request [q] with the content [c] only, no token, and HTTP/1.0 *)
Definition cut_in_content (q : rest_request) (c : bytes) : rest_request :=
  mkReq (rq_task q) (rq_method q) (rq_uri q) (rq_path q) (rq_params q) (rq_headers q) (rq_media q) c [] (Some 0) [] false.
(** the request [q] with the path [p], and nothing of what comes behind *)
Definition cut_in_path (q : rest_request) (p : pystr) : rest_request :=
  mkReq (rq_task q) (rq_method q) (rq_uri q) p [] [] [] [] [] (Some 0) [] false.
(** the bytes [chunk] of the frame [raw] of [m] make the host call handler [n] with [q], and reply to
    [m] with what it returns *)
Definition handled_as {U} (ev : env) (ext : extension U) (m : message) (raw chunk : bytes) (n : nat) (q : rest_request) : Prop :=
  (forall uuid h u e, xt_invoke ext n (hs_user h) q = (u, Raise e) ->
     exists h', on_input ev ext uuid chunk h = (Raise e, h') /\ hs_user h' = u) /\
  (forall a, rest_response_ok a -> exists p, w_exec_response true (exec_of a) p /\
     (zlen raw + zlen p < 2 ^ 31 -> exists out, answers m p out /\
       forall uuid h u, xt_invoke ext n (hs_user h) q = (u, Ok a) ->
         exists h', on_input ev ext uuid chunk h = (Ok (Some out), h') /\ hs_user h' = u)).

(** ** Proofs *)
(** the envelope of a frame, and any payload *)
Lemma frame_envelope {U} ev (ext : extension U) m raw : set_order_ok (e_so ev) -> frame_of m raw ->
  exists e c o, raw = e ++ m_payload m /\ same_ctx (m_ctx m) c /\ nodup_ctx c /\
    seen (mkMsg c (m_features m) (m_version m) (m_action m) (m_id m) (m_hs m) (m_cp m) (m_payload m)) o /\
    forall uuid t h, on_input ev ext uuid (e ++ t) h = handle_request ev ext uuid o t (set_next h (hs_next h + 2)).
Proof.
  intros So F. destruct (read_frame _ m raw So F) as (c & hd & o & Sc & E3 & Eo & Ef & Ev & Ea & Ei & Eh & Ec & R).
  destruct (R [x00]) as (t0 & Rh & Ro).
  destruct (local_read_header _ _ _ Rh) as (ph & Eph & Lh).
  destruct (local_read_outbound _ _ _ _ _ _ _ Ro) as (po & -> & Lo).
  assert (N : m_payload m ++ [x00] <> []) by (destruct (m_payload m); discriminate). specialize (Lo N).
  assert (N' : po ++ m_payload m ++ [x00] <> []) by (destruct po; [exact N|discriminate]). specialize (Lh N').
  exists (ph ++ po), c, o. split; [rewrite !app_assoc in Eph; apply app_inv_tail in Eph; exact Eph|]. split; [exact Sc|].
  assert (Hd : o_hdr o = hd).
  { unfold read_outbound in Ro. apply rbind_ok in Ro as (c0 & s1 & _ & Ro). destruct (0 <? h_vhs hd).
    - apply rbind_ok in Ro as (z & s2 & _ & Ro). apply rbind_ok in Ro as (vb & s3 & _ & Ro).
      apply rbind_ok in Ro as (fa & s4 & _ & Ro). apply Ok_inj, pair_equal_spec in Ro as [<- _]. reflexivity.
    - apply Ok_inj, pair_equal_spec in Ro as [<- _]. reflexivity. }
  split; [|split].
  - rewrite <- Eo. unfold read_outbound in Ro. apply rbind_ok in Ro as (c0 & s1 & Rc & Ro).
    replace (o_ctx o) with c0; [eapply read_ctx_nodup; eassumption|]. destruct (0 <? h_vhs hd).
    + apply rbind_ok in Ro as (z & s2 & _ & Ro). apply rbind_ok in Ro as (vb & s3 & _ & Ro).
      apply rbind_ok in Ro as (fa & s4 & _ & Ro). apply Ok_inj, pair_equal_spec in Ro as [<- _]. reflexivity.
    + apply Ok_inj, pair_equal_spec in Ro as [<- _]. reflexivity.
  - unfold seen. cbn. rewrite Hd. auto 10.
  - intros uuid t h. unfold on_input.
    rewrite (hbind_hids default_header _ h (mkHeader ES 17 (hs_next h) 0 (HInt CURRENT) 0) (hs_next h + 1) eq_refl).
    rewrite <- app_assoc, Lh, hbind_hlift, E3. rewrite (hbind_hids _ _ _ _ _ (new_blank_request _)).
    rewrite (blank_req _ 0), Lo, hbind_hlift.
    cbn [fst snd]. rewrite set_next_next. cbn [hs_next set_next]. f_equal. f_equal. lia.
Qed.
(** a payload that reads as a REST request *)
Lemma handled {U} ev (ext : extension U) m raw q z n : set_order_ok (e_so ev) -> frame_of m raw -> m_action m = A_REST ->
  rq_method q = Some z -> 0 <= z < 9 -> find_handler (e_cls ev) (rg_map (xt_registry ext)) (mname z ++ [32] ++ rq_path q) = Ok n ->
  exists e, raw = e ++ m_payload m /\ forall t, read_rest_request t = Ok (q, []) -> handled_as ev ext m raw (e ++ t) n q.
Proof.
  intros So F A Z Rz Fh. destruct (frame_envelope ev ext m raw So F) as (e & c & o & E & Sc & Nc & S & R).
  exists e. split; [exact E|]. intros t Rt.
  assert (C : forall uuid h, on_input ev ext uuid (e ++ t) h =
    match xt_invoke ext n (hs_user h) q with
    | (u, Ok a) => (r <== hids (reply_to o (write_exec_response (exec_of a))) ;; send r) (set_user (set_next h (hs_next h + 2)) u)
    | (u, Raise x) => (Raise x, set_user (set_next h (hs_next h + 2)) u)
    end).
  { intros uuid h. rewrite R, dispatch_rest by (rewrite (seen_action _ _ S); exact A). unfold handle_rest. rewrite Rt, hbind_hlift. cbn [fst].
    destruct (method_name_ok (rq_method q)) as (z' & Ez & Em); [rewrite Z; exists z; auto|]. rewrite Em, hbind_hlift.
    assert (z' = z) as -> by congruence. cbv zeta. unfold SPACE in *. rewrite Fh, hbind_hlift. unfold hbind at 1, call_user.
    replace (hs_user (set_next h (hs_next h + 2))) with (hs_user h) by (destruct h; reflexivity).
    destruct (xt_invoke ext n (hs_user h) q) as [u [a|x]]; reflexivity. }
  split.
  - intros uuid h u x X. rewrite C, X. eexists. split; [reflexivity|]. destruct h; reflexivity.
  - intros a Ha. destruct (exec_response_writes true _ (response_exec _ Ha)) as (p & Wp & Rp). exists p. split; [exact Rp|].
    intros L. destruct (reply_frame m raw c o p F Sc Nc S L) as (out & X & Y). exists out. split; [exact X|].
    intros uuid h u Hu. rewrite C, Hu, Wp. eexists. split; [apply Y|]. destruct h; reflexivity.
Qed.
Lemma short_bytes n c : zlen c <= n -> read_bytes n c = Ok (c, []).
Proof.
  intros H. pose proof (zlen_nonneg _ c). unfold read_bytes, bio_read. destruct (Z.ltb_spec n 0); [lia|]. f_equal.
  revert n H H1. clear H0. induction c as [|x c IH]; intros n H H1; [reflexivity|]. rewrite zlen_cons in H. pose proof (zlen_nonneg _ c).
  cbn [takeZ dropZ]. destruct (Z.leb_spec n 0); [lia|]. specialize (IH (n - 1) ltac:(lia) ltac:(lia)). apply pair_equal_spec in IH as [-> ->]. reflexivity.
Qed.
Lemma method_range strict q P z : w_rest_request strict q P -> rq_method q = Some z -> 0 <= z < 9.
Proof.
  intros (m & h & o & Em & _ & _ & _ & H) Z. rewrite Z in Em. injection Em as <-. opened H.
  match goal with P : w_enum _ 9 _ _ |- _ => apply P end.
Qed.
Lemma cut_content_reads strict q P : w_rest_request strict q P ->
  exists A B h, P = A ++ rq_content q ++ B /\ rq_http q = Some h /\ parts [w_string strict (rq_token q); w_enum strict 2 h] B /\
  forall c1 c2, rq_content q = c1 ++ c2 -> read_rest_request (A ++ c1) = Ok (cut_in_content q c1, []).
Proof.
  intros (m & h & o & Em & Eh & Eo & _ & H). opened H.
  match goal with P : w_bytes _ _ _ |- _ => destruct P as [Ln Pb] end. parts_in Pb.
  match goal with Pc : exactly _ _ |- _ => unfold exactly in Pc; rewrite Pc in *; clear Pc end.
  match goal with H : w_vint _ _ ?x |- _ => rename H into Pn; rename x into an end.
  rewrite app_nil_r.
  exists (a ++ a0 ++ a1 ++ a2 ++ a3 ++ a4 ++ a5 ++ an), (a7 ++ a8), h. rewrite <- !app_assoc.
  split; [reflexivity|]. split; [exact Eh|]. split; [rewrite <- (app_nil_r (a7 ++ a8)), <- app_assoc; repeat (constructor; [assumption|]); constructor|].
  intros c1 c2 Ec. rewrite <- !app_assoc. unfold read_rest_request, read_transport_request.
  rewrite (rbind_step _ _ _ _ _ _ _ (task_reads strict _ _ _ I P0)). rd. rd. rd. rd. rd.
  destruct (media_reads strict o a5 (an ++ c1) P5) as (pp & tt' & R1 & R2).
  rewrite (rbind_step _ _ _ _ _ _ _ R1), (rbind_step _ _ _ _ _ _ _ R2).
  rewrite (rbind_step _ _ _ _ _ _ _ (array_size_reads strict _ _ _ Ln Pn)).
  assert (L : zlen c1 <= zlen (rq_content q)) by (rewrite Ec, zlen_app; pose proof (zlen_nonneg _ c2); lia).
  rewrite (rbind_step _ _ _ _ _ _ _ (short_bytes _ _ L)). unfold cut_in_content. rewrite Em, Eo. reflexivity.
Qed.
Lemma cut_path_reads strict q P : w_rest_request strict q P ->
  exists A e B, P = A ++ e ++ B /\ is_utf8 (rq_path q) e /\ parts [w_dict strict (w_string strict) (rq_params q); fun _ => True] B /\
  forall p1 e1 e2, e = e1 ++ e2 -> is_utf8 p1 e1 -> read_rest_request (A ++ e1) = Ok (cut_in_path q p1, []).
Proof.
  intros (m & h & o & Em & Eh & Eo & _ & H). opened H. destruct P2 as (e & Ue & Ln & Pb). parts_in Pb.
  match goal with Pc : exactly _ _ |- _ => unfold exactly in Pc; rewrite Pc in *; clear Pc end.
  match goal with H : w_vint _ _ ?x |- _ => rename H into Pn; rename x into an end.
  rewrite app_nil_r. exists (a ++ a0 ++ a1 ++ an), e, (a3 ++ a4 ++ a5 ++ a6 ++ a7 ++ a8). rewrite <- !app_assoc.
  split; [reflexivity|]. split; [exact Ue|].
  split; [constructor; [assumption|]; rewrite <- (app_nil_r (a4 ++ _)); constructor; [exact I|constructor]|].
  intros p1 e1 e2 Ee U1. rewrite <- !app_assoc. unfold read_rest_request, read_transport_request.
  rewrite (rbind_step _ _ _ _ _ _ _ (task_reads strict _ _ _ I P0)). rd. rd.
  assert (L : zlen e1 <= zlen e) by (rewrite Ee, zlen_app; pose proof (zlen_nonneg _ e2); lia).
  assert (R : read_string (an ++ e1) = Ok (p1, [])).
  { unfold read_string. rewrite (rbind_step _ _ _ _ _ _ _ (array_size_reads strict _ _ _ Ln Pn)).
    rewrite (rbind_step _ _ _ _ _ _ _ (short_bytes _ _ L)). unfold rlift. apply is_utf8_encode in U1. rewrite (utf8_decode_encode _ _ U1). reflexivity. }
  rewrite (rbind_step _ _ _ _ _ _ _ R). unfold cut_in_path. rewrite Em. reflexivity.
Qed.

(** C116, as one would expect it: however the frames sent are divided into what is received at
    once, handlers are called only with requests that were sent.  To say what they are called
    with: *)
Definition recording {U} (ext : extension U) : extension (U * list (nat * rest_request)) :=
  mkExtn _ (xt_name ext) (xt_interfaces ext) (xt_registry ext)
    (fun n u q => let (u', r) := xt_invoke ext n (fst u) q in ((u', snd u ++ [(n, q)]), r)).
Definition calls {U} (ev : env) (ext : extension U) (u : U) (l : list (bytes * bytes)) : list (nat * rest_request) :=
  snd (hs_user (feed ev (recording ext) (initial_host (u, [])) l)).
Definition C116_statement : Prop := forall U ev (ext : extension U) u ms raws l, set_order_ok (e_so ev) ->
  Forall2 frame_of ms raws -> List.concat (map snd l) = List.concat raws -> Forall (fun c => 0 < zlen (snd c) <= 10240) l ->
  forall n q', In (n, q') (calls ev ext u l) ->
  exists m strict q, In m ms /\ m_action m = py "internal:extensions/restexecuteonextensiontaction" /\
    w_rest_request strict q (m_payload m) /\ received_request q q'.

(** It is false of every REST request: cut in its content, the handler is called with the content
    up to there, without the token, and its answer is sent as that to the whole request; *)
Theorem C116_cut_content_refuted : forall U ev (ext : extension U) strict m raw q z n, set_order_ok (e_so ev) -> frame_of m raw ->
  m_action m = py "internal:extensions/restexecuteonextensiontaction" -> w_rest_request strict q (m_payload m) ->
  rq_method q = Some z -> find_handler (e_cls ev) (rg_map (xt_registry ext)) (mname z ++ [32] ++ rq_path q) = Ok n ->
  exists a b v, raw = a ++ rq_content q ++ b /\ rq_http q = Some v /\ parts [w_string strict (rq_token q); w_enum strict 2 v] b /\
    forall c1 c2, rq_content q = c1 ++ c2 -> handled_as ev ext m raw (a ++ c1) n (cut_in_content q c1).
Proof.
  intros U ev ext strict m raw q z n So F A W Z Fh. destruct (cut_content_reads strict q _ W) as (P1 & P2 & v & E & Ev & Pb & R).
  assert (Rz : 0 <= z < 9) by exact (method_range _ _ _ _ W Z).
  assert (X : forall c1, exists e, raw = e ++ m_payload m /\ forall t, read_rest_request t = Ok (cut_in_content q c1, []) -> handled_as ev ext m raw (e ++ t) n (cut_in_content q c1))
    by (intros c1; apply (handled ev ext m raw (cut_in_content q c1) z n So F A); assumption).
  destruct (X []) as (e & Er & _). exists (e ++ P1), P2, v. split; [rewrite Er, E, <- app_assoc; reflexivity|]. split; [exact Ev|]. split; [exact Pb|].
  intros c1 c2 Ec. destruct (X c1) as (e' & Er' & H). rewrite Er in Er'. apply app_inv_tail in Er'. subst e'.
  rewrite <- app_assoc. apply H, (R c1 c2 Ec).
Qed.
Print Assumptions C116_cut_content_refuted.
(** cut in its path, the handler of the path up to there is called. *)
Theorem C116_cut_path_refuted : forall U ev (ext : extension U) strict m raw q z, set_order_ok (e_so ev) -> frame_of m raw ->
  m_action m = py "internal:extensions/restexecuteonextensiontaction" -> w_rest_request strict q (m_payload m) -> rq_method q = Some z ->
  exists a e b, raw = a ++ e ++ b /\ is_utf8 (rq_path q) e /\
    forall p1 e1 e2 n, e = e1 ++ e2 -> is_utf8 p1 e1 ->
      find_handler (e_cls ev) (rg_map (xt_registry ext)) (mname z ++ [32] ++ p1) = Ok n ->
      handled_as ev ext m raw (a ++ e1) n (cut_in_path q p1).
Proof.
  intros U ev ext strict m raw q z So F A W Z. destruct (cut_path_reads strict q _ W) as (P1 & e & P2 & E & Ue & _ & R).
  assert (Rz : 0 <= z < 9) by exact (method_range _ _ _ _ W Z).
  destruct (frame_envelope ev ext m raw So F) as (x & _ & _ & Ex & _).
  exists (x ++ P1), e, P2. split; [rewrite Ex, E, <- app_assoc; reflexivity|]. split; [exact Ue|].
  intros p1 e1 e2 n Ee U1 Fh. destruct (handled ev ext m raw (cut_in_path q p1) z n So F A Z Rz Fh) as (x' & Ex' & H).
  rewrite Ex in Ex'. apply app_inv_tail in Ex'. subst x'. rewrite <- app_assoc. apply H, (R p1 e1 e2 Ee U1).
Qed.
Print Assumptions C116_cut_path_refuted.
(** an example: a request for /hello/you in two chunks, the first ending in the content *)
Definition ex_content (c : bytes) : rest_request :=
  mkReq (mkTask (py "node") (Some 5)) (Some 0) (py "/hello/you") (py "/hello/you") [] [] [] c (py "token") (Some 1) [] false.
Definition ex_content_msg (c : bytes) : message :=
  ex_msg (py "internal:extensions/restexecuteonextensiontaction") 9 false
    (match write_rest_request (ex_content c) with Ok b => b | Raise _ => [] end).
Lemma ex_content_frame c : zlen c <= 2 ^ 20 -> ex_raw (ex_content_msg c) <> [] -> m_payload (ex_content_msg c) <> [] ->
  frame_of (ex_content_msg c) (ex_raw (ex_content_msg c)) /\ w_rest_request true (ex_content c) (m_payload (ex_content_msg c)).
Proof.
  intros L R P. split; [apply ex_frame; [text|discriminate|exact R]|].
  apply (by_writer _ _ _ _ _ _ (rest_request_writes true)).
  - split; [right; split; [discriminate|]; split; [text|]; exists 5; split; [reflexivity|vm_compute; split; [discriminate|reflexivity]]|].
    split; [exists 0; split; [reflexivity|vm_compute; split; [discriminate|reflexivity]]|].
    split; [repeat (constructor; [text|]); constructor|].
    split; [split; [vm_compute; reflexivity|split; constructor]|]. split; [split; [vm_compute; reflexivity|split; constructor]|].
    split; [cbn [rq_content ex_content]; lia|]. exists 1. split; [reflexivity|vm_compute; split; [discriminate|reflexivity]].
  - unfold ex_content_msg in *. cbn [ex_msg m_payload] in *. destruct (write_rest_request (ex_content c)); [reflexivity|contradiction P; reflexivity].
Qed.
Theorem C116_refuted : ~ C116_statement.
Proof.
  intros S. set (c := map z2b (py "abcdef")). set (raw := ex_raw (ex_content_msg c)).
  destruct (ex_content_frame c) as [F W]; [vm_compute; discriminate|vm_compute; discriminate|vm_compute; discriminate|].
  set (k := (List.length raw - 10)%nat).
  destruct (S Z ex_env ex_ext 0 [ex_content_msg c] [raw] [([], firstn k raw); ([], skipn k raw)] ex_env_ok) with (n := 0%nat) (q' := cut_in_content (ex_content c) (map z2b (py "abc")))
    as (m & strict & q & [<-|[]] & A & Wq & Rq).
  - constructor; [exact F|constructor].
  - vm_compute. reflexivity.
  - repeat (constructor; [vm_compute; split; [reflexivity|discriminate]|]). constructor.
  - vm_compute. left. reflexivity.
  - destruct (rest_request_reads true _ _ [] I W) as (q1 & R1 & E1). destruct (rest_request_reads strict _ _ [] I Wq) as (q2 & R2 & E2).
    rewrite R1 in R2. apply Ok_inj, pair_equal_spec in R2 as [<- _]. destruct E1 as (_ & _ & _ & _ & _ & _ & _ & E1 & _). destruct E2 as (_ & _ & _ & _ & _ & _ & _ & E2 & _).
    destruct Rq as (_ & _ & _ & _ & _ & _ & _ & Rq & _). rewrite <- E2, E1 in Rq. apply (f_equal (@List.length byte)) in Rq. vm_compute in Rq. discriminate Rq.
Qed.
Print Assumptions C116_refuted.

(** C116, what holds: if every frame comes in a chunk of its own (whatever follows it there), the
    handlers are called with the requests sent, in that order, each the handler of its route. *)
Inductive given {U} (ev : env) (ext : extension U) : list message -> list (nat * rest_request) -> Prop :=
| given_nil : given ev ext [] []
| given_request ms l m strict q z n q' : given ev ext ms l ->
    m_action m = py "internal:extensions/restexecuteonextensiontaction" -> w_rest_request strict q (m_payload m) ->
    rq_method q = Some z -> find_handler (e_cls ev) (rg_map (xt_registry ext)) (mname z ++ [32] ++ rq_path q) = Ok n ->
    received_request q q' -> given ev ext (ms ++ [m]) (l ++ [(n, q')])
| given_no_route ms l m strict q z e : given ev ext ms l ->
    m_action m = py "internal:extensions/restexecuteonextensiontaction" -> w_rest_request strict q (m_payload m) ->
    rq_method q = Some z -> find_handler (e_cls ev) (rg_map (xt_registry ext)) (mname z ++ [32] ++ rq_path q) = Raise e ->
    given ev ext (ms ++ [m]) l
| given_other ms l m : given ev ext ms l -> m_action m <> py "internal:extensions/restexecuteonextensiontaction" ->
    given ev ext (ms ++ [m]) l.
Definition in_own_chunk (m : message) (c : bytes * bytes) : Prop := exists raw s, frame_of m raw /\ snd c = raw ++ s.
Theorem C116_whole_partial : forall U ev (ext : extension U) u ms l, set_order_ok (e_so ev) -> Forall2 in_own_chunk ms l ->
  (forall m, In m ms -> m_action m = py "internal:extensions/restexecuteonextensiontaction" -> exists strict q, w_rest_request strict q (m_payload m)) ->
  given ev ext ms (calls ev ext u l).
Proof.
  intros U ev ext u ms l So. revert l. induction ms as [|m ms IH] using rev_ind; intros l F R.
  - inversion F. constructor.
  - apply Forall2_app_inv_l in F as (l1 & l2 & F1 & F2 & ->). inversion F2 as [|? c ? ? Fm F3]; subst. inversion F3; subst. clear F2 F3.
    specialize (IH l1 F1 ltac:(intros; apply R; [apply in_app_iff; auto|assumption])).
    destruct Fm as (raw & s & Fr & Ec). unfold calls in *. rewrite feed_snoc, Ec. set (h := feed ev (recording ext) (initial_host (u, [])) l1) in *.
    destruct (list_eq_dec Z.eq_dec (m_action m) A_REST) as [A|A].
    + destruct (R m ltac:(apply in_app_iff; right; left; reflexivity) A) as (strict & q & W).
      assert (exists z, rq_method q = Some z) as (z & Z) by (destruct W as (z & _ & _ & Z & _); eauto).
      destruct (on_frame ev (recording ext) m raw So Fr) as (cx & o & _ & _ & S & On).
      rewrite On, dispatch_rest by (rewrite (seen_action _ _ S); exact A).
      destruct (find_handler (e_cls ev) (rg_map (xt_registry ext)) (mname z ++ [32] ++ rq_path q)) as [n|e] eqn:Fh.
      * set (q' := mkReq (rq_task q) (rq_method q) (rq_uri q) (rq_path q) (rq_params q) (rq_headers q) (rq_media q) (rq_content q) (rq_token q) (rq_http q) [] false).
        assert (Rq : received_request q q') by (repeat split).
        rewrite (rest_call ev (recording ext) strict o q z n q' _ s _ W Z Fh Rq).
        replace (hs_user (set_next h (hs_next h + 2))) with (hs_user h) by (destruct h; reflexivity).
        assert (U1 : forall (a : rest_response) (g : host (U * list (nat * rest_request))), hs_user (snd ((r <== hids (reply_to o (write_exec_response (exec_of a))) ;; send r) g)) = hs_user g).
        { intros a g. destruct ((r <== hids (reply_to o (write_exec_response (exec_of a))) ;; send r) g) as [x g'] eqn:E.
          exact (kept_bind _ _ (kept_ids _) (fun _ => kept_send _) _ _ _ E). }
        cbn [recording xt_invoke]. destruct (xt_invoke ext n (fst (hs_user h)) q') as [u' [a|e]].
        -- rewrite U1. replace (hs_user (set_user (set_next h (hs_next h + 2)) (u', snd (hs_user h) ++ [(n, q')]))) with (u', snd (hs_user h) ++ [(n, q')]) by (destruct h; reflexivity).
           econstructor; eassumption.
        -- cbn [snd]. replace (hs_user (set_user (set_next h (hs_next h + 2)) (u', snd (hs_user h) ++ [(n, q')]))) with (u', snd (hs_user h) ++ [(n, q')]) by (destruct h; reflexivity).
           econstructor; eassumption.
      * replace (hs_user (snd (handle_rest ev (recording ext) o (m_payload m ++ s) (set_next h (hs_next h + 2))))) with (hs_user h); [eapply given_no_route; eassumption|].
        destruct (rest_request_reads strict q _ s I W) as (q'' & Rq & E). unfold handle_rest. rewrite Rq, hbind_hlift. cbn [fst].
        destruct E as (_ & Em & _ & Ep & _). destruct (method_name_ok (rq_method q'')) as (z' & Ez & Em'); [rewrite Em, Z; exists z; split; [reflexivity|exact (method_range _ _ _ _ W Z)]|].
        rewrite Em', hbind_hlift. assert (z' = z) as -> by congruence. cbv zeta. unfold SPACE. rewrite Ep. cbn [recording xt_registry]. unfold hbind, hlift. rewrite Fh. destruct h; reflexivity.
    + replace (hs_user (snd (on_input ev (recording ext) (fst c) (raw ++ s) h))) with (hs_user h); [apply given_other; assumption|].
      symmetry. apply (C79_kept _ ev (recording ext) (fst c) (raw ++ s) h So). intros m' Hm'.
      destruct (read_as_frame _ m raw So Fr) as (cx & _ & Ra). rewrite (read_as_fun _ _ _ _ Hm' (Ra s)). exact A.
Qed.
Print Assumptions C116_whole_partial.
Example C116_case : let l := [([], ex_raw (ex_content_msg [x41])); ([], ex_raw ex_tcp)] in
  Forall2 in_own_chunk [ex_content_msg [x41]; ex_tcp] l /\ map fst (calls ex_env ex_ext 0 l) = [0%nat] /\
  map (fun x => rq_content (snd x)) (calls ex_env ex_ext 0 l) = [[x41]].
Proof.
  split; [|split; vm_compute; reflexivity]. constructor; [|constructor; [|constructor]].
  - exists (ex_raw (ex_content_msg [x41])), []. split; [apply ex_content_frame; vm_compute; discriminate|symmetry; apply app_nil_r].
  - exists (ex_raw ex_tcp), []. split; [apply ex_frame; [text|discriminate|vm_compute; discriminate]|symmetry; apply app_nil_r].
Qed.

(** C117, as one would expect it: a REST request, however it is divided into what is received at
    once, brings about replies to itself only. *)
Definition C117_statement : Prop := forall U ev (ext : extension U) u strict m raw q l, set_order_ok (e_so ev) -> frame_of m raw ->
  m_action m = py "internal:extensions/restexecuteonextensiontaction" -> w_rest_request strict q (m_payload m) ->
  List.concat (map snd l) = raw -> Forall (fun c => 0 < zlen (snd c) <= 10240) l ->
  forall l1 uuid chunk l2 out, l = l1 ++ (uuid, chunk) :: l2 ->
  fst (on_input ev ext uuid chunk (feed ev ext (initial_host u) l1)) = Ok (Some out) -> exists p, answers m p out.
(** False: whatever stands in the content of a request where a chunk ends, 10240 bytes from the
    beginning of its frame, is taken for a message, and answered. *)
Theorem C117_smuggled_refuted : forall U ev (ext : extension U) strict m raw q, set_order_ok (e_so ev) -> (forall l, Permutation l (e_roles ev l)) ->
  frame_of m raw -> w_rest_request strict q (m_payload m) ->
  exists a b v, raw = a ++ rq_content q ++ b /\ rq_http q = Some v /\ parts [w_string strict (rq_token q); w_enum strict 2 v] b /\
    forall c1 c2 c3 m2 chunk1 chunk2 rest, rq_content q = c1 ++ c2 ++ c3 -> frame_of m2 c2 ->
    chunk1 = a ++ c1 -> zlen chunk1 = 10240 -> chunk2 ++ rest = c2 ++ c3 ++ b -> zlen c2 <= zlen chunk2 <= 10240 ->
    forall uuid1 uuid2 h, List.length uuid2 = 16%nat -> answerable ev ext (snd (on_input ev ext uuid1 chunk1 h)) m2 ->
    raw = chunk1 ++ chunk2 ++ rest /\
    exists p out h', on_input ev ext uuid2 chunk2 (snd (on_input ev ext uuid1 chunk1 h)) = (Ok (Some out), h') /\ answers m2 p out.
Proof.
  intros U ev ext strict m raw q So Ro F W. destruct (cut_content_reads strict q _ W) as (P1 & P2 & v & E & Ev & Pb & _).
  destruct (frame_envelope ev ext m raw So F) as (x & _ & _ & Ex & _).
  exists (x ++ P1), P2, v. split; [rewrite Ex, E, <- app_assoc; reflexivity|]. split; [exact Ev|]. split; [exact Pb|].
  intros c1 c2 c3 m2 chunk1 chunk2 rest Ec F2 -> L1 E2 L2 uuid1 uuid2 h Lu An.
  split; [rewrite Ex, E, Ec, E2, <- !app_assoc; reflexivity|].
  assert (exists s, chunk2 = c2 ++ s) as (s & ->).
  { exists (skipn (List.length c2) chunk2). rewrite <- (firstn_skipn (List.length c2) chunk2) at 1. f_equal.
    apply (f_equal (firstn (List.length c2))) in E2. rewrite firstn_app in E2. unfold zlen in L2.
    replace (List.length c2 - List.length chunk2)%nat with 0%nat in E2 by lia. rewrite app_nil_r in E2. rewrite E2, firstn_app, Nat.sub_diag, firstn_all. apply app_nil_r. }
  destruct (C43_answered_partial U ev ext m2 c2 uuid2 _ So Ro Lu F2 ltac:(change (2 ^ 29) with 536870912; lia) An) as (out & p & A & O).
  destruct (O s) as (h' & O'). eauto.
Qed.
Print Assumptions C117_smuggled_refuted.
(** a request for /hello/you with a handshake in its content *)
Definition ex_smuggled : bytes := repeat x41 (Z.to_nat 10092) ++ ex_raw ex_tcp.
Lemma answers_id m p m' p' out : answers m p out -> answers m' p' out -> m_id m = m_id m'.
Proof.
  intros [_ A] [_ B]. destruct (A (fun l => l) [] ex_env_ok) as (h & t & R & _ & _ & E & _).
  destruct (B (fun l => l) [] ex_env_ok) as (h' & t' & R' & _ & _ & E' & _). rewrite R in R'. apply Ok_inj, pair_equal_spec in R' as [<- _].
  cbn [response_to m_id] in *. congruence.
Qed.
Example C117_case : let raw := ex_raw (ex_content_msg ex_smuggled) in let chunk1 := takeZ 10240 raw in let chunk2 := dropZ 10240 raw in
  let h := snd (on_input ex_env ex_ext [] chunk1 (initial_host 0)) in
  frame_of (ex_content_msg ex_smuggled) raw /\ w_rest_request true (ex_content ex_smuggled) (m_payload (ex_content_msg ex_smuggled)) /\
  frame_of ex_tcp (ex_raw ex_tcp) /\ zlen chunk1 = 10240 /\ (exists s, chunk2 = ex_raw ex_tcp ++ s) /\ answerable ex_env ex_ext h ex_tcp /\ hs_user h = 1.
Proof.
  intros raw chunk1 chunk2 h. destruct (ex_content_frame ex_smuggled) as [F W]; [vm_compute; discriminate..|].
  split; [exact F|]. split; [exact W|]. split; [apply C67_case|]. split; [vm_compute; reflexivity|].
  split; [exists (dropZ (zlen (ex_raw ex_tcp)) chunk2); rewrite <- (takeZ_dropZ _ (zlen (ex_raw ex_tcp)) chunk2) at 1; f_equal; vm_compute; reflexivity|].
  split; [|vm_compute; reflexivity]. right; left. split; [reflexivity|]. exists true. eexists. apply C67_case.
Qed.
Theorem C117_refuted : ~ C117_statement.
Proof.
  intros S. pose proof C117_case as X. cbv zeta in X. set (raw := ex_raw (ex_content_msg ex_smuggled)) in X. destruct X as (F & W & F2 & L1 & (s & E2) & An & _).
  destruct (C43_answered_partial Z ex_env ex_ext ex_tcp (ex_raw ex_tcp) (repeat x00 16) _ ex_env_ok (fun l => Permutation_refl l) eq_refl F2 ltac:(vm_compute; discriminate) An) as (out & p & A & O).
  destruct (O s) as (h' & O'). rewrite <- E2 in O'.
  destruct (S Z ex_env ex_ext 0 true (ex_content_msg ex_smuggled) raw (ex_content ex_smuggled) [([], takeZ 10240 raw); (repeat x00 16, dropZ 10240 raw)] ex_env_ok F eq_refl W)
    with (l1 := [([] : bytes, takeZ 10240 raw)]) (uuid := repeat x00 16) (chunk := dropZ 10240 raw) (l2 := @nil (bytes * bytes)) (out := out) as (p' & A').
  - cbn [map snd List.concat]. rewrite app_nil_r. apply takeZ_dropZ.
  - constructor; [cbn [snd]; rewrite L1; lia|]. constructor; [|constructor]. vm_compute. split; [reflexivity|discriminate].
  - reflexivity.
  - unfold feed. cbn [fold_left fst snd]. rewrite O'. reflexivity.
  - pose proof (answers_id _ _ _ _ _ A A') as E. vm_compute in E. discriminate E.
Qed.
Print Assumptions C117_refuted.
(** C117, what holds: when every frame comes in a chunk of its own, whatever its content is and
    whatever follows it there, a reply to it is one to that very message. *)
Theorem C117_whole_partial : forall U ev (ext : extension U) u l m raw s uuid out, set_order_ok (e_so ev) -> frame_of m raw -> ~ is_init m ->
  fst (on_input ev ext uuid (raw ++ s) (feed ev ext (initial_host u) l)) = Ok (Some out) -> exists p, answers m p out.
Proof.
  intros U ev ext u l m raw s uuid out So F Ni H. destruct (on_input ev ext uuid (raw ++ s) (feed ev ext (initial_host u) l)) as [r h'] eqn:E. cbn [fst] in H. subst r.
  destruct (read_as_frame _ m raw So F) as (c & Sc & Ra).
  destruct (C40_replies_echo U ev ext uuid _ _ _ out h' So (Ra s) (frame_id _ _ F) Ni E) as (p & A). exists p.
  unfold answers, response_to in *. cbn [m_ctx m_features m_id m_hs m_cp] in A. eapply carries_same; eassumption.
Qed.
Print Assumptions C117_whole_partial.
