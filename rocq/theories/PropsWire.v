(** * Properties C69-C73: the SDK speaks the wire format of Wire.v *)
From Coq Require Import String ZArith List Bool Lia ZifyBool Permutation.
From Coq Require Import Strings.Byte.
From Verif Require Import Py Stream Version Frame Proto Messages Rest Routes Settings Host PyFacts Utf8Facts StreamFacts
  Spec SpecFacts MsgFacts SettingsFacts FrameFacts PropsMessages Wire WireFacts WireFacts2 WireFacts3 WireFacts4 WireFacts5 PbFacts
  HostSpec HostFacts PropsHost.
Import ListNotations.
Open Scope list_scope.
Open Scope Z_scope.
Ltac Zify.zify_post_hook ::= Z.to_euclidean_division_equations.

(** C69: primitives.  [follows w r F P]: Wire.v. *)
Theorem C69_integers :
  follows write_byte read_byte (fun _ => w_signed 1) (fun i => - 2 ^ 7 <= i < 2 ^ 7) /\
  follows write_int read_int (fun _ => w_signed 4) (fun i => - 2 ^ 31 <= i < 2 ^ 31) /\
  follows write_long read_long (fun _ => w_signed 8) (fun i => - 2 ^ 63 <= i < 2 ^ 63) /\
  (reads read_short (w_signed 2) (fun _ => True) /\ reads_only read_short (w_signed 2)) /\
  follows write_v_int read_v_int w_vint (fun i => 0 <= i < 2 ^ 35) /\
  follows write_v_long read_v_long w_vlong (fun i => 0 <= i < 2 ^ 64) /\
  follows write_z_long read_z_long w_zlong (fun i => Z.abs i < 2 ^ 63) /\
  (forall n, n <= 2 ^ 35 -> follows write_enum (read_enum n) (fun strict => w_enum strict n) (fun i => 0 <= i < n)).
Proof.
  split; [exact (conj byte_writes (conj (fun _ => byte_reads) byte_only))|].
  split; [exact (conj int_writes (conj (fun _ => int_reads) int_only))|].
  split; [exact (conj long_writes (conj (fun _ => long_reads) long_only))|].
  split; [exact (conj short_reads short_only)|].
  split; [exact (conj (v_int_writes true) (conj v_int_reads v_int_only))|].
  split; [exact (conj (v_long_writes true) (conj v_long_reads v_long_only))|].
  split; [exact (conj (z_long_writes true) (conj z_long_reads z_long_only))|].
  intros n Hn. exact (conj (enum_writes true n Hn) (conj (fun strict => enum_reads strict n) (enum_only n))).
Qed.
Print Assumptions C69_integers.
Theorem C69_values : forall so, set_order_ok so ->
  follows write_boolean read_boolean (fun _ => w_bool) (fun _ => True) /\
  follows write_byte_array read_byte_array w_bytes (fun b => zlen b <= 2 ^ 31) /\
  follows write_string read_string w_string text_ok /\
  follows write_string_array read_string_array w_strings texts_ok /\
  follows_upto (@Permutation pystr) write_string_set (read_string_set so) w_set set_ok /\
  follows write_string_to_string_dict read_string_to_string_dict
    (fun strict => w_dict strict (w_string strict)) (dict_ok text_ok) /\
  follows write_string_to_string_array_dict read_string_to_string_array_dict
    (fun strict => w_dict strict (w_strings strict)) (dict_ok texts_ok) /\
  follows_upto same_set_dict write_string_to_string_set_dict (read_string_to_string_set_dict so)
    (fun strict => w_dict strict (w_set strict)) (dict_ok set_ok).
Proof.
  intros so Hso.
  split; [exact (conj bool_writes (conj (fun _ => bool_reads) bool_only))|].
  split; [exact (conj (bytes_writes true) (conj bytes_reads bytes_only'))|].
  split; [exact (conj (string_writes true) (conj string_reads string_only))|].
  split; [exact (conj (strings_writes true) (conj strings_reads strings_only))|].
  split; [exact (conj (set_writes true) (conj (fun strict => set_reads strict so Hso) (set_only so Hso)))|].
  split; [exact (conj (string_dict_writes true) (conj string_dict_reads (dict_only _ _ _ string_only)))|].
  split; [exact (conj (strings_dict_writes true) (conj strings_dict_reads (dict_only _ _ _ strings_only)))|].
  exact (conj (set_dict_writes true) (conj (fun strict => set_dict_reads strict so Hso) (dict_only _ _ _ (set_only so Hso)))).
Qed.
Print Assumptions C69_values.
(** a reader of an optional value *)
Definition reads_optional {A} (r : reader (option A)) (F : bool -> fmt A) : Prop :=
  (forall strict, reads r (w_optional (F strict)) (fun _ => True)) /\ reads_only r (w_optional (F false)).
Theorem C69_optional :
  reads_optional read_optional_int (fun _ => w_signed 4) /\
  reads_optional read_optional_long (fun _ => w_signed 8) /\
  reads_optional read_optional_v_long w_vlong /\
  reads_optional read_optional_string w_string /\
  reads_optional read_optional_string_array w_strings /\
  (forall o s, read_optional_boolean ((match o with Some false => x00 | Some true => x01 | None => x02 end) :: s) = Ok (o, s)) /\
  (forall b s, 2 < b2z b -> exists e, read_optional_boolean (b :: s) = Raise e).
Proof.
  assert (T : forall A (r : reader A) F, (forall strict, reads r (F strict) (fun _ => True)) -> reads_only r (F false) ->
    reads_optional (p <~ read_boolean ;; if p then (a <~ r ;; rret (Some a)) else rret None) F).
  { intros A r F R O. split; [|apply optional_only, O]. intros strict.
    eapply reads_weaken; [|apply (optional_reads _ _ _ _ (R strict))]. intros a _ b _; exact I. }
  split; [exact (T _ _ (fun _ => w_signed 4) (fun _ => int_reads) int_only)|].
  split; [exact (T _ _ (fun _ => w_signed 8) (fun _ => long_reads) long_only)|].
  split; [exact (T _ _ w_vlong v_long_reads v_long_only)|].
  split; [exact (T _ _ w_string string_reads string_only)|].
  split; [exact (T _ _ w_strings strings_reads strings_only)|].
  split.
  - intros [[|]|] s; rewrite optional_boolean_values; reflexivity.
  - intros b s Hb. rewrite optional_boolean_values. exists EGeneric.
    destruct (Byte.eqb b x00) eqn:E0; [apply byte_dec_bl in E0; subst b; vm_compute in Hb; discriminate|].
    destruct (Byte.eqb b x01) eqn:E1; [apply byte_dec_bl in E1; subst b; vm_compute in Hb; discriminate|].
    destruct (Byte.eqb b x02) eqn:E2; [apply byte_dec_bl in E2; subst b; vm_compute in Hb; discriminate|reflexivity].
Qed.
Print Assumptions C69_optional.
(** generic values: encodings of values nested less deeply than the recursion limit *)
Theorem C69_generic :
  writes write_generic_value (w_generic true) generic_ok /\
  (forall strict n limit, (n < limit)%nat -> reads (read_generic_value limit) (w_generic strict) (fun v => nested v n)) /\
  (forall limit, reads_only (read_generic_value limit) (w_generic false)).
Proof. exact (conj (generic_writes true) (conj (fun strict n limit => generic_reads strict limit n) generic_only)). Qed.
Print Assumptions C69_generic.
(** the bytes are determined by the value (sets: by the order of iteration) *)
Theorem C69_one_encoding :
  (forall n i, single (w_signed n i)) /\ (forall i, single (w_vint true i)) /\ (forall i, single (w_vlong true i)) /\
  (forall b, single (w_bytes true b)) /\ (forall x, single (w_string true x)) /\ (forall l, single (w_strings true l)) /\
  (forall d, single (w_dict true (w_string true) d)) /\ (forall d, single (w_dict true (w_strings true) d)).
Proof.
  split; [exact signed_single|]. split; [exact vint_single|]. split; [exact vlong_single|]. split; [exact bytes_single|].
  split; [exact string_single|]. split; [exact strings_single|].
  split; intros d; apply dict_single; [exact string_single|exact strings_single].
Qed.
Print Assumptions C69_one_encoding.
Example C69_case :
  w_vint true 300 [xac; x02] /\ w_vint false 300 [xac; x82; x00] /\ ~ w_vint true 300 [xac; x82; x00] /\
  w_signed 4 (-5) [xff; xff; xff; xfb] /\
  w_dict false (w_string false) [(py "k", py "b")] ([x02] ++ [x01; x6b; x01; x61] ++ [x01; x6b; x01; x62]).
Proof.
  assert (L : leb128 [xac; x02] 300) by (apply (leb_more xac [x02] 2); [vm_compute; discriminate|apply (leb_last x02); reflexivity]).
  assert (L' : leb128 [xac; x82; x00] 300).
  { apply (leb_more xac [x82; x00] 2); [vm_compute; discriminate|]. apply (leb_more x82 [x00] 0); [vm_compute; discriminate|].
    apply (leb_last x00). reflexivity. }
  split; [split; [exact L|split; [vm_compute; discriminate|]]; intros H; vm_compute in H; discriminate|].
  split; [split; [exact L'|split; [vm_compute; discriminate|exact I]]|].
  split; [intros (_ & _ & H); specialize (H eq_refl); vm_compute in H; discriminate|].
  split; [split; [reflexivity|split; [vm_compute; split; [discriminate|reflexivity]|reflexivity]]|].
  exists ([(py "k", py "a")] ++ [(py "k", py "b")]). split.
  - apply (df_old _ [] (py "k") (py "b") (py "a") []). apply (df_new [] [] (py "k") (py "a")); [constructor|intros []].
  - split; [exact I|]. apply parts_cons; [split; [apply (leb_last x02); reflexivity|split; [vm_compute; discriminate|exact I]]|].
    assert (S : forall c b, utf8_encode [c] = Ok [b] -> w_string false [c] [x01; b]).
    { intros c b H. exists [b]. split; [apply is_utf8_encode, H|]. split; [vm_compute; discriminate|].
      apply (parts_cons (w_vint false 1) _ [x01]); [split; [apply (leb_last x01); reflexivity|split; [vm_compute; discriminate|exact I]]|].
      apply (parts_cons (exactly [b]) [] [b] []); [reflexivity|constructor]. }
    assert (K : forall a c b, utf8_encode [c] = Ok [b] -> a = [x01; x6b] ++ [x01; b] ++ [] ->
      parts [w_string false (py "k"); w_string false [c]] a).
    { intros a c b H ->. apply parts_cons; [apply S; reflexivity|]. apply parts_cons; [apply S, H|constructor]. }
    apply (parts_cons _ _ [x01; x6b; x01; x61]); [apply (K _ 97 x61); reflexivity|].
    apply (parts_cons _ _ [x01; x6b; x01; x62] []); [apply (K _ 98 x62); reflexivity|constructor].
Qed.

(** C70: frames.  What a reader makes of [raw]: the message [m], request or response, marked as
    an error or not, up to the order of the sets in the context *)
Definition reads_back (resp err : bool) (m : message) (raw : bytes) : Prop := forall so s, set_order_ok so ->
  exists h t, read_header (raw ++ s) = Ok (h, t) /\
    is_response h = resp /\ is_error h = err /\ h_id h = m_id m /\ h_version h = HVer (m_version m) /\
    is_handshake h = m_hs m /\ is_compress h = m_cp m /\ h_size h = zlen raw - 6 /\
    forall o0, exists o', read_outbound so (negb resp) o0 h t = Ok (o', m_payload m ++ s) /\
      o_hdr o' = h /\ same_ctx (m_ctx m) (o_ctx o') /\
      (resp = false -> o_features o' = m_features m /\ o_action o' = m_action m).
(** full statements: false for contexts with long non-ASCII strings (C22) *)
Definition C70_writing_statement : Prop :=
  (forall c f p v a rid hs cp n o n' out, ctx_ok c -> texts_ok f -> text_ok a ->
     new_request (Some c) f (Some (Ok p)) (HVer v) a rid hs cp n = (Ok o, n') -> write_outbound o = Ok out ->
     w_frame false (mkMsg c f v a (h_id (o_hdr o)) hs cp p) out) /\
  (forall c f p v rid hs cp n o n' out, ctx_ok c ->
     new_response (Some c) f (Some (Ok p)) (HVer v) rid hs cp n = (Ok o, n') -> write_outbound o = Ok out ->
     w_frame true (mkMsg c f v [] (h_id (o_hdr o)) hs cp p) out).
Definition C70_reading_statement : Prop := forall resp err m raw, w_message resp err m raw -> reads_back resp err m raw.
Definition res_or {A} (d : A) (x : res A) : A := match x with Ok a => a | Raise _ => d end.
Lemma res_or_ok A (d : A) x : (exists a, x = Ok a) -> x = Ok (res_or d x).
Proof. intros [a ->]. reflexivity. Qed.
(** a request in the wire format with a context of one header of 64 two-byte characters *)
Definition bad_ctx_bytes : bytes := res_or [] (write_ctx bad_ctx).
Definition bad_msg (action : pystr) (p : bytes) : message :=
  mkMsg bad_ctx [] (version_of_id 2110399) action 1 false false p.
Definition bad_raw (action : pystr) (p : bytes) : bytes :=
  let vb := res_or [] (request_variable_bytes [] action) in
  res_or [] (write_header (mkHeader ES (17 + zlen bad_ctx_bytes + zlen vb + zlen p) 1 0 (HVer (version_of_id 2110399))
                             (zlen bad_ctx_bytes + zlen vb))) ++ bad_ctx_bytes ++ vb ++ p.
Lemma bad_ctx_ok : ctx_ok bad_ctx.
Proof.
  split; cbn [c_req c_res bad_ctx]; (split; [reflexivity|]).
  - split; [constructor; [intros []|constructor]|]. constructor; [|constructor]. cbn [fst snd].
    split; [text|]. exists (res_or [] (utf8_encode (repeat 233 64))). split; [apply is_utf8_encode; reflexivity|vm_compute; discriminate].
  - split; [constructor|constructor].
Qed.
Lemma bad_frame action p hb vb : text_ok action -> request_variable_bytes [] action = Ok vb ->
  write_header (mkHeader ES (17 + zlen bad_ctx_bytes + zlen vb + zlen p) 1 0 (HVer (version_of_id 2110399))
                  (zlen bad_ctx_bytes + zlen vb)) = Ok hb -> zlen hb = 23 ->
  w_frame false (bad_msg action p) (bad_raw action p).
Proof.
  intros Ha Hv Hh L. unfold bad_raw. rewrite Hv. cbn [res_or]. rewrite Hh. cbn [res_or].
  exists bad_ctx_bytes, vb. split; [apply ctx_format; [exact bad_ctx_ok|reflexivity]|].
  split; [apply variable_format; [split; [vm_compute; discriminate|constructor]|exact Ha|exact Hv]|].
  unfold w_frame_with. cbn [m_id m_cp m_hs m_version m_payload bad_msg]. constructor.
  - apply header_written. rewrite !zlen_app, L. replace (23 + (zlen bad_ctx_bytes + (zlen vb + zlen p)) - 6)
      with (17 + zlen bad_ctx_bytes + zlen vb + zlen p) by lia. exact Hh.
  - constructor; [reflexivity|]. constructor; [reflexivity|]. apply parts_one. reflexivity.
Qed.
Theorem C70_writing_refuted : ~ C70_writing_statement.
Proof.
  intros [_ H].
  destruct (new_response (Some bad_ctx) [] (Some (Ok [])) (HVer (version_of_id 0)) (Some 1) false false 0) as [[o|e] n'] eqn:E;
    [|vm_compute in E; discriminate].
  destruct (write_outbound o) as [bs|e] eqn:W.
  - specialize (H _ _ _ _ _ _ _ _ _ _ _ bad_ctx_ok E W). apply frame_size_right with (o := o) in H; [|eapply constructed_inv, con_response; exact E|exact W].
    destruct (new_response_fields _ _ (Some []) _ _ _ _ _ _ _ E) as (_ & _ & _ & _ & _ & _ & _ & Ec & _). rewrite Ec in H.
    unfold bad_ctx, ctx_strings in H. cbn [c_req c_res flat_map fst snd app] in H. apply Forall_cons_iff in H as [_ H]. apply Forall_cons_iff in H as [H _].
    apply length_prefix_size with (e := res_or [] (utf8_encode (repeat 233 64))) in H; [vm_compute in H; discriminate|].
    assert (X : is_utf8 (repeat 233 64) (res_or [] (utf8_encode (repeat 233 64)))) by (apply is_utf8_encode; reflexivity).
    exact X.
  - vm_compute in E. injection E as <- <-. vm_compute in W. discriminate.
Qed.
Print Assumptions C70_writing_refuted.
Theorem C70_reading_refuted : ~ C70_reading_statement.
Proof.
  intros H. assert (F : w_frame false (bad_msg (py "a") [x07]) (bad_raw (py "a") [x07])).
  { eapply bad_frame; [text|vm_compute; reflexivity|vm_compute; reflexivity|reflexivity]. }
  specialize (H _ _ _ _ F (fun l => l) [] (fun l => Permutation_refl l)). destruct H as (h & t & R & _ & _ & _ & _ & _ & _ & _ & H).
  rewrite app_nil_r in R. vm_compute in R. apply Ok_inj, pair_equal_spec in R as [<- <-].
  destruct (H (mkOut (mkHeader [] 0 0 0 HNone 0) empty_ctx None None [] [])) as (o' & R & _). vm_compute in R. discriminate.
Qed.
Print Assumptions C70_reading_refuted.
(** what holds: a written message is in the format exactly if [length_prefix_ok] (Spec.v) holds
    of every string in its context; *)
Theorem C70_writing_partial :
  (forall c f p v a rid hs cp n o n' out, ctx_ok c -> texts_ok f -> text_ok a ->
     new_request (Some c) f (Some (Ok p)) (HVer v) a rid hs cp n = (Ok o, n') -> write_outbound o = Ok out ->
     (w_frame false (mkMsg c f v a (h_id (o_hdr o)) hs cp p) out <-> Forall length_prefix_ok (ctx_strings c))) /\
  (forall c f p v rid hs cp n o n' out, ctx_ok c ->
     new_response (Some c) f (Some (Ok p)) (HVer v) rid hs cp n = (Ok o, n') -> write_outbound o = Ok out ->
     (w_frame true (mkMsg c f v [] (h_id (o_hdr o)) hs cp p) out <-> Forall length_prefix_ok (ctx_strings c))).
Proof.
  split.
  - intros c f p v a rid hs cp n o n' out Hc Hf Ha N W. split; [|apply (request_frame c f p v a rid hs cp n o n'); assumption].
    intros F. apply frame_size_right with (o := o) in F; [|eapply constructed_inv, con_request; exact N|exact W].
    destruct (new_request_fields _ _ (Some p) _ _ _ _ _ _ _ _ N) as (_ & _ & _ & _ & _ & _ & _ & Ec & _). rewrite Ec in F. exact F.
  - intros c f p v rid hs cp n o n' out Hc N W. split; [|apply (response_frame' c f p v rid hs cp n o n'); assumption].
    intros F. apply frame_size_right with (o := o) in F; [|eapply constructed_inv, con_response; exact N|exact W].
    destruct (new_response_fields _ _ (Some p) _ _ _ _ _ _ _ N) as (_ & _ & _ & _ & _ & _ & _ & Ec & _). rewrite Ec in F. exact F.
Qed.
Print Assumptions C70_writing_partial.
(** and every message in the format, with such strings, is read; headers are read only from
    the header format *)
Theorem C70_reading_partial :
  (forall resp err m raw, w_message resp err m raw -> Forall length_prefix_ok (ctx_strings (m_ctx m)) ->
     reads_back resp err m raw) /\
  reads_only read_header (fun h bs => exists v, h_version h = HVer v /\ zlen (h_prefix h) = 2 /\
    w_header (h_prefix h) (h_size h) (h_id h) (h_status h) v (h_vhs h) bs) /\
  (forall so, set_order_ok so -> follows_upto same_ctx write_ctx (read_ctx so) w_ctx ctx_ok).
Proof.
  split; [intros resp err m raw H F so s Hso; exact (frame_reads resp err m raw so s H F Hso)|]. split; [exact header_only|].
  intros so Hso. exact (conj (ctx_writes true) (conj (fun strict => ctx_reads strict so Hso) (ctx_only so Hso))).
Qed.
Print Assumptions C70_reading_partial.
Lemma ex_wire action id hs p : text_ok action -> id <> 0 -> ex_raw (ex_msg action id hs p) <> [] ->
  w_frame false (ex_msg action id hs p) (ex_raw (ex_msg action id hs p)).
Proof.
  intros Ta Hi Hr. destruct (ex_frame action id hs p Ta Hi Hr) as [(_ & _ & H)|(Oc & Tf & _ & _ & n & o & n' & N & W)]; [exact H|].
  pose proof (request_frame _ _ _ _ _ _ _ _ _ _ _ _ Oc Tf Ta N W) as F.
  destruct (new_request_fields _ _ (Some p) _ _ _ _ _ _ _ _ N) as (_ & E & _).
  assert (D : draws (Some (m_id (ex_msg action id hs p))) = false) by (cbn; destruct (Z.eqb_spec id 0); congruence). specialize (E D).
  apply (f_equal (fun x => match x with Some i => i | None => 0 end)) in E. rewrite E in F. apply F.
  cbn [m_ctx ex_msg ex_ctx ctx_strings c_req c_res flat_map app fst snd]. repeat (constructor; [apply length_prefix_ascii; vm_compute; repeat constructor; discriminate|]). constructor.
Qed.
Example C70_case : let m := ex_msg (py "internal:tcp/handshake") 7 true (map z2b (py "xyz")) in
  w_frame false m (ex_raw m) /\ Forall length_prefix_ok (ctx_strings (m_ctx m)) /\ zlen (ex_raw m) = 83.
Proof.
  split; [apply ex_wire; [text|discriminate|vm_compute; discriminate]|]. split; [|reflexivity].
  cbn [m_ctx ex_msg ex_ctx ctx_strings c_req c_res flat_map app fst snd].
  repeat (constructor; [apply length_prefix_ascii; vm_compute; repeat constructor; discriminate|]). constructor.
Qed.

(** C71: the messages *)
Theorem C71_transport_messages :
  follows write_version read_version w_version version_ok /\
  follows write_transport_request read_transport_request w_task task_ok /\
  follows write_role read_role w_role role_ok /\
  follows write_dep read_dep w_dependency dep_ok /\
  follows write_init_response read_init_response w_init_response init_response_ok /\
  follows write_tcp_handshake_request read_tcp_handshake_request w_tcp_handshake_request
    (fun r => tcp_handshake_request_ok r /\ exists v, tr_version r = Some v /\ vid v < 2 ^ 28) /\
  follows write_tcp_handshake_response read_tcp_handshake_response
    (fun strict o bs => exists v, o = Some v /\ w_version strict v bs) (fun o => exists v, o = Some v /\ version_ok v) /\
  follows write_ack read_ack (fun _ => w_bool) (fun _ => True).
Proof.
  split; [exact (conj (version_writes true) (conj version_reads version_only))|].
  split; [exact (conj (task_writes true) (conj task_reads task_only))|].
  split; [exact (conj (role_writes true) (conj role_reads role_only))|].
  split; [exact (conj (dep_writes true) (conj dep_reads dep_only))|].
  split; [exact (conj (init_response_writes true) (conj init_response_reads init_response_only))|].
  split; [exact (conj (tcp_request_writes true) (conj tcp_request_reads tcp_request_only))|].
  split; [|exact (conj bool_writes (conj (fun _ => bool_reads) bool_only))].
  split; [|exact (conj tcp_response_reads tcp_response_only)].
  intros o (v & -> & Hv). destruct (tcp_response_writes true v Hv) as (bs & W & F). exists bs. split; [exact W|]. exists v. split; [reflexivity|exact F].
Qed.
Print Assumptions C71_transport_messages.
Theorem C71_rest_messages : forall so, set_order_ok so ->
  follows_upto received_request write_rest_request read_rest_request w_rest_request rest_request_ok /\
  follows_upto same_response write_rest_response (read_rest_response so) w_rest_response rest_response_ok /\
  follows write_exec_response read_exec_response w_exec_response exec_response_ok.
Proof.
  intros so Hso.
  split; [exact (conj (rest_request_writes true) (conj rest_request_reads rest_request_only))|].
  split; [exact (conj (rest_response_writes true) (conj (fun strict => rest_response_reads strict so Hso) (rest_response_only so Hso)))|].
  exact (conj (exec_response_writes true) (conj exec_response_reads exec_response_only)).
Qed.
Print Assumptions C71_rest_messages.
(** settings: [read_settings f [] s] is what a fresh Settings reads; values nested at most [n] deep *)
Theorem C71_settings :
  follows write_bsv read_bsv w_byte_size bsv_ok /\
  follows write_time_value read_time_value w_time tv_ok /\
  follows write_integer_parser read_integer_parser (fun strict => w_int_parser strict 4) (int_parser_ok 31) /\
  follows write_long_parser read_long_parser (fun strict => w_int_parser strict 8) (int_parser_ok 63) /\
  follows write_bs_parser read_bs_parser w_bs_parser bs_parser_ok /\
  follows_upto same_tv_parser write_tv_parser read_tv_parser w_tv_parser tv_parser_ok /\
  follows write_validator read_validator w_validator (fun v => text_ok (rv_regex v)) /\
  writes write_settings (w_settings true) (dict_ok generic_ok) /\
  (forall strict n limit d bs s, (n < limit)%nat ->
     w_dict strict (fun v bs => w_generic strict v bs /\ nested v n) d bs -> read_settings limit [] (bs ++ s) = (Ok s, d)) /\
  (forall limit s d s', read_settings limit [] s = (Ok s', d) -> s' <> [] -> exists bs, s = bs ++ s' /\ w_settings false d bs).
Proof.
  split; [exact (conj (bsv_writes true) (conj bsv_reads bsv_only))|].
  split; [exact (conj (time_writes true) (conj time_reads time_only))|].
  split; [exact (conj (integer_parser_writes true) (conj integer_parser_reads integer_parser_only))|].
  split; [exact (conj (long_parser_writes true) (conj long_parser_reads long_parser_only))|].
  split; [exact (conj (bs_parser_writes true) (conj bs_parser_reads bs_parser_only))|].
  split; [exact (conj (tv_parser_writes true) (conj tv_parser_reads tv_parser_only))|].
  split; [exact (conj (validator_writes true) (conj validator_reads validator_only))|].
  split; [exact (settings_writes true)|].
  split.
  - intros strict n limit d bs s Hn Hd. pose proof (settings_reads strict n limit Hn d bs s I Hd) as R. unfold settings_reader in R.
    destruct (read_settings limit [] (bs ++ s)) as [[t|e] d']; [|discriminate]. apply Ok_inj, pair_equal_spec in R as [<- <-]. reflexivity.
  - intros limit s d s' H Hne. apply (settings_only limit s d s'); [|exact Hne]. unfold settings_reader. rewrite H. reflexivity.
Qed.
Print Assumptions C71_settings.
(** the two requests the extension sends; [rt] a non-negative request type (all are) *)
Theorem C71_protobuf_requests :
  (forall rt uid r bs, 0 <= rt < 2 ^ 31 -> new_ext_transport_request rt uid = Ok r ->
     write_ext_transport_request r = Ok bs -> zlen bs < 2 ^ 35 -> w_ext_transport_request (mkTask [] None) uid rt bs) /\
  (forall uid acts dep r bs, new_register_request uid acts dep = Ok r ->
     write_register_request r = Ok bs -> zlen bs < 2 ^ 35 -> w_register_request (mkTask [] None) uid acts dep bs).
Proof.
  assert (T : task_ok (mkTask [] None)) by (left; split; reflexivity). split.
  - intros rt uid r bs Hr N W L. unfold new_ext_transport_request in N. apply bind_ok in N as (e & _ & N). apply Ok_inj in N. subst r.
    apply etr_writes; assumption.
  - intros uid acts dep r bs N W L. unfold new_register_request in N. apply bind_ok in N as (e & _ & N). apply bind_ok in N as (e1 & _ & N).
    apply bind_ok in N as (e2 & _ & N). apply Ok_inj in N. subst r. apply rrr_writes; assumption.
Qed.
Print Assumptions C71_protobuf_requests.
Example C71_case : let v := mkBSV (-3) 2 in
  bsv_ok v /\ write_bsv v = Ok [x07; x02] /\ w_byte_size true v [x07; x02] /\
  (r <- new_register_request (py "hello") [py "GET /hello h"] [] ;; write_register_request r)
  = Ok ([x00; x17; x0a; x07; x0a; x05; x68; x65; x6c; x6c; x6f; x12; x0c] ++ map z2b (py "GET /hello h")).
Proof.
  cbv zeta. assert (B : bsv_ok (mkBSV (-3) 2)) by (split; [reflexivity|vm_compute; split; [discriminate|reflexivity]]).
  split; [exact B|]. split; [reflexivity|]. split; [|vm_compute; reflexivity].
  apply (by_writer _ _ _ _ _ _ (bsv_writes true)); [exact B|reflexivity].
Qed.

(** C77: the two embedded protocol-buffer messages, as any program may encode them *)
Theorem C77_protobuf_readers :
  (forall b r, parse_ext_request b = Ok r <-> any_ext_request r b) /\
  (forall b r, parse_rest_actions b = Ok r <-> any_rest_actions r b) /\
  (forall strict, reads read_ext_transport_request (w_any_ext_request strict) (fun _ => True)) /\
  reads_only read_ext_transport_request (w_any_ext_request false) /\
  (forall strict, reads read_register_request (w_any_register_request strict) (fun _ => True)) /\
  reads_only read_register_request (w_any_register_request false).
Proof.
  exact (conj parse_ext_iff (conj parse_actions_iff (conj any_ext_reads (conj any_ext_only
    (conj any_register_reads any_register_only))))).
Qed.
Print Assumptions C77_protobuf_readers.
(** fields out of order, a padded size, two identities, an unknown field, a negative enum *)
Example C77_case :
  let fs := [(2, PVarint (2 ^ 64 - 3)); (9, PFixed [x01; x02; x03; x04]); (1, PBytes [x0a; x01; x61]); (1, PBytes [x0a; x01; x62])] in
  let b := [x10; xfd; xff; xff; xff; xff; xff; xff; xff; xff; x01; x4d; x01; x02; x03; x04;
            x0a; x83; x00; x0a; x01; x61; x0a; x03; x0a; x01; x62] in
  pb_parse b = Ok fs /\ any_ext_request (mkER (Some (py "b")) (-3)) b /\
  parse_ext_request [x00] = Raise EProto /\ parse_ext_request [x0a; x02; x0a] = Raise EProto.
Proof.
  cbv zeta. split; [vm_compute; reflexivity|]. split; [apply parse_ext_iff; vm_compute; reflexivity|].
  split; vm_compute; reflexivity.
Qed.

(** C74: messages with an IPv4 address, full statement: false from 128.0.0.0 on (C28) *)
Definition C74_statement : Prop :=
  follows write_addr read_addr w_addr addr_ok /\
  follows write_node read_node w_node node_ok /\
  follows write_ext_node read_ext_node w_ext_node ext_node_ok /\
  follows write_init_request read_init_request w_init_request init_request_ok /\
  follows write_handshake_response read_handshake_response w_handshake_response handshake_response_ok.
(** neither written ... *)
Theorem C74_high_address_refuted : ~ C74_statement.
Proof.
  intros [[W _] _]. destruct (W (mkAddr (2 ^ 31) [] 0)) as (bs & E & _).
  - split; [vm_compute; split; [discriminate|reflexivity]|]. split; [text|vm_compute; split; [discriminate|reflexivity]].
  - vm_compute in E. discriminate.
Qed.
Print Assumptions C74_high_address_refuted.
(** ... nor read *)
Theorem C74_high_address_unread_refuted : forall strict a bs s, w_addr strict a bs -> 2 ^ 31 <= a_addr a ->
  read_addr (bs ++ s) = Raise EValue.
Proof.
  intros strict a bs s H Ha. unfold w_addr in H. parts_in H. unfold exactly in P. subst a0. rewrite <- !app_assoc. cbn [app]. unfold read_addr.
  assert (R : read_byte (x04 :: a1 ++ a2 ++ a3 ++ [] ++ s) = Ok (4, a1 ++ a2 ++ a3 ++ [] ++ s)) by apply read_byte_cons.
  cbn [app] in R. rewrite (rbind_step _ _ _ _ _ _ _ R). cbn [Z.eqb Pos.eqb negb].
  destruct P0 as [L V]. assert (S : w_signed 4 (from_bytes_signed a1) a1) by (apply signed_format; [lia|exact L]).
  rewrite (rbind_step _ _ _ _ _ _ _ (int_reads _ _ _ I S)). destruct S as (_ & Hr & Hm). rewrite V in Hm.
  change (8 * 4 - 1) with 31 in *. change (8 * 4) with 32 in *. change (2 ^ 32) with (2 * 2 ^ 31) in *.
  set (x := from_bytes_signed a1) in *. clearbody x. set (K := 2 ^ 31) in *. assert (0 < K) by (subst K; reflexivity). clearbody K.
  destruct (Z.ltb_spec x 0); [reflexivity|]. rewrite Z.mod_small in Hm by lia. lia.
Qed.
Print Assumptions C74_high_address_unread_refuted.
(** [follows_below w r F P low]: as [follows], for the values of [low] only *)
Definition follows_below {A} (w : A -> res bytes) (r : reader A) (F : bool -> fmt A) (P low : A -> Prop) : Prop :=
  writes w (F true) (fun a => P a /\ low a) /\ (forall strict, reads r (F strict) low) /\
  reads_only r (fun a bs => F false a bs /\ low a).
Theorem C74_nodes_partial :
  follows_below write_addr read_addr w_addr addr_ok (fun a => a_addr a < 2 ^ 31) /\
  follows_below write_node read_node w_node node_ok (fun n => a_addr (n_addr n) < 2 ^ 31) /\
  follows_below write_ext_node read_ext_node w_ext_node ext_node_ok (fun x => a_addr (n_addr (x_node x)) < 2 ^ 31) /\
  follows_below write_init_request read_init_request w_init_request init_request_ok
    (fun r => a_addr (n_addr (ir_source r)) < 2 ^ 31 /\ a_addr (n_addr (x_node (ir_ext r))) < 2 ^ 31) /\
  follows_below write_handshake_response read_handshake_response w_handshake_response handshake_response_ok
    (fun r => forall n, hr_node r = Some n -> a_addr (n_addr n) < 2 ^ 31).
Proof.
  split; [exact (conj (addr_writes true) (conj addr_reads addr_only))|].
  split; [exact (conj (node_writes true) (conj node_reads node_only))|].
  split; [exact (conj (ext_node_writes true) (conj ext_node_reads ext_node_only))|].
  split; [exact (conj (init_request_writes true) (conj init_request_reads init_request_only))|].
  exact (conj (handshake_response_writes true) (conj handshake_response_reads handshake_response_only)).
Qed.
Print Assumptions C74_nodes_partial.
Example C74_case : node_ok example_node /\ a_addr (n_addr example_node) < 2 ^ 31 /\
  exists bs, write_node example_node = Ok bs /\ w_node true example_node bs.
Proof.
  split; [apply example_node_ok|]. split; [reflexivity|]. apply (node_writes true). split; [apply example_node_ok|reflexivity].
Qed.

(** C72: refusals.  Whatever follows. *)
Definition refuses {A} (e : exn) (r : reader A) (bs : bytes) : Prop := forall s, r (bs ++ s) = Raise e.
Theorem C72_refusals :
  (* booleans other than 0 and 1 *)
  (forall b, 1 < b2z b -> refuses EGeneric read_boolean [b]) /\
  (* numbers that are no member of the enumeration *)
  (forall n k bs, w_vint false k bs -> n <= k -> refuses EValue (read_enum n) bs) /\
  (* sizes over 2^31 *)
  (forall k bs, w_vint false k bs -> 2 ^ 31 < k ->
     refuses EGeneric read_array_size bs /\ refuses EGeneric read_string bs /\ refuses EGeneric read_string_array bs /\ refuses EGeneric read_byte_array bs) /\
  (* vInts of more than five bytes; vLongs of more than ten, or over 64 bits *)
  (forall l, zlen l = 5 -> Forall (fun b => 128 <= b2z b) l -> refuses EGeneric read_v_int l) /\
  (forall l b, zlen l = 9 -> Forall (fun b => 128 <= b2z b) l -> 1 < b2z b -> refuses EGeneric read_v_long (l ++ [b])) /\
  (* bytes that are not UTF-8 *)
  (forall e bs, w_bytes false e bs -> (forall x, ~ is_utf8 x e) -> refuses EUnicode read_string bs) /\
  (* type bytes of generic values that are not supported *)
  (forall limit b, ~ In b [x00; x01; x02; x05; x06; x07; x0b; x10; xff] -> refuses EGeneric (read_generic_value (S limit)) [b]) /\
  (* addresses of other than four bytes *)
  (forall b, b <> x04 -> refuses EGeneric read_addr [b]).
Proof.
  assert (SB : forall b s, read_byte (b :: s) = Ok (sbyte b, s)) by (intros; apply read_byte_cons).
  split; [|split; [|split; [|split; [|split; [|split; [|split]]]]]].
  - intros b Hb s. unfold read_boolean. cbn [app]. rewrite (rbind_step _ _ _ _ _ _ _ (SB b s)). destruct b; try reflexivity; vm_compute in Hb; discriminate.
  - intros n k bs H Hk s. unfold read_enum. rewrite (rbind_step _ _ _ _ _ _ _ (v_int_reads false _ _ _ I H)).
    replace ((0 <=? k) && (k <? n)) with false by lia. reflexivity.
  - intros k bs H Hk. assert (A : forall s, read_array_size (bs ++ s) = Raise EGeneric).
    { intros s. unfold read_array_size. rewrite (rbind_step _ _ _ _ _ _ _ (v_int_reads false _ _ _ I H)).
      destruct (Z.ltb_spec (2 ^ 31) k); [reflexivity|lia]. }
    split; [|split; [|split]]; intros s; [apply A|..];
      unfold read_string, read_string_array, read_byte_array, rbind; rewrite A; reflexivity.
  - intros l L F s. destruct l as [|b1 [|b2 [|b3 [|b4 [|b5 [|b6 l]]]]]]; try (vm_compute in L; discriminate).
    2:{ rewrite !zlen_cons in L. pose proof (zlen_nonneg _ l). lia. }
    repeat (apply Forall_cons_iff in F as [? F]). clear F L. cbn [app]. unfold read_v_int.
    assert (C : forall b, 128 <= b2z b -> Z.land (sbyte b) 128 =? 0 = false).
    { intros b Hb. destruct b; vm_compute in Hb |- *; try reflexivity; contradiction Hb; reflexivity. }
    do 4 (rewrite (rbind_step _ _ _ _ _ _ _ (SB _ _)); cbv zeta; rewrite C by assumption).
    rewrite (rbind_step _ _ _ _ _ _ _ (SB _ _)), C by assumption. reflexivity.
  - intros l b L F Hb s. destruct l as [|b1 [|b2 [|b3 [|b4 [|b5 [|b6 [|b7 [|b8 [|b9 [|b10 l]]]]]]]]]]; try (vm_compute in L; discriminate).
    2:{ rewrite !zlen_cons in L. pose proof (zlen_nonneg _ l). lia. }
    repeat (apply Forall_cons_iff in F as [? F]). clear F L. cbn [app]. unfold read_v_long.
    assert (C : forall b, 128 <= b2z b -> Z.land (sbyte b) 128 =? 0 = false).
    { intros c Hc. destruct c; vm_compute in Hc |- *; try reflexivity; contradiction Hc; reflexivity. }
    do 9 (rewrite (rbind_step _ _ _ _ _ _ _ (SB _ _)); cbv zeta; rewrite C by assumption).
    rewrite (rbind_step _ _ _ _ _ _ _ (SB _ _)). rewrite sbyte_val. pose proof (b2z_range b).
    match goal with |- context [negb (?x =? 0) && negb (?x =? 1)] => replace (negb (x =? 0) && negb (x =? 1)) with true by (destruct (Z.ltb_spec (b2z b) 128); lia) end.
    reflexivity.
  - intros e bs H Hx s. unfold read_string. destruct H as [He H]. parts_in H. rewrite app_nil_r, <- !app_assoc. unfold exactly in P0. subst a0.
    rewrite (rbind_step _ _ _ _ _ _ _ (array_size_reads false (zlen e) a (e ++ s) He P)).
    rewrite (rbind_step _ _ _ _ _ _ _ (read_bytes_app e s)). unfold rlift. destruct (utf8_decode e) as [x|er] eqn:D; [|rewrite (utf8_decode_raise _ _ D); reflexivity].
    exfalso. apply (Hx x). apply is_utf8_encode, utf8_encode_decode, D.
  - intros limit b Hb s. cbn [read_generic_value app].
    rewrite (rbind_step _ _ _ _ _ _ _ (SB b s)).
    destruct b; try reflexivity; exfalso; apply Hb; repeat (first [left; reflexivity|right]).
  - intros b Hb s. cbn [app]. unfold read_addr. rewrite (rbind_step _ _ _ _ _ _ _ (SB b s)).
    destruct (Z.eqb_spec (sbyte b) 4) as [E|E]; [|reflexivity]. exfalso. apply Hb. apply sbyte_inj. rewrite E. reflexivity.
Qed.
Print Assumptions C72_refusals.
Example C72_case : 1 < b2z x02 /\ refuses EGeneric read_boolean [x02] /\ w_vint false 50 [x32] /\ refuses EValue (read_enum 47) [x32].
Proof.
  destruct C72_refusals as (B & E & _).
  assert (V : w_vint false 50 [x32]) by (split; [apply (leb_last x32); reflexivity|split; [vm_compute; discriminate|exact I]]).
  split; [reflexivity|]. split; [apply B; reflexivity|]. split; [exact V|]. apply (E _ 50); [exact V|discriminate].
Qed.

(** C73, full statement: false for contexts with long non-ASCII strings *)
Definition C73_statement : Prop := forall U ev (ext : extension U) strict m raw r,
  set_order_ok (e_so ev) -> w_frame false m raw -> m_id m <> 0 -> zlen raw <= 2 ^ 29 ->
  m_action m = py "internal:tcp/handshake" -> w_tcp_handshake_request strict r (m_payload m) ->
  exists out p, w_frame true (response_to m p) out /\ w_version true (version_of_id 3000099) p /\
    forall uuid s h, exists h', on_input ev ext uuid (raw ++ s) h = (Ok (Some out), h').
Definition bad_tcp_payload : bytes := res_or [] (write_tcp_handshake_request (mkTcpReq (mkTask [] None) (Some (version_of_id 2110399)))).
Theorem C73_handshake_refuted : ~ C73_statement.
Proof.
  intros H. destruct (H Z ex_env ex_ext true (bad_msg (py "internal:tcp/handshake") bad_tcp_payload)
    (bad_raw (py "internal:tcp/handshake") bad_tcp_payload) (mkTcpReq (mkTask [] None) (Some (version_of_id 2110399)))) as (out & p & _ & _ & G).
  - exact ex_env_ok.
  - eapply bad_frame; [text|vm_compute; reflexivity|vm_compute; reflexivity|reflexivity].
  - discriminate.
  - vm_compute. discriminate.
  - reflexivity.
  - apply (by_writer _ _ _ _ _ _ (tcp_request_writes true)); [|reflexivity].
    split; [split; [left; split; reflexivity|]; intros v Hv; cbn in Hv; assert (v = version_of_id 2110399) by congruence; subst v; vm_compute; split; [discriminate|reflexivity]|].
    eexists. split; [reflexivity|vm_compute; reflexivity].
  - destruct (G [] [] (initial_host 0)) as (h' & E). apply (f_equal fst) in E. rewrite app_nil_r in E. vm_compute in E. discriminate.
Qed.
Print Assumptions C73_handshake_refuted.
(** what holds: every frame in the wire format without such strings is accepted as its message
    (the theorems about [frame_of] apply: C40-C44, C67), *)
Theorem C73_wire_frames_partial : forall so m raw, set_order_ok so -> Forall length_prefix_ok (ctx_strings (m_ctx m)) ->
  (w_frame false m raw -> m_id m <> 0 -> frame_of m raw) /\
  (forall err s, w_message false err m raw -> exists c, same_ctx (m_ctx m) c /\ 
     read_as so (raw ++ s) (mkMsg c (m_features m) (m_version m) (m_action m) (m_id m) (m_hs m) (m_cp m) (m_payload m ++ s))) /\
  (forall err s, w_message true err m raw -> response_in so (raw ++ s) err (m_id m) (m_payload m ++ s)).
Proof.
  intros so m raw Hso Hp. split; [intros F Hi; left; exact (conj Hi (conj Hp F))|]. split.
  - intros err s F. destruct (frame_reads false err m raw so s F Hp Hso) as (h' & t' & Rh' & E1' & E2' & E3' & E4' & E5' & E6' & E7' & X').
    destruct (X' (blank_request 0)) as (o' & Ro' & Eh' & Sc' & Eo'). destruct (Eo' eq_refl) as [Ef Ea].
    exists (o_ctx o'). split; [exact Sc'|].
    exists h', t', 0, (blank_request 0), 1, o'. cbn [m_ctx m_features m_version m_action m_id m_hs m_cp m_payload].
    split; [exact Rh'|]. split; [unfold is_request; rewrite E1'; reflexivity|]. split; [reflexivity|]. split; [exact Ro'|].
    repeat (split; [congruence|]). congruence.
  - intros err s F. destruct (frame_reads true err m raw so s F Hp Hso) as (h & t & Rh & E1 & E2 & E3 & _ & _ & _ & _ & X).
    destruct (new_response None [] None HNone None false false 0) as [[o0|e] n'] eqn:N; [|discriminate].
    destruct (X o0) as (o & Ro & _). exists h, t, 0, o0, n', o. split; [exact Rh|]. split; [unfold is_request; rewrite E1; reflexivity|].
    split; [exact E2|]. split; [exact E3|]. split; [exact N|exact Ro].
Qed.
Print Assumptions C73_wire_frames_partial.
(** ... and every immediate reply is a frame in the wire format: a response with the id, flags
    and context of the request *)
Theorem C73_replies_partial : forall U ev (ext : extension U) uuid m raw s h out h',
  set_order_ok (e_so ev) -> Forall length_prefix_ok (ctx_strings (m_ctx m)) -> w_frame false m raw -> m_id m <> 0 -> ~ is_init m ->
  on_input ev ext uuid (raw ++ s) h = (Ok (Some out), h') ->
  exists p, w_frame true (response_to m p) out.
Proof.
  intros U ev ext uuid m raw s h out h' Hso Hp F Hi Hn H.
  destruct (C73_wire_frames_partial (e_so ev) m raw Hso Hp) as (_ & R & _). destruct (R false s F) as (c & Sc & Ra).
  destruct (immediate_reply ev ext uuid _ _ h out h' Hso Ra Hi Hn H) as (p & A & _). exists p.
  assert (G : w_frame true (response_to (mkMsg c (m_features m) (m_version m) (m_action m) (m_id m) (m_hs m) (m_cp m) (m_payload m ++ s)) p) out).
  { apply A. cbn [m_ctx response_to]. eapply same_ctx_strings; eassumption. }
  eapply frame_same; [| | | | | | | |exact G]; try reflexivity. cbn [m_ctx response_to]. apply same_ctx_sym, Sc.
Qed.
Print Assumptions C73_replies_partial.
Example C73_case : let m := ex_tcp in
  w_frame false m (ex_raw m) /\ Forall length_prefix_ok (ctx_strings (m_ctx m)) /\ m_id m <> 0 /\ ~ is_init m /\
  exists out, fst (on_input ex_env ex_ext [] (ex_raw m) (initial_host 0)) = Ok (Some out).
Proof.
  split; [apply ex_wire; [text|discriminate|vm_compute; discriminate]|]. split; [apply (C70_case)|]. split; [discriminate|].
  split; [intros H; vm_compute in H; discriminate|]. eexists. vm_compute. reflexivity.
Qed.
