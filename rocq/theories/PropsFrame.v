(** * Properties C18-C26, C65: message envelopes *)
From Coq Require Import String ZArith List Bool Lia Permutation.
From Coq Require Import Strings.Byte.
From Verif Require Import Py Stream Version Frame Spec SpecFacts FrameFacts.
Import ListNotations.
Open Scope list_scope.
Open Scope Z_scope.

(** C18 ([header_ok], Spec.v: the fields fit their widths) *)
Theorem C18_header : forall h, header_ok h ->
  exists sz id st ver vhs,
    write_header h = Ok (h_prefix h ++ sz ++ id ++ st ++ ver ++ vhs) /\
    length sz = 4%nat /\ length id = 8%nat /\ length st = 1%nat /\ length ver = 4%nat /\ length vhs = 4%nat /\
    be_value sz = h_size h mod 2 ^ 32 /\ be_value id = h_id h mod 2 ^ 64 /\
    be_value st = h_status h mod 2 ^ 8 /\ (forall v, h_version h = HVer v -> be_value ver = vid v) /\
    be_value vhs = h_vhs h mod 2 ^ 32 /\
    forall s, read_header ((h_prefix h ++ sz ++ id ++ st ++ ver ++ vhs) ++ s) = Ok (h, s).
Proof. exact header_wire. Qed.
Print Assumptions C18_header.
Example C18_case : header_ok (mkHeader ES 40 (-7) 9 (HVer (version_of_id 2110399)) 19).
Proof. repeat split; try discriminate. eexists. repeat split; discriminate. Qed.

(** C19: after any sequence of assignments [l] every flag reads what was assigned to it last
    (or what it was at the start), nothing else in the header changes, and the status stays a
    signed byte. *)
Theorem C19_status_flags : forall h l, let h' := fold_left assign l h in
  (forall l0 g v l1, l = l0 ++ (g, v) :: l1 -> ~ In g (map fst l1) -> flag_get g h' = v) /\
  (forall g, ~ In g (map fst l) -> flag_get g h' = flag_get g h) /\
  is_request h' = negb (flag_get Response h') /\
  h_prefix h' = h_prefix h /\ h_size h' = h_size h /\ h_id h' = h_id h /\
  h_version h' = h_version h /\ h_vhs h' = h_vhs h /\
  (- 2 ^ 7 <= h_status h < 2 ^ 7 -> - 2 ^ 7 <= h_status h' < 2 ^ 7).
Proof. exact flags_independent. Qed.
Print Assumptions C19_status_flags.
(** is_request is the same flag, negated *)
Theorem C19_is_request : forall h v,
  set_is_request h v = set_is_response h (negb v) /\ is_request (set_is_request h v) = v.
Proof. exact is_request_flag. Qed.
Print Assumptions C19_is_request.
(** each flag is its own bit of the status byte: 0 response, 1 error, 2 compressed, 3
    handshake; [statuses] names exactly the flags that are set, in this order *)
Theorem C19_statuses : forall h, let bit n := Z.testbit (h_status h) n in
  is_response h = bit 0 /\ is_error h = bit 1 /\ is_compress h = bit 2 /\ is_handshake h = bit 3 /\
  statuses h = map (fun x => py (snd x)) (filter fst
    [(negb (bit 0), "request"); (bit 0, "response"); (bit 1, "error"); (bit 2, "compressed"); (bit 3, "handshake")]%string).
Proof.
  intros h bit.
  assert (B : forall n, 0 <= n -> is_status (h_status h) (2 ^ n) = bit n).
  { intros n Hn. unfold is_status, bit. destruct (Z.testbit (h_status h) n) eqn:T.
    - destruct (Z.eqb_spec (Z.land (h_status h) (2 ^ n)) 0) as [E|]; [|reflexivity].
      apply (f_equal (fun z => Z.testbit z n)) in E. rewrite Z.land_spec, T, Z.pow2_bits_true, Z.bits_0 in E by exact Hn. discriminate E.
    - replace (Z.land (h_status h) (2 ^ n)) with 0; [reflexivity|]. symmetry. apply Z.bits_inj'. intros k Hk.
      rewrite Z.land_spec, Z.bits_0. destruct (Z.eq_dec n k) as [<-|Ne]; [rewrite T; reflexivity|].
      rewrite Z.pow2_bits_false by exact Ne. apply andb_false_r. }
  assert (B0 : is_response h = bit 0) by exact (B 0 ltac:(lia)). assert (B1 : is_error h = bit 1) by exact (B 1 ltac:(lia)).
  assert (B2 : is_compress h = bit 2) by exact (B 2 ltac:(lia)). assert (B3 : is_handshake h = bit 3) by exact (B 3 ltac:(lia)).
  do 4 (split; [assumption|]). unfold statuses, is_request. rewrite B0, B1, B2, B3. clear.
  destruct (bit 0), (bit 1), (bit 2), (bit 3); reflexivity.
Qed.
Print Assumptions C19_statuses.
Example C19_case : let h' := fold_left assign [(Error, true); (Handshake, true); (Error, false)]
    (mkHeader ES 17 1 (-123) HNone 0) in
  flag_get Error h' = false /\ flag_get Handshake h' = true /\ flag_get Response h' = true /\
  flag_get Compress h' = true /\ h_status h' = -115.
Proof. vm_compute. repeat split. Qed.

(** C20, full statement: false for request id 0. *)
Definition C20_statement : Prop := forall m n h n' i,
  making_id m = Some i -> make m n = (Ok h, n') -> h_id h = i.
Theorem C20_request_id_refuted : ~ C20_statement.
Proof. exact make_drops_zero. Qed.
Print Assumptions C20_request_id_refuted.
(** C20, what holds: every other id is kept, and none is drawn from the counter. *)
Theorem C20_request_id_partial : forall m n h n' i,
  making_id m = Some i -> i <> 0 -> make m n = (Ok h, n') -> h_id h = i /\ n' = n.
Proof. exact make_keeps_id. Qed.
Print Assumptions C20_request_id_partial.
Example C20_case : fst (make (MkRequest None [] None HNone (py "a") (Some 7) true false) 3)
  = Ok (mkHeader ES 22 7 8 HNone 5).
Proof. vm_compute. reflexivity. Qed.

(** C21: the id of the [k]-th construction, if it was given none, is the number of earlier
    constructions that were given none (or the id 0, see C20); so they increase. *)
Theorem C21_generated_ids :
  (forall l k m h, nth_error l k = Some m -> nth_error (make_all l 0) k = Some (Ok h) ->
     making_id m = None ->
     h_id h = zlen (filter (fun m => match making_id m with Some i => i =? 0 | None => true end)
                           (firstn k l))) /\
  (forall l i j mi mj hi hj, (i < j)%nat ->
     nth_error l i = Some mi -> nth_error l j = Some mj -> making_id mi = None -> making_id mj = None ->
     nth_error (make_all l 0) i = Some (Ok hi) -> nth_error (make_all l 0) j = Some (Ok hj) ->
     0 <= h_id hi < h_id hj).
Proof. exact generated_ids. Qed.
Print Assumptions C21_generated_ids.
Example C21_case : let m := MkHeader ES None 0 HNone 17 0 in
  let r := MkResponse None [] None HNone (Some 9) false false in
  map (rmap h_id) (make_all [m; r; m] 0) = [Ok 0; Ok 9; Ok 1].
Proof. vm_compute. reflexivity. Qed.

(** C22, full statement: false when a header string of the thread context is not ASCII
    ([constructed], [lengths_right]: Spec.v). *)
Definition C22_statement : Prop := forall o bs,
  constructed o -> write_outbound o = Ok bs -> lengths_right o bs.
Theorem C22_frame_lengths_refuted : ~ C22_statement.
Proof. exact frame_lengths_refuted. Qed.
Print Assumptions C22_frame_lengths_refuted.
(** C22, what holds: the length fields are right exactly if, for every string in the thread
    context, the vInts of its number of characters and of its number of bytes are of the same
    length; that is so for ASCII strings and for strings of less than 128 bytes. *)
Theorem C22_frame_lengths_partial :
  (forall o bs, constructed o -> write_outbound o = Ok bs ->
     (lengths_right o bs <-> Forall length_prefix_ok (ctx_strings (o_ctx o)))) /\
  (forall x, Forall (fun c => 0 <= c < 128) x -> length_prefix_ok x) /\
  (forall x e, is_utf8 x e -> zlen e < 128 -> length_prefix_ok x).
Proof.
  exact (conj (fun o => frame_lengths o []) (conj length_prefix_ascii length_prefix_short)).
Qed.
Print Assumptions C22_frame_lengths_partial.
Example C22_case : exists o bs,
  constructed o /\ write_outbound o = Ok bs /\ zlen bs = 49 /\ h_size (o_hdr o) = 43 /\
  ctx_strings (o_ctx o) = [py "k"; py "v"; py "r"; py "a"; py "bc"] /\
  Forall (fun x => Forall (fun c => 0 <= c < 128) x) (ctx_strings (o_ctx o)).
Proof.
  eexists. eexists. split.
  - eapply (con_request (Some (mkCtx [(py "k", py "v")] [(py "r", [py "a"; py "bc"])])) [py "f"]
      (Some (Ok [x01; x02; x03; x04; x05; x06; x07])) (version_of_id 2110399) (py "x") (Some 5) false true 0).
    vm_compute. reflexivity.
  - split; [vm_compute; reflexivity|]. vm_compute.
    repeat split; repeat constructor; intros H; discriminate H.
Qed.

(** C23: the same after any sequence of assignments to message_bytes, variable_bytes and the
    flags; in particular edits never make right length fields wrong. *)
Theorem C23_edits_keep_lengths : forall o es bs, constructed o ->
  write_outbound (fold_left apply_edit es o) = Ok bs ->
  (lengths_right (fold_left apply_edit es o) bs <-> Forall length_prefix_ok (ctx_strings (o_ctx o))).
Proof. exact frame_lengths. Qed.
Print Assumptions C23_edits_keep_lengths.
Example C23_case : exists o bs, constructed o /\
  write_outbound (fold_left apply_edit [EditMessage [x01]; EditVariable []; EditMessage [x01; x02]] o)
    = Ok bs /\ ctx_strings (o_ctx o) = [] /\ zlen bs = 27.
Proof.
  eexists. eexists. split.
  - eapply (con_request None [py "f"] (Some (Ok [x07])) (version_of_id 0) (py "x") (Some 5) false true 0).
    vm_compute. reflexivity.
  - split; [vm_compute; reflexivity|]. vm_compute. split; reflexivity.
Qed.

(** C24: the message can be built, and written unless it is 2 GiB or more; reading it back. *)
Theorem C24_request_round_trip : forall so c f p v a i hs cp n,
  set_order_ok so -> ctx_ok c -> texts_ok f -> text_ok a -> i <> 0 ->
  - 2 ^ 63 <= i < 2 ^ 63 -> 0 <= vid v < 2 ^ 32 ->
  exists o, new_request (Some c) f (option_map Ok p) (HVer v) a (Some i) hs cp n = (Ok o, n) /\
  (h_size (o_hdr o) < 2 ^ 31 -> exists bs, write_outbound o = Ok bs /\
  forall s, exists h t, read_header (bs ++ s) = Ok (h, t) /\
    h_id h = i /\ h_version h = HVer v /\ is_request h = true /\ is_error h = false /\
    is_handshake h = hs /\ is_compress h = cp /\
    forall o0, exists o', read_outbound so true o0 h t = Ok (o', opt_bytes p ++ s) /\
      o_hdr o' = h /\ same_ctx c (o_ctx o') /\ o_features o' = f /\ o_action o' = a).
Proof. exact request_survives. Qed.
Print Assumptions C24_request_round_trip.

(** C25 *)
Theorem C25_response_round_trip : forall so c f p v i hs cp n,
  set_order_ok so -> ctx_ok c -> i <> 0 ->
  - 2 ^ 63 <= i < 2 ^ 63 -> 0 <= vid v < 2 ^ 32 ->
  exists o, new_response (Some c) f (option_map Ok p) (HVer v) (Some i) hs cp n = (Ok o, n) /\
  (h_size (o_hdr o) < 2 ^ 31 -> exists bs, write_outbound o = Ok bs /\
  forall s, exists h t, read_header (bs ++ s) = Ok (h, t) /\
    h_id h = i /\ h_version h = HVer v /\ is_request h = false /\ is_error h = false /\
    is_handshake h = hs /\ is_compress h = cp /\
    forall o0, exists o', read_outbound so false o0 h t = Ok (o', opt_bytes p ++ s) /\
      o_hdr o' = h /\ same_ctx c (o_ctx o')).
Proof. exact response_survives. Qed.
Print Assumptions C25_response_round_trip.
Example C24_C25_case : set_order_ok (@rev pystr) /\
  ctx_ok (mkCtx [(py "k", [233])] [(py "r", [py "a"; py "bc"])]) /\ texts_ok [py "f"; []].
Proof.
  assert (A : forall x e, utf8_encode x = Ok e -> zlen e <= 2 ^ 31 -> text_ok x).
  { intros x e H L. exists e. split; [apply SpecFacts.is_utf8_encode, H|exact L]. }
  split; [intros l; apply Permutation_sym, Permutation_rev|].
  repeat split; repeat constructor; cbn [fst snd];
  try (eapply A; [reflexivity|discriminate]); try discriminate; cbn; intuition discriminate.
Qed.

(** C26 *)
Theorem C26_thread_context : forall so, set_order_ok so ->
  survives_upto same_ctx write_ctx (read_ctx so) ctx_ok.
Proof. exact ctx_survives. Qed.
Print Assumptions C26_thread_context.
Example C26_case : let c := mkCtx [(py "k", [233])] [(py "r", [py "a"; py "bc"])] in
  exists bs, write_ctx c = Ok bs /\
  read_ctx (@rev pystr) (bs ++ [x07]) = Ok (mkCtx [(py "k", [233])] [(py "r", [py "bc"; py "a"])], [x07]).
Proof. eexists. split; [vm_compute; reflexivity|]. vm_compute. reflexivity. Qed.

(** C65, full statement: false, a header built with TcpHeader() writes three megabytes,
    because its version is an int. *)
Definition C65_statement : Prop := forall n h n' bs,
  default_header n = (Ok h, n') -> write_header h = Ok bs -> zlen bs = 23.
Theorem C65_default_version_refuted : ~ C65_statement.
Proof. exact default_version_refuted. Qed.
Print Assumptions C65_default_version_refuted.
(** exactly how long it is; a message built without a version cannot be written *)
Theorem C65_default_version_partial :
  (forall n, exists h bs, default_header n = (Ok h, n + 1) /\
     (- 2 ^ 63 <= n < 2 ^ 63 -> write_header h = Ok bs /\ zlen bs = 3000118)) /\
  (forall c f msg a rid hs cp n o n',
     new_request c f msg HNone a rid hs cp n = (Ok o, n') -> exists e, write_outbound o = Raise e).
Proof. exact (conj default_header_size no_version_raises). Qed.
Print Assumptions C65_default_version_partial.
(** a header whose version is the int [n], all other numbers in range: [n] zero bytes stand where
    the four of the version should; a negative one cannot be written *)
Theorem C65_int_version_partial : forall p sz i st n vhs,
  - 2 ^ 31 <= sz < 2 ^ 31 -> - 2 ^ 63 <= i < 2 ^ 63 -> - 2 ^ 7 <= st < 2 ^ 7 -> - 2 ^ 31 <= vhs < 2 ^ 31 ->
  (0 <= n -> exists a b, write_header (mkHeader p sz i st (HInt n) vhs) = Ok (a ++ repeat x00 (Z.to_nat n) ++ b) /\
     zlen a = zlen p + 13 /\ zlen b = 4) /\
  (n < 0 -> write_header (mkHeader p sz i st (HInt n) vhs) = Raise EValue).
Proof.
  intros p sz i st n vhs S I T V. destruct fixed_width_ints as (T1 & T4 & T8).
  destruct (twos_use 4 _ _ sz T4 S) as (b1 & W1 & L1 & _). destruct (twos_use 8 _ _ i T8 I) as (b2 & W2 & L2 & _).
  destruct (twos_use 1 _ _ st T1 T) as (b3 & W3 & L3 & _). destruct (twos_use 4 _ _ vhs T4 V) as (b4 & W4 & L4 & _).
  unfold write_header. cbn [h_prefix h_size h_id h_status h_version h_vhs hver_bytes]. rewrite W1, W2, W3, W4. unfold bytes_of_int.
  split; intros N; (destruct (Z.ltb_spec n 0) as [M|M]; [|]); try lia; [|reflexivity].
  exists (p ++ b1 ++ b2 ++ b3), b4. split; [|split].
  - cbn [wcat bind]. rewrite app_nil_r, <- !app_assoc. reflexivity.
  - unfold zlen. rewrite !app_length, L1, L2, L3. lia.
  - unfold zlen. rewrite L4. reflexivity.
Qed.
Print Assumptions C65_int_version_partial.
Example C65_int_case : write_header (mkHeader ES 17 1 0 (HInt 0) 0) = Ok (ES ++ [x00; x00; x00; x11; x00; x00; x00; x00; x00; x00; x00; x01; x00; x00; x00; x00; x00]).
Proof. vm_compute. reflexivity. Qed.
Example C65_case : exists o, new_request None [] None HNone (py "a") (Some 7) true false 3 = (Ok o, 3).
Proof. eexists. vm_compute. reflexivity. Qed.
