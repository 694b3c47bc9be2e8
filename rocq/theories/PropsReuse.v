(** * Property C106: reading into an object that was used before *)
From Coq Require Import String ZArith List Bool Lia.
From Coq Require Import Strings.Byte.
From Verif Require Import Py PyFacts Stream StreamFacts StreamFacts2 Version Frame Proto Messages Rest Routes Settings Host
  Spec SpecFacts FrameFacts RestFacts Wire WireFacts WireFacts2 WireFacts3 WireFacts4 HostSpec HostFacts PropsMessages PropsRest PropsHost Reuse.
Import ListNotations.
Open Scope list_scope.
Open Scope Z_scope.

(** C106, REST requests: read_from makes of any object what it makes of a new one. *)
Definition C106_rest_statement : Prop := forall old s, read_rest_request_into old s = read_rest_request s.
(** C106, envelopes ([req]: of a request) *)
Definition C106_envelope_statement : Prop := forall so req old new hd s o t, set_order_ok so -> is_request hd = req ->
  read_outbound so req old hd s = Ok (o, t) -> read_outbound so req new hd s = Ok (o, t).
(** C106, other messages: reading into [a] leaves what [b] is as it was. *)
Definition C106_others_statement : Prop := forall so req st a b hd s st' a' t, set_order_ok so -> is_request hd = req ->
  read_held so req st a hd s = Ok ((st', a'), t) -> whole st' b = whole st b.

(** ** REST requests *)
Lemma into_new s : read_rest_request_into new_rest_request s = read_rest_request s.
Proof. reflexivity. Qed.
Lemma media_into old p t : (exists m s, (if p : bool then read_string else rret []) t = Ok (m, s) /\
    (if p then read_string else rret old) t = Ok ((if p then m else old), s) /\ (p = false -> m = [])) \/
  (exists e, (if p : bool then read_string else rret []) t = Raise e /\ (if p then read_string else rret old) t = Raise e).
Proof.
  destruct p.
  - destruct (read_string t) as [[m s]|e]; [left; exists m, s; repeat split; discriminate|right; eauto].
  - left. exists [], t. repeat split.
Qed.
(** What holds, for all bytes: reading fails and ends as with a new object; every attribute is the
    same but the media type of a request without one, which is kept, and what was consumed,
    which is kept always. *)
Theorem C106_rest_partial : forall old s,
  (forall e, read_rest_request s = Raise e -> read_rest_request_into old s = Raise e) /\
  (forall q t, read_rest_request s = Ok (q, t) -> exists media,
    read_rest_request_into old s =
      Ok (mkReq (rq_task q) (rq_method q) (rq_uri q) (rq_path q) (rq_params q) (rq_headers q) media
                (rq_content q) (rq_token q) (rq_http q) (rq_consumed old) (rq_content_consumed old), t) /\
    (media = rq_media q \/ media = rq_media old) /\ (rq_media q <> [] -> media = rq_media q)) /\
  (forall q bs r, w_rest_request true q bs -> s = bs ++ r ->
    read_rest_request_into old s =
      Ok (mkReq (rq_task q) (rq_method q) (rq_uri q) (rq_path q) (rq_params q) (rq_headers q)
                (match rq_media q with [] => rq_media old | _ => rq_media q end)
                (rq_content q) (rq_token q) (rq_http q) (rq_consumed old) (rq_content_consumed old), r)).
Proof.
  intros old s.
  assert (A : (forall e, read_rest_request s = Raise e -> read_rest_request_into old s = Raise e) /\
    (forall q t, read_rest_request s = Ok (q, t) -> exists media,
      read_rest_request_into old s =
      Ok (mkReq (rq_task q) (rq_method q) (rq_uri q) (rq_path q) (rq_params q) (rq_headers q) media
                (rq_content q) (rq_token q) (rq_http q) (rq_consumed old) (rq_content_consumed old), t) /\
      (media = rq_media q \/ media = rq_media old) /\ (rq_media q <> [] -> media = rq_media q))).
  { unfold read_rest_request, read_rest_request_into, rbind.
    repeat match goal with |- context [match ?r ?x with Ok _ => _ | Raise _ => _ end] =>
      lazymatch r with (if _ then _ else _) => fail | _ => destruct (r x) as [[? ?]|?]; [|split; [auto|discriminate]] end end.
    match goal with |- context [(if ?p then read_string else rret []) ?t] => destruct (media_into (rq_media old) p t) as [(m & s' & E1 & E2 & E3)|(e & E1 & E2)]; rewrite E1, E2 end;
      [|split; [auto|discriminate]].
    repeat match goal with |- context [match ?r ?x with Ok _ => _ | Raise _ => _ end] =>
      destruct (r x) as [[? ?]|?]; [|split; [auto|discriminate]] end.
    split; [discriminate|]. intros q t' H. apply Ok_inj, pair_equal_spec in H as [<- <-].
    cbn [rq_task rq_method rq_uri rq_path rq_params rq_headers rq_media rq_content rq_token rq_http].
    eexists. split; [reflexivity|]. match goal with |- context [if ?p then m else _] => destruct p end; [auto|].
    split; [auto|]. rewrite E3 by reflexivity. intros N. contradiction N. reflexivity. }
  split; [apply A|]. split; [apply A|]. clear A.
  intros [t om u p ps hs md ct tk oh co cc] bs r (m & h & o & Em & Eh & Eo & Ec & H) ->.
  cbn [rq_task rq_method rq_uri rq_path rq_params rq_headers rq_media rq_content rq_token rq_http] in *. subst om oh.
  assert (Ek : match md with [] => rq_media old | _ => md end = match o with Some x => x | None => rq_media old end).
  { rewrite Eo. destruct o as [[|c x]|]; [contradiction Ec; reflexivity|reflexivity|reflexivity]. }
  rewrite Ek. clear Ek Eo Ec.
  opened H. unfold read_rest_request_into, read_transport_request.
  rewrite (rbind_step _ _ _ _ _ _ _ (task_reads true _ _ _ I P)). rd. rd. rd. rd. rd.
  match goal with P : w_optional _ _ ?a |- context [?a ++ ?r] =>
    assert (R : exists p t, read_boolean (a ++ r) = Ok (p, t) /\
      (if p then read_string else rret (rq_media old)) t = Ok (match o with Some x => x | None => rq_media old end, r)) by
      (destruct (media_reads true o a r P) as (pp & tt' & R1 & R2); exists pp, tt'; split; [exact R1|];
       destruct o as [x|]; cbn [w_optional] in P;
       [opened P; rewrite <- app_assoc in R1; match goal with Q : w_bool true ?b |- _ => rewrite (bool_reads _ _ _ I Q) in R1 end;
        apply Ok_inj, pair_equal_spec in R1 as [<- <-]; exact R2
       |rewrite (bool_reads _ _ _ I P) in R1; apply Ok_inj, pair_equal_spec in R1 as [<- <-]; reflexivity]);
    destruct R as (pp & tt' & R1 & R2) end.
  rewrite (rbind_step _ _ _ _ _ _ _ R1), (rbind_step _ _ _ _ _ _ _ R2).
  match goal with P : w_bytes _ _ ?a |- context [?a ++ ?r] => pose proof (sized_reads true _ _ r I P) as Rs end.
  apply rbind_ok in Rs as (k & s1 & K & L). rewrite (rbind_step _ _ _ _ _ _ _ K), (rbind_step _ _ _ _ _ _ _ L).
  rd. rd. reflexivity.
Qed.
Print Assumptions C106_rest_partial.
(** Refuted: a request object is read, its parameter "name" and its content are consumed, and it is
    read again from a request without parameters and media type: "name" and the content still
    count as consumed, and the media type is the old one. *)
Definition ex_first : rest_request :=
  mkReq default_task (Some 1) (py "/a") (py "/a") [(py "name", py "x")] [] (py "application/json") [x7b; x7d] [] (Some 1) [] false.
Definition ex_second : rest_request := mkReq default_task (Some 0) (py "/b") (py "/b") [] [] [] [] [] (Some 1) [] false.
Definition written (q : rest_request) : bytes := match write_rest_request q with Ok b => b | Raise _ => [] end.
Theorem C106_rest_refuted : ~ C106_rest_statement /\
  exists q0 q1 q2, read_rest_request (written ex_first) = Ok (q0, []) /\
    q1 = snd (do_call (snd (do_call q0 (CParam (py "name")))) (CContent true)) /\
    read_rest_request_into q1 (written ex_second) = Ok (q2, []) /\
    read_rest_request (written ex_second) = Ok (ex_second, []) /\
    rq_consumed q2 = [py "name"] /\ rq_content_consumed q2 = true /\ rq_media q2 = py "application/json".
Proof.
  assert (A : exists q0 q1 q2, read_rest_request (written ex_first) = Ok (q0, []) /\
    q1 = snd (do_call (snd (do_call q0 (CParam (py "name")))) (CContent true)) /\
    read_rest_request_into q1 (written ex_second) = Ok (q2, []) /\
    read_rest_request (written ex_second) = Ok (ex_second, []) /\
    rq_consumed q2 = [py "name"] /\ rq_content_consumed q2 = true /\ rq_media q2 = py "application/json").
  { eexists _, _, _. split; [vm_compute; reflexivity|]. split; [reflexivity|]. split; [vm_compute; reflexivity|].
    split; [vm_compute; reflexivity|]. split; [vm_compute; reflexivity|]. split; vm_compute; reflexivity. }
  split; [|exact A]. intros S. destruct A as (q0 & q1 & q2 & _ & _ & R & N & C & _). rewrite S, N in R.
  apply Ok_inj, pair_equal_spec in R as [<- _]. vm_compute in C. discriminate.
Qed.
Print Assumptions C106_rest_refuted.

(** ** Envelopes *)
(** What holds: reading fails and ends as with any other object of the class; header and context are
    what was read; so are the variable bytes if the header announces some, with features and
    action if it is a request; all else, and always the message, is what it was before. *)
Theorem C106_envelope_partial : forall so req old new hd s,
  (forall e, read_outbound so req old hd s = Raise e -> read_outbound so req new hd s = Raise e) /\
  forall o t, read_outbound so req old hd s = Ok (o, t) -> exists o', read_outbound so req new hd s = Ok (o', t) /\
    o_hdr o = hd /\ o_ctx o' = o_ctx o /\ o_msg o = o_msg old /\
    (0 < h_vhs hd -> o_var o' = o_var o) /\
    (0 < h_vhs hd -> req = true -> o_features o' = o_features o /\ o_action o' = o_action o) /\
    (h_vhs hd <= 0 -> o_var o = o_var old) /\
    (h_vhs hd <= 0 \/ req = false -> o_features o = o_features old /\ o_action o = o_action old).
Proof.
  intros so req old new hd s. unfold read_outbound, rbind.
  destruct (read_ctx so s) as [[c s1]|e]; [|split; [auto|discriminate]].
  destruct (Z.ltb_spec 0 (h_vhs hd)).
  - destruct (rlift (ctx_size c) s1) as [[z s2]|e]; [|split; [auto|discriminate]].
    destruct (read_bytes (h_vhs hd - z) s2) as [[vb s3]|e]; [|split; [auto|discriminate]]. destruct req.
    + destruct (rlift (read_variable vb) s3) as [[fa s4]|e]; [|split; [auto|discriminate]].
      split; [discriminate|]. intros o t H'. apply Ok_inj, pair_equal_spec in H' as [<- <-].
      eexists. split; [reflexivity|]. cbn. repeat split; try lia. all: intros [?|?]; [lia|discriminate].
    + split; [discriminate|]. intros o t H'. apply Ok_inj, pair_equal_spec in H' as [<- <-].
      eexists. split; [reflexivity|]. cbn. repeat split; try lia; try discriminate.
  - split; [discriminate|]. intros o t H'. apply Ok_inj, pair_equal_spec in H' as [<- <-].
    eexists. split; [reflexivity|]. cbn. repeat split; lia.
Qed.
Print Assumptions C106_envelope_partial.
(** Refuted: a request that was made with a message of three bytes is read from a frame with a
    message of four; written out again it has the new header and the old message, and its length
    field is wrong. *)
Definition ex_old : outbound :=
  match fst (new_request (Some ex_ctx) [] (Some (Ok [x01; x02; x03])) (HVer (version_of_id 2110399)) (py "a") (Some 7) false false 0) with
  | Ok o => o | Raise _ => blank_request 0 end.
Definition ex_new : message := ex_msg (py "b") 9 false [x0a; x0b; x0c; x0d].
Theorem C106_envelope_refuted : ~ C106_envelope_statement /\
  exists hd rest o b, read_header (ex_raw ex_new) = Ok (hd, rest) /\
    read_outbound (fun l => l) true ex_old hd rest = Ok (o, [x0a; x0b; x0c; x0d]) /\
    write_outbound o = Ok b /\ h_id (o_hdr o) = 9 /\ o_action o = py "b" /\
    skipn (List.length b - 3) b = [x01; x02; x03] /\ h_size (o_hdr o) <> zlen b - 6.
Proof.
  assert (A : exists hd rest o b, read_header (ex_raw ex_new) = Ok (hd, rest) /\ is_request hd = true /\
    read_outbound (fun l => l) true ex_old hd rest = Ok (o, [x0a; x0b; x0c; x0d]) /\
    write_outbound o = Ok b /\ h_id (o_hdr o) = 9 /\ o_action o = py "b" /\
    skipn (List.length b - 3) b = [x01; x02; x03] /\ h_size (o_hdr o) <> zlen b - 6).
  { eexists _, _, _, _. split; [vm_compute; reflexivity|]. split; [vm_compute; reflexivity|]. split; [vm_compute; reflexivity|].
    split; [vm_compute; reflexivity|]. split; [vm_compute; reflexivity|]. split; [vm_compute; reflexivity|].
    split; [vm_compute; reflexivity|]. vm_compute. discriminate. }
  destruct A as (hd & rest & o & b & R & Q & Ro & W & E1 & E2 & E3 & E4). split.
  - intros S. assert (So : set_order_ok (fun l => l)) by (intros l; apply Permutation.Permutation_refl).
    specialize (S (fun l => l) true ex_old (blank_request 0) hd rest o _ So Q Ro).
    destruct (C106_envelope_partial (fun l => l) true (blank_request 0) ex_old hd rest) as [_ P].
    destruct (P _ _ S) as (_ & _ & _ & _ & M & _).
    destruct (C106_envelope_partial (fun l => l) true ex_old ex_old hd rest) as [_ P'].
    destruct (P' _ _ Ro) as (_ & _ & _ & _ & M' & _). rewrite M in M'. vm_compute in M'. discriminate.
  - exists hd, rest, o, b. tauto.
Qed.
Print Assumptions C106_envelope_refuted.

(** ** Other messages *)
Lemma put_nth A (l : list A) i j x d : nth j (put i x l) d = if (Nat.eqb i j && Nat.ltb j (List.length l))%bool then x else nth j l d.
Proof.
  revert i j. induction l as [|y l IH]; intros i j.
  - cbn [List.length]. rewrite andb_comm. destruct i; reflexivity.
  - destruct i, j; cbn [put nth List.length]; try reflexivity. rewrite IH. reflexivity.
Qed.
(** What holds: a message with another context object is left alone; of one with the same context
    object exactly the context changes, to the one that was read. *)
Theorem C106_others_partial : forall so req st a b hd s st' a' t, (hd_ctx a < List.length st)%nat ->
  read_held so req st a hd s = Ok ((st', a'), t) ->
  (hd_ctx b <> hd_ctx a -> whole st' b = whole st b) /\
  (hd_ctx b = hd_ctx a -> exists c s1, read_ctx so s = Ok (c, s1) /\
     whole st' b = mkOut (o_hdr (hd_out b)) c (o_var (hd_out b)) (o_msg (hd_out b)) (o_features (hd_out b)) (o_action (hd_out b))).
Proof.
  intros so req st a b hd s st' a' t L H. unfold read_held in H. apply rbind_ok in H as (o & s2 & R & H).
  apply Ok_inj, pair_equal_spec in H as [H _]. apply pair_equal_spec in H as [<- _]. split; intros E; unfold whole; rewrite put_nth.
  - destruct (Nat.eqb_spec (hd_ctx a) (hd_ctx b)) as [X|_]; [congruence|reflexivity].
  - rewrite E, Nat.eqb_refl. apply Nat.ltb_lt in L. rewrite L. cbn [andb].
    pose proof R as R0. unfold read_outbound in R0. apply rbind_ok in R0 as (c & s1 & Rc & Ro). exists c, s1. split; [exact Rc|].
    destruct (0 <? h_vhs hd).
    + apply rbind_ok in Ro as (z & s3 & _ & Ro). apply rbind_ok in Ro as (vb & s4 & _ & Ro). destruct req.
      * apply rbind_ok in Ro as (fa & s5 & _ & Ro). apply Ok_inj, pair_equal_spec in Ro as [<- _]. reflexivity.
      * apply Ok_inj, pair_equal_spec in Ro as [<- _]. reflexivity.
    + apply Ok_inj, pair_equal_spec in Ro as [<- _]. reflexivity.
Qed.
Print Assumptions C106_others_partial.
(** Refuted: two requests are made with one context; a frame with a longer context is read into the
    first; the second, as written, has the longer context too, and a wrong length field. *)
Definition ex_short : ctx := mkCtx [] [].
Definition ex_pair (id : Z) : held :=
  mkHeld 0 match fst (new_request (Some ex_short) [] (Some (Ok [x01])) (HVer (version_of_id 2110399)) (py "a") (Some id) false false 0) with
           | Ok o => o | Raise _ => blank_request 0 end.
Theorem C106_others_refuted : ~ C106_others_statement /\
  exists hd rest st' a' t b b', read_header (ex_raw ex_new) = Ok (hd, rest) /\
    read_held (fun l => l) true [ex_short] (ex_pair 7) hd rest = Ok ((st', a'), t) /\
    write_held [ex_short] (ex_pair 8) = Ok b /\ write_held st' (ex_pair 8) = Ok b' /\
    h_size (o_hdr (hd_out (ex_pair 8))) = zlen b - 6 /\ h_size (o_hdr (hd_out (ex_pair 8))) <> zlen b' - 6.
Proof.
  assert (A : exists hd rest st' a' t b b', read_header (ex_raw ex_new) = Ok (hd, rest) /\ is_request hd = true /\
    read_held (fun l => l) true [ex_short] (ex_pair 7) hd rest = Ok ((st', a'), t) /\
    write_held [ex_short] (ex_pair 8) = Ok b /\ write_held st' (ex_pair 8) = Ok b' /\
    h_size (o_hdr (hd_out (ex_pair 8))) = zlen b - 6 /\ h_size (o_hdr (hd_out (ex_pair 8))) <> zlen b' - 6).
  { eexists _, _, _, _, _, _, _. split; [vm_compute; reflexivity|]. split; [vm_compute; reflexivity|]. split; [vm_compute; reflexivity|].
    split; [vm_compute; reflexivity|]. split; [vm_compute; reflexivity|]. split; [vm_compute; reflexivity|]. vm_compute. discriminate. }
  destruct A as (hd & rest & st' & a' & t & b & b' & R & Q & Ro & W & W' & E & E'). split.
  - intros S. assert (So : set_order_ok (fun l => l)) by (intros l; apply Permutation.Permutation_refl).
    specialize (S (fun l => l) true [ex_short] (ex_pair 7) (ex_pair 8) hd rest st' a' t So Q Ro). unfold write_held in W, W'.
    rewrite S, W in W'. apply Ok_inj in W'. subst b'. contradiction.
  - exists hd, rest, st', a', t, b, b'. tauto.
Qed.
Print Assumptions C106_others_refuted.
(** the bytes of the example are as [C106_rest_partial] takes them *)
Example C106_case : w_rest_request true ex_second (written ex_second) /\ rq_media ex_second = [] /\
  w_rest_request true ex_first (written ex_first) /\ rq_media ex_first = py "application/json".
Proof.
  assert (H : forall z u p md c ps, 0 <= z < 9 -> text_ok u -> text_ok p -> text_ok md -> zlen c <= 2 ^ 31 -> dict_ok text_ok ps ->
    rest_request_ok (mkReq default_task (Some z) u p ps [] md c [] (Some 1) [] false)).
  { intros z u p md c ps Hz U Pt M C D. split; [left; split; reflexivity|]. split; [exists z; auto|].
    split; [cbn; do 3 (constructor; [assumption|]); constructor; [text|constructor]|]. split; [exact D|].
    split; [split; [reflexivity|]; split; constructor|]. split; [exact C|]. exists 1. split; [reflexivity|]. lia. }
  split; [|split; [reflexivity|]; split; [|reflexivity]].
  - apply (by_writer _ _ _ _ _ _ (rest_request_writes true)); [|reflexivity].
    apply H; [lia|text|text|text|vm_compute; discriminate|split; [reflexivity|]; split; constructor].
  - apply (by_writer _ _ _ _ _ _ (rest_request_writes true)); [|reflexivity].
    apply H; [lia|text|text|text|vm_compute; discriminate|]. split; [reflexivity|]. split; [constructor; [intros []|constructor]|].
    constructor; [split; text|constructor].
Qed.
