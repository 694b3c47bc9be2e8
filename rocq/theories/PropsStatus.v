(** * Property C82: the status a handler names is the HTTP status OpenSearch understands *)
From Coq Require Import String ZArith List Bool Lia.
From Coq Require Import Strings.Byte.
From Verif Require Import Py Stream Version Frame Proto Messages Rest Routes Settings Host PyFacts StreamFacts Spec SpecFacts
  Wire WireFacts Samples.
Import ListNotations.
Open Scope list_scope.
Open Scope Z_scope.

(** ** Specification: the HTTP status codes of OpenSearch (RFC 9110, 4918, 6585 and 7540) *)
Definition http_statuses : list (Z * pystr) :=
  [(100, py "CONTINUE"); (101, py "SWITCHING_PROTOCOLS");
   (200, py "OK"); (201, py "CREATED"); (202, py "ACCEPTED"); (203, py "NON_AUTHORITATIVE_INFORMATION");
   (204, py "NO_CONTENT"); (205, py "RESET_CONTENT"); (206, py "PARTIAL_CONTENT"); (207, py "MULTI_STATUS");
   (300, py "MULTIPLE_CHOICES"); (301, py "MOVED_PERMANENTLY"); (302, py "FOUND"); (303, py "SEE_OTHER");
   (304, py "NOT_MODIFIED"); (305, py "USE_PROXY"); (307, py "TEMPORARY_REDIRECT");
   (400, py "BAD_REQUEST"); (401, py "UNAUTHORIZED"); (402, py "PAYMENT_REQUIRED"); (403, py "FORBIDDEN");
   (404, py "NOT_FOUND"); (405, py "METHOD_NOT_ALLOWED"); (406, py "NOT_ACCEPTABLE"); (407, py "PROXY_AUTHENTICATION");
   (408, py "REQUEST_TIMEOUT"); (409, py "CONFLICT"); (410, py "GONE"); (411, py "LENGTH_REQUIRED");
   (412, py "PRECONDITION_FAILED"); (413, py "REQUEST_ENTITY_TOO_LARGE"); (414, py "REQUEST_URI_TOO_LONG");
   (415, py "UNSUPPORTED_MEDIA_TYPE"); (416, py "REQUESTED_RANGE_NOT_SATISFIED"); (417, py "EXPECTATION_FAILED");
   (421, py "MISDIRECTED_REQUEST"); (422, py "UNPROCESSABLE_ENTITY"); (423, py "LOCKED"); (424, py "FAILED_DEPENDENCY");
   (429, py "TOO_MANY_REQUESTS");
   (500, py "INTERNAL_SERVER_ERROR"); (501, py "NOT_IMPLEMENTED"); (502, py "BAD_GATEWAY"); (503, py "SERVICE_UNAVAILABLE");
   (504, py "GATEWAY_TIMEOUT"); (505, py "HTTP_VERSION_NOT_SUPPORTED"); (507, py "INSUFFICIENT_STORAGE")].
(** on the wire the codes are numbered from 0 in ascending order *)
Definition wire_number (code : Z) : Z := zlen (filter (fun x => fst x <? code) http_statuses).

(** C82 *)
Lemma all_statuses (P : Z * pystr -> Prop) (d : Z * pystr -> bool) :
  (forall x, d x = true -> P x) -> forallb d http_statuses = true -> forall x, In x http_statuses -> P x.
Proof. intros D F x I. apply D. rewrite forallb_forall in F. exact (F x I). Qed.
Lemma status_value_number x : In x http_statuses -> status_value (snd x) = Some (wire_number (fst x)).
Proof.
  revert x. apply (all_statuses (fun x => status_value (snd x) = Some (wire_number (fst x))) (fun x => match status_value (snd x) with Some v => v =? wire_number (fst x) | None => false end)).
  - intros y. destruct (status_value (snd y)); [|discriminate]. intros E. apply Z.eqb_eq in E. congruence.
  - vm_compute. reflexivity.
Qed.
Lemma status_value_only name v : status_value name = Some v -> In name (map snd http_statuses).
Proof.
  unfold status_value. change (map snd http_statuses) with status_names.
  generalize 0. induction status_names as [|x l IH]; intros i; [discriminate|].
  destruct (streqb name x) eqn:E; [apply streqb_eq in E; left; congruence|]. intros H. right. eapply IH, H.
Qed.
Theorem C82_statuses :
  (forall code name, In (code, name) http_statuses -> status_value name = Some (wire_number code)) /\
  (forall name v, status_value name = Some v -> exists code, In (code, name) http_statuses /\ v = wire_number code) /\
  (forall code name code' name', In (code, name) http_statuses -> In (code', name') http_statuses ->
     wire_number code = wire_number code' -> code = code' /\ name = name') /\
  (forall n, 0 <= n < zlen http_statuses <-> exists x, In x http_statuses /\ wire_number (fst x) = n) /\
  status_value (py "OK") = Some STATUS_OK /\ status_value (py "NOT_FOUND") = Some STATUS_NOT_FOUND.
Proof.
  split; [intros code name I; exact (status_value_number _ I)|].
  split.
  { intros name v H. pose proof (status_value_only _ _ H) as I. apply in_map_iff in I as ((code & n) & E & I). cbn [snd] in E. subst n.
    exists code. split; [exact I|]. pose proof (status_value_number _ I) as X. cbn [fst snd] in X. congruence. }
  split.
  { intros code name code' name' I I' E.
    assert (A : forall x, In x http_statuses -> forall y, In y http_statuses -> wire_number (fst x) = wire_number (fst y) -> x = y).
    { intros x Ix. apply (all_statuses (fun y => wire_number (fst x) = wire_number (fst y) -> x = y) (fun y => (negb (wire_number (fst x) =? wire_number (fst y))) || ((fst x =? fst y) && streqb (snd x) (snd y)))).
      - intros [a b]. destruct x as [c d]. cbn [fst snd]. intros H W. apply orb_true_iff in H as [H|H].
        + apply negb_true_iff, Z.eqb_neq in H. contradiction.
        + apply andb_true_iff in H as [H1 H2]. apply Z.eqb_eq in H1. apply streqb_eq in H2. congruence.
      - revert x Ix. apply (all_statuses (fun x => forallb (fun y => (negb (wire_number (fst x) =? wire_number (fst y))) || ((fst x =? fst y) && streqb (snd x) (snd y))) http_statuses = true) (fun x => forallb (fun y => (negb (wire_number (fst x) =? wire_number (fst y))) || ((fst x =? fst y) && streqb (snd x) (snd y))) http_statuses)).
        + intros x H. exact H.
        + vm_compute. reflexivity. }
    specialize (A _ I _ I' E). apply pair_equal_spec in A. exact A. }
  split.
  { intros n. split.
    - intros H. exists (nth (Z.to_nat n) http_statuses (0, [])).
      split; [apply nth_In; unfold zlen in H; lia|].
      assert (F : forall k, (k < 47)%nat -> wire_number (fst (nth k http_statuses (0, []))) = Z.of_nat k).
      { assert (B : forallb (fun k => wire_number (fst (nth k http_statuses (0, []))) =? Z.of_nat k) (seq 0 47) = true) by (vm_compute; reflexivity).
        intros k Hk. rewrite forallb_forall in B. apply Z.eqb_eq, B, in_seq. lia. }
      change (zlen http_statuses) with 47 in H. rewrite F by lia. lia.
    - intros (x & I & <-). revert x I. apply (all_statuses (fun x => 0 <= wire_number (fst x) < zlen http_statuses) (fun x => (0 <=? wire_number (fst x)) && (wire_number (fst x) <? zlen http_statuses))).
      + intros x H. apply andb_true_iff in H as [H1 H2]. apply Z.leb_le in H1. apply Z.ltb_lt in H2. lia.
      + vm_compute. reflexivity. }
  split; reflexivity.
Qed.
Print Assumptions C82_statuses.
Lemma http_count : zlen http_statuses = 47.
Proof. vm_compute. reflexivity. Qed.
Lemma status_byte v r bs : 0 <= v < 47 -> ex_status r = Some v -> write_exec_response r = Ok bs ->
  exists b t, bs = b :: t /\ b2z b = v /\
    forall s r' s', read_exec_response (b :: s) = Ok (r', s') -> ex_status r' = Some v.
Proof.
  intros B E W. unfold write_exec_response in W. rewrite E in W. cbn [write_opt_enum] in W. unfold write_enum in W.
  rewrite write_v_int_small in W by lia. apply wcat_cons_ok in W as (b & t & Hb & _ & ->). apply Ok_inj in Hb. subst b.
  exists (z2b v), t. split; [reflexivity|]. split; [apply b2z_z2b_small; lia|].
  intros s r' s' R. unfold read_exec_response, rbind, read_enum, rbind in R.
  assert (RV : read_v_int ([z2b v] ++ s) = Ok (v, s)) by (apply v_int_roundtrip; [lia|apply write_v_int_small; lia]).
  cbn [app] in RV. rewrite RV in R.
  replace ((0 <=? v) && (v <? N_STATUS)) with true in R by (symmetry; unfold N_STATUS; apply andb_true_iff; split; [apply Z.leb_le|apply Z.ltb_lt]; lia).
  cbn [rret] in R.
  repeat match type of R with match ?x with Ok _ => _ | Raise _ => _ end = _ => destruct x as [[? ?]|]; [|discriminate] end.
  apply Ok_inj in R. apply pair_equal_spec in R as [<- _]. reflexivity.
Qed.
(** and that number is the first byte of every reply of the handler, the only one OpenSearch
    takes the status from: no other bytes are read as this status *)
Theorem C82_replies : forall code name v r bs, In (code, name) http_statuses -> status_value name = Some v ->
  ex_status r = Some v -> write_exec_response r = Ok bs ->
  exists b t, bs = b :: t /\ b2z b = wire_number code /\
    forall s r' s', read_exec_response (b :: s) = Ok (r', s') -> ex_status r' = Some v.
Proof.
  intros code name v r bs I S E W. pose proof (proj1 C82_statuses _ _ I) as V. rewrite S in V.
  assert (V' : v = wire_number code) by congruence. rewrite <- V'.
  assert (B : 0 <= v < 47).
  { rewrite <- http_count. apply (proj1 (proj2 (proj2 (proj2 C82_statuses)))). exists (code, name). auto. }
  clear S V V' I. exact (status_byte v r bs B E W).
Qed.
Print Assumptions C82_replies.
Example C82_case : In (503, py "SERVICE_UNAVAILABLE") http_statuses /\ status_value (py "SERVICE_UNAVAILABLE") = Some 43 /\
  write_exec_response (mkExec (Some 43) (py "t") [x61] [] [] true) = Ok [x2b; x01; x74; x01; x61; x00; x00; x01].
Proof. vm_compute. tauto. Qed.
