(** * Property C13 for the readers of messages *)
From Coq Require Import String ZArith List Bool Lia.
From Coq Require Import Strings.Byte.
From Verif Require Import Py Stream Version Frame Proto Messages Rest Routes Settings Floats Host PyFacts
  StreamFacts StreamFacts2 Spec SpecFacts FrameFacts HostFacts.
Import ListNotations.
Open Scope list_scope.
Open Scope Z_scope.

(** All [read_from] methods of messages and of their parts ([reader A] is a function from the
    input to a value and the input that is left).  Settings are read into a dict [d]; the
    headers of messages are read first and given to the reader of the envelope. *)
Inductive message_reader : forall A : Type, reader A -> Prop :=
| mr_version : message_reader _ read_version
| mr_double : message_reader _ read_double
| mr_float : message_reader _ read_float
| mr_time : message_reader _ read_time_value
| mr_size : message_reader _ read_bsv
| mr_header : message_reader _ read_header
| mr_ctx so : message_reader _ (read_ctx so)
| mr_envelope so req o h : message_reader _ (read_outbound so req o h)
| mr_task : message_reader _ read_task
| mr_request : message_reader _ read_transport_request
| mr_ack : message_reader _ read_ack
| mr_addr : message_reader _ read_addr
| mr_role : message_reader _ read_role
| mr_node : message_reader _ read_node
| mr_dep : message_reader _ read_dep
| mr_ext_node : message_reader _ read_ext_node
| mr_init_request : message_reader _ read_init_request
| mr_init_response : message_reader _ read_init_response
| mr_handshake_response : message_reader _ read_handshake_response
| mr_tcp_request : message_reader _ read_tcp_handshake_request
| mr_tcp_response : message_reader _ read_tcp_handshake_response
| mr_ext_request : message_reader _ read_ext_transport_request
| mr_register : message_reader _ read_register_request
| mr_rest_request : message_reader _ read_rest_request
| mr_rest_response so : message_reader _ (read_rest_response so)
| mr_exec : message_reader _ read_exec_response
| mr_integer_parser : message_reader _ read_integer_parser
| mr_long_parser : message_reader _ read_long_parser
| mr_double_parser : message_reader _ read_double_parser
| mr_float_parser : message_reader _ read_single_parser
| mr_size_parser : message_reader _ read_bs_parser
| mr_time_parser : message_reader _ read_tv_parser
| mr_validator : message_reader _ read_validator
| mr_settings f d : message_reader _ (fun s =>
    match read_settings f d s with (Ok s', d') => Ok (d', s') | (Raise e, _) => Raise e end).

Lemma local_settings f d : local (fun s =>
    match read_settings f d s with (Ok s', d') => Ok (d', s') | (Raise e, _) => Raise e end).
Proof.
  assert (L : forall n d, local (fun s =>
    match read_settings_loop f n d s with (Ok s', d') => Ok (d', s') | (Raise e, _) => Raise e end)).
  { induction n as [|n IH]; intros d0; cbn [read_settings_loop].
    - intros s a s' H. injection H as <- <-. exists []. split; [reflexivity|]. intros _ t. reflexivity.
    - assert (E : local (key <~ read_string ;; v <~ read_generic_value f ;; rret (key, v))).
      { apply local_bind; [apply local_read_string|intros key]. apply local_bind; [apply local_read_generic_value|intros v]. apply local_ret. }
      set (r := rbind _ _) in *. clearbody r.
      intros s a s' H. destruct (r s) as [[[key v] s1]|] eqn:R; [|discriminate].
      apply E in R as (p & -> & Q). apply IH in H as (p2 & -> & Q2).
      exists (p ++ p2). split; [rewrite app_assoc; reflexivity|]. intros Ne t.
      rewrite <- app_assoc, Q by (destruct p2; [exact Ne|discriminate]). apply Q2, Ne. }
  intros s a s' H. unfold read_settings in *. destruct (read_v_int s) as [[n s1]|] eqn:R; [|discriminate].
  apply local_read_v_int in R as (p & -> & Q). apply L in H as (p2 & -> & Q2).
  exists (p ++ p2). split; [rewrite app_assoc; reflexivity|]. intros Ne t.
  rewrite <- app_assoc, Q by (destruct p2; [exact Ne|discriminate]). apply Q2, Ne.
Qed.
#[local] Hint Resolve local_read_byte local_read_int local_read_long local_read_boolean local_read_v_int local_read_v_long
  local_read_z_long local_read_string local_read_enum local_read_string_to_string_dict local_read_string_to_string_array_dict
  local_read_string_array local_read_array_size local_read_header local_read_ctx local_read_outbound local_read_optional_string : local.
Lemma local_version : local read_version. Proof. unfold read_version. loc. Qed.
Lemma local_double : local read_double. Proof. unfold read_double. loc. Qed.
Lemma local_float : local read_float. Proof. unfold read_float. loc. Qed.
Lemma local_tv : local read_time_value. Proof. unfold read_time_value. loc. Qed.
Lemma local_bsv : local read_bsv. Proof. unfold read_bsv. loc. Qed.
Lemma local_task : local read_task. Proof. unfold read_task. loc. destruct a; loc. Qed.
#[local] Hint Resolve local_version local_double local_float local_tv local_bsv local_task : local.
Lemma local_transport : local read_transport_request. Proof. unfold read_transport_request. loc. Qed.
Lemma local_addr : local read_addr. Proof. unfold read_addr. loc. Qed.
Lemma local_role : local read_role. Proof. unfold read_role. loc. Qed.
Lemma local_dep : local read_dep. Proof. unfold read_dep. loc. Qed.
#[local] Hint Resolve local_transport local_addr local_role local_dep : local.
Lemma local_node : local read_node. Proof. unfold read_node. loc. Qed.
#[local] Hint Resolve local_node : local.
Lemma local_ext_node : local read_ext_node. Proof. unfold read_ext_node. loc. Qed.
#[local] Hint Resolve local_ext_node : local.
(** C13 for messages *)
Lemma message_local A (r : reader A) : message_reader A r -> local r.
Proof.
  intros H.
  destruct H; [..|apply local_settings]; try solve [auto with local];
    unfold read_ack, read_init_request, read_init_response, read_handshake_response, read_tcp_handshake_request,
      read_tcp_handshake_response, read_ext_transport_request, read_register_request, read_rest_request, read_rest_response,
      read_exec_response, read_integer_parser, read_long_parser, read_double_parser, read_single_parser, read_bs_parser,
      read_tv_parser, read_validator; loc.
Qed.
Theorem C13_messages : forall A (r : reader A), message_reader A r ->
  forall s a s', r s = Ok (a, s') ->
  exists p, s = p ++ s' /\ (s' <> [] -> forall t, r (p ++ t) = Ok (a, t)).
Proof. exact message_local. Qed.
Print Assumptions C13_messages.
(** a handshake request followed by a byte *)
Example C13_messages_case : message_reader _ read_tcp_handshake_request /\
  read_tcp_handshake_request (map z2b [0; 4; 163; 142; 129; 65; 7]) =
    Ok (mkTcpReq (mkTask [] None) (Some (mkVersion 136333091)), [x07]).
Proof. split; [constructor|]. vm_compute. reflexivity. Qed.

(** C12 for messages: as for C12_truncation_partial, a truncated message is refused or else read
    to its end.  Missing: that it is refused. *)
Theorem C12_messages_partial : forall A (r : reader A), message_reader A r ->
  forall a bs q q2, r bs = Ok (a, []) -> bs = q ++ q2 -> q2 <> [] ->
  (exists e, r q = Raise e) \/ (exists a', r q = Ok (a', [])).
Proof.
  intros A r Hr a bs q q2 H1 H2 H3. destruct (r q) as [[a' s']|e] eqn:E; [right|left; eauto].
  pose proof (truncated A r a bs q q2 (message_local A r Hr) H1 H2 H3 a' s' E) as Es.
  subst s'. exists a'. reflexivity.
Qed.
Print Assumptions C12_messages_partial.
(** both happen: a handshake cut within the version is taken for one of another version, a double
    cut anywhere is refused *)
Example C12_messages_case :
  read_tcp_handshake_request (map z2b [0; 4; 163; 142; 129; 65]) = Ok (mkTcpReq (mkTask [] None) (Some (mkVersion 136333091)), []) /\
  read_tcp_handshake_request (map z2b [0; 4; 163; 142]) = Ok (mkTcpReq (mkTask [] None) (Some (mkVersion 1827)), []) /\
  (forall q q2, q2 <> [] -> zlen (q ++ q2) = 8 -> exists e, read_double q = Raise e).
Proof.
  split; [vm_compute; reflexivity|]. split; [vm_compute; reflexivity|].
  intros q q2 N L. rewrite zlen_app in L. assert (zlen q2 <> 0) by (intros Z0; apply zlen_0 in Z0; contradiction).
  pose proof (zlen_nonneg _ q2). exists EStruct. unfold read_double, rbind, read_bytes, bio_read.
  change (8 <? 0) with false. cbv iota beta. destruct (Z.eqb_spec (zlen (takeZ 8 q)) 8) as [E|]; [|reflexivity].
  rewrite takeZ_zlen in E by lia. lia.
Qed.
