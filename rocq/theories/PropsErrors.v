(** * Property C92: the kind of an error tells what was wrong *)
From Coq Require Import String ZArith List Bool Lia.
From Coq Require Import Strings.Byte.
From Verif Require Import Py Utf8Facts Stream Version Frame Proto Messages Rest Routes Settings Floats Host PyFacts
  StreamFacts StreamFacts2 Spec SpecFacts FrameFacts HostFacts SettingsFacts TextFacts PropsReaders PropsText.
Import ListNotations.
Open Scope list_scope.
Open Scope Z_scope.

(** whatever the input, a reader raises no other kinds of exceptions than these *)
Definition only {A} (kinds : list exn) (r : reader A) : Prop := forall s e, r s = Raise e -> In e kinds.
(** whatever is written, a writer raises no other kinds of exceptions than these *)
Definition only_w {A} (kinds : list exn) (w : A -> res bytes) : Prop := forall a e, w a = Raise e -> In e kinds.

Definition only_r {A} (K : list exn) (x : res A) : Prop := forall e, x = Raise e -> In e K.

Lemma only_weak A K K' (r : reader A) : only K r -> incl K K' -> only K' r.
Proof. intros H I s e E. apply I, (H _ _ E). Qed.
Lemma only_ret A K (a : A) : only K (rret a). Proof. intros s e E. discriminate E. Qed.
Lemma only_fail A K e : In e K -> only K (@rfail A e).
Proof. intros H s x E. injection E as <-. exact H. Qed.
Lemma only_bind A B K (r : reader A) (k : A -> reader B) : only K r -> (forall a, only K (k a)) -> only K (rbind r k).
Proof.
  intros H G s e E. unfold rbind in E. destruct (r s) as [[a s']|x] eqn:R; [exact (G _ _ _ E)|].
  injection E as <-. exact (H _ _ R).
Qed.
Lemma only_if A K (b : bool) (r1 r2 : reader A) : only K r1 -> only K r2 -> only K (if b then r1 else r2).
Proof. destruct b; auto. Qed.
Lemma only_bytes K n : only K (read_bytes n). Proof. intros s e E. discriminate E. Qed.
Lemma only_n A K (r : reader A) n : only K r -> only K (read_n r n).
Proof.
  intros H. induction n as [|n IH]; [apply only_ret|]. cbn [read_n]. apply only_bind; [exact H|intros a].
  apply only_bind; [exact IH|intros l; apply only_ret].
Qed.
Lemma only_lift A K (x : res A) : only_r K x -> only K (rlift x).
Proof. intros H s e E. unfold rlift in E. destruct x as [a|y]; [discriminate E|]. injection E as <-. apply H. reflexivity. Qed.

Lemma only_rmap A B K (f : A -> B) x : only_r K x -> only_r K (rmap f x).
Proof. intros H e E. destruct x as [a|y]; [discriminate E|]. injection E as <-. apply H. reflexivity. Qed.
Lemma decode_unicode b : only_r [EUnicode] (utf8_decode b).
Proof. intros e E. left. symmetry. exact (utf8_decode_raise _ _ E). Qed.
Lemma encode_unicode x : only_r [EUnicode] (utf8_encode x).
Proof.
  induction x as [|c t IH]; intros e E; [discriminate E|]. unfold utf8_encode in E. cbn [map wcat] in E.
  assert (U : only_r [EUnicode] (utf8_enc1 c)).
  { intros y. unfold utf8_enc1. repeat match goal with |- (if ?c then _ else _) = _ -> _ => destruct c end; intros Y; try discriminate Y; injection Y as <-; left; reflexivity. }
  unfold bind in E. destruct (utf8_enc1 c) as [a|y]; [|injection E as <-; apply U; reflexivity].
  fold (utf8_encode t) in E. destruct (utf8_encode t) as [b|y]; [discriminate E|]. injection E as <-. apply IH. reflexivity.
Qed.

Ltac mem := first [left; reflexivity | right; mem].
Create HintDb only.
#[local] Hint Resolve only_ret only_bytes : only.
Ltac sub := let e := fresh in let H := fresh in intros e H; cbn [In] in H |- *; intuition.
Ltac onl :=
  repeat first
    [ progress (cbv zeta)
    | solve [auto with only]
    | solve [eapply only_weak; [solve [eauto with only nocore]|sub]]
    | apply only_fail; mem
    | apply only_bind; [|intros ?]
    | apply only_if
    | apply only_n ].

Lemma only_byte K : only K read_byte. Proof. unfold read_byte. onl. Qed.
Lemma only_int K : only K read_int. Proof. unfold read_int. onl. Qed.
Lemma only_short K : only K read_short. Proof. unfold read_short. onl. Qed.
Lemma only_long K : only K read_long. Proof. unfold read_long. onl. Qed.
#[local] Hint Resolve only_byte only_int only_short only_long : only.
Lemma only_boolean : only [EGeneric] read_boolean. Proof. unfold read_boolean. onl. Qed.
Lemma only_opt_boolean : only [EGeneric] read_optional_boolean. Proof. unfold read_optional_boolean. onl. Qed.
Lemma only_v_int : only [EGeneric] read_v_int. Proof. unfold read_v_int. onl. Qed.
Lemma only_v_long : only [EGeneric] read_v_long. Proof. unfold read_v_long. onl. Qed.
#[local] Hint Resolve only_boolean only_opt_boolean only_v_int only_v_long : only.
Lemma only_z_long : only [EGeneric] read_z_long. Proof. unfold read_z_long. onl. Qed.
Lemma only_array_size : only [EGeneric] read_array_size. Proof. unfold read_array_size. onl. Qed.
#[local] Hint Resolve only_z_long only_array_size : only.
Lemma only_enum n : only [EGeneric; EValue] (read_enum n). Proof. unfold read_enum. onl. Qed.
Lemma only_string : only [EGeneric; EUnicode] read_string.
Proof.
  unfold read_string. onl. apply only_lift. intros e E. right. exact (decode_unicode _ _ E).
Qed.
#[local] Hint Resolve only_enum only_string : only.
Lemma only_byte_array : only [EGeneric] read_byte_array. Proof. unfold read_byte_array. onl. Qed.
Lemma only_string_array : only [EGeneric; EUnicode] read_string_array. Proof. unfold read_string_array. onl. Qed.
#[local] Hint Resolve only_byte_array only_string_array : only.
Lemma only_dict V (r : reader V) : only [EGeneric; EUnicode] r -> only [EGeneric; EUnicode] (read_dict r).
Proof. intros H. unfold read_dict, read_pair. onl. Qed.
#[local] Hint Resolve only_dict : only.
Lemma only_ssd : only [EGeneric; EUnicode] read_string_to_string_dict. Proof. apply only_dict. onl. Qed.
Lemma only_ssad : only [EGeneric; EUnicode] read_string_to_string_array_dict. Proof. apply only_dict. onl. Qed.
Lemma only_sssd so : only [EGeneric; EUnicode] (read_string_to_string_set_dict so).
Proof. apply only_dict. unfold read_string_set. onl. Qed.
#[local] Hint Resolve only_ssd only_ssad only_sssd : only.
Lemma only_generic f : only [EGeneric; EUnicode; ERecursion] (read_generic_value f).
Proof. induction f as [|f IH]; cbn [read_generic_value]; onl. Qed.
#[local] Hint Resolve only_generic : only.
Lemma only_version : only [EGeneric] read_version. Proof. unfold read_version. onl. Qed.
Lemma only_double : only [EStruct] read_double. Proof. unfold read_double. onl. Qed.
Lemma only_float : only [EStruct] read_float. Proof. unfold read_float. onl. Qed.
Lemma only_header K : only K read_header. Proof. unfold read_header. onl. Qed.
#[local] Hint Resolve only_version only_double only_float only_header : only.
Lemma only_ctx so : only [EGeneric; EUnicode] (read_ctx so). Proof. unfold read_ctx. onl. Qed.
#[local] Hint Resolve only_ctx : only.
Lemma sum_kinds K l : Forall (only_r K) l -> only_r K (sum_res l).
Proof.
  induction 1 as [|x t H _ IH]; intros e E; [discriminate E|]. cbn [sum_res] in E. unfold bind in E.
  destruct x as [a|y]; [|injection E as <-; apply H; reflexivity].
  destruct (sum_res t) as [b|y]; [discriminate E|]. injection E as <-. apply IH. reflexivity.
Qed.
Lemma str_size_kinds x : only_r [EUnicode] (str_size x).
Proof. unfold str_size, utf8_len. apply only_rmap, only_rmap, encode_unicode. Qed.
Lemma ok_kinds A K (a : A) : only_r K (Ok a). Proof. intros e E. discriminate E. Qed.
Lemma map_kinds A B K (f : A -> res B) l : (forall a, only_r K (f a)) -> Forall (only_r K) (map f l).
Proof. intros H. induction l; constructor; auto. Qed.
Lemma ctx_size_kinds c : only_r [EUnicode] (ctx_size c).
Proof.
  unfold ctx_size, string_to_string_dict_size, string_to_string_collection_dict_size.
  repeat first [apply sum_kinds | apply str_size_kinds | apply ok_kinds | apply Forall_nil | apply Forall_cons | apply map_kinds; intros ?].
Qed.
Lemma only_outbound so q o h : only [EGeneric; EUnicode] (read_outbound so q o h).
Proof.
  unfold read_outbound. onl; apply only_lift.
  - intros e E. right. exact (ctx_size_kinds _ _ E).
  - unfold read_variable. apply only_rmap. intros e E.
    assert (G : only [EGeneric; EUnicode] (f <~ read_string_array ;; b <~ read_string ;; rret (f, b))) by onl. exact (G _ _ E).
Qed.
#[local] Hint Resolve only_outbound : only.

(** protobuf *)
Lemma bind_kinds A B K (x : res A) (k : A -> res B) : only_r K x -> (forall a, only_r K (k a)) -> only_r K (bind x k).
Proof. intros H G e E. destruct x as [a|y]; [exact (G _ _ E)|]. injection E as <-. apply H. reflexivity. Qed.
Lemma proto_err A : only_r [EProto] (@Raise A EProto). Proof. intros e E. injection E as <-. left. reflexivity. Qed.
Lemma match_kinds A B C K (x : res (A * B)) (k : A -> B -> res C) : only_r K x -> (forall a b, only_r K (k a b)) ->
  only_r K (match x with Ok (a, b) => k a b | Raise e => Raise e end).
Proof. intros H G e E. destruct x as [[a b]|y]; [exact (G _ _ _ E)|]. injection E as <-. apply H. reflexivity. Qed.
Lemma varint_kinds n : forall a b s, only_r [EProto] (pb_read_varint n a b s).
Proof.
  induction n as [|n IH]; intros a b s; cbn [pb_read_varint]; [apply proto_err|]. destruct s as [|x t]; [apply proto_err|].
  cbv zeta. destruct (_ <? 128); [apply ok_kinds|apply IH].
Qed.
Lemma take_kinds n s : only_r [EProto] (pb_take n s).
Proof. unfold pb_take. destruct (_ <? _); [apply proto_err|apply ok_kinds]. Qed.
Lemma field_kinds s : only_r [EProto] (pb_read_field s).
Proof.
  unfold pb_read_field, pb_read_tag, pb_read_size.
  repeat first [apply match_kinds; [|intros ? ?] | progress (cbv zeta) | apply varint_kinds | apply take_kinds | apply proto_err | apply ok_kinds
               | match goal with |- only_r _ (if ?c then _ else _) => destruct c end].
Qed.
Lemma fields_kinds n : forall s, only_r [EProto] (pb_fields n s).
Proof.
  induction n as [|n IH]; intros [|b s]; cbn [pb_fields]; try apply ok_kinds; [apply proto_err|].
  apply match_kinds; [apply field_kinds|intros x s']. apply only_rmap, IH.
Qed.
Lemma pb_str_kinds b : only_r [EProto] (pb_str b).
Proof. unfold pb_str. destruct (utf8_decode b); [apply ok_kinds|apply proto_err]. Qed.
Lemma identity_kinds fs : forall u, only_r [EProto] (merge_identity u fs).
Proof.
  induction fs as [|[n v] t IH]; intros u; cbn [merge_identity]; [apply ok_kinds|]. destruct v; try apply IH.
  destruct (n =? 1); [|apply IH]. apply bind_kinds; [apply pb_str_kinds|intros a; apply IH].
Qed.
Lemma ext_request_kinds b : only_r [EProto] (parse_ext_request b).
Proof.
  unfold parse_ext_request, pb_parse. apply bind_kinds; [apply fields_kinds|intros fs]. generalize (mkER None 0).
  induction fs as [|[n v] t IH]; intros m; cbn [merge_ext_request]; [apply ok_kinds|].
  destruct v; try apply IH; destruct (_ =? _); try apply IH.
  apply bind_kinds; [apply fields_kinds|intros g]. apply bind_kinds; [apply identity_kinds|intros u; apply IH].
Qed.
Lemma rest_actions_kinds b : only_r [EProto] (parse_rest_actions b).
Proof.
  unfold parse_rest_actions, pb_parse. apply bind_kinds; [apply fields_kinds|intros fs]. generalize (mkRRA None [] []).
  induction fs as [|[n v] t IH]; intros m; cbn [merge_rest_actions]; [apply ok_kinds|].
  destruct v; try apply IH.
  repeat match goal with |- only_r _ (if ?c then _ else _) => destruct c end; try apply IH.
  - apply bind_kinds; [apply fields_kinds|intros g]. apply bind_kinds; [apply identity_kinds|intros u; apply IH].
  - apply bind_kinds; [apply pb_str_kinds|intros u; apply IH].
  - apply bind_kinds; [apply pb_str_kinds|intros u; apply IH].
Qed.
Lemma lift_kinds A K K' (x : res A) : only_r K x -> incl K K' -> only K' (rlift x).
Proof. intros H I. apply (only_weak _ K); [apply only_lift, H|exact I]. Qed.
Lemma only_ext K : In EProto K -> forall b, only K (rlift (parse_ext_request b)).
Proof. intros H b. apply (lift_kinds _ [EProto]); [apply ext_request_kinds|]. intros e [<-|[]]. exact H. Qed.
Lemma only_rra K : In EProto K -> forall b, only K (rlift (parse_rest_actions b)).
Proof. intros H b. apply (lift_kinds _ [EProto]); [apply rest_actions_kinds|]. intros e [<-|[]]. exact H. Qed.

(** messages and their parts *)
Lemma only_task : only [EGeneric; EUnicode] read_task. Proof. unfold read_task. onl. destruct a; onl. Qed.
#[local] Hint Resolve only_task : only.
Lemma only_transport : only [EGeneric; EUnicode] read_transport_request. Proof. apply only_task. Qed.
Lemma only_addr : only [EGeneric; EUnicode; EValue] read_addr. Proof. unfold read_addr. onl. Qed.
Lemma only_role : only [EGeneric; EUnicode] read_role. Proof. unfold read_role. onl. Qed.
Lemma only_dep : only [EGeneric; EUnicode] read_dep. Proof. unfold read_dep. onl. Qed.
#[local] Hint Resolve only_transport only_addr only_role only_dep : only.
Lemma only_node : only [EGeneric; EUnicode; EValue] read_node. Proof. unfold read_node. onl. Qed.
#[local] Hint Resolve only_node : only.
Lemma only_ext_node : only [EGeneric; EUnicode; EValue] read_ext_node. Proof. unfold read_ext_node. onl. Qed.
#[local] Hint Resolve only_ext_node : only.
Lemma only_settings f d : only [EGeneric; EUnicode; ERecursion] (fun s =>
    match read_settings f d s with (Ok s', d') => Ok (d', s') | (Raise e, _) => Raise e end).
Proof.
  assert (L : forall n d s e d', read_settings_loop f n d s = (Raise e, d') -> In e [EGeneric; EUnicode; ERecursion]).
  { induction n as [|n IH]; intros d0 s e d' E; [discriminate E|]. cbn [read_settings_loop] in E.
    assert (G : only [EGeneric; EUnicode; ERecursion] (key <~ read_string ;; v <~ read_generic_value f ;; rret (key, v))) by onl.
    destruct ((key <~ read_string ;; v <~ read_generic_value f ;; rret (key, v)) s) as [[[k v] s']|x] eqn:R; [exact (IH _ _ _ _ E)|].
    apply pair_equal_spec in E as [E _]. injection E as <-. exact (G _ _ R). }
  intros s e E. unfold read_settings in E. destruct (read_v_int s) as [[n s']|x] eqn:R.
  - destruct (read_settings_loop f (Z.to_nat n) d s') as [[?|y] d'] eqn:Q; [discriminate E|]. injection E as <-. exact (L _ _ _ _ _ Q).
  - injection E as <-. left. destruct (only_v_int _ _ R) as [H|[]]. exact H.
Qed.

(** ** Reading.  [Exception]: a byte that is no boolean, a number too long, a size over 2^31, an
    unsupported type of value, an address that is not IPv4; [UnicodeDecodeError]: text that is not
    UTF-8; [ValueError]: no member of an enumeration, an address over 127.255.255.255;
    [struct.error]: too few bytes for a float; [DecodeError]: not a protobuf message;
    [RecursionError]: values nested too deeply.  Numbers of a fixed width, bytes and headers are
    always read. *)
Definition reads_anything {A} (r : reader A) : Prop := only [] r.
Theorem C92_readers : forall f so d q o h,
  reads_anything read_byte /\ reads_anything read_short /\ reads_anything read_int /\ reads_anything read_long /\
  (forall n, reads_anything (read_bytes n)) /\ reads_anything read_header /\
  only [EGeneric] read_boolean /\ only [EGeneric] read_optional_boolean /\
  only [EGeneric] read_v_int /\ only [EGeneric] read_v_long /\ only [EGeneric] read_z_long /\
  only [EGeneric] read_optional_int /\ only [EGeneric] read_optional_long /\ only [EGeneric] read_optional_v_long /\
  only [EGeneric] read_array_size /\ only [EGeneric] read_byte_array /\ only [EGeneric] read_version /\
  only [EStruct] read_float /\ only [EStruct] read_double /\
  only [EGeneric; EUnicode] read_string /\ only [EGeneric; EUnicode] read_optional_string /\
  only [EGeneric; EUnicode] read_string_array /\ only [EGeneric; EUnicode] read_optional_string_array /\
  only [EGeneric; EUnicode] read_string_to_string_dict /\ only [EGeneric; EUnicode] read_string_to_string_array_dict /\
  only [EGeneric; EUnicode] (read_string_to_string_set_dict so) /\
  only [EGeneric; EUnicode; ERecursion] (read_generic_value f) /\
  only [EGeneric; EUnicode; ERecursion] (fun s =>
    match read_settings f d s with (Ok s', d') => Ok (d', s') | (Raise e, _) => Raise e end) /\
  (forall n, only [EGeneric; EValue] (read_enum n)) /\
  only [EGeneric; EValue] read_time_value /\ only [EGeneric; EValue] read_bsv /\
  only [EGeneric; EUnicode] (read_ctx so) /\ only [EGeneric; EUnicode] (read_outbound so q o h).
Proof.
  intros. repeat match goal with |- _ /\ _ => split end; try solve [auto with only]; try (intros n; auto with only);
    try solve [unfold reads_anything; auto with only]; try apply only_settings;
    unfold read_optional_int, read_optional_long, read_optional_v_long, read_optional_string, read_optional_string_array,
      read_time_value, read_bsv; onl.
Qed.
Print Assumptions C92_readers.

Theorem C92_messages : forall so,
  only [EGeneric; EUnicode] read_transport_request /\ only [EGeneric] read_ack /\
  only [EGeneric; EUnicode; EValue] read_addr /\ only [EGeneric; EUnicode; EValue] read_node /\
  only [EGeneric; EUnicode] read_dep /\ only [EGeneric; EUnicode; EValue] read_ext_node /\
  only [EGeneric; EUnicode; EValue] read_init_request /\ only [EGeneric; EUnicode] read_init_response /\
  only [EGeneric; EUnicode; EValue] read_handshake_response /\
  only [EGeneric; EUnicode] read_tcp_handshake_request /\ only [EGeneric] read_tcp_handshake_response /\
  only [EGeneric; EUnicode; EProto] read_ext_transport_request /\ only [EGeneric; EUnicode; EProto] read_register_request /\
  only [EGeneric; EUnicode; EValue] read_rest_request /\ only [EGeneric; EUnicode; EValue] (read_rest_response so) /\
  only [EGeneric; EUnicode; EValue] read_exec_response /\
  only [EGeneric; EUnicode] read_integer_parser /\ only [EGeneric; EUnicode] read_long_parser /\
  only [EGeneric; EUnicode; EStruct] read_double_parser /\ only [EGeneric; EUnicode; EStruct] read_single_parser /\
  only [EGeneric; EUnicode; EValue] read_bs_parser /\ only [EGeneric; EUnicode; EValue] read_tv_parser /\
  only [EGeneric; EUnicode] read_validator.
Proof.
  intros. assert (only [EGeneric; EValue] read_time_value) by (unfold read_time_value; onl).
  assert (only [EGeneric; EValue] read_bsv) by (unfold read_bsv; onl).
  repeat match goal with |- _ /\ _ => split end; try solve [auto with only];
    unfold read_ack, read_init_request, read_init_response, read_handshake_response, read_tcp_handshake_request,
      read_tcp_handshake_response, read_ext_transport_request, read_register_request, read_rest_request, read_rest_response,
      read_exec_response, read_integer_parser, read_long_parser, read_double_parser, read_single_parser, read_bs_parser,
      read_tv_parser, read_validator; onl; try (apply only_ext; mem); try (apply only_rra; mem).
Qed.
Print Assumptions C92_messages.

(** ** Writing *)
Lemma kinds_weak A K K' (x : res A) : only_r K x -> incl K K' -> only_r K' x.
Proof. intros H I e E. apply I, H, E. Qed.
Lemma wcat_kinds K l : Forall (only_r K) l -> only_r K (wcat l).
Proof.
  induction 1 as [|x t H _ IH]; intros e E; [discriminate E|]. cbn [wcat] in E. unfold bind in E.
  destruct x as [a|y]; [|injection E as <-; apply H; reflexivity].
  destruct (wcat t) as [b|y]; [discriminate E|]. injection E as <-. apply IH. reflexivity.
Qed.
Lemma fixed_kinds n i : only_r [EOverflow] (to_bytes_signed n i).
Proof. unfold to_bytes_signed. cbv zeta. destruct (_ && _); [apply ok_kinds|]. intros e E. injection E as <-. left. reflexivity. Qed.
Lemma byte_kinds i : only_r [EOverflow] (write_byte i). Proof. apply fixed_kinds. Qed.
Lemma int_kinds i : only_r [EOverflow] (write_int i). Proof. apply fixed_kinds. Qed.
Lemma long_kinds i : only_r [EOverflow] (write_long i). Proof. apply fixed_kinds. Qed.
Lemma size_kinds K i : 0 <= i -> only_r K (write_v_int i).
Proof. intros H. destruct (write_v_int_total i H) as [bs ->]. apply ok_kinds. Qed.
Lemma zlen_kinds A K (l : list A) : only_r K (write_v_int (zlen l)). Proof. apply size_kinds, zlen_nonneg. Qed.
Lemma v_int_kinds i : only_r [EOverflow] (write_v_int i).
Proof.
  destruct (Z.le_gt_cases 0 i) as [H|H]; [apply size_kinds, H|]. unfold write_v_int. replace (i <? 128) with true by lia. apply byte_kinds.
Qed.
Lemma z_long_kinds i : only_r [EValue] (write_z_long i).
Proof.
  unfold write_z_long. cbv zeta. destruct (0 <? _); [intros e E; injection E as <-; left; reflexivity|].
  apply size_kinds. destruct (i <? 0); lia.
Qed.
Lemma boolean_kinds K b : only_r K (write_boolean b).
Proof. intros e E. destruct b; vm_compute in E; discriminate E. Qed.
Lemma string_kinds x : only_r [EUnicode] (write_string x).
Proof.
  unfold write_string. apply bind_kinds; [apply encode_unicode|intros e]. apply wcat_kinds. constructor; [apply zlen_kinds|]. constructor; [|constructor].
  destruct (0 <? _); apply ok_kinds.
Qed.
Create HintDb kinds.
#[local] Hint Resolve ok_kinds byte_kinds int_kinds long_kinds zlen_kinds v_int_kinds z_long_kinds boolean_kinds string_kinds encode_unicode : kinds.
Ltac wk :=
  repeat first
    [ progress (cbv zeta)
    | solve [auto with kinds]
    | solve [eapply kinds_weak; [solve [eauto with kinds nocore]|sub]]
    | apply wcat_kinds
    | apply Forall_nil | apply Forall_cons
    | apply map_kinds; intros ?
    | apply bind_kinds; [|intros ?]
    | match goal with
      | |- only_r _ (if ?c then _ else _) => destruct c
      | |- only_r _ (match ?c with [] => _ | _ :: _ => _ end) => destruct c
      | |- only_r _ (match ?c with Some _ => _ | None => _ end) => destruct c
      | |- only_r _ (Raise _) => intros ? E; injection E as <-; mem
      end ].
Lemma string_array_kinds a : only_r [EUnicode] (write_string_array a). Proof. unfold write_string_array. wk. Qed.
Lemma string_set_kinds a : only_r [EUnicode] (write_string_set a). Proof. unfold write_string_set. wk. Qed.
#[local] Hint Resolve string_array_kinds string_set_kinds : kinds.
Lemma ssd_kinds d : only_r [EUnicode] (write_string_to_string_dict d). Proof. unfold write_string_to_string_dict. wk. Qed.
Lemma ssad_kinds d : only_r [EUnicode] (write_string_to_string_array_dict d). Proof. unfold write_string_to_string_array_dict. wk. Qed.
Lemma sssd_kinds d : only_r [EUnicode] (write_string_to_string_set_dict d). Proof. unfold write_string_to_string_set_dict. wk. Qed.
#[local] Hint Resolve ssd_kinds ssad_kinds sssd_kinds : kinds.
Lemma byte_array_kinds K b : only_r K (write_byte_array b). Proof. unfold write_byte_array. wk. Qed.
#[local] Hint Resolve byte_array_kinds : kinds.
Lemma generic_kinds v : only_r [EOverflow; EUnicode] (write_generic_value v).
Proof.
  induction v as [| | | | |l IH|] using pyval_ind'; cbn [write_generic_value]; [wk..| |wk].
  apply wcat_kinds. constructor; [wk|]. constructor; [|constructor]. apply wcat_kinds. constructor; [wk|].
  induction IH; cbn [map]; constructor; assumption.
Qed.
#[local] Hint Resolve generic_kinds : kinds.
Lemma float_kinds x : only_r [EOverflow] (write_float x).
Proof. unfold write_float, f64_to_f32. wk. Qed.
Lemma double_kinds K x : only_r K (write_double x). Proof. apply ok_kinds. Qed.
Lemma version_kinds v : only_r [EOverflow] (write_version v). Proof. apply v_int_kinds. Qed.
Lemma enum_kinds v : only_r [EOverflow] (write_enum v). Proof. apply v_int_kinds. Qed.
Lemma opt_enum_kinds v : only_r [EOverflow; EAttr] (write_opt_enum v). Proof. unfold write_opt_enum, write_enum. wk. Qed.
#[local] Hint Resolve float_kinds double_kinds version_kinds enum_kinds opt_enum_kinds : kinds.
Lemma task_kinds t : only_r [EOverflow; EUnicode; EAttr] (write_task t). Proof. unfold write_task, write_opt_long. wk. Qed.
Lemma transport_kinds t : only_r [EOverflow; EUnicode; EAttr] (write_transport_request t). Proof. apply task_kinds. Qed.
Lemma addr_kinds a : only_r [EOverflow; EUnicode] (write_addr a). Proof. unfold write_addr. wk. Qed.
Lemma role_kinds a : only_r [EUnicode] (write_role a). Proof. unfold write_role. wk. Qed.
Lemma dep_kinds a : only_r [EOverflow; EUnicode] (write_dep a). Proof. unfold write_dep. wk. Qed.
#[local] Hint Resolve task_kinds transport_kinds addr_kinds role_kinds dep_kinds : kinds.
Lemma node_kinds n : only_r [EOverflow; EUnicode] (write_node n). Proof. unfold write_node. wk. Qed.
#[local] Hint Resolve node_kinds : kinds.
Lemma ext_node_kinds n : only_r [EOverflow; EUnicode] (write_ext_node n). Proof. unfold write_ext_node. wk. Qed.
#[local] Hint Resolve ext_node_kinds : kinds.
Lemma header_kinds h : only_r [EOverflow; EType; EValue] (write_header h).
Proof. unfold write_header. wk. unfold hver_bytes, version_to_bytes, to_bytes_unsigned, bytes_of_int. destruct (h_version h); wk. Qed.
Lemma ctx_kinds c : only_r [EUnicode] (write_ctx c). Proof. unfold write_ctx. wk. Qed.
#[local] Hint Resolve header_kinds ctx_kinds : kinds.
Lemma mem_only A K (w : A -> res bytes) : (forall a, only_r K (w a)) -> only_w K w.
Proof. intros H a. apply H. Qed.
(** [OverflowError]: a number too big for its field; [UnicodeEncodeError]: text with a lone
    surrogate; [ValueError]: a zLong over 63 bits, a negative version; [TypeError]: no version;
    [AttributeError]: a missing id, method, status or version.  Booleans and bytes are always
    written. *)
Theorem C92_writers :
  only_w [EOverflow] write_byte /\ only_w [EOverflow] write_int /\ only_w [EOverflow] write_long /\
  only_w [EOverflow] write_v_int /\ only_w [EOverflow] write_v_long /\ only_w [EValue] write_z_long /\
  only_w [] write_boolean /\ only_w [] write_byte_array /\ only_w [] write_double /\ only_w [EOverflow] write_float /\
  only_w [EUnicode] write_string /\ only_w [EUnicode] write_string_array /\ only_w [EUnicode] write_string_set /\
  only_w [EUnicode] write_string_to_string_dict /\ only_w [EUnicode] write_string_to_string_array_dict /\
  only_w [EUnicode] write_string_to_string_set_dict /\
  only_w [EOverflow; EUnicode] write_generic_value /\ only_w [EOverflow; EUnicode] write_settings /\
  only_w [EOverflow] write_version /\ only_w [EOverflow] write_enum /\
  only_w [EValue; EOverflow] write_time_value /\ only_w [EValue; EOverflow] write_bsv /\
  only_w [EOverflow; EType; EValue] write_header /\ only_w [EUnicode] write_ctx /\
  only_w [EOverflow; EType; EValue; EUnicode] write_outbound /\
  only_w [EOverflow; EUnicode; EAttr] write_transport_request /\ only_w [] write_ack /\
  only_w [EOverflow; EUnicode] write_addr /\ only_w [EOverflow; EUnicode] write_node /\ only_w [EOverflow; EUnicode] write_dep /\
  only_w [EOverflow; EUnicode] write_ext_node /\ only_w [EOverflow; EUnicode; EAttr] write_init_request /\
  only_w [EUnicode] write_init_response /\ only_w [EOverflow; EUnicode] write_handshake_response /\
  only_w [EOverflow; EUnicode; EAttr] write_tcp_handshake_request /\ only_w [EOverflow; EAttr] write_tcp_handshake_response /\
  only_w [EOverflow; EUnicode; EAttr] write_ext_transport_request /\ only_w [EOverflow; EUnicode; EAttr] write_register_request /\
  only_w [EOverflow; EUnicode; EAttr] write_rest_request /\ only_w [EOverflow; EUnicode; EAttr] write_rest_response /\
  only_w [EOverflow; EUnicode; EAttr] write_exec_response /\
  only_w [EOverflow; EUnicode] write_integer_parser /\ only_w [EOverflow; EUnicode] write_long_parser /\
  only_w [EUnicode] write_double_parser /\ only_w [EOverflow; EUnicode] write_single_parser /\
  only_w [EOverflow; EUnicode; EValue] write_bs_parser /\ only_w [EOverflow; EUnicode; EValue] write_tv_parser /\
  only_w [EUnicode] write_validator.
Proof.
  assert (forall v, only_r [EValue; EOverflow] (write_time_value v)) by (intros; unfold write_time_value; wk).
  assert (forall v, only_r [EValue; EOverflow] (write_bsv v)) by (intros; unfold write_bsv; wk).
  assert (forall v, only_r [EOverflow] (write_v_int (version_size v))) by (intros; apply v_int_kinds).
  repeat match goal with |- _ /\ _ => split end; apply mem_only; intros a; try solve [auto with kinds];
    unfold write_v_long, write_ack, write_settings, write_outbound, write_time_value, write_bsv, write_init_request, write_init_response,
      write_handshake_response, write_tcp_handshake_request, write_tcp_handshake_response, write_ext_transport_request, ser_ext_request,
      write_register_request, ser_rest_actions, ser_strings, write_rest_request, write_rest_response, write_exec_response,
      write_integer_parser, write_long_parser, write_double_parser, write_single_parser, write_bs_parser, write_tv_parser,
      write_validator; wk.
Qed.
Print Assumptions C92_writers.

(** exactly what is missing *)
Lemma wcat_in l x b : In x l -> wcat l = Ok b -> exists y, x = Ok y.
Proof.
  destruct x as [y|e]; [eauto|]. intros I H. apply MsgFacts.wcat_raise_in in I as [e' I]. congruence.
Qed.
Lemma wcat_raise l e : wcat l = Raise e -> exists x, In x l /\ x = Raise e.
Proof.
  induction l as [|x t IH]; [discriminate|]. cbn [wcat]. unfold bind. intros H.
  destruct x as [a|y]; [|exists (Raise y); split; [left; reflexivity|congruence]].
  destruct (wcat t) as [b|y]; [discriminate H|]. destruct IH as (z & I & E); [congruence|]. exists z. split; [right; exact I|exact E].
Qed.
Lemma not_kind A K e (x : res A) : only_r K x -> ~ In e K -> x <> Raise e.
Proof. intros H N E. apply N, H, E. Qed.
Ltac nope := let E := fresh in intros E; exfalso; revert E;
  first [ discriminate
        | apply (not_kind _ []); [solve [auto with kinds nocore]|intros []]
        | eapply not_kind; [solve [eauto with kinds nocore]|cbn [In]; intuition discriminate] ].
Lemma missing_task t : write_task t = Raise EAttr <-> t_node t <> [] /\ t_id t = None /\ Forall scalar (t_node t).
Proof.
  split.
  - unfold write_task. cbn [wcat]. unfold bind. destruct (write_string (t_node t)) as [b|e] eqn:E.
    + destruct (t_node t) as [|c n] eqn:N; [discriminate|]. unfold write_opt_long. destruct (t_id t) as [i|].
      * intros H. exfalso. destruct (write_long i) as [x|e] eqn:L; [discriminate|]. apply long_kinds in L as [<-|[]]. discriminate.
      * intros _. split; [discriminate|]. split; [reflexivity|]. apply scalar_text.
        unfold write_string in E. destruct (utf8_encode (c :: n)) as [y|] eqn:U; [|discriminate]. exists y. apply is_utf8_encode, U.
    + intros H. injection H as ->. apply string_kinds in E as [E|[]]. discriminate.
  - intros (N & I & S). unfold write_task. cbn [wcat]. unfold bind. apply scalar_text in S as [y U]. apply is_utf8_encode in U.
    destruct (write_string (t_node t)) as [b|e] eqn:E.
    + destruct (t_node t); [contradiction|]. rewrite I. reflexivity.
    + exfalso. unfold write_string in E. rewrite U in E. cbn [bind wcat] in E. destruct (write_v_int_total (zlen y) (zlen_nonneg _ y)) as [v V].
      rewrite V in E. cbn [bind] in E. destruct (0 <? zlen y); discriminate.
Qed.
Theorem C92_missing :
  (* a task with a node but without an id *)
  (forall t, write_transport_request t = Raise EAttr <-> t_node t <> [] /\ t_id t = None /\ Forall scalar (t_node t)) /\
  (* a response without a version, without a status *)
  (forall v, write_tcp_handshake_response v = Raise EAttr <-> v = None) /\
  (forall r, write_rest_response r = Raise EAttr <-> rp_status r = None) /\
  (forall r, write_exec_response r = Raise EAttr <-> ex_status r = None) /\
  (* a REST request without a method, a version of HTTP or the id of its task *)
  (forall r, write_rest_request r = Raise EAttr ->
     rq_method r = None \/ rq_http r = None \/ (t_node (rq_task r) <> [] /\ t_id (rq_task r) = None)) /\
  (forall r bs, write_rest_request r = Ok bs ->
     rq_method r <> None /\ rq_http r <> None /\ (t_node (rq_task r) <> [] -> t_id (rq_task r) <> None)) /\
  (* the other requests: without the id of their task *)
  (let missing t := t_node t <> [] /\ t_id t = None /\ Forall scalar (t_node t) in
   (forall r, write_init_request r = Raise EAttr <-> missing (ir_task r)) /\
   (forall r, write_tcp_handshake_request r = Raise EAttr <-> missing (tr_task r)) /\
   (forall r, write_ext_transport_request r = Raise EAttr <-> missing (etr_task r)) /\
   (forall r, write_register_request r = Raise EAttr <-> missing (rrr_task r))) /\
  (* a header without a version *)
  (forall h, write_header h = Raise EType <->
     h_version h = HNone /\ - 2 ^ 31 <= h_size h < 2 ^ 31 /\ - 2 ^ 63 <= h_id h < 2 ^ 63 /\ - 2 ^ 7 <= h_status h < 2 ^ 7).
Proof.
  split; [exact missing_task|]. split; [|split; [|split; [|split; [|split; [|split]]]]].
  - intros [v|]; cbn [write_tcp_handshake_response]; [split; [nope|discriminate]|split; reflexivity].
  - intros r. split.
    + intros H. apply wcat_raise in H as (x & I & E). cbn [In] in I.
      destruct (rp_status r) as [v|]; [|reflexivity]. exfalso. unfold write_opt_enum in I.
      repeat (destruct I as [<-|I]; [revert E; nope|]). exact I.
    + intros H. unfold write_rest_response. rewrite H. reflexivity.
  - intros r. split.
    + intros H. apply wcat_raise in H as (x & I & E). cbn [In] in I.
      destruct (ex_status r) as [v|]; [|reflexivity]. exfalso. unfold write_opt_enum in I.
      repeat (destruct I as [<-|I]; [revert E; nope|]). exact I.
    + intros H. unfold write_exec_response. rewrite H. reflexivity.
  - intros r H. apply wcat_raise in H as (x & I & E). cbn [In] in I.
    destruct (rq_method r) as [m|]; [|left; reflexivity]. destruct (rq_http r) as [v|]; [|right; left; reflexivity]. right. right.
    unfold write_opt_enum in I. destruct I as [<-|I]; [apply missing_task in E; tauto|]. exfalso.
    repeat (destruct I as [<-|I]; [revert E; try nope|]); [|exact I]. destruct (rq_media r); nope.
  - intros r bs H. split; [|split].
    + intros E. destruct (fun I => wcat_in _ (write_opt_enum (rq_method r)) bs I H) as [x Q]; [cbn [In]; auto 20|]. rewrite E in Q. discriminate.
    + intros E. destruct (fun I => wcat_in _ (write_opt_enum (rq_http r)) bs I H) as [x Q]; [cbn [In]; auto 20|]. rewrite E in Q. discriminate.
    + intros N E. destruct (fun I => wcat_in _ (write_transport_request (rq_task r)) bs I H) as [x Q]; [cbn [In]; auto 20|].
      unfold write_transport_request, write_task in Q. rewrite E in Q. destruct (t_node (rq_task r)) as [|c t]; [congruence|].
      destruct (fun I => wcat_in _ (Raise EAttr) x I Q) as [y Z]; [cbn [In]; auto 20|discriminate].
  - cbv zeta. split; [|split; [|split]]; intros r; (split;
      [intros H; apply wcat_raise in H as (x & I & E); cbn [In] in I;
       destruct I as [<-|I]; [apply missing_task; exact E|exfalso];
       repeat (destruct I as [<-|I]; [revert E; try nope|]); try exact I
      |intros H; apply missing_task in H; match goal with |- ?f r = _ => unfold f end; unfold write_transport_request in *; rewrite H; reflexivity]).
    + destruct (tr_version r) as [v|]; [|discriminate]. intros E. apply wcat_raise in E as (x & I & E). cbn [In] in I.
      destruct I as [<-|[<-|[]]]; revert E; nope.
    + apply (not_kind _ [EOverflow; EUnicode]); [unfold ser_ext_request; wk|cbn [In]; intuition discriminate].
    + apply (not_kind _ [EOverflow; EUnicode]); [unfold ser_rest_actions, ser_strings; wk|cbn [In]; intuition discriminate].
  - intros h. unfold write_header. cbn [wcat]. unfold bind, write_int, write_long, write_byte, to_bytes_signed.
    change (8 * Z.of_nat 4 - 1) with 31. change (8 * Z.of_nat 8 - 1) with 63. change (8 * Z.of_nat 1 - 1) with 7. cbv zeta.
    destruct ((- 2 ^ 31 <=? h_size h) && (h_size h <? 2 ^ 31)) eqn:A; [|split; [discriminate|intros (_ & B & _); lia]].
    destruct ((- 2 ^ 63 <=? h_id h) && (h_id h <? 2 ^ 63)) eqn:B; [|split; [discriminate|intros (_ & _ & C & _); lia]].
    destruct ((- 2 ^ 7 <=? h_status h) && (h_status h <? 2 ^ 7)) eqn:C; [|split; [discriminate|intros (_ & _ & _ & D); lia]].
    destruct (h_version h) as [v|n|]; cbn [hver_bytes].
    + split; [|intros [D _]; discriminate]. intros D. exfalso. unfold version_to_bytes, to_bytes_unsigned in D.
      repeat match type of D with context [if ?c then _ else _] => destruct c end; discriminate.
    + split; [|intros [D _]; discriminate]. intros D. exfalso. unfold bytes_of_int in D.
      repeat match type of D with context [if ?c then _ else _] => destruct c end; discriminate.
    + split; [intros _|reflexivity]. split; [reflexivity|]. lia.
Qed.
Print Assumptions C92_missing.

(** ** Settings: a value that is not understood or not allowed is a [ValueError], a regular
    expression that does not compile is a [re.error]; booleans never fail *)
Lemma py_int_kinds {rt : runtime} x : only_r [EValue] (py_int x).
Proof. intros e H. left. symmetry. exact (py_int_raise _ _ H). Qed.
Lemma quantity_kinds {rt : runtime} x : only_r [EValue] (split_quantity x).
Proof. intros e H. left. symmetry. exact (split_raise _ _ H). Qed.
#[local] Hint Resolve py_int_kinds quantity_kinds : kinds.
Lemma validate_kinds rm v x : only_r [EValue; ERegex] (validate rm v x).
Proof. unfold validate. wk. Qed.
#[local] Hint Resolve validate_kinds : kinds.
(** building the setting and, if it could be built, getting its value *)
Definition setting_only {A P} (kinds : list exn) (made : res (setting A * P)) : Prop :=
  only_r kinds made /\ forall st p rp d e, made = Ok (st, p) -> setting_get rp st d = Raise e -> In e kinds.
Lemma get_kinds A K rp (st : setting A) d :
  (forall x, only_r K (s_parse st x)) -> (forall f x, s_validate st = Some f -> only_r K (f x)) -> only_r K (setting_get rp st d).
Proof.
  intros H V. unfold setting_get. destruct (settings_get _ _ _ _) as [[|c t]|]; try apply H.
  apply bind_kinds; [|intros _; apply H]. destruct (s_validate st) as [f|] eqn:E; [apply V; reflexivity|apply ok_kinds].
Qed.
Lemma bind_ok A B (x : res A) (k : A -> res B) b : bind x k = Ok b -> exists a, x = Ok a /\ k a = Ok b.
Proof. destruct x as [a|e]; [|discriminate]. intros H. exists a. auto. Qed.
Theorem C92_settings : forall (rt : runtime) key props,
  (forall default lo hi, setting_only [EValue] (new_integer_setting key default lo hi props)) /\
  (forall default lo hi, setting_only [EValue] (new_long_setting key default lo hi props)) /\
  (forall default lo hi, setting_only [EValue] (new_byte_size_setting key default lo hi props)) /\
  (forall default lo hi, setting_only [EValue] (new_time_setting key default lo hi props)) /\
  (forall default rp d e, setting_get rp (new_version_setting key default props) d = Raise e -> e = EValue) /\
  (forall default rp d e, setting_get rp (new_boolean_setting key default props) d <> Raise e) /\
  (* a regular expression that compiles leaves only ValueError *)
  (forall rm v default, (forall x, rm (rv_regex v) x <> None) ->
     only_r [EValue] (new_string_setting rm key default (Some v) props) /\
     forall st rp d e, new_string_setting rm key default (Some v) props = Ok st -> setting_get rp st d = Raise e -> e = EValue) /\
  (forall rm v default, (forall x, rm (rv_regex v) x = None) -> new_string_setting rm key default (Some v) props = Raise ERegex) /\
  (* what float() raises is a ValueError too *)
  (forall fo default lo hi, (forall x e, fo_parse fo x = Raise e -> e = EValue) ->
     setting_only [EValue] (new_double_setting fo key default lo hi props) /\
     setting_only [EValue] (new_single_setting fo key default lo hi props)).
Proof.
  intros rt key props.
  assert (V : forall (A : Type) K (o : option (A -> res unit)) f x, o = None -> o = Some f -> only_r K (f x)) by (intros; congruence).
  split; [|split; [|split; [|split; [|split; [|split; [|split; [|split]]]]]]].
  - intros. split; [unfold new_integer_setting, new_int_setting, new_int_parser, int_bounds_check; wk|].
    intros st p rp d e M. revert e. apply bind_ok in M as (q & _ & M). apply bind_ok in M as (z & _ & M). apply Ok_inj, pair_equal_spec in M as [<- _].
    apply get_kinds; cbn [s_parse s_validate]; [|discriminate]. intros x. unfold int_parse, int_bounds_check. wk.
  - intros. split; [unfold new_long_setting, new_int_setting, new_int_parser, int_bounds_check; wk|].
    intros st p rp d e M. revert e. apply bind_ok in M as (q & _ & M). apply bind_ok in M as (z & _ & M). apply Ok_inj, pair_equal_spec in M as [<- _].
    apply get_kinds; cbn [s_parse s_validate]; [|discriminate]. intros x. unfold int_parse, int_bounds_check. wk.
  - intros. split; [unfold new_byte_size_setting, new_bs_parser, bs_bounds_check; wk|].
    intros st p rp d e M. revert e. apply bind_ok in M as (q & _ & M). apply bind_ok in M as (z & _ & M). apply Ok_inj, pair_equal_spec in M as [<- _].
    apply get_kinds; cbn [s_parse s_validate]; [|discriminate]. intros x. unfold bs_parse, bsv_parse, bs_bounds_check. wk.
  - intros. split; [unfold new_time_setting, new_tv_parser, tv_bounds_check; wk|].
    intros st p rp d e M. revert e. apply bind_ok in M as (q & _ & M). apply bind_ok in M as (z & _ & M). apply Ok_inj, pair_equal_spec in M as [<- _].
    apply get_kinds; cbn [s_parse s_validate]; [|discriminate]. intros x. unfold tvs_parse, tv_parse, tv_bounds_check. wk.
  - intros default rp d e E. assert (G : only_r [EValue] (setting_get rp (new_version_setting key default props) d)).
    { apply get_kinds; cbn; [|discriminate]. intros x. unfold version_parse. wk. }
    destruct (G e E) as [<-|[]]. reflexivity.
  - intros default rp d e E. assert (G : only_r [] (setting_get rp (new_boolean_setting key default props) d)).
    { apply get_kinds; cbn; [|discriminate]. intros x. apply ok_kinds. }
    exact (G e E).
  - intros rm v default C. assert (W : forall x, only_r [EValue] (validate rm v x)).
    { intros x. unfold validate. destruct (rm (rv_regex v) x) eqn:R; [wk|]. destruct (C x R). }
    split; [unfold new_string_setting; apply bind_kinds; [apply W|intros _; apply ok_kinds]|].
    intros st rp d e M E. apply bind_ok in M as ([] & _ & M). apply Ok_inj in M. subst st.
    assert (G : only_r [EValue] (setting_get rp (mkSetting TSTRING key default (fun s => Ok s) (Some (validate rm v)) [PTuple props]) d)).
    { apply get_kinds; cbn [s_parse s_validate]; [intros x; apply ok_kinds|]. intros f x F. injection F as <-. apply W. }
    destruct (G e E) as [<-|[]]. reflexivity.
  - intros rm v default C. unfold new_string_setting, validate. rewrite C. reflexivity.
  - intros fo default lo hi F. assert (P : forall x, only_r [EValue] (fo_parse fo x)) by (intros x e E; left; symmetry; exact (F _ _ E)).
    assert (Q : forall p x, only_r [EValue] (float_parse fo p x)) by (intros p x; unfold float_parse, float_bounds_check; apply bind_kinds; [apply P|intros ?; wk]).
    split; (split; [unfold new_double_setting, new_single_setting, new_float_setting, float_bounds_check; wk|]);
      intros st p rp d e M; revert e; apply bind_ok in M as (z & _ & M); apply Ok_inj, pair_equal_spec in M as [<- _];
      (apply get_kinds; cbn [s_parse s_validate]; [apply Q|discriminate]).
Qed.
Print Assumptions C92_settings.

(** each kind does occur *)
Example C92_case : let rt := ascii_rt in
  read_boolean [x02] = Raise EGeneric /\ read_string [x01; xff] = Raise EUnicode /\ read_enum 2 [x02] = Raise EValue /\
  read_double [x00] = Raise EStruct /\ parse_ext_request [x00] = Raise EProto /\ read_generic_value 1 [x07; x01; xff] = Raise ERecursion /\
  write_int (2 ^ 31) = Raise EOverflow /\ write_string [0xD800] = Raise EUnicode /\ write_z_long (2 ^ 63) = Raise EValue /\
  write_transport_request (mkTask (py "n") None) = Raise EAttr /\ write_header (mkHeader ES 0 0 0 HNone 0) = Raise EType /\
  (exists st p, new_integer_setting (py "k") 1 0 5 [] = Ok (st, p) /\ setting_get (fun _ => []) st [(py "k", VStr (py "x"))] = Raise EValue).
Proof.
  cbv zeta. repeat match goal with |- _ /\ _ => split; [vm_compute; reflexivity|] end.
  eexists _, _. split; [reflexivity|]. vm_compute. reflexivity.
Qed.
