(** * Properties C01-C14, C62, C63: the byte streams *)
From Coq Require Import String ZArith List Bool Lia Permutation.
From Coq Require Import Strings.Byte.
From Verif Require Import Py Stream Spec SpecFacts StreamFacts StreamFacts2.
Import ListNotations.
Open Scope list_scope.
Open Scope Z_scope.

(** C01: for 1, 4 and 8 bytes (see [twos_complement] in Spec.v). *)
Theorem C01_fixed_width_integers :
  twos_complement 1 write_byte read_byte /\
  twos_complement 4 write_int read_int /\
  twos_complement 8 write_long read_long.
Proof. exact fixed_width_ints. Qed.
Print Assumptions C01_fixed_width_integers.
Example C01_case : - 2 ^ (8 * Z.of_nat 4 - 1) <= -5 < 2 ^ (8 * Z.of_nat 4 - 1) /\
  write_int (-5) = Ok [xff; xff; xff; xfb] /\
  ~ (- 2 ^ (8 * Z.of_nat 4 - 1) <= 2 ^ 31 < 2 ^ (8 * Z.of_nat 4 - 1)).
Proof. vm_compute. intuition discriminate. Qed.

(** C02 *)
Theorem C02_v_int : forall i, 0 <= i ->
  exists bs, write_v_int i = Ok bs /\ leb128 bs i /\
    forall s, (i < 2 ^ 35 -> read_v_int (bs ++ s) = Ok (i, s)) /\
              (2 ^ 35 <= i -> exists e, read_v_int (bs ++ s) = Raise e).
Proof. exact v_int_wire. Qed.
Print Assumptions C02_v_int.
Example C02_case : write_v_int 300 = Ok [xac; x02] /\ read_v_int [xac; x02; x07] = Ok (300, [x07])
  /\ (2 ^ 35 <= 2 ^ 35).
Proof. vm_compute. intuition discriminate. Qed.

(** C03 *)
Theorem C03_v_int_size :
  (forall i bs, write_v_int i = Ok bs -> v_int_size i = zlen bs) /\
  (forall i, 0 <= i -> 1 <= v_int_size i /\ i < 128 ^ v_int_size i /\
                       forall k, 1 <= k -> i < 128 ^ k -> v_int_size i <= k).
Proof. exact (conj v_int_size_correct v_int_size_least). Qed.
Print Assumptions C03_v_int_size.
Example C03_case : write_v_int 16384 = Ok [x80; x80; x01] /\ v_int_size 16384 = 3.
Proof. split; reflexivity. Qed.

(** C04 *)
Theorem C04_v_long : forall i, 0 <= i ->
  exists bs, write_v_long i = Ok bs /\ leb128 bs i /\
    forall s, (i < 2 ^ 64 -> read_v_long (bs ++ s) = Ok (i, s)) /\
              (2 ^ 64 <= i -> exists e, read_v_long (bs ++ s) = Raise e).
Proof. exact v_long_wire. Qed.
Print Assumptions C04_v_long.
Example C04_case : exists bs, write_v_long (2 ^ 64 - 1) = Ok bs /\
  read_v_long (bs ++ [x07]) = Ok (2 ^ 64 - 1, [x07]).
Proof. eexists. split; [vm_compute; reflexivity|]. vm_compute. reflexivity. Qed.

(** C05 *)
Theorem C05_z_long : forall i,
  (Z.abs i < 2 ^ 63 -> exists bs, write_z_long i = Ok bs /\
                       forall s, read_z_long (bs ++ s) = Ok (i, s)) /\
  (2 ^ 63 <= Z.abs i -> write_z_long i = Raise EValue).
Proof. exact z_long_wire. Qed.
Print Assumptions C05_z_long.
Example C05_case : Z.abs (-7) < 2 ^ 63 /\ write_z_long (-7) = Ok [x0f] /\
  2 ^ 63 <= Z.abs (- 2 ^ 63).
Proof. vm_compute. intuition discriminate. Qed.

(** C06, full statement: false of this code. *)
Definition C06_statement : Prop := forall i, - 2 ^ 63 <= i < 2 ^ 63 ->
  exists bs, leb128 bs (zigzag i) /\ write_z_long i = Ok bs /\ forall s, read_z_long (bs ++ s) = Ok (i, s).
Theorem C06_zig_zag_refuted : ~ C06_statement.
Proof.
  intros H. destruct (H (-1) ltac:(vm_compute; split; [discriminate|reflexivity])) as (bs & L & W & _).
  vm_compute in W. injection W as <-. change (zigzag (-1)) with 1 in L. inversion L; subst; match goal with H : leb128 [] _ |- _ => inversion H | _ => idtac end; vm_compute in *; try discriminate; congruence.
Qed.
Print Assumptions C06_zig_zag_refuted.
(** C06, what holds: non-negative numbers are written in the zig-zag format; negative ones as
    twice the magnitude plus one; and what exactly goes wrong when a standard encoder's bytes
    are read: negative numbers come out one too large. *)
Theorem C06_zig_zag_partial :
  (forall i, 0 <= i < 2 ^ 63 -> exists bs, write_z_long i = Ok bs /\ leb128 bs (zigzag i)) /\
  (forall i, - 2 ^ 63 < i < 0 -> exists bs, write_z_long i = Ok bs /\ leb128 bs (2 * - i + 1)) /\
  (forall i, - 2 ^ 63 <= i < 2 ^ 63 ->
     exists bs, write_v_long (zigzag i) = Ok bs /\ leb128 bs (zigzag i) /\
       forall s, read_z_long (bs ++ s) = Ok (if i <? 0 then i + 1 else i, s)).
Proof.
  split; [|split].
  - intros i Hi. rewrite (z_long_nonneg_zigzag i Hi). apply write_v_int_leb. unfold zigzag. destruct (Z.ltb_spec i 0); lia.
  - intros i Hi. unfold write_z_long. destruct (Z.ltb_spec i 0); [|lia]. rewrite Z.abs_neq by lia.
    rewrite Z.shiftr_div_pow2 by lia. rewrite Z.div_small by lia. apply write_v_int_leb. lia.
  - intros i Hi. destruct (z_long_read_zigzag i Hi) as (bs & W & R). exists bs. split; [exact W|]. split; [|exact R].
    destruct (write_v_int_leb (zigzag i)) as (bs' & W' & L); [unfold zigzag; destruct (Z.ltb_spec i 0); lia|].
    assert (E : Ok bs = Ok bs') by (rewrite <- W, <- W'; reflexivity). injection E as <-. exact L.
Qed.
Print Assumptions C06_zig_zag_partial.
Example C06_case : zigzag (-3) = 5 /\ read_z_long [x05] = Ok (-2, []) /\ zigzag 3 = 6.
Proof. vm_compute. intuition discriminate. Qed.

(** C07 *)
Theorem C07_strings :
  (forall x e, is_utf8 x e -> zlen e <= 2 ^ 31 ->
     exists l, leb128 l (zlen e) /\ write_string x = Ok (l ++ e) /\
       forall s, read_string ((l ++ e) ++ s) = Ok (x, s)) /\
  (forall x, Forall scalar x -> exists e, is_utf8 x e) /\
  (forall x, Exists (fun c => ~ scalar c) x -> write_string x = Raise EUnicode).
Proof.
  exact (conj string_wire (conj (fun x => proj1 (scalar_text x)) string_not_encodable)).
Qed.
Print Assumptions C07_strings.
(** "h", e acute, the euro sign, an emoji *)
Example C07_case : is_utf8 [104; 233; 8364; 128512]
    [x68; xc3; xa9; xe2; x82; xac; xf0; x9f; x98; x80] /\
  Exists (fun c => ~ scalar c) [97; 0xD800].
Proof.
  split.
  - apply is_utf8_encode. vm_compute. reflexivity.
  - apply Exists_cons_tl, Exists_cons_hd. unfold scalar. intros [[_ H]|[H _]].
    + discriminate H. + apply H. reflexivity.
Qed.

(** C08 *)
Theorem C08_ill_formed_utf8 : forall s x s', read_string s = Ok (x, s') ->
  exists n e, read_array_size s = Ok (n, e ++ s') /\ is_utf8 x e /\ zlen e <= n
              /\ (s' <> [] -> zlen e = n).
Proof. exact read_string_utf8. Qed.
Print Assumptions C08_ill_formed_utf8.
Example C08_case : read_string [x02; xc3; xa9; x07] = Ok ([233], [x07]) /\
  read_string [x02; xc0; x80] = Raise EUnicode.
Proof. split; reflexivity. Qed.

(** C09 *)
Theorem C09_collections : forall so, set_order_ok so ->
  survives write_string_array read_string_array texts_ok /\
  survives write_string_to_string_dict read_string_to_string_dict (dict_ok text_ok) /\
  survives write_string_to_string_array_dict read_string_to_string_array_dict (dict_ok texts_ok) /\
  survives_upto (@Permutation pystr) write_string_set (read_string_set so) set_ok /\
  survives_upto same_set_dict write_string_to_string_set_dict
    (read_string_to_string_set_dict so) (dict_ok set_ok).
Proof.
  exact (fun so H => conj string_array_survives (conj string_dict_survives
    (conj string_array_dict_survives
      (conj (string_set_survives so H) (string_set_dict_survives so H))))).
Qed.
Print Assumptions C09_collections.
Example C09_case : set_order_ok (@rev pystr) /\
  dict_ok set_ok [(py "k", [py "a"; py "b"]); (py "", [])].
Proof.
  assert (T : forall x e, is_utf8 x e -> zlen e <= 2 ^ 31 -> text_ok x) by (intros x e ? ?; exists e; auto).
  assert (A : forall x e, utf8_encode x = Ok e -> zlen e <= 2 ^ 31 -> text_ok x)
    by (intros x e H; apply T, is_utf8_encode, H).
  split; [intros l; apply Permutation_sym, Permutation_rev|].
  split; [reflexivity|]. split.
  - repeat constructor; cbn; intuition discriminate.
  - repeat constructor; cbn [fst snd]; try (eapply A; [reflexivity|discriminate]);
      try discriminate; cbn; intuition discriminate.
Qed.

(** C10 *)
Theorem C10_generic_values : forall n limit, (n < limit)%nat ->
  survives write_generic_value (read_generic_value limit)
    (fun v => generic_ok v /\ nested v n).
Proof. exact generic_survives. Qed.
Print Assumptions C10_generic_values.
Example C10_case : let v := VList [VInt (-1); VList [VNone; VBool true]; VBytes [x00]] in
  generic_ok v /\ nested v 2.
Proof.
  split.
  - repeat constructor; discriminate.
  - repeat first [ apply nest_list | apply Forall_cons | apply Forall_nil
                 | apply nest_flat; discriminate ].
Qed.

(** C11, full statement: false (a float or a dict writes nothing). *)
Definition C11_statement : Prop := forall v,
  (exists e, write_generic_value v = Raise e) \/
  (exists bs, write_generic_value v = Ok bs /\ exists f, read_generic_value f bs = Ok (v, [])).
Theorem C11_unsupported_rejected_refuted : ~ C11_statement.
Proof. exact generic_silent_refuted. Qed.
Print Assumptions C11_unsupported_rejected_refuted.
(** C11, what holds: the statement is true of None, bool, str, int, bytes and lists of them
    (within the sizes the format allows); exactly the values without lone surrogates and over-long
    integers are written; and a value of any other type is written as nothing. *)
Theorem C11_unsupported_rejected_partial :
  (forall v, plain v -> sized v ->
     (exists e, write_generic_value v = Raise e) \/
     (exists bs, write_generic_value v = Ok bs /\ exists f, read_generic_value f bs = Ok (v, []))) /\
  (forall v, (exists bs, write_generic_value v = Ok bs) <-> encodable v) /\
  (forall t r, write_generic_value (VOther t r) = Ok []).
Proof.
  split; [exact generic_rejects|]. split; [|reflexivity].
  intros v. split; [intros [bs H]; exact (write_other v bs H)|apply encodable_written].
Qed.
Print Assumptions C11_unsupported_rejected_partial.
Example C11_case : plain (VList [VInt (2 ^ 63)]) /\ sized (VList [VInt (2 ^ 63)]) /\ ~ encodable (VList [VInt (2 ^ 63)]) /\
  write_generic_value (VList [VInt (2 ^ 63)]) = Raise EOverflow.
Proof.
  split; [repeat constructor|]. split; [repeat constructor|]. split; [|reflexivity].
  intros H. inversion H as [| | | | |l F|]; subst. apply Forall_cons_iff in F as [F _]. inversion F as [| | |i [_ L]| | |]; subst. discriminate L.
Qed.

(** C12, full statement: false (BytesIO returns short reads silently). *)
Definition C12_statement : Prop := forall A (r : reader A), stream_reader A r ->
  forall a bs q q2, r bs = Ok (a, []) -> bs = q ++ q2 -> q2 <> [] -> exists e, r q = Raise e.
Theorem C12_truncation_refuted : ~ C12_statement.
Proof. exact truncation_refuted. Qed.
Print Assumptions C12_truncation_refuted.
(** C12, what holds: a reader of truncated input raises, or consumes everything there is. *)
Theorem C12_truncation_partial : forall A (r : reader A), stream_reader A r ->
  forall a bs q q2, r bs = Ok (a, []) -> bs = q ++ q2 -> q2 <> [] ->
  (exists e, r q = Raise e) \/ (exists a', r q = Ok (a', [])).
Proof. exact truncation_partial. Qed.
Print Assumptions C12_truncation_partial.
Example C12_case : stream_reader _ read_string /\ read_string [x01; x61] = Ok ([97], []).
Proof. split; [constructor|reflexivity]. Qed.

(** C13 *)
Theorem C13_readers_move_forward : forall A (r : reader A), stream_reader A r ->
  forall s a s', r s = Ok (a, s') ->
  exists p, s = p ++ s' /\ (s' <> [] -> forall t, r (p ++ t) = Ok (a, t)).
Proof. exact readers_move_forward. Qed.
Print Assumptions C13_readers_move_forward.
Example C13_case : stream_reader _ (read_generic_value 3) /\
  read_generic_value 3 [x07; x01; xff; x09] = Ok (VList [VNone], [x09]).
Proof. split; [constructor|reflexivity]. Qed.

(** C14 *)
Theorem C14_recursion : forall limit s, (length s < limit)%nat ->
  read_generic_value limit s <> Raise ERecursion.
Proof. exact generic_no_recursion_error. Qed.
Print Assumptions C14_recursion.
Example C14_case : (length [x07; x01; x07; x01; xff] < 6)%nat /\
  read_generic_value 2 [x07; x01; x07; x01; xff] = Raise ERecursion.
Proof. split; [repeat constructor|reflexivity]. Qed.

(** C62, full statement: false for -128 <= i < 0. *)
Definition C62_statement : Prop := forall i, i < 0 -> exists e, write_v_int i = Raise e.
Theorem C62_negative_v_int_refuted : ~ C62_statement.
Proof. exact v_int_negative_refuted. Qed.
Print Assumptions C62_negative_v_int_refuted.
(** C62, what holds: what is written then is never a complete vInt (the byte says that
    more follow); below -128 the write raises. *)
Theorem C62_negative_v_int_partial : forall i, i < 0 ->
  (-128 <= i -> exists b, write_v_int i = Ok [b] /\ 128 <= b2z b) /\
  (i < -128 -> write_v_int i = Raise EOverflow).
Proof. exact v_int_negative. Qed.
Print Assumptions C62_negative_v_int_partial.
Example C62_case : write_v_int (-1) = Ok [xff] /\ write_v_int (-129) = Raise EOverflow.
Proof. split; reflexivity. Qed.

(** C63, full statement (decoding yields no more elements than there are input bytes):
    false; a five-byte input yields a list of 2^31 strings. *)
Definition C63_statement : Prop := forall s l s', read_string_array s = Ok (l, s') ->
  (length l <= length s)%nat.
Theorem C63_amplification_refuted :
  ~ C63_statement /\
  forall n, 0 < n <= 2 ^ 31 -> exists bs, leb128 bs n /\
  read_string_array bs = Ok (repeat [] (Z.to_nat n), []).
Proof. exact (conj no_amplification_bound amplification). Qed.
Print Assumptions C63_amplification_refuted.
(** C63, what holds: the text itself is never more than the input; and unless the input ends
    too early, neither are the strings. *)
Theorem C63_amplification_partial : forall s l s', read_string_array s = Ok (l, s') ->
  zlen (concat l) + zlen s' <= zlen s /\
  (s' <> [] -> 1 + zlen l + zlen (concat l) + zlen s' <= zlen s).
Proof. exact string_array_takes. Qed.
Print Assumptions C63_amplification_partial.
Example C63_case2 : read_string_array [x02; x01; x61; x00; x07] = Ok ([[97]; []], [x07]).
Proof. vm_compute. reflexivity. Qed.
Example C63_case : read_string_array [x80; x02] = Ok (repeat [] 256, []).
Proof. vm_compute. reflexivity. Qed.
