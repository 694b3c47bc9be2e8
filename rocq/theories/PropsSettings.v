(** * Properties C51-C59, C64: settings *)
From Coq Require Import String ZArith List Bool Lia.
From Coq Require Import Strings.Byte.
From Verif Require Import Py Stream Version Settings PyFacts Spec SpecFacts SettingsFacts DecimalFacts PropsMessages.
Import ListNotations.
Open Scope list_scope.
Open Scope Z_scope.

(** [rt] is the Python release and its configuration throughout (see [runtime_ok]); the limit
    on the digits of an integer is why some numbers are [short]. *)

(** C51: the constructor succeeds exactly with legal bounds, and then [get] raises or
    returns a number within them, whatever the settings [d] contain. *)
Definition int_setting_sound (bits : Z) (new : pystr -> Z -> Z -> Z -> list prop -> res (setting Z * int_parser)) : Prop :=
  forall key default lo hi props,
    (- 2 ^ bits <= lo < 2 ^ bits /\ - 2 ^ bits <= hi < 2 ^ bits /\ lo <= default <= hi ->
     exists st p, new key default lo hi props = Ok (st, p) /\ s_key st = key /\
       forall rp d v, setting_get rp st d = Ok v -> lo <= v <= hi) /\
    (~ (- 2 ^ bits <= lo < 2 ^ bits /\ - 2 ^ bits <= hi < 2 ^ bits /\ lo <= default <= hi) ->
     new key default lo hi props = Raise EValue).
Theorem C51_int_bounds : forall rt : runtime,
  int_setting_sound 31 new_integer_setting /\ int_setting_sound 63 new_long_setting.
Proof.
  intros rt. split; intros key default lo hi props; (split; [intros H|apply new_int_setting_raise]).
  - eexists _, _. split; [apply new_int_setting_iff; split; [exact H|reflexivity]|]. split; [reflexivity|].
    intros rp d v G. eapply (int_setting_in_bounds 31 key default lo hi props); [|exact G].
    apply new_int_setting_iff; split; [exact H|reflexivity].
  - eexists _, _. split; [apply new_int_setting_iff; split; [exact H|reflexivity]|]. split; [reflexivity|].
    intros rp d v G. eapply (int_setting_in_bounds 63 key default lo hi props); [|exact G].
    apply new_int_setting_iff; split; [exact H|reflexivity].
Qed.
Print Assumptions C51_int_bounds.
Example C51_case : let rt := ascii_rt in exists st p, new_integer_setting (py "k") 5 0 10 [DYNAMIC] = Ok (st, p) /\
  setting_get (fun _ => []) st [(py "k", VStr (py " 7 "))] = Ok 7 /\
  setting_get (fun _ => []) st [(py "k", VInt 11)] = Raise EValue /\
  new_integer_setting (py "k") 5 0 (2 ^ 31) [] = Raise EValue.
Proof. intro rt. eexists _, _. split; [reflexivity|]. vm_compute. auto. Qed.

(** C52, full statement: false of this code for negative byte sizes and durations, whose
    text the parser does not accept. *)
Definition C52_statement {rt : runtime} : Prop :=
  (forall key default lo hi props st p, new_integer_setting key default lo hi props = Ok (st, p) -> returns_default st key default) /\
  (forall key default lo hi props st p, new_long_setting key default lo hi props = Ok (st, p) -> returns_default st key default) /\
  (forall key default props, returns_default (new_boolean_setting key default props) key default) /\
  (forall rm key default v props st, new_string_setting rm key default v props = Ok st -> returns_default st key default) /\
  (forall key default props, returns_default (new_version_setting key default props) key default) /\
  (forall key default lo hi props st p, byte_unit default -> new_byte_size_setting key default lo hi props = Ok (st, p) ->
     returns_default st key default) /\
  (forall key default lo hi props st p, time_unit default -> new_time_setting key default lo hi props = Ok (st, p) ->
     returns_default st key default).
Theorem C52_defaults_refuted : forall rt : runtime, ~ C52_statement.
Proof.
  intros rt (_ & _ & _ & _ & _ & _ & H).
  specialize (H (py "k") TV_MINUS_ONE TV_MINUS_ONE TV_MINUS_ONE [] _ _ ltac:(split; [discriminate|reflexivity]) eq_refl (fun _ => []) [] (fun x => x)).
  vm_compute in H. discriminate.
Qed.
Print Assumptions C52_defaults_refuted.
(** C52, what holds: everything for the first five classes, and non-negative byte sizes and
    durations.  Missing: negative ones, for which [get] always raises ValueError. *)
Theorem C52_defaults_partial : forall rt : runtime, runtime_ok rt ->
  (forall key default lo hi props st p, new_integer_setting key default lo hi props = Ok (st, p) -> returns_default st key default) /\
  (forall key default lo hi props st p, new_long_setting key default lo hi props = Ok (st, p) -> returns_default st key default) /\
  (forall key default props, returns_default (new_boolean_setting key default props) key default) /\
  (forall rm key default v props st, new_string_setting rm key default v props = Ok st -> returns_default st key default) /\
  (forall key default props, short (vid default) -> returns_default (new_version_setting key default props) key default) /\
  (forall key default lo hi props st p, byte_unit default -> 0 <= bs_size default -> short (bs_size default) ->
     new_byte_size_setting key default lo hi props = Ok (st, p) -> returns_default st key default) /\
  (forall key default lo hi props st p, time_unit default -> 0 <= tv_dur default -> short (tv_dur default) ->
     new_time_setting key default lo hi props = Ok (st, p) -> returns_default st key default).
Proof.
  intros rt OK. split; [|split; [|split; [|split; [|split; [|split]]]]].
  - intros key default lo hi props st p H rp d N. exact (int_setting_default 31 key default lo hi props st p rp d H N ltac:(lia) (limit_ok rt OK)).
  - intros key default lo hi props st p H rp d N. exact (int_setting_default 63 key default lo hi props st p rp d H N ltac:(lia) (limit_ok rt OK)).
  - intros key default props rp d N. apply bool_setting_default, N.
  - intros rm key default v props st H rp d N. exact (string_setting_default rm key default v props st rp d H N).
  - intros key default props Sh rp d N. exact (version_setting_default key default props rp d N (limit_ok rt OK) Sh).
  - intros key default lo hi props st p U P Sh H rp d N. apply new_byte_size_ok in H as (_ & _ & B & _ & ->).
    rewrite setting_get_absent by exact N. cbn [s_parse s_default]. unfold bs_parse. rewrite (bsv_parse_str default (limit_ok rt OK) Sh P U). exact B.
  - intros key default lo hi props st p U P Sh H rp d N. apply new_time_ok in H as (_ & _ & B & _ & ->).
    rewrite setting_get_absent by exact N. cbn [s_parse s_default]. unfold tvs_parse. rewrite (tv_parse_str default (limit_ok rt OK) Sh P U). exact B.
Qed.
Print Assumptions C52_defaults_partial.
Theorem C52_negative_partial : forall rt : runtime,
  (forall key default lo hi props st p rp d, bs_size default < 0 -> ~ In key (map fst d) ->
     new_byte_size_setting key default lo hi props = Ok (st, p) -> setting_get rp st d = Raise EValue) /\
  (forall key default lo hi props st p rp d, tv_dur default < 0 -> ~ In key (map fst d) ->
     new_time_setting key default lo hi props = Ok (st, p) -> setting_get rp st d = Raise EValue).
Proof.
  intros rt. assert (S : forall n u, n < 0 -> split_quantity (str_int n ++ u) = Raise EValue).
  { intros n u H. unfold str_int. destruct (Z.ltb_spec n 0); [reflexivity|lia]. }
  split; intros key default lo hi props st p rp d P N H.
  - apply new_byte_size_ok in H as (_ & _ & B & _ & ->). rewrite setting_get_absent by exact N. cbn [s_parse s_default].
    unfold bs_parse, bsv_parse, bsv_str. rewrite S by exact P. reflexivity.
  - apply new_time_ok in H as (_ & _ & B & _ & ->). rewrite setting_get_absent by exact N. cbn [s_parse s_default].
    unfold tvs_parse, tv_parse, tv_str. rewrite S by exact P. reflexivity.
Qed.
Print Assumptions C52_negative_partial.
Example C52_case : let rt := ascii_rt in (exists st p, new_time_setting (py "k") (mkTV 90 3) (mkTV 1 4) TV_MINUS_ONE [] = Ok (st, p) /\
    setting_get (fun _ => []) st [(py "j", VInt 1)] = Ok (mkTV 90 3)) /\
  (exists st p, new_byte_size_setting (py "k") (mkBSV 1025 1) (mkBSV 1 2) (mkBSV (-1) 0) [] = Ok (st, p) /\
    setting_get (fun _ => []) st [] = Ok (mkBSV 1025 1)) /\
  (exists st p, new_long_setting (py "k") (-12) (- 2 ^ 63) 0 [] = Ok (st, p) /\
    setting_get (fun _ => []) st [] = Ok (-12)).
Proof. intro rt. split; [|split]; eexists _, _; (split; [reflexivity|vm_compute; reflexivity]). Qed.

(** C53, full statement: false of this code when the stored value is falsy. *)
Definition value_parsed {A} (st : setting A) (x : pystr) : res A :=
  _u <- match s_validate st with Some f => f x | None => Ok tt end ;; s_parse st x.
Definition C53_statement : Prop :=
  forall A rp (st : setting A) d v x, NoDup (map fst d) -> In (s_key st, v) d -> str_of rp v x ->
    setting_get rp st d = value_parsed st x.
Theorem C53_explicit_refuted : ~ C53_statement.
Proof.
  intros H. specialize (H bool (fun _ => []) (@new_boolean_setting ascii_rt (py "k") true []) [(py "k", VBool false)] (VBool false) _
    ltac:(constructor; [intros []|constructor]) (or_introl eq_refl) (str_false _)). vm_compute in H. discriminate.
Qed.
Print Assumptions C53_explicit_refuted.
Lemma truthy_iff v : truthy v = false <-> falsy v.
Proof.
  split.
  - destruct v as [|b|x|i|b|l|t x]; cbn [truthy]; intros H.
    + constructor.
    + subst b. constructor.
    + destruct x; [constructor|discriminate].
    + apply negb_false_iff, Z.eqb_eq in H. subst i. constructor.
    + destruct b; [constructor|discriminate].
    + destruct l; [constructor|discriminate].
    + subst t. constructor.
  - intros []; reflexivity.
Qed.
(** every value has a text, and only one *)
Lemma py_str_of rp v : str_of rp v (py_str rp v).
Proof.
  destruct v as [|[]|x|i|b|l|t x]; cbn [py_str]; try solve [constructor]. unfold str_int. destruct (Z.ltb_spec i 0).
  - apply str_neg; [assumption|apply str_nat_decimal; lia].
  - apply str_pos; [assumption|apply str_nat_decimal; lia].
Qed.
Lemma str_of_py rp v x : str_of rp v x -> py_str rp v = x.
Proof.
  intros [| | | |i y L D|i y L D| | |]; try reflexivity; cbn [py_str]; unfold str_int; destruct (Z.ltb_spec i 0); try lia.
  - eapply decimal_one; [apply str_nat_decimal; lia|exact D].
  - change (py "-") with [45]. cbn [app]. f_equal. eapply decimal_one; [apply str_nat_decimal; lia|exact D].
Qed.
(** C53, what holds: a stored value other than None, False, 0 and the empty string, list and
    bytes takes precedence (provided its text is not empty).  Missing: those, for which the
    default is returned instead. *)
Theorem C53_explicit_partial : forall A rp (st : setting A) d v x, NoDup (map fst d) -> In (s_key st, v) d -> str_of rp v x ->
  (~ falsy v /\ x <> [] -> setting_get rp st d = value_parsed st x) /\
  (falsy v \/ x = [] -> setting_get rp st d = setting_get rp st []).
Proof.
  intros A rp st d v x N I S. apply str_of_py in S. subst x. pose proof (dict_In_get streqb streqb_eq _ _ _ N I) as G. split.
  - intros [T X]. apply (setting_get_stored A rp st d v G); [|exact X]. rewrite <- truthy_iff in T. destruct (truthy v); [reflexivity|contradiction T; reflexivity].
  - intros T. destruct (truthy v) eqn:E.
    + destruct T as [T|T]; [apply truthy_iff in T; congruence|]. unfold setting_get, settings_get. rewrite G, E, T. reflexivity.
    + rewrite (setting_get_falsy A rp st d v G E). reflexivity.
Qed.
Print Assumptions C53_explicit_partial.
Ltac use G I := etransitivity; [eapply G; [reflexivity|exact I| |]|].
(** the same for each kind of stored value *)
Theorem C53_values_partial : forall rt : runtime, runtime_ok rt -> forall rp d key, NoDup (map fst d) ->
  (forall new, In new [new_integer_setting; new_long_setting] -> forall default lo hi props st p i,
     new key default lo hi props = Ok (st, p) -> lo <= i <= hi ->
     (In (key, VInt i) d /\ i <> 0) \/ In (key, VStr (str_int i)) d -> setting_get rp st d = Ok i) /\
  (forall default props, In (key, VBool true) d -> setting_get rp (new_boolean_setting key default props) d = Ok true) /\
  (forall default props x, In (key, VStr x) d -> x <> [] ->
     setting_get rp (new_boolean_setting key default props) d = Ok (streqb (lower x) (py "true"))) /\
  (forall rm default v props st x, new_string_setting rm key default v props = Ok st -> In (key, VStr x) d -> x <> [] ->
     (forall w, v = Some w -> rm (rv_regex w) x = Some (rv_matching w)) -> setting_get rp st d = Ok x) /\
  (forall default props v, short (vid v) -> In (key, VStr (str_int (vid v))) d -> setting_get rp (new_version_setting key default props) d = Ok v) /\
  (forall default lo hi props st p v, new_byte_size_setting key default lo hi props = Ok (st, p) ->
     byte_unit v -> 0 <= bs_size v -> short (bs_size v) -> (0 <= bs_size lo -> bsv_to_bytes lo <= bsv_to_bytes v) ->
     (0 <= bs_size hi -> bsv_to_bytes v <= bsv_to_bytes hi) -> In (key, VStr (bsv_str v)) d -> setting_get rp st d = Ok v) /\
  (forall default lo hi props st p v, new_time_setting key default lo hi props = Ok (st, p) ->
     time_unit v -> 0 <= tv_dur v -> short (tv_dur v) -> (0 <= tv_dur lo -> tv_to_nanos lo <= tv_to_nanos v) ->
     (0 <= tv_dur hi -> tv_to_nanos v <= tv_to_nanos hi) -> In (key, VStr (tv_str v)) d -> setting_get rp st d = Ok v).
Proof.
  intros rt OK. intros rp d key N.
  assert (G : forall A (st : setting A) v, s_key st = key -> In (key, v) d -> truthy v = true -> py_str rp v <> [] ->
            setting_get rp st d = value_parsed st (py_str rp v)).
  { intros A st v <- I T X. refine (proj1 (C53_explicit_partial A rp st d v _ N I (py_str_of rp v)) (conj _ X)). rewrite <- truthy_iff. congruence. }
  assert (SI : forall i, str_int i <> []) by (intros i; destruct (str_int_nonempty i) as (c & t & ->); discriminate).
  assert (ST : forall x, x <> [] -> truthy (VStr x) = true) by (intros [|]; [contradiction|reflexivity]).
  assert (P : forall bits default lo hi props st p i, 0 <= bits <= 63 -> new_int_setting bits key default lo hi props = Ok (st, p) -> lo <= i <= hi ->
     (In (key, VInt i) d /\ i <> 0) \/ In (key, VStr (str_int i)) d -> setting_get rp st d = Ok i).
  { intros bits default lo hi props st p i W H B C. apply new_int_setting_iff in H as [K H]. apply pair_equal_spec in H as [-> _].
    assert (E : value_parsed (mkSetting TINTEGER key (str_int default) (int_parse (mkIP lo hi key false)) None [PTuple props]) (str_int i) = Ok i).
    { unfold value_parsed. cbn [s_validate s_parse bind]. unfold int_parse. rewrite py_int_str; [cbn [bind]; apply int_bounds_in, B|exact (limit_ok rt OK)|].
      assert (2 ^ bits <= 2 ^ 63) by (apply Z.pow_le_mono_r; lia). apply short_64. change (2 ^ 63) with 9223372036854775808 in *. lia. }
    destruct C as [[I NZ]|I].
    - use G I; [cbn [truthy]; apply negb_true_iff, Z.eqb_neq, NZ|apply SI|exact E].
    - use G I; [apply ST, SI|apply SI|exact E]. }
  repeat split.
  - intros new Hn default lo hi props st p i H. destruct Hn as [<-|[<-|[]]]; (eapply P; [|exact H]; lia).
  - intros default props I. use G I; [reflexivity|discriminate|reflexivity].
  - intros default props x I X. use G I; [apply ST, X|exact X|reflexivity].
  - intros rm default v props st x H I X V. apply new_string_setting_ok in H as [_ ->].
    use G I; [apply ST, X|exact X|]. unfold value_parsed. cbn [s_validate s_parse py_str].
    destruct v as [w|]; cbn [option_map bind]; [|reflexivity].
    rewrite (proj2 (validate_ok rm w x) (V w eq_refl)). reflexivity.
  - intros default props v Sh I. use G I; [apply ST, SI|apply SI|].
    unfold value_parsed. cbn [new_version_setting s_validate s_parse py_str bind].
    rewrite <- (version_setting_default key v [] rp [] (fun x => x) (limit_ok rt OK) Sh). reflexivity.
  - intros default lo hi props st p v H U Q Sh L1 L2 I. apply new_byte_size_ok in H as (_ & _ & _ & _ & ->).
    assert (X : bsv_str v <> []) by (unfold bsv_str; destruct (str_int_nonempty (bs_size v)) as (c & t & ->); discriminate).
    use G I; [apply ST, X|exact X|]. unfold value_parsed. cbn [s_validate s_parse py_str bind]. unfold bs_parse.
    rewrite (bsv_parse_str v (limit_ok rt OK) Sh Q U). apply bs_bounds_in; assumption.
  - intros default lo hi props st p v H U Q Sh L1 L2 I. apply new_time_ok in H as (_ & _ & _ & _ & ->).
    assert (X : tv_str v <> []) by (unfold tv_str; destruct (str_int_nonempty (tv_dur v)) as (c & t & ->); discriminate).
    use G I; [apply ST, X|exact X|]. unfold value_parsed. cbn [s_validate s_parse py_str bind]. unfold tvs_parse.
    rewrite (tv_parse_str v (limit_ok rt OK) Sh Q U). apply tv_bounds_in; assumption.
Qed.
Print Assumptions C53_values_partial.
Example C53_case : let rt := ascii_rt in setting_get (fun _ => []) (new_boolean_setting (py "k") false []) [(py "j", VNone); (py "k", VStr (py "TRUE"))] = Ok true.
Proof. intro rt. vm_compute. reflexivity. Qed.
(** the text a StringSetting returns for a stored value that is not a text: Python's, not
    JSON's (a stored JSON true comes back as "True") *)
Theorem C53_text_partial : forall rm rp d key default props st, NoDup (map fst d) ->
  new_string_setting rm key default None props = Ok st ->
  (In (key, VBool true) d -> setting_get rp st d = Ok (py "True")) /\
  (forall i, In (key, VInt i) d -> 0 < i -> exists x, decimal i x /\ setting_get rp st d = Ok x) /\
  (forall i, In (key, VInt i) d -> i < 0 -> exists x, decimal (- i) x /\ setting_get rp st d = Ok (py "-" ++ x)) /\
  (In (key, VBool false) d \/ In (key, VNone) d \/ In (key, VInt 0) d \/ In (key, VStr []) d \/ In (key, VList []) d ->
     setting_get rp st d = Ok default).
Proof.
  intros rm rp d key default props st N H. apply new_string_setting_ok in H as [_ ->].
  pose proof str_nat_decimal as D.
  assert (SI : forall i, str_int i <> []) by (intros i; destruct (str_int_nonempty i) as (c & t & ->); discriminate).
  assert (G : forall v, In (key, v) d -> truthy v = true -> py_str rp v <> [] ->
    setting_get rp (mkSetting TSTRING key default (fun s => Ok s) None [PTuple props]) d = Ok (py_str rp v)).
  { intros v I T X. etransitivity; [refine (proj1 (C53_explicit_partial _ rp (mkSetting TSTRING key default (fun s => Ok s) None [PTuple props]) d v _ N I (py_str_of rp v)) (conj _ X)); rewrite <- truthy_iff; congruence|reflexivity]. }
  split; [|split; [|split]].
  - intros I. exact (G _ I eq_refl ltac:(discriminate)).
  - intros i I P. exists (str_nat i). split; [apply D; lia|].
    assert (E : str_int i = str_nat i) by (unfold str_int; destruct (Z.ltb_spec i 0); [lia|reflexivity]).
    rewrite <- E. refine (G _ I _ (SI i)). cbn [truthy]. apply negb_true_iff, Z.eqb_neq. lia.
  - intros i I P. exists (str_nat (- i)). split; [apply D; lia|].
    assert (E : str_int i = py "-" ++ str_nat (- i)) by (unfold str_int; destruct (Z.ltb_spec i 0); [reflexivity|lia]).
    rewrite <- E. refine (G _ I _ (SI i)). cbn [truthy]. apply negb_true_iff, Z.eqb_neq. lia.
  - assert (F : forall v, truthy v = false -> In (key, v) d ->
      setting_get rp (mkSetting TSTRING key default (fun s => Ok s) None [PTuple props]) d = Ok default).
    { intros v T I. etransitivity; [refine (proj2 (C53_explicit_partial _ rp (mkSetting TSTRING key default (fun s => Ok s) None [PTuple props]) d v _ N I (py_str_of rp v)) (or_introl _)); apply truthy_iff, T|reflexivity]. }
    intros [I|[I|[I|[I|I]]]]; revert I; apply F; reflexivity.
Qed.
Print Assumptions C53_text_partial.
Example C53_text_case : exists st, new_string_setting (fun _ _ => None) (py "k") (py "x") None [] = Ok st /\
  setting_get (fun _ => []) st [(py "k", VInt (-12))] = Ok (py "-12").
Proof. eexists. split; [reflexivity|]. vm_compute. reflexivity. Qed.

(** C54 *)
Theorem C54_units :
  (forall v, byte_unit v -> bsv_to_bytes v = in_bytes v) /\ (forall v, time_unit v -> tv_to_nanos v = in_nanos v).
Proof.
  split.
  - intros [n u] H. unfold byte_unit in H. cbn [bs_unit] in H.
    assert (Q : u = 0 \/ u = 1 \/ u = 2 \/ u = 3 \/ u = 4 \/ u = 5) by lia.
    unfold bsv_to_bytes, in_bytes. cbn [bs_size bs_unit].
    destruct Q as [->|Q]; [symmetry; apply Z.mul_1_r|].
    repeat (destruct Q as [->|Q]; [reflexivity|]). subst u. reflexivity.
  - intros [n u] H. unfold time_unit in H. cbn [tv_unit] in H.
    assert (Q : u = 0 \/ u = 1 \/ u = 2 \/ u = 3 \/ u = 4 \/ u = 5 \/ u = 6) by lia.
    unfold tv_to_nanos, in_nanos. cbn [tv_dur tv_unit]. rewrite <- !Z.mul_assoc.
    destruct Q as [->|Q]; [symmetry; apply Z.mul_1_r|].
    repeat (destruct Q as [->|Q]; [reflexivity|]). subst u. reflexivity.
Qed.
Print Assumptions C54_units.
Theorem C54_text : forall rt : runtime, runtime_ok rt ->
  (forall v, byte_unit v -> 0 <= bs_size v -> short (bs_size v) -> bsv_parse (bsv_str v) = Ok v /\
     exists x, decimal (bs_size v) x /\ bsv_str v = x ++ nth (Z.to_nat (bs_unit v)) (map py ["b"; "kb"; "mb"; "gb"; "tb"; "pb"]%string) []) /\
  (forall v, time_unit v -> 0 <= tv_dur v -> short (tv_dur v) -> tv_parse (tv_str v) = Ok v /\
     exists x, decimal (tv_dur v) x /\ tv_str v = x ++ nth (Z.to_nat (tv_unit v)) (map py ["nanos"; "micros"; "ms"; "s"; "m"; "h"; "d"]%string) []).
Proof.
  intros rt OK. assert (D : forall n, 0 <= n -> decimal n (str_int n)).
  { intros n H. destruct (bsv_text n [] H) as (ds & A & B & C & E & F & G). rewrite !app_nil_r in G. exists ds.
    split; [exact G|]. split; [exact A|]. split; [exact B|]. split; [exact C|]. intros Z. apply F.
    destruct (Z.eq_dec n 0); [assumption|]. destruct E; [lia|exact Z]. }
  split; intros v U P Sh; (split; [first [apply bsv_parse_str|apply tv_parse_str]; try assumption; apply OK|]); eexists; split; [apply D, P|reflexivity|apply D, P|reflexivity].
Qed.
Print Assumptions C54_text.
Example C54_case : let rt := ascii_rt in bsv_str (mkBSV 1500 2) = py "1500mb" /\ bsv_parse (py "1500 MB") = Ok (mkBSV 1500 2) /\
  in_bytes (mkBSV 1500 2) = 1572864000 /\ tv_str (mkTV 0 6) = py "0d" /\ tv_parse (py "3h") = Ok (mkTV 3 5) /\
  tv_to_nanos (mkTV 3 5) = 10800000000000.
Proof. intro rt. vm_compute. repeat split. Qed.

(** C55: [get] raises or returns a value within the defined bounds; the constructor rejects
    defaults outside, and bounds below -1. *)
Theorem C55_quantity_bounds : forall rt : runtime,
  (forall key default lo hi props st p, byte_unit default -> byte_unit lo -> byte_unit hi ->
     new_byte_size_setting key default lo hi props = Ok (st, p) ->
     -1 <= bs_size lo /\ -1 <= bs_size hi /\ bytes_within lo hi default /\
     (forall x v, s_parse st x = Ok v -> byte_unit v /\ bytes_within lo hi v) /\
     (forall rp d v, setting_get rp st d = Ok v -> byte_unit v /\ bytes_within lo hi v)) /\
  (forall key default lo hi props st p, time_unit default -> time_unit lo -> time_unit hi ->
     new_time_setting key default lo hi props = Ok (st, p) ->
     -1 <= tv_dur lo /\ -1 <= tv_dur hi /\ nanos_within lo hi default /\
     (forall x v, s_parse st x = Ok v -> time_unit v /\ nanos_within lo hi v) /\
     (forall rp d v, setting_get rp st d = Ok v -> time_unit v /\ nanos_within lo hi v)).
Proof.
  intros rt. assert (IX : forall u l i k, index_of u l i = Some k -> i <= k < i + zlen l).
  { intros u l. induction l as [|x l IH]; intros i k; cbn [index_of]; [discriminate|].
    rewrite zlen_cons. pose proof (zlen_nonneg _ l). destruct (streqb u x); [intros [= <-]; lia|]. intros H1. apply IH in H1. lia. }
  destruct C54_units as [UB UT]. split.
  - intros key default lo hi props st p U1 U2 U3 H. apply new_byte_size_ok in H as (A & B & C & _ & ->).
    split; [exact A|]. split; [exact B|].
    assert (P : forall x v, bs_parse (mkBP lo hi key) x = Ok v -> byte_unit v /\ bytes_within lo hi v).
    { intros x v H. apply bind_ok in H as (w & Hw & H). apply bs_bounds_ok in H as [-> H].
      assert (U : byte_unit w).
      { apply bind_ok in Hw as (q & _ & Hw). cbv zeta in Hw. destruct (index_of _ _ _) as [k|] eqn:E; [|discriminate].
        apply Ok_inj in Hw. subst w. apply IX in E. exact E. }
      split; [exact U|]. unfold bytes_within. rewrite <- !UB by assumption. exact H. }
    split; [apply bs_bounds_ok in C as [_ C]; unfold bytes_within; rewrite <- !UB by assumption; exact C|].
    split; [exact P|].
    intros rp d v G. apply setting_get_parsed in G as (x & G); [|reflexivity]. exact (P x v G).
  - intros key default lo hi props st p U1 U2 U3 H. apply new_time_ok in H as (A & B & C & _ & ->).
    split; [exact A|]. split; [exact B|].
    assert (P : forall x v, tvs_parse (mkTP lo hi key false) x = Ok v -> time_unit v /\ nanos_within lo hi v).
    { intros x v H. apply bind_ok in H as (w & Hw & H). apply tv_bounds_ok in H as [-> H].
      assert (U : time_unit w).
      { apply bind_ok in Hw as (q & _ & Hw). cbv zeta in Hw. destruct (index_of _ _ _) as [k|] eqn:E; [|discriminate].
        apply Ok_inj in Hw. subst w. apply IX in E. exact E. }
      split; [exact U|]. unfold nanos_within. rewrite <- !UT by assumption. exact H. }
    split; [apply tv_bounds_ok in C as [_ C]; unfold nanos_within; rewrite <- !UT by assumption; exact C|].
    split; [exact P|].
    intros rp d v G. apply setting_get_parsed in G as (x & G); [|reflexivity]. exact (P x v G).
Qed.
Print Assumptions C55_quantity_bounds.
(** and only bounds constrain: whatever text means a value within them is accepted *)
Theorem C55_only_bounds : forall rt : runtime,
  (forall key default lo hi props, byte_unit default -> byte_unit lo -> byte_unit hi ->
     -1 <= bs_size lo -> -1 <= bs_size hi ->
     (bytes_within lo hi default -> exists st p, new_byte_size_setting key default lo hi props = Ok (st, p) /\
        forall x v, bsv_parse x = Ok v -> byte_unit v -> (s_parse st x = Ok v <-> bytes_within lo hi v)) /\
     (~ bytes_within lo hi default -> new_byte_size_setting key default lo hi props = Raise EValue)) /\
  (forall key default lo hi props, time_unit default -> time_unit lo -> time_unit hi ->
     -1 <= tv_dur lo -> -1 <= tv_dur hi ->
     (nanos_within lo hi default -> exists st p, new_time_setting key default lo hi props = Ok (st, p) /\
        forall x v, tv_parse x = Ok v -> time_unit v -> (s_parse st x = Ok v <-> nanos_within lo hi v)) /\
     (~ nanos_within lo hi default -> new_time_setting key default lo hi props = Raise EValue)).
Proof.
  intros rt. destruct C54_units as [UB UT]. split; intros key default lo hi props U1 U2 U3 L1 L2; split.
  - unfold bytes_within at 1. rewrite <- !UB by assumption. intros [W1 W2].
    unfold new_byte_size_setting, new_bs_parser. destruct (Z.ltb_spec (bs_size lo) (-1)); [lia|].
    destruct (Z.ltb_spec (bs_size hi) (-1)); [lia|]. cbn [bind]. rewrite bs_bounds_in by assumption. cbn [bind].
    eexists _, _. split; [reflexivity|]. intros x v Hx U. cbn [s_parse]. unfold bs_parse. rewrite Hx. cbn [bind].
    unfold bytes_within. rewrite <- !UB by assumption. split.
    + intros C. apply bs_bounds_ok in C as [_ C]. exact C.
    + intros [V1 V2]. apply bs_bounds_in; assumption.
  - intros W. apply new_byte_size_raise. unfold bytes_within in W. rewrite <- !UB in W by assumption. lia.
  - unfold nanos_within at 1. rewrite <- !UT by assumption. intros [W1 W2].
    unfold new_time_setting, new_tv_parser. destruct (Z.ltb_spec (tv_dur lo) (-1)); [lia|].
    destruct (Z.ltb_spec (tv_dur hi) (-1)); [lia|]. cbn [bind]. rewrite tv_bounds_in by assumption. cbn [bind].
    eexists _, _. split; [reflexivity|]. intros x v Hx U. cbn [s_parse]. unfold tvs_parse. rewrite Hx. cbn [bind].
    unfold nanos_within. rewrite <- !UT by assumption. split.
    + intros C. apply tv_bounds_ok in C as [_ C]. exact C.
    + intros [V1 V2]. apply tv_bounds_in; assumption.
  - intros W. apply new_time_raise. unfold nanos_within in W. rewrite <- !UT in W by assumption. lia.
Qed.
Print Assumptions C55_only_bounds.
Example C55_case : let rt := ascii_rt in exists st p, new_byte_size_setting (py "k") (mkBSV 2 2) (mkBSV 1024 1) (mkBSV 1 3) [] = Ok (st, p) /\
  s_parse st (py "1mb") = Ok (mkBSV 1 2) /\ s_parse st (py "1023kb") = Raise EValue /\ s_parse st (py "1025m") = Raise EValue.
Proof. intro rt. eexists _, _. split; [reflexivity|]. vm_compute. auto. Qed.

(** C56 *)
Theorem C56_parsers :
  survives write_integer_parser read_integer_parser (int_parser_ok 31) /\
  survives write_long_parser read_long_parser (int_parser_ok 63) /\
  survives write_bs_parser read_bs_parser bs_parser_ok /\
  survives_upto same_tv_parser write_tv_parser read_tv_parser tv_parser_ok /\
  survives write_validator read_validator (fun v => text_ok (rv_regex v)).
Proof.
  split; [exact integer_parser_survives|]. split; [exact long_parser_survives|].
  split; [exact bs_parser_survives|]. split; [|exact validator_survives].
  intros p (Ha & Hb & Hk). destruct (tv_parser_survives p Ha) as (bs & W & R).
  - unfold tv_ok, time_unit in Hb. lia.
  - exact Hk.
  - exists bs. split; [exact W|]. intros s. destruct (R s) as (p' & E & A & B & C & D & F). exists p'. split; [exact E|].
    split; [exact A|]. split; [exact B|]. split; [exact C|].
    destruct (Z.lt_ge_cases (tv_dur (tp_max p)) 0); [right; rewrite F by assumption; lia|left; auto].
Qed.
Print Assumptions C56_parsers.
Example C56_case : int_parser_ok 31 (mkIP (-5) (2 ^ 31 - 1) (py "k") true) /\
  tv_parser_ok (mkTP (mkTV 5 3) TV_MINUS_ONE (py "k") false) /\
  bs_parser_ok (mkBP (mkBSV (-1) 0) (mkBSV 7 5) (py "k")) /\
  write_tv_parser (mkTP (mkTV 5 3) TV_MINUS_ONE (py "k") false) = Ok [x00; x01; x6b; x0a; x03; x00].
Proof.
  split; [|split; [|split; [|vm_compute; reflexivity]]].
  - split; [split; [discriminate|reflexivity]|split; [split; [discriminate|reflexivity]|text]].
  - split; [split; [reflexivity|split; [discriminate|reflexivity]]|split; [split; [reflexivity|split; [discriminate|reflexivity]]|text]].
  - split; [split; [reflexivity|split; [discriminate|reflexivity]]|split; [split; [reflexivity|split; [discriminate|reflexivity]]|text]].
Qed.

(** C57, full statement: false of this code (the tuple of properties is passed on as one
    argument, so FILTERED is never found in it) *)
Definition C57_statement {rt : runtime} : Prop :=
  (forall key default lo hi props st p, new_integer_setting key default lo hi props = Ok (st, p) -> (ip_filtered p = true <-> In FILTERED props)) /\
  (forall key default lo hi props st p, new_long_setting key default lo hi props = Ok (st, p) -> (ip_filtered p = true <-> In FILTERED props)) /\
  (forall key default lo hi props st p, new_time_setting key default lo hi props = Ok (st, p) -> (tp_filtered p = true <-> In FILTERED props)).
Theorem C57_filtered_refuted : forall rt : runtime, ~ C57_statement.
Proof.
  intros rt (H & _ & _). specialize (H (py "k") 0 0 0 [FILTERED] _ _ eq_refl). cbn in H.
  destruct H as [_ H]. specialize (H (or_introl eq_refl)). discriminate.
Qed.
Print Assumptions C57_filtered_refuted.
(** C57, what holds: the flag is right without FILTERED (it is never set), and a Parser
    constructed directly gets it right.  Missing: settings constructed with FILTERED. *)
Theorem C57_filtered_partial : forall rt : runtime,
  (forall key default lo hi props st p, new_integer_setting key default lo hi props = Ok (st, p) -> ip_filtered p = false) /\
  (forall key default lo hi props st p, new_long_setting key default lo hi props = Ok (st, p) -> ip_filtered p = false) /\
  (forall key default lo hi props st p, new_time_setting key default lo hi props = Ok (st, p) -> tp_filtered p = false) /\
  (forall bits lo hi key props p, new_int_parser bits lo hi key (map PProp props) = Ok p -> (ip_filtered p = true <-> In FILTERED props)) /\
  (forall lo hi key props p, new_tv_parser lo hi key (map PProp props) = Ok p -> (tp_filtered p = true <-> In FILTERED props)).
Proof.
  intros rt. assert (F : forall l, has_filtered (map PProp l) = true <-> In FILTERED l).
  { induction l as [|x l IH]; cbn; [split; [discriminate|tauto]|]. rewrite orb_true_iff. fold (has_filtered (map PProp l)).
    rewrite IH. assert (E : prop_eqb FILTERED x = true <-> x = FILTERED) by (destruct x; cbn; split; congruence). cbn in E. rewrite E. tauto. }
  split; [|split; [|split; [|split]]].
  - intros. apply new_int_setting_iff in H as [_ H]. apply pair_equal_spec in H as [_ ->]. reflexivity.
  - intros. apply new_int_setting_iff in H as [_ H]. apply pair_equal_spec in H as [_ ->]. reflexivity.
  - intros. apply new_time_ok in H as (_ & _ & _ & -> & _). reflexivity.
  - intros bits lo hi key props p. unfold new_int_parser. destruct (negb _); [discriminate|]. destruct (negb _); [discriminate|].
    intros H. apply Ok_inj in H. subst p. apply F.
  - intros lo hi key props p. unfold new_tv_parser. destruct (_ <? _); [discriminate|]. destruct (_ <? _); [discriminate|].
    intros H. apply Ok_inj in H. subst p. apply F.
Qed.
Print Assumptions C57_filtered_partial.
Example C57_case : let rt := ascii_rt in (exists st p, new_integer_setting (py "k") 0 0 0 [DYNAMIC; NODE_SCOPE] = Ok (st, p) /\ ip_filtered p = false) /\
  exists p, new_int_parser 31 0 0 (py "k") (map PProp [DYNAMIC; FILTERED]) = Ok p /\ ip_filtered p = true.
Proof. intro rt. split; [eexists _, _|eexists]; (split; reflexivity). Qed.

(** C58: [rm regex s] is whether the regex matches at the start of [s] (None: it does not compile) *)
Theorem C58_validator : forall rm key default v props,
  (forall st rp d s, new_string_setting rm key default (Some v) props = Ok st -> setting_get rp st d = Ok s ->
     rm (rv_regex v) s = Some (rv_matching v)) /\
  (rm (rv_regex v) default = Some (negb (rv_matching v)) -> new_string_setting rm key default (Some v) props = Raise EValue) /\
  (rm (rv_regex v) default = None -> new_string_setting rm key default (Some v) props = Raise ERegex) /\
  (rm (rv_regex v) default = Some (rv_matching v) -> exists st, new_string_setting rm key default (Some v) props = Ok st).
Proof.
  intros rm key default v props. split; [|split; [|split]].
  - intros st rp d s. apply string_setting_valid.
  - intros H. unfold new_string_setting, validate. rewrite H. destruct (rv_matching v); reflexivity.
  - intros H. unfold new_string_setting, validate. rewrite H. reflexivity.
  - intros H. unfold new_string_setting. rewrite (proj2 (validate_ok rm v default) H). cbn. eauto.
Qed.
Print Assumptions C58_validator.
Example C58_case : let rm : regex_oracle := fun _ s => Some (match s with 97 :: _ => true | _ => false end) in
  exists st, new_string_setting rm (py "k") (py "b") (Some (mkVal (py "a") false)) [] = Ok st /\
    setting_get (fun _ => []) st [(py "k", VStr (py "c"))] = Ok (py "c") /\
    setting_get (fun _ => []) st [(py "k", VStr (py "ac"))] = Raise EValue.
Proof. eexists. split; [reflexivity|]. vm_compute. auto. Qed.

(** C59, full statement: false of this code.  [d] is what is in the dict that Settings()
    objects share when reading starts, [d'] the settings that were sent. *)
Definition C59_statement : Prop := forall n f d d' bs s, (n < f)%nat -> dict_ok (fun v => generic_ok v /\ nested v n) d' ->
  write_settings d' = Ok bs -> fresh_settings_read f d (bs ++ s) = (Ok s, d').
Theorem C59_settings_refuted : ~ C59_statement.
Proof.
  intros H. specialize (H O 1%nat [(py "k", VInt 1)] [] [x00] [] ltac:(auto)).
  assert (E : fresh_settings_read 1 [(py "k", VInt 1)] ([x00] ++ []) = (Ok [], [])).
  { apply H; [|reflexivity]. split; [reflexivity|]. split; constructor. }
  vm_compute in E. discriminate.
Qed.
Print Assumptions C59_settings_refuted.
(** C59, what holds: the first reading in a process gives exactly what was sent; later ones
    give the union, the settings just sent taking precedence.  Missing: independence of what
    was read before. *)
Theorem C59_settings_partial : forall n f d', (n < f)%nat -> dict_ok (fun v => generic_ok v /\ nested v n) d' ->
  exists bs, write_settings d' = Ok bs /\ forall s,
    fresh_settings_read f [] (bs ++ s) = (Ok s, d') /\
    forall d, exists u, fresh_settings_read f d (bs ++ s) = (Ok s, u) /\
      forall k, dict_get streqb k u = match dict_get streqb k d' with Some v => Some v | None => dict_get streqb k d end.
Proof.
  intros n f d' Hf Hd. destruct (settings_read n f d' Hf Hd) as (bs & W & R). exists bs. split; [exact W|].
  intros s. destruct Hd as (_ & Nd & _). split.
  - unfold fresh_settings_read. rewrite R, merge_empty by exact Nd. reflexivity.
  - intros d. eexists. split; [apply R|]. intros k. apply merge_get, Nd.
Qed.
Print Assumptions C59_settings_partial.
Example C59_case : dict_ok (fun v => generic_ok v /\ nested v 1) [(py "a", VStr (py "x")); (py "b", VList [VInt 1])] /\
  exists bs, write_settings [(py "a", VStr (py "x")); (py "b", VList [VInt 1])] = Ok bs /\
  read_settings 2 [(py "b", VNone); (py "c", VNone)] bs = (Ok [], [(py "b", VList [VInt 1]); (py "c", VNone); (py "a", VStr (py "x"))]).
Proof.
  split.
  - split; [reflexivity|]. split; [constructor; [intros [H|[]]; vm_compute in H; discriminate|constructor; [intros []|constructor]]|].
    constructor; [split; [text|split; [constructor; text|constructor; discriminate]]|].
    constructor; [split; [text|split]|constructor].
    + constructor; [reflexivity|]. constructor; [constructor; split; [discriminate|reflexivity]|constructor].
    + apply nest_list. constructor; [apply nest_flat; discriminate|constructor].
  - eexists. split; [vm_compute; reflexivity|]. vm_compute. reflexivity.
Qed.

(** C64, full statement: false of this code for LongSetting and ByteSizeValueSetting *)
Definition C64_statement {rt : runtime} : Prop :=
  (forall key default props, s_type (new_boolean_setting key default props) = TBOOLEAN) /\
  (forall key default lo hi props st p, new_integer_setting key default lo hi props = Ok (st, p) -> s_type st = TINTEGER) /\
  (forall key default lo hi props st p, new_long_setting key default lo hi props = Ok (st, p) -> s_type st = TLONG) /\
  (forall rm key default v props st, new_string_setting rm key default v props = Ok st -> s_type st = TSTRING) /\
  (forall key default lo hi props st p, new_time_setting key default lo hi props = Ok (st, p) -> s_type st = TTIME_VALUE) /\
  (forall key default lo hi props st p, new_byte_size_setting key default lo hi props = Ok (st, p) -> s_type st = TBYTE_SIZE_VALUE) /\
  (forall key default props, s_type (new_version_setting key default props) = TVERSION).
Theorem C64_type_refuted : forall rt : runtime, ~ C64_statement.
Proof.
  intros rt (_ & _ & H & _). specialize (H (py "k") 0 0 0 [] _ _ eq_refl). discriminate.
Qed.
Print Assumptions C64_type_refuted.
(** C64, what holds; a LongSetting announces INTEGER and a ByteSizeValueSetting TIME_VALUE. *)
Theorem C64_type_partial : forall rt : runtime,
  (forall key default props, s_type (new_boolean_setting key default props) = TBOOLEAN) /\
  (forall key default lo hi props st p, new_integer_setting key default lo hi props = Ok (st, p) -> s_type st = TINTEGER) /\
  (forall key default lo hi props st p, new_long_setting key default lo hi props = Ok (st, p) -> s_type st = TINTEGER) /\
  (forall rm key default v props st, new_string_setting rm key default v props = Ok st -> s_type st = TSTRING) /\
  (forall key default lo hi props st p, new_time_setting key default lo hi props = Ok (st, p) -> s_type st = TTIME_VALUE) /\
  (forall key default lo hi props st p, new_byte_size_setting key default lo hi props = Ok (st, p) -> s_type st = TTIME_VALUE) /\
  (forall key default props, s_type (new_version_setting key default props) = TVERSION).
Proof.
  intros rt. split; [reflexivity|]. split; [|split; [|split; [|split; [|split; [|reflexivity]]]]]; intros.
  - apply new_int_setting_iff in H as [_ H]. apply pair_equal_spec in H as [-> _]. reflexivity.
  - apply new_int_setting_iff in H as [_ H]. apply pair_equal_spec in H as [-> _]. reflexivity.
  - apply new_string_setting_ok in H as [_ ->]. reflexivity.
  - apply new_time_ok in H as (_ & _ & _ & _ & ->). reflexivity.
  - apply new_byte_size_ok in H as (_ & _ & _ & _ & ->). reflexivity.
Qed.
Print Assumptions C64_type_partial.
Example C64_case : let rt := ascii_rt in exists st p, new_time_setting (py "k") (mkTV 1 3) TV_MINUS_ONE TV_MINUS_ONE [] = Ok (st, p) /\ s_type st = TTIME_VALUE.
Proof. intro rt. eexists _, _. split; reflexivity. Qed.
