(** * Properties C83-C86: the texts settings accept *)
From Coq Require Import String ZArith List Bool Lia.
From Coq Require Import Strings.Byte.
From Verif Require Import Py Stream Version Settings PyFacts Spec SpecFacts VersionFacts SettingsFacts TextFacts PropsMessages PropsSettings.
Import ListNotations.
Open Scope list_scope.
Open Scope Z_scope.

(** a runtime with more than ASCII: Arabic digits, the no-break space, e acute, the Kelvin
    sign, and CPython's limit *)
Definition sample_rt : runtime := mkRT
  (fun c => if (1632 <=? c) && (c <=? 1641) then Some (c - 1632) else None)
  (fun c => c =? 160) (fun c => ((1632 <=? c) && (c <=? 1641)) || (c =? 233) || (c =? 201) || (c =? 8490))
  (fun c => if c =? 8490 then [107] else if c =? 201 then [233] else [c]) 4300.
Lemma sample_ok : runtime_ok sample_rt.
Proof.
  split; cbn.
  - lia.
  - intros c d H. destruct ((1632 <=? c) && (c <=? 1641)) eqn:E; [|discriminate]. injection H as <-. cbn. lia.
  - intros c H. lia.
  - intros c _. destruct (c =? 8490); [discriminate|]. destruct (c =? 201); discriminate.
  - intros c x Hc. destruct (Z.eqb_spec c 8490); [|destruct (Z.eqb_spec c 201)]; cbn; intuition lia.
Qed.
Lemma ascii_ok : runtime_ok ascii_rt.
Proof.
  split; cbn; try discriminate.
  - auto.
  - intros c x Hc [<-|[]]. auto.
Qed.

(** C83, full statement: false of this code, which ignores what follows the unit. *)
Definition C83_statement {rt : runtime} : Prop :=
  (forall x v, bsv_parse x = Ok v <-> exists u, In (u, bs_unit v) size_names /\ quantity x (bs_size v) u []) /\
  (forall x v, tv_parse x = Ok v <-> exists u, In (u, tv_unit v) time_names /\ quantity x (tv_dur v) u []).

Lemma split_nonempty {rt : runtime} x n u : split_quantity x = Ok (n, u) -> u <> [].
Proof.
  unfold split_quantity. cbv zeta. destruct (take_while is_decimal (lower x)); [discriminate|].
  destruct (take_while re_word _) eqn:E; [discriminate|]. intros H. apply bind_ok in H as (m & _ & H).
  apply Ok_inj in H. apply pair_equal_spec in H as [_ <-]. discriminate.
Qed.
Lemma split_raise {rt : runtime} x e : split_quantity x = Raise e -> e = EValue.
Proof.
  unfold split_quantity. cbv zeta. destruct (take_while is_decimal (lower x)) as [|c b] eqn:E; [congruence|].
  destruct (take_while re_word _); [congruence|]. destruct (py_int (c :: b)) eqn:P; cbn [bind]; [discriminate|].
  apply py_int_raise in P. congruence.
Qed.
Lemma names_letters u k : In (u, k) size_names \/ In (u, k) time_names -> u <> [] /\ Forall letter u.
Proof.
  intros H. repeat (destruct H as [H|H]); try contradiction; injection H as <- <-;
    (split; [discriminate|repeat (constructor; [split; [discriminate|discriminate]|]); constructor]).
Qed.
Lemma size_index (u : pystr) k : u <> [] ->
  (index_of (if ends_in_b u then u else u ++ [98]) byte_units 0 = Some k <-> In (u, k) size_names).
Proof.
  intros N. split.
  - assert (C : exists u' : pystr, (if ends_in_b u then u else u ++ [98]) = u' /\ (u' = u \/ (u' = u ++ [98] /\ last u 0 <> 98))).
    { eexists. split; [reflexivity|]. unfold ends_in_b. destruct (Z.eqb_spec (last u 0) 98); auto. }
    destruct C as (u' & -> & C). unfold byte_units. cbn [map index_of]. intros H.
    assert (D : exists y, In (y, k) [(py "b", 0); (py "kb", 1); (py "mb", 2); (py "gb", 3); (py "tb", 4); (py "pb", 5)] /\ u' = y).
    { repeat (match type of H with (if streqb u' ?y then _ else _) = _ => let E := fresh in destruct (streqb u' y) eqn:E; [injection H as <-; apply streqb_eq in E; exists y; cbn; tauto|] end). discriminate. }
    destruct D as (y & I & ->). cbn in I.
    destruct C as [->|[E L]]; [unfold size_names; cbn; tauto|].
    repeat (destruct I as [I|I]; [injection I as <- <-|]); try contradiction;
      (destruct u as [|a [|b [|c u]]]; try contradiction; try discriminate E; injection E as ?; subst; try contradiction; cbn; tauto).
  - intros I. unfold size_names in I. cbn in I.
    repeat (destruct I as [I|I]; [injection I as <- <-; reflexivity|]). contradiction.
Qed.
Lemma time_index u k : index_of u time_units 0 = Some k <-> In (u, k) time_names.
Proof.
  split.
  - unfold time_units. cbn [map index_of]. intros H.
    repeat (match type of H with (if streqb u ?y then _ else _) = _ => let E := fresh in destruct (streqb u y) eqn:E; [injection H as <-; apply streqb_eq in E; subst u; cbn; tauto|] end). discriminate.
  - intros I. unfold time_names in I. cbn in I.
    repeat (destruct I as [I|I]; [injection I as <- <-; reflexivity|]). contradiction.
Qed.
(** C83, what holds: a number, spaces, a unit, and then anything that does not go on with a
    word character; every other text raises ValueError.  Missing: refusing what follows. *)
Theorem C83_quantities_partial : forall rt : runtime, runtime_ok rt -> forall x,
  (forall v, bsv_parse x = Ok v <->
     exists u rest, In (u, bs_unit v) size_names /\ quantity x (bs_size v) u rest /\ no_word_first rest) /\
  (forall e, bsv_parse x = Raise e -> e = EValue) /\
  (forall v, tv_parse x = Ok v <->
     exists u rest, In (u, tv_unit v) time_names /\ quantity x (tv_dur v) u rest /\ no_word_first rest) /\
  (forall e, tv_parse x = Raise e -> e = EValue).
Proof.
  intros rt OK x. split; [|split; [|split]].
  - intros [n k]. cbn [bs_unit bs_size]. unfold bsv_parse. split.
    + intros H. apply bind_ok in H as ([n' u] & S & H). cbn [fst snd] in H. cbv zeta in H.
      destruct (index_of _ _ _) as [k'|] eqn:E; [|discriminate]. apply Ok_inj in H. injection H as -> ->.
      apply size_index in E; [|eapply split_nonempty; exact S]. destruct (names_letters u k (or_introl E)) as [N L].
      apply (split_quantity_iff OK) in S as (rest & Q & W); [|assumption..]. eauto 6.
    + intros (u & rest & I & Q & W). destruct (names_letters u k (or_introl I)) as [N L].
      rewrite (proj2 (split_quantity_iff OK x n u N L)) by eauto. cbn [bind fst snd].
      rewrite (proj2 (size_index u k N) I). reflexivity.
  - intros e H. unfold bsv_parse in H. destruct (split_quantity x) as [q|e'] eqn:S; cbn [bind] in H.
    + cbv zeta in H. destruct (index_of _ _ _); congruence.
    + apply split_raise in S. congruence.
  - intros [n k]. cbn [tv_unit tv_dur]. unfold tv_parse. split.
    + intros H. apply bind_ok in H as ([n' u] & S & H). cbn [fst snd] in H.
      destruct (index_of _ _ _) as [k'|] eqn:E; [|discriminate]. apply Ok_inj in H. injection H as -> ->.
      apply time_index in E. destruct (names_letters u k (or_intror E)) as [N L].
      apply (split_quantity_iff OK) in S as (rest & Q & W); [|assumption..]. eauto 6.
    + intros (u & rest & I & Q & W). destruct (names_letters u k (or_intror I)) as [N L].
      rewrite (proj2 (split_quantity_iff OK x n u N L)) by eauto. cbn [bind fst snd].
      rewrite (proj2 (time_index u k) I). reflexivity.
  - intros e H. unfold tv_parse in H. destruct (split_quantity x) as [q|e'] eqn:S; cbn [bind] in H.
    + destruct (index_of _ _ _); congruence.
    + apply split_raise in S. congruence.
Qed.
Print Assumptions C83_quantities_partial.
Theorem C83_quantities_refuted : forall rt : runtime, runtime_ok rt -> ~ C83_statement.
Proof.
  intros rt OK [_ H].
  assert (P : tv_parse (py "5m!") = Ok (mkTV 5 4)).
  { apply C83_quantities_partial; [exact OK|]. exists (py "m"), (py "!"). cbn [tv_unit tv_dur]. split; [cbn; tauto|]. split.
    - exists (py "5"), [5], []. split; [apply lower_case_iff; reflexivity|]. split; [discriminate|]. split; [constructor; [left; cbn; lia|constructor]|].
      split; [|split; [reflexivity|constructor]]. unfold digits_fit. change (zlen [5]) with 1. pose proof (limit_ok rt OK). lia.
    - intros c t [= <- <-]. unfold word_char. lia. }
  apply H in P as (u & I & b & ds & sp & E & _). apply lower_case_iff in E. cbn [tv_unit] in I.
  assert (U : u = py "m") by (cbn in I; repeat (destruct I as [I|I]; [first [discriminate I|injection I as <-; reflexivity]|]); contradiction). subst u.
  change (lower (py "5m!")) with ([53; 109] ++ [33]) in E. rewrite app_nil_r, app_assoc in E. apply app_inj_tail in E as [_ E]. discriminate.
Qed.
Print Assumptions C83_quantities_refuted.
(** and at a setting: of these texts, those within the bounds *)
Theorem C83_settings_partial : forall rt : runtime, runtime_ok rt ->
  (forall key default lo hi props st p, byte_unit default -> byte_unit lo -> byte_unit hi ->
     new_byte_size_setting key default lo hi props = Ok (st, p) -> forall x v, s_parse st x = Ok v <->
       (exists u rest, In (u, bs_unit v) size_names /\ quantity x (bs_size v) u rest /\ no_word_first rest) /\ bytes_within lo hi v) /\
  (forall key default lo hi props st p, time_unit default -> time_unit lo -> time_unit hi ->
     new_time_setting key default lo hi props = Ok (st, p) -> forall x v, s_parse st x = Ok v <->
       (exists u rest, In (u, tv_unit v) time_names /\ quantity x (tv_dur v) u rest /\ no_word_first rest) /\ nanos_within lo hi v).
Proof.
  intros rt OK. destruct C54_units as [UB UT]. split.
  - intros key default lo hi props st p U1 U2 U3 N x v. apply new_byte_size_ok in N as (_ & _ & _ & _ & ->). cbn [s_parse].
    destruct (C83_quantities_partial rt OK x) as (X & _). unfold bs_parse. rewrite <- X.
    assert (U : bsv_parse x = Ok v -> byte_unit v).
    { intros H. apply X in H as (u & rest & I & _). unfold byte_unit. cbn in I. repeat (destruct I as [I|I]; [injection I as _ <-; lia|]). contradiction. }
    split.
    + intros H. apply bind_ok in H as (w & P & H). apply bs_bounds_ok in H as [-> H]. split; [exact P|].
      cbn [bp_min bp_max] in H. unfold bytes_within. rewrite <- !UB by auto. exact H.
    + intros [P W]. rewrite P. cbn [bind]. unfold bytes_within in W. rewrite <- !UB in W by auto. apply bs_bounds_in; apply W.
  - intros key default lo hi props st p U1 U2 U3 N x v. apply new_time_ok in N as (_ & _ & _ & _ & ->). cbn [s_parse].
    destruct (C83_quantities_partial rt OK x) as (_ & _ & X & _). unfold tvs_parse. rewrite <- X.
    assert (U : tv_parse x = Ok v -> time_unit v).
    { intros H. apply X in H as (u & rest & I & _). unfold time_unit. cbn in I. repeat (destruct I as [I|I]; [injection I as _ <-; lia|]). contradiction. }
    split.
    + intros H. apply bind_ok in H as (w & P & H). apply tv_bounds_ok in H as [-> H]. split; [exact P|].
      cbn [tp_min tp_max] in H. unfold nanos_within. rewrite <- !UT by auto. exact H.
    + intros [P W]. rewrite P. cbn [bind]. unfold nanos_within in W. rewrite <- !UT in W by auto. apply tv_bounds_in; apply W.
Qed.
Print Assumptions C83_settings_partial.
Example C83_case : let rt := sample_rt in
  bsv_parse ([1637; 1632; 160; 8490] ++ py "B, or so") = Ok (mkBSV 50 1) /\ bsv_parse (py "5 K") = Ok (mkBSV 5 1) /\
  bsv_parse (py "5kib") = Raise EValue /\ bsv_parse (py "5k" ++ [233]) = Raise EValue /\ bsv_parse (py " 5kb") = Raise EValue /\
  tv_parse (py "1.5h") = Raise EValue /\ tv_parse (py "1h30m") = Raise EValue /\ tv_parse (py "1h 30m") = Ok (mkTV 1 5) /\
  quantity (py "1h 30m") 1 (py "h") (py " 30m").
Proof.
  intro rt. do 8 (split; [reflexivity|]). exists (py "1"), [1], []. split; [apply lower_case_iff; reflexivity|]. split; [discriminate|].
  split; [constructor; [left; cbn; lia|constructor]|]. split; [right; discriminate|]. split; [reflexivity|constructor].
Qed.

(** C84, full statement: false of this code, which takes everything Python's int() takes. *)
Definition C84_statement {rt : runtime} : Prop :=
  forall new, In new [new_integer_setting; new_long_setting] ->
  forall key default lo hi props st p, new key default lo hi props = Ok (st, p) ->
  forall x v, s_parse st x = Ok v <-> numeral x v /\ lo <= v <= hi.
Lemma int_setting_texts {rt : runtime} bits key default lo hi props st p : runtime_ok rt ->
  new_int_setting bits key default lo hi props = Ok (st, p) ->
  forall x, (forall v, s_parse st x = Ok v <-> int_text x v /\ lo <= v <= hi) /\ (forall e, s_parse st x = Raise e -> e = EValue).
Proof.
  intros OK H x. apply new_int_setting_iff in H as [_ H]. apply pair_equal_spec in H as [-> _]. cbn [s_parse]. unfold int_parse. split.
  - intros v. rewrite <- (py_int_text OK). split.
    + intros H. apply bind_ok in H as (w & P & H). apply int_bounds_ok in H as [-> H]. auto.
    + intros [P B]. rewrite P. cbn [bind]. apply int_bounds_in, B.
  - intros e H. destruct (py_int x) as [w|e'] eqn:P; cbn [bind] in H; [|apply py_int_raise in P; congruence].
    unfold int_bounds_check in H. destruct (negb _); congruence.
Qed.
(** C84, what holds: exactly the texts of int() - underscores, surrounding spaces and other
    scripts' digits included - of numbers within the bounds; every plain numeral is among them
    while its digits are not over the limit. *)
Theorem C84_integers_partial : forall rt : runtime, runtime_ok rt ->
  forall new, In new [new_integer_setting; new_long_setting] ->
  forall key default lo hi props st p, new key default lo hi props = Ok (st, p) ->
  forall x, (forall v, s_parse st x = Ok v <-> int_text x v /\ lo <= v <= hi) /\
    (forall e, s_parse st x = Raise e -> e = EValue) /\
    (forall v, numeral x v -> zlen x <= 640 -> lo <= v <= hi -> s_parse st x = Ok v).
Proof.
  intros rt OK new Hn key default lo hi props st p H x.
  assert (T : (forall v, s_parse st x = Ok v <-> int_text x v /\ lo <= v <= hi) /\ (forall e, s_parse st x = Raise e -> e = EValue)).
  { destruct Hn as [<-|[<-|[]]]; eapply int_setting_texts; eassumption. }
  split; [apply T|]. split; [apply T|]. intros v (sign & ds & E & N & F & V) L B. apply T. split; [|exact B].
  exists [], sign, (map (Z.add 48) ds), [], ds. rewrite app_nil_r. split; [exact E|]. split; [constructor|]. split; [constructor|].
  split; [|split; [|exact V]].
  - apply digits_run; [destruct ds; [contradiction|discriminate]|]. clear - F.
    induction F as [|d ds Hd _ IH]; constructor; [left; lia|exact IH].
  - assert (zlen ds <= zlen x).
    { rewrite E, zlen_app, zlen_map. pose proof (zlen_nonneg _ sign). lia. }
    pose proof (limit_ok rt OK). unfold digits_fit. lia.
Qed.
Print Assumptions C84_integers_partial.
Theorem C84_integers_refuted : forall rt : runtime, runtime_ok rt -> ~ C84_statement.
Proof.
  intros rt OK H. specialize (H new_integer_setting (or_introl eq_refl) (py "k") 10 0 10 [] _ _ eq_refl (py "1_0") 10).
  assert (P : numeral (py "1_0") 10 /\ 0 <= 10 <= 10).
  { apply H. refine (proj2 (proj1 (C84_integers_partial rt OK new_integer_setting (or_introl eq_refl) (py "k") 10 0 10 [] _ _ eq_refl (py "1_0")) 10) _).
    split; [|lia]. exists [], [], (py "1_0"), [], [1; 0]. split; [reflexivity|]. split; [constructor|]. split; [constructor|].
    split; [change (py "1_0") with [49; 95; 48]; apply run_underscore; [left; lia|apply run_one; left; lia]|]. split; [|left; split; [left; reflexivity|reflexivity]].
    unfold digits_fit. change (zlen [1; 0]) with 2. pose proof (limit_ok rt OK). lia. }
  destruct P as [(sign & ds & E & _ & F & V) _].
  destruct V as [[[->| ->] _]|[-> _]]; try discriminate E. cbn [app] in E.
  destruct ds as [|a [|b ds]]; try discriminate E. apply (f_equal (fun l => nth 1 l 0)) in E. change (95 = 48 + b) in E.
  rewrite !Forall_cons_iff in F. lia.
Qed.
Print Assumptions C84_integers_refuted.
Example C84_case : let rt := sample_rt in exists st p, new_long_setting (py "k") 0 (-50) 50 [] = Ok (st, p) /\
  s_parse st ([160; 43; 1636; 95] ++ py "2 ") = Ok 42 /\ s_parse st (py "- 2") = Raise EValue /\ s_parse st (py "4__2") = Raise EValue /\
  s_parse st (py "_42") = Raise EValue /\ s_parse st (py "0x2A") = Raise EValue /\ s_parse st (28 :: py "42") = Raise EValue /\
  s_parse st (repeat 48 4301) = Raise EValue /\ s_parse st (repeat 48 4300) = Ok 0.
Proof. intro rt. eexists _, _. split; [reflexivity|]. vm_compute. repeat split. Qed.

(** C85 *)
Theorem C85_booleans : forall rt : runtime, runtime_ok rt -> forall key default props x,
  exists b, s_parse (new_boolean_setting key default props) x = Ok b /\ (b = true <-> ignoring_case x (py "true")).
Proof.
  intros rt OK key default props x. cbn [new_boolean_setting s_parse]. eexists. split; [reflexivity|]. rewrite streqb_eq.
  assert (G : forall t x, Forall (fun d => 97 <= d <= 122 /\ d <> 105 /\ d <> 107) t -> lower x = t <-> ignoring_case x t).
  { clear x. intros t x Ht. split.
    - revert t Ht. induction x as [|c x IH]; intros t Ht E; cbn [lower flat_map] in E; [subst t; constructor|].
      change (flat_map _ x) with (lower x) in E. destruct (Z.ltb_spec c 128) as [Hc|Hc].
      + cbn [app] in E. destruct t as [|d t]; [discriminate|]. injection E as E1 E2. rewrite Forall_cons_iff in Ht. destruct Ht as [Hd Ht].
        constructor; [|apply IH; assumption]. unfold lower1 in E1. destruct (_ && _) eqn:Q in E1; lia.
      + exfalso. pose proof (lower_some rt OK c Hc) as N. destruct (rt_lower c) as [|y l] eqn:L; [contradiction|].
        destruct t as [|d t]; [discriminate|]. injection E as E1 _. rewrite Forall_cons_iff in Ht.
        assert (I : In y (rt_lower c)) by (rewrite L; left; reflexivity). apply (lower_ok rt OK c y Hc) in I. lia.
    - intros H. induction H as [|c d x t Hcd H IH]; [reflexivity|]. rewrite Forall_cons_iff in Ht. destruct Ht as [Hd Ht].
      cbn [lower flat_map]. change (flat_map _ x) with (lower x). rewrite (IH Ht). destruct (Z.ltb_spec c 128); [|lia].
      unfold lower1. destruct (_ && _) eqn:Q; cbn [app]; f_equal; lia. }
  apply G. change (py "true") with [116; 114; 117; 101]. repeat (constructor; [lia|]). constructor.
Qed.
Print Assumptions C85_booleans.
Example C85_case : let rt := sample_rt in ignoring_case (py "tRuE") (py "true") /\
  s_parse (new_boolean_setting (py "k") false []) (py "tRuE") = Ok true /\
  s_parse (new_boolean_setting (py "k") true []) (py " true") = Ok false /\
  s_parse (new_boolean_setting (py "k") true []) (py "1") = Ok false.
Proof.
  intro rt. split; [|vm_compute; auto]. change (ignoring_case [116; 82; 117; 69] [116; 114; 117; 101]).
  repeat (constructor; [lia|]). constructor.
Qed.

(** C15: the text of a version *)
Lemma str_decimal n : 0 <= n -> decimal n (str_int n).
Proof.
  intros H. destruct (bsv_text n [] H) as (ds & A & B & C & E & F & G). rewrite !app_nil_r in G. exists ds.
  split; [exact G|]. split; [exact A|]. split; [exact B|]. split; [exact C|]. intros Z. apply F.
  destruct (Z.eq_dec n 0); [assumption|]. destruct E; [lia|exact Z].
Qed.
Theorem C15_text : forall a b c d, 0 <= a < 100 -> 0 <= b < 100 -> 0 <= c < 100 -> 0 <= d < 100 ->
  exists xa xb xc xd, decimal a xa /\ decimal b xb /\ decimal c xc /\ decimal d xd /\
    v_str (version_of_id (a * 1000000 + b * 10000 + c * 100 + d)) = xa ++ py "." ++ xb ++ py "." ++ xc ++ py "." ++ xd.
Proof.
  intros a b c d Ha Hb Hc Hd. destruct (version_components a b c d Ha Hb Hc Hd) as (A & B & C & D).
  exists (str_int a), (str_int b), (str_int c), (str_int d).
  do 4 (split; [apply str_decimal; lia|]). unfold v_str. rewrite A, B, C, D. reflexivity.
Qed.
Print Assumptions C15_text.

(** C86, full statement: false of this code, which takes the number of a version only. *)
Definition C86_statement {rt : runtime} : Prop := forall key default props v, 0 <= vid v < 2 ^ 31 ->
  s_parse (new_version_setting key default props) (v_str v) = Ok v.
(** C86, what holds: the texts of int() are accepted, for the version of that number; the
    dotted text of a version is always refused. *)
Theorem C86_versions_partial : forall rt : runtime, runtime_ok rt -> forall key default props,
  (forall x v, s_parse (new_version_setting key default props) x = Ok v <-> int_text x (vid v)) /\
  (forall x e, s_parse (new_version_setting key default props) x = Raise e -> e = EValue) /\
  (forall v, s_parse (new_version_setting key default props) (v_str v) = Raise EValue).
Proof.
  intros rt OK key default props. cbn [new_version_setting s_parse].
  assert (A : forall x v, version_parse x = Ok v <-> int_text x (vid v)).
  { intros x v. unfold version_parse. rewrite <- (py_int_text OK). split.
    - intros H. apply bind_ok in H as (n & P & H). apply Ok_inj in H. subst v. unfold version_of_id. cbn [vid]. rewrite lxor_twice. exact P.
    - intros P. rewrite P. cbn [bind]. unfold version_of_id. rewrite lxor_twice. destruct v. reflexivity. }
  assert (B : forall x e, version_parse x = Raise e -> e = EValue).
  { intros x e H. unfold version_parse in H. destruct (py_int x) eqn:P; [discriminate|]. apply py_int_raise in P. cbn in H. congruence. }
  split; [exact A|]. split; [exact B|]. intros v. destruct (version_parse (v_str v)) as [w|e] eqn:P; [|f_equal; eapply B; exact P].
  exfalso. apply A in P. assert (I : In 46 (v_str v)) by (unfold v_str; rewrite !in_app_iff; cbn; tauto).
  destruct (int_text_chars _ _ _ P I) as [C|[C|[C|[C|(d & C)]]]]; try discriminate.
  - unfold blank in C. lia.
  - unfold digit_of in C. lia.
Qed.
Print Assumptions C86_versions_partial.
Theorem C86_versions_refuted : forall rt : runtime, runtime_ok rt -> ~ C86_statement.
Proof.
  intros rt OK H. specialize (H (py "k") (mkVersion 0) [] (mkVersion 0) ltac:(cbn; lia)).
  rewrite (proj2 (proj2 (C86_versions_partial rt OK (py "k") (mkVersion 0) []))) in H. discriminate.
Qed.
Print Assumptions C86_versions_refuted.
Example C86_case : let rt := ascii_rt in v_str (mkVersion 137217827) = py "3.0.0.99" /\
  s_parse (new_version_setting (py "k") (mkVersion 0) []) (py "3.0.0.99") = Raise EValue /\
  s_parse (new_version_setting (py "k") (mkVersion 0) []) (py "137217827") = Ok (mkVersion 137217827).
Proof. intro rt. vm_compute. auto. Qed.
