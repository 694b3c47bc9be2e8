(** * Property C128, values with a unit, parsers of settings and validators *)
From Coq Require Import String ZArith List Bool Lia.
From Coq Require Import Strings.Byte.
From Verif Require Import Py PyFacts Stream StreamFacts StreamFacts2 Version Frame Proto Messages Rest Settings
  Spec SpecFacts FrameFacts Wire WireFacts WireFacts2 WireFacts3 WireFacts4 MsgFacts Half PropsHalf PropsHalfMore HalfSettings.
Import ListNotations.
Open Scope list_scope.
Open Scope Z_scope.

(** ** What is returned or raised is what the readers say, and of a read that returns so is the object *)
Ltac unwind := intros old s; cbv beta zeta delta [half_bsv read_bsv half_integer_parser read_integer_parser half_long_parser read_long_parser
    half_bs_parser read_bs_parser half_validator read_validator andthen take rbind rret];
  repeat match goal with |- context [match ?r ?x with Ok _ => _ | Raise _ => _ end] => destruct (r x) as [[? ?]|?]; cbn beta iota end;
  first [reflexivity | eexists; reflexivity].
Theorem C128_settings_return : returns half_bsv (fun _ => read_bsv) /\ returns half_integer_parser (fun _ => read_integer_parser) /\
  returns half_long_parser (fun _ => read_long_parser) /\ returns half_bs_parser (fun _ => read_bs_parser) /\
  returns half_tv_parser (fun _ => read_tv_parser) /\ returns half_validator (fun _ => read_validator).
Proof.
  split; [unwind|]. split; [unwind|]. split; [unwind|]. split; [|split; [|unwind]].
  - intros old s. unfold half_bs_parser, read_bs_parser. rewrite then_take. unfold rbind. destruct (read_bsv s) as [[x t]|e]; [|eauto].
    rewrite then_take. destruct (read_bsv t) as [[y t2]|e]; [|eauto]. rewrite take_at. destruct (read_string t2) as [[k t3]|e]; [reflexivity|eauto].
  - intros old s. unfold half_tv_parser, read_tv_parser. unfold rbind. destruct (read_boolean s) as [[h t]|e]; [|eauto].
    rewrite then_take. destruct (read_string t) as [[k t2]|e]; [|eauto]. rewrite then_take.
    destruct (read_time_value t2) as [[lo t3]|e]; [|eauto]. rewrite then_take.
    destruct ((if h then read_time_value else rret TV_MINUS_ONE) t3) as [[hi t4]|e]; [|eauto]. rewrite take_at.
    destruct (read_boolean t4) as [[f t5]|e]; [reflexivity|eauto].
Qed.
Print Assumptions C128_settings_return.

(** ** Whole numbers: reading a bound never raises, so a read that raises always leaves the bounds of the input,
    and always the old [is_filtered]; the key is that of the input if it was read *)
Lemma int_total s : exists i t, read_int s = Ok (i, t). Proof. eexists _, _. reflexivity. Qed.
Theorem C128_bounds_partial : forall s old e o,
  (half_integer_parser old s = (Raise e, o) -> exists lo hi t t2, read_int s = Ok (lo, t) /\ read_int t = Ok (hi, t2) /\
     ((rest read_string t2 = Raise e /\ o = mkIP lo hi (ip_key old) (ip_filtered old)) \/
      (exists k t3, read_string t2 = Ok (k, t3) /\ rest read_boolean t3 = Raise e /\ o = mkIP lo hi k (ip_filtered old)))) /\
  (half_long_parser old s = (Raise e, o) -> exists lo hi t t2, read_long s = Ok (lo, t) /\ read_long t = Ok (hi, t2) /\
     ((rest read_string t2 = Raise e /\ o = mkIP lo hi (ip_key old) (ip_filtered old)) \/
      (exists k t3, read_string t2 = Ok (k, t3) /\ rest read_boolean t3 = Raise e /\ o = mkIP lo hi k (ip_filtered old)))).
Proof.
  intros s old e o. split; intros H.
  - destruct (int_total s) as (lo & t & E1). destruct (int_total t) as (hi & t2 & E2). exists lo, hi, t, t2.
    split; [exact E1|]. split; [exact E2|]. unfold half_integer_parser in H. rewrite then_take, E1, then_take, E2, then_take in H.
    cbn [ip_min ip_max ip_key ip_filtered] in H. unfold rest. destruct (read_string t2) as [[k t3]|e'].
    + right. exists k, t3. split; [reflexivity|]. rewrite take_at in H. destruct (read_boolean t3) as [[f t4]|e']; [discriminate|].
      apply raised in H as [<- <-]. split; reflexivity.
    + left. apply raised in H as [<- <-]. split; reflexivity.
  - destruct (long_total s) as (lo & t & E1). destruct (long_total t) as (hi & t2 & E2). exists lo, hi, t, t2.
    split; [exact E1|]. split; [exact E2|]. unfold half_long_parser in H. rewrite then_take, E1, then_take, E2, then_take in H.
    cbn [ip_min ip_max ip_key ip_filtered] in H. unfold rest. destruct (read_string t2) as [[k t3]|e'].
    + right. exists k, t3. split; [reflexivity|]. rewrite take_at in H. destruct (read_boolean t3) as [[f t4]|e']; [discriminate|].
      apply raised in H as [<- <-]. split; reflexivity.
    + left. apply raised in H as [<- <-]. split; reflexivity.
Qed.
Print Assumptions C128_bounds_partial.

(** so after a read that raised, a setting with that parser takes the values between the bounds of the input *)
Theorem C128_parse_partial : forall old lo hi a b s e,
  (w_signed 4 lo a -> w_signed 4 hi b -> rest (k <~ read_string ;; read_boolean) s = Raise e ->
     exists o, half_integer_parser old (a ++ b ++ s) = (Raise e, o) /\
       forall rt text v, @py_int rt text = Ok v -> @int_parse rt o text = if (lo <=? v) && (v <=? hi) then Ok v else Raise EValue) /\
  (w_signed 8 lo a -> w_signed 8 hi b -> rest (k <~ read_string ;; read_boolean) s = Raise e ->
     exists o, half_long_parser old (a ++ b ++ s) = (Raise e, o) /\
       forall rt text v, @py_int rt text = Ok v -> @int_parse rt o text = if (lo <=? v) && (v <=? hi) then Ok v else Raise EValue).
Proof.
  intros old lo hi a b s e.
  assert (X : forall k f rt text v, @py_int rt text = Ok v ->
    @int_parse rt (mkIP lo hi k f) text = if (lo <=? v) && (v <=? hi) then Ok v else Raise EValue).
  { intros k f rt text v E. unfold int_parse. rewrite E. cbn [bind]. unfold int_bounds_check, in_rangeb. cbn [ip_min ip_max].
    destruct ((lo <=? v) && (v <=? hi)); reflexivity. }
  split; intros W1 W2 R; apply rest_raise in R.
  - unfold half_integer_parser. rewrite then_take, (int_reads _ _ (b ++ s) I W1), then_take, (int_reads _ _ s I W2), then_take.
    cbn [ip_min ip_max ip_key ip_filtered]. unfold rbind in R. destruct (read_string s) as [[k t]|e'].
    + rewrite take_at, R. eexists. split; [reflexivity|]. cbn [ip_min ip_max ip_key ip_filtered]. apply X.
    + injection R as ->. eexists. split; [reflexivity|]. apply X.
  - unfold half_long_parser. rewrite then_take, (long_reads _ _ (b ++ s) I W1), then_take, (long_reads _ _ s I W2), then_take.
    cbn [ip_min ip_max ip_key ip_filtered]. unfold rbind in R. destruct (read_string s) as [[k t]|e'].
    + rewrite take_at, R. eexists. split; [reflexivity|]. cbn [ip_min ip_max ip_key ip_filtered]. apply X.
    + injection R as ->. eexists. split; [reflexivity|]. apply X.
Qed.
Print Assumptions C128_parse_partial.
(** the hypotheses are met; so a parser made for 1 to 10 then takes 11 and no longer 1 *)
Example C128_parse_case : w_signed 4 5 [x00; x00; x00; x05] /\ w_signed 4 20 [x00; x00; x00; x14] /\
  (exists e, rest (k <~ read_string ;; read_boolean) [x01; xff] = Raise e) /\
  (exists e, rest (k <~ read_string ;; read_boolean) [x01; x6b; x02] = Raise e) /\
  exists e, half_integer_parser (mkIP 1 10 (py "k") true) [x00; x00; x00; x05; x00; x00; x00; x14; x01; xff] = (Raise e, mkIP 5 20 (py "k") true).
Proof.
  split; [|split; [|split; [|split]]].
  1, 2: vm_compute; repeat split; congruence.
  all: eexists; vm_compute; reflexivity.
Qed.

(** ** The others: up to an attribute *)
Definition mix_bsv (k : nat) (new old : bsv) : bsv :=
  mkBSV (if Nat.ltb 0 k then bs_size new else bs_size old) (if Nat.ltb 1 k then bs_unit new else bs_unit old).
Definition mix_int_parser (k : nat) (new old : int_parser) : int_parser :=
  mkIP (if Nat.ltb 0 k then ip_min new else ip_min old) (if Nat.ltb 1 k then ip_max new else ip_max old)
       (if Nat.ltb 2 k then ip_key new else ip_key old) (if Nat.ltb 3 k then ip_filtered new else ip_filtered old).
Definition mix_bs_parser (k : nat) (new old : bs_parser) : bs_parser :=
  mkBP (if Nat.ltb 0 k then bp_min new else bp_min old) (if Nat.ltb 1 k then bp_max new else bp_max old)
       (if Nat.ltb 2 k then bp_key new else bp_key old).
(** the key is read first *)
Definition mix_tv_parser (k : nat) (new old : tv_parser) : tv_parser :=
  mkTP (if Nat.ltb 1 k then tp_min new else tp_min old) (if Nat.ltb 2 k then tp_max new else tp_max old)
       (if Nat.ltb 0 k then tp_key new else tp_key old) (if Nat.ltb 3 k then tp_filtered new else tp_filtered old).
Definition mix_validator (k : nat) (new old : validator) : validator :=
  mkVal (if Nat.ltb 0 k then rv_regex new else rv_regex old) (if Nat.ltb 1 k then rv_matching new else rv_matching old).
Ltac flats := cbn [bs_size bs_unit ip_min ip_max ip_key ip_filtered bp_min bp_max bp_key tp_min tp_max tp_key tp_filtered rv_regex rv_matching] in *.
Ltac nexts i := match goal with H : (take _ _ >>> _) _ _ = _ |- _ => rewrite then_take in H
    | H : take _ _ _ _ = _ |- _ => rewrite take_at in H end;
  match goal with H : match ?r ?x with Ok _ => _ | Raise _ => _ end = _ |- _ =>
    destruct (r x) as [[? ?]|?] eqn:?;
    [flats|apply raised in H as [<- <-]; exists i; split; [lia|]; intros other;
      repeat first [rewrite then_take | match goal with E : ?r = _ |- context [?r] => rewrite E end; flats | rewrite take_at]; destruct other; reflexivity] end.
Theorem C128_settings_leave_partial : leaves 1 mix_bsv half_bsv /\ leaves 3 mix_int_parser half_integer_parser /\
  leaves 3 mix_int_parser half_long_parser /\ leaves 2 mix_bs_parser half_bs_parser /\ leaves 3 mix_tv_parser half_tv_parser /\
  leaves 1 mix_validator half_validator.
Proof.
  split; [|split; [|split; [|split; [|split]]]].
  - intros s [a b] e o H. unfold half_bsv in *. nexts 0%nat. nexts 1%nat. discriminate.
  - intros s [a b c d] e o H. unfold half_integer_parser in *. nexts 0%nat. nexts 1%nat. nexts 2%nat. nexts 3%nat. discriminate.
  - intros s [a b c d] e o H. unfold half_long_parser in *. nexts 0%nat. nexts 1%nat. nexts 2%nat. nexts 3%nat. discriminate.
  - intros s [a b c] e o H. unfold half_bs_parser in *. nexts 0%nat. nexts 1%nat. nexts 2%nat. discriminate.
  - intros s [a b c d] e o H. unfold half_tv_parser in *. destruct (read_boolean s) as [[h t]|e0].
    + nexts 0%nat. nexts 1%nat. nexts 2%nat. nexts 3%nat. discriminate.
    + apply raised in H as [<- <-]. exists 0%nat. split; [lia|]. intros other. destruct other; reflexivity.
  - intros s [a b] e o H. unfold half_validator in *. nexts 0%nat. nexts 1%nat. discriminate.
Qed.
Print Assumptions C128_settings_leave_partial.

(** in terms of the bytes *)
Theorem C128_settings_partial : forall strict s e,
  (forall old n a, w_zlong strict n a -> rest (read_enum 6) s = Raise e -> half_bsv old (a ++ s) = (Raise e, mkBSV n (bs_unit old))) /\
  (forall old lo a, w_byte_size strict lo a -> rest read_bsv s = Raise e ->
     half_bs_parser old (a ++ s) = (Raise e, mkBP lo (bp_max old) (bp_key old))) /\
  (forall old lo hi a, parts [w_byte_size strict lo; w_byte_size strict hi] a -> rest read_string s = Raise e ->
     half_bs_parser old (a ++ s) = (Raise e, mkBP lo hi (bp_key old))) /\
  (forall old h k a, parts [w_bool h; w_string strict k] a -> rest read_time_value s = Raise e ->
     half_tv_parser old (a ++ s) = (Raise e, mkTP (tp_min old) (tp_max old) k (tp_filtered old))) /\
  (forall old k lo a, parts [w_bool true; w_string strict k; w_time strict lo] a -> rest read_time_value s = Raise e ->
     half_tv_parser old (a ++ s) = (Raise e, mkTP lo (tp_max old) k (tp_filtered old))) /\
  (forall old k lo a, parts [w_bool false; w_string strict k; w_time strict lo] a -> rest read_boolean s = Raise e ->
     half_tv_parser old (a ++ s) = (Raise e, mkTP lo (mkTV (-1) 2) k (tp_filtered old))) /\
  (forall old k lo hi a, parts [w_bool true; w_string strict k; w_time strict lo; w_time strict hi] a -> rest read_boolean s = Raise e ->
     half_tv_parser old (a ++ s) = (Raise e, mkTP lo hi k (tp_filtered old))) /\
  (forall old x a, w_string strict x a -> rest read_boolean s = Raise e -> half_validator old (a ++ s) = (Raise e, mkVal x (rv_matching old))).
Proof.
  intros strict s e.
  Ltac cut H := repeat (let a := fresh "a" in let b := fresh "b" in let P := fresh "P" in apply parts_cons_inv in H as (a & b & -> & P & H));
    apply parts_nil_inv in H; subst; rewrite ?app_nil_r, <- ?app_assoc.
  Ltac read1 strict := first [rewrite then_take | idtac]; match goal with
    | P : w_bool _ ?a |- context [read_boolean (?a ++ ?t)] => rewrite (bool_reads _ _ t I P)
    | P : w_string _ _ ?a |- context [read_string (?a ++ ?t)] => rewrite (string_reads strict _ _ t I P)
    | P : w_time _ _ ?a |- context [read_time_value (?a ++ ?t)] => rewrite (time_reads strict _ _ t I P)
    | P : w_byte_size _ _ ?a |- context [read_bsv (?a ++ ?t)] => rewrite (bsv_reads strict _ _ t I P)
    | P : w_zlong _ _ ?a |- context [read_z_long (?a ++ ?t)] => rewrite (z_long_reads strict _ _ t I P) end; cbv iota beta.
  Ltac ends E := try rewrite then_take; try rewrite take_at; try rewrite E; try reflexivity.
  split; [|split; [|split; [|split; [|split; [|split; [|split]]]]]].
  - intros old n a P E. apply rest_raise in E. unfold half_bsv. read1 strict. ends E.
  - intros old lo a P E. apply rest_raise in E. unfold half_bs_parser. read1 strict. ends E.
  - intros old lo hi a H E. apply rest_raise in E. cut H. unfold half_bs_parser. read1 strict. read1 strict. ends E.
  - intros old h k a H E. apply rest_raise in E. cut H. unfold half_tv_parser. read1 strict. read1 strict. ends E.
  - intros old k lo a H E. apply rest_raise in E. cut H. unfold half_tv_parser. read1 strict. read1 strict. read1 strict. ends E.
  - intros old k lo a H E. apply rest_raise in E. cut H. unfold half_tv_parser. read1 strict. read1 strict. read1 strict.
    rewrite then_take. cbn [rret]. ends E.
  - intros old k lo hi a H E. apply rest_raise in E. cut H. unfold half_tv_parser. read1 strict. read1 strict. read1 strict. read1 strict. ends E.
  - intros old x a P E. apply rest_raise in E. unfold half_validator. read1 strict. ends E.
Qed.
Print Assumptions C128_settings_partial.
(** the hypotheses are met *)
Example C128_settings_case : (exists e, rest (read_enum 6) [x07] = Raise e) /\ (exists e, rest read_bsv [x00; x07] = Raise e) /\
  (exists e, rest read_string [x01; xff] = Raise e) /\ (exists e, rest read_time_value [x00; x09] = Raise e) /\
  (exists e, rest read_boolean [x02] = Raise e) /\
  (exists e, half_tv_parser (mkTP (mkTV 1 3) (mkTV 9 3) (py "old") true) [x00; x01; x6b; x04; x03; x02] =
     (Raise e, mkTP (mkTV 2 3) (mkTV (-1) 2) (py "k") true)) /\
  (exists e, half_validator (mkVal (py "a+") true) [x01; x62; x02] = (Raise e, mkVal (py "b") true)).
Proof. repeat split; eexists; vm_compute; reflexivity. Qed.

(** ** So none of them is as it was *)
Theorem C128_settings_refuted : ~ kept half_bsv /\ ~ kept half_integer_parser /\ ~ kept half_long_parser /\ ~ kept half_bs_parser /\
  ~ kept half_tv_parser /\ ~ kept half_validator.
Proof.
  split; [|split; [|split; [|split; [|split]]]]; intros K.
  - specialize (K (mkBSV 0 0) [x02; x07]). vm_compute in K. specialize (K _ _ eq_refl). discriminate.
  - specialize (K (mkIP 1 10 [] true) [x00; x00; x00; x05; x00; x00; x00; x14; x01; xff]). vm_compute in K. specialize (K _ _ eq_refl). discriminate.
  - specialize (K (mkIP 1 10 [] true) (repeat x00 16 ++ [x01; xff])). vm_compute in K. specialize (K _ _ eq_refl). discriminate.
  - specialize (K (mkBP (mkBSV 1 1) (mkBSV 1 1) []) [x00; x00; x00; x07]). vm_compute in K. specialize (K _ _ eq_refl). discriminate.
  - specialize (K (mkTP (mkTV 1 1) (mkTV 1 1) [] true) [x00; x01; x6b; x00; x09]). vm_compute in K. specialize (K _ _ eq_refl). discriminate.
  - specialize (K (mkVal [] true) [x01; x62; x02]). vm_compute in K. specialize (K _ _ eq_refl). discriminate.
Qed.
Print Assumptions C128_settings_refuted.
