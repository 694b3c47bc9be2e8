(** * Facts about settings *)
From Coq Require Import String ZArith List Bool Lia ZifyBool.
From Coq Require Import Strings.Byte.
From Verif Require Import Py Stream Version Settings PyFacts StreamFacts Spec SpecFacts VersionFacts MsgFacts RestFacts.
Import ListNotations.
Open Scope list_scope.
Open Scope Z_scope.

(** ** decimal text *)
Definition digit_char (c : Z) : Prop := 48 <= c <= 57.
Lemma is_digit_spec c : is_digit c = true <-> digit_char c.
Proof. unfold is_digit, digit_char. lia. Qed.

Ltac Zify.zify_post_hook ::= Z.div_mod_to_equations.
Lemma dec_digits_spec : forall f n acc, 0 <= n -> n < 2 ^ Z.of_nat f -> f <> O ->
  exists ds, ds <> [] /\ Forall (fun d => 0 <= d <= 9) ds /\ digits_value ds = n /\
    dec_digits f n acc = map (Z.add 48) ds ++ acc /\ (0 < n -> hd 0 ds <> 0) /\ (n = 0 -> ds = [0]).
Proof.
  induction f as [|f IH]; intros n acc Hn Hf Hz.
  - contradiction.
  - cbn [dec_digits]. destruct (Z.ltb_spec n 10).
    + exists [n]. split; [discriminate|]. split; [constructor; [lia|constructor]|].
      split; [cbn; lia|]. split; [reflexivity|]. split; [cbn; lia|intros ->; reflexivity].
    + destruct (IH (n / 10) ((48 + n mod 10) :: acc)) as (ds & Hne & Hds & V & D & H0 & _); [lia| | |].
      { rewrite Nat2Z.inj_succ, Z.pow_succ_r in Hf by lia. lia. }
      { intros ->. cbn in Hf. lia. }
      exists (ds ++ [n mod 10]). split; [destruct ds; discriminate|].
      split; [apply Forall_app; split; [exact Hds|constructor; [lia|constructor]]|].
      split.
      { assert (A : forall l x, digits_value (l ++ [x]) = digits_value l * 10 + x).
        { clear. induction l as [|y l IH]; intros x; cbn [app digits_value]; [change (zlen (@nil Z)) with 0; lia|].
          rewrite IH, zlen_app, zlen_cons, zlen_nil. rewrite (Z.add_comm (zlen l)), Z.pow_add_r by (pose proof (zlen_nonneg _ l); lia). lia. }
        rewrite A, V. lia. }
      split; [rewrite D, map_app, <- app_assoc; reflexivity|].
      split; [|lia]. intros _. destruct ds; [contradiction|]. cbn [app hd] in *. apply H0. lia.
Qed.
Lemma str_nat_spec n : 0 <= n -> exists ds, ds <> [] /\ Forall (fun d => 0 <= d <= 9) ds /\
  digits_value ds = n /\ str_nat n = map (Z.add 48) ds /\ (0 < n -> hd 0 ds <> 0) /\ (n = 0 -> ds = [0]).
Proof.
  intros H. unfold str_nat. destruct (dec_digits_spec (S (Z.to_nat (Z.log2 n))) n [] H) as (ds & A & B & C & D & E & F).
  - rewrite Nat2Z.inj_succ, Z2Nat.id by apply Z.log2_nonneg. destruct (Z.eq_dec n 0) as [->|]; [reflexivity|].
    apply Z.log2_spec. lia.
  - discriminate.
  - exists ds. rewrite app_nil_r in D. auto 8.
Qed.
Ltac Zify.zify_post_hook ::= idtac.

(** ** int() *)
Definition fits {rt : runtime} (n : Z) : Prop := rt_limit = 0 \/ n <= rt_limit.
Lemma digit_val_char {rt : runtime} d : 0 <= d <= 9 -> digit_val (48 + d) = Some d.
Proof.
  intros H. unfold digit_val. destruct (Z.ltb_spec (48 + d) 128); [|lia].
  assert (E : is_digit (48 + d) = true) by (apply is_digit_spec; unfold digit_char; lia). rewrite E; f_equal; lia.
Qed.
Lemma is_decimal_char {rt : runtime} d : 0 <= d <= 9 -> is_decimal (48 + d) = true.
Proof. intros H. unfold is_decimal. rewrite digit_val_char by exact H. reflexivity. Qed.
Lemma int_digits_value {rt : runtime} ds : Forall (fun d => 0 <= d <= 9) ds -> forall acc,
  int_digits false acc (map (Z.add 48) ds) = Ok (acc * 10 ^ zlen ds + digits_value ds).
Proof.
  induction 1 as [|d ds Hd _ IH]; intros acc; cbn [map int_digits digits_value].
  - rewrite zlen_nil. f_equal. lia.
  - rewrite digit_val_char, IH, zlen_cons, Z.pow_add_r by (pose proof (zlen_nonneg _ ds); lia). f_equal. lia.
Qed.
Lemma int_start_value {rt : runtime} ds : ds <> [] -> Forall (fun d => 0 <= d <= 9) ds ->
  int_start (map (Z.add 48) ds) = Ok (digits_value ds).
Proof.
  intros Hne H. destruct ds as [|d ds]; [contradiction|]. inversion_clear H as [|? ? Hd H'].
  cbn [map int_start digits_value].
  rewrite digit_val_char, int_digits_value by assumption. reflexivity.
Qed.
Lemma drop_while_none f l : Forall (fun c => f c = false) l -> drop_while f l = l.
Proof. intros H. destruct H as [|c l Hc _]; [reflexivity|]. cbn. rewrite Hc. reflexivity. Qed.
Lemma strip_none {rt : runtime} l : Forall (fun c => int_space c = false) l -> strip l = l.
Proof.
  intros H. unfold strip. rewrite (drop_while_none _ l H), drop_while_none; [apply rev_involutive|].
  apply Forall_rev, H.
Qed.
Lemma digits_no_space {rt : runtime} ds : Forall (fun d => 0 <= d <= 9) ds -> Forall (fun c => int_space c = false) (map (Z.add 48) ds).
Proof.
  intros H. apply Forall_map. eapply Forall_impl; [|exact H]. intros d Hd. cbv beta in *. unfold int_space.
  destruct (Z.ltb_spec (48 + d) 128); lia.
Qed.
Lemma count_digits {rt : runtime} ds : Forall (fun d => 0 <= d <= 9) ds -> filter is_decimal (map (Z.add 48) ds) = map (Z.add 48) ds.
Proof. induction 1 as [|d ds Hd _ IH]; cbn [map filter]; [reflexivity|]. rewrite is_decimal_char, IH by exact Hd. reflexivity. Qed.
Lemma zlen_map {A B} (f : A -> B) l : zlen (map f l) = zlen l.
Proof. unfold zlen. rewrite map_length. reflexivity. Qed.
Lemma not_over_limit {rt : runtime} l n : zlen (filter is_decimal l) = n -> fits n -> over_limit l = false.
Proof. intros E F. unfold over_limit. rewrite E. unfold fits in F. lia. Qed.

Lemma py_int_digits {rt : runtime} ds : ds <> [] -> Forall (fun d => 0 <= d <= 9) ds -> fits (zlen ds) ->
  py_int (map (Z.add 48) ds) = Ok (digits_value ds).
Proof.
  intros Hne H F. unfold py_int. rewrite (not_over_limit _ (zlen ds)); [|rewrite count_digits, zlen_map by exact H; reflexivity|exact F].
  rewrite strip_none by (apply digits_no_space, H).
  rewrite <- (int_start_value ds Hne H).
  destruct ds as [|d ds]; [contradiction|]. inversion_clear H as [|? ? Hd _]. cbn [map].
  assert (C : d = 0 \/ d = 1 \/ d = 2 \/ d = 3 \/ d = 4 \/ d = 5 \/ d = 6 \/ d = 7 \/ d = 8 \/ d = 9) by lia.
  repeat (destruct C as [->|C]; [reflexivity|]). subst. reflexivity.
Qed.
Lemma py_int_neg_digits {rt : runtime} ds : ds <> [] -> Forall (fun d => 0 <= d <= 9) ds -> fits (zlen ds) ->
  py_int (45 :: map (Z.add 48) ds) = Ok (- digits_value ds).
Proof.
  intros Hne H F. unfold py_int. rewrite (not_over_limit _ (zlen ds)); [| |exact F].
  2: { change (filter is_decimal (45 :: map (Z.add 48) ds)) with (filter is_decimal (map (Z.add 48) ds)).
       rewrite count_digits, zlen_map by exact H; reflexivity. }
  rewrite strip_none by (constructor; [reflexivity|apply digits_no_space, H]).
  rewrite int_start_value by assumption. reflexivity.
Qed.
Lemma digits_value_bounds ds : Forall (fun d => 0 <= d <= 9) ds -> 0 <= digits_value ds < 10 ^ zlen ds.
Proof.
  induction 1 as [|d ds Hd _ IH]; cbn [digits_value]; [rewrite zlen_nil; lia|].
  rewrite zlen_cons, Z.pow_add_r by (pose proof (zlen_nonneg _ ds); lia). nia.
Qed.
Lemma short_digits ds : Forall (fun d => 0 <= d <= 9) ds -> (digits_value ds = 0 -> ds = [0]) ->
  (0 < digits_value ds -> hd 0 ds <> 0) -> short (digits_value ds) -> zlen ds <= 640.
Proof.
  intros H Hz Hp S. pose proof (digits_value_bounds ds H) as B.
  destruct (Z.eq_dec (digits_value ds) 0) as [E|E]; [rewrite (Hz E); unfold zlen; cbn; lia|].
  specialize (Hp ltac:(lia)). destruct ds as [|d ds]; [contradiction|]. cbn [hd] in Hp.
  inversion_clear H as [|? ? Hd H']. pose proof (digits_value_bounds ds H') as B'. cbn [digits_value] in S.
  rewrite zlen_cons. destruct (Z.le_gt_cases (1 + zlen ds) 640); [assumption|]. exfalso.
  assert (P : 10 ^ 640 <= 10 ^ zlen ds) by (apply Z.pow_le_mono_r; lia). unfold short in S.
  generalize dependent (10 ^ 640). intros M S P. rewrite Z.abs_eq in S by nia. nia.
Qed.
Lemma fits_short {rt : runtime} n : rt_limit = 0 \/ 640 <= rt_limit -> n <= 640 -> fits n.
Proof. unfold fits. lia. Qed.
Lemma py_int_str {rt : runtime} i : rt_limit = 0 \/ 640 <= rt_limit -> short i -> py_int (str_int i) = Ok i.
Proof.
  intros L S. unfold str_int. destruct (Z.ltb_spec i 0).
  - destruct (str_nat_spec (- i)) as (ds & A & B & C & D & E & F); [lia|].
    rewrite D, py_int_neg_digits; [f_equal; lia|assumption..|].
    apply fits_short; [exact L|]. apply short_digits; [exact B|rewrite C; exact F|rewrite C; exact E|rewrite C].
    unfold short in *. rewrite Z.abs_opp. exact S.
  - destruct (str_nat_spec i) as (ds & A & B & C & D & E & F); [lia|].
    rewrite D, py_int_digits; [f_equal; lia|assumption..|].
    apply fits_short; [exact L|]. apply short_digits; [exact B|rewrite C; exact F|rewrite C; exact E|rewrite C; exact S].
Qed.
Lemma short_64 i : Z.abs i <= 2 ^ 63 -> short i.
Proof. intros H. unfold short. eapply Z.le_lt_trans; [exact H|]. reflexivity. Qed.
Lemma str_int_nonempty i : exists c t, str_int i = c :: t.
Proof.
  unfold str_int. destruct (Z.ltb_spec i 0); [eauto|].
  destruct (str_nat_spec i) as (ds & A & _ & _ & D & _); [lia|]. rewrite D. destruct ds; [contradiction|]. cbn. eauto.
Qed.

(** ** getting *)
Lemma settings_get_absent rp d k o : ~ In k (map fst d) -> settings_get rp d k o = o.
Proof.
  intros H. unfold settings_get. rewrite (proj2 (dict_get_None streqb streqb_eq k d)) by exact H. reflexivity.
Qed.
Lemma setting_get_absent A rp (st : setting A) d : ~ In (s_key st) (map fst d) ->
  setting_get rp st d = s_parse st (s_default st).
Proof. intros H. unfold setting_get. rewrite settings_get_absent by exact H. reflexivity. Qed.
Lemma setting_get_cases A rp (st : setting A) d :
  setting_get rp st d = s_parse st (s_default st) \/
  exists x, x <> [] /\ setting_get rp st d =
    (_u <- match s_validate st with Some f => f x | None => Ok tt end ;; s_parse st x).
Proof.
  unfold setting_get. destruct (settings_get rp d (s_key st) None) as [[|c t]|]; auto.
  right. exists (c :: t). split; [discriminate|reflexivity].
Qed.
Lemma setting_get_stored A rp (st : setting A) d v : dict_get streqb (s_key st) d = Some v ->
  truthy v = true -> py_str rp v <> [] ->
  setting_get rp st d =
    (_u <- match s_validate st with Some f => f (py_str rp v) | None => Ok tt end ;; s_parse st (py_str rp v)).
Proof.
  intros H T N. unfold setting_get, settings_get. rewrite H, T. destruct (py_str rp v); [contradiction|reflexivity].
Qed.
Lemma setting_get_falsy A rp (st : setting A) d v : dict_get streqb (s_key st) d = Some v ->
  truthy v = false -> setting_get rp st d = s_parse st (s_default st).
Proof. intros H T. unfold setting_get, settings_get. rewrite H, T. reflexivity. Qed.

(** ** integers *)
Lemma int_bounds_ok p v w : int_bounds_check p v = Ok w -> w = v /\ ip_min p <= v <= ip_max p.
Proof. unfold int_bounds_check, in_rangeb. destruct (_ && _) eqn:E; cbn; [|discriminate]. intros [= <-]. lia. Qed.
Lemma int_bounds_in p v : ip_min p <= v <= ip_max p -> int_bounds_check p v = Ok v.
Proof. intros H. unfold int_bounds_check, in_rangeb. destruct (_ && _) eqn:E; [reflexivity|lia]. Qed.
Lemma int_parse_ok {rt : runtime} p s v : int_parse p s = Ok v -> ip_min p <= v <= ip_max p.
Proof. intros H. apply bind_ok in H as (w & _ & H). apply int_bounds_ok in H as [-> H]. exact H. Qed.

Lemma new_int_setting_iff {rt : runtime} bits key default lo hi props r :
  new_int_setting bits key default lo hi props = Ok r <->
  (- 2 ^ bits <= lo < 2 ^ bits /\ - 2 ^ bits <= hi < 2 ^ bits /\ lo <= default <= hi) /\
  r = (mkSetting TINTEGER key (str_int default) (int_parse (mkIP lo hi key false)) None [PTuple props],
       mkIP lo hi key false).
Proof.
  unfold new_int_setting, new_int_parser, in_rangeb.
  destruct ((- 2 ^ bits <=? lo) && (lo <=? 2 ^ bits - 1)) eqn:E1; cbn [negb bind]; [|split; [discriminate|lia]].
  destruct ((- 2 ^ bits <=? hi) && (hi <=? 2 ^ bits - 1)) eqn:E2; cbn [negb bind]; [|split; [discriminate|lia]].
  change (has_filtered [PTuple props]) with false.
  unfold int_bounds_check, in_rangeb at 1. cbn [ip_min ip_max].
  destruct ((lo <=? default) && (default <=? hi)) eqn:E3; cbn [negb bind]; [|split; [discriminate|lia]].
  split; [intros H; apply Ok_inj in H; subst r; split; [lia|reflexivity]|intros [_ ->]; reflexivity].
Qed.
Lemma new_int_setting_raise {rt : runtime} bits key default lo hi props :
  ~ (- 2 ^ bits <= lo < 2 ^ bits /\ - 2 ^ bits <= hi < 2 ^ bits /\ lo <= default <= hi) ->
  new_int_setting bits key default lo hi props = Raise EValue.
Proof.
  intros H. unfold new_int_setting, new_int_parser, in_rangeb.
  destruct ((- 2 ^ bits <=? lo) && (lo <=? 2 ^ bits - 1)) eqn:E1; cbn [negb bind]; [|reflexivity].
  destruct ((- 2 ^ bits <=? hi) && (hi <=? 2 ^ bits - 1)) eqn:E2; cbn [negb bind]; [|reflexivity].
  unfold int_bounds_check, in_rangeb at 1. cbn [ip_min ip_max].
  destruct ((lo <=? default) && (default <=? hi)) eqn:E3; cbn [negb bind]; [|reflexivity]. lia.
Qed.
Lemma int_setting_in_bounds {rt : runtime} bits key default lo hi props st p rp d v :
  new_int_setting bits key default lo hi props = Ok (st, p) -> setting_get rp st d = Ok v -> lo <= v <= hi.
Proof.
  intros H G. apply new_int_setting_iff in H as [_ H]. apply pair_equal_spec in H as [-> _].
  destruct (setting_get_cases _ rp (mkSetting TINTEGER key (str_int default) (int_parse (mkIP lo hi key false)) None [PTuple props]) d)
    as [E|(x & _ & E)]; rewrite E in G; cbn [s_parse s_validate s_default bind] in G; apply int_parse_ok in G; exact G.
Qed.
Lemma int_setting_default {rt : runtime} bits key default lo hi props st p rp d :
  new_int_setting bits key default lo hi props = Ok (st, p) -> ~ In key (map fst d) ->
  0 <= bits <= 63 -> rt_limit = 0 \/ 640 <= rt_limit -> setting_get rp st d = Ok default.
Proof.
  intros H N W L. apply new_int_setting_iff in H as [B H]. apply pair_equal_spec in H as [-> _].
  rewrite setting_get_absent by exact N. cbn [s_parse s_default]. unfold int_parse.
  assert (2 ^ bits <= 2 ^ 63) by (apply Z.pow_le_mono_r; lia). change (2 ^ 63) with 9223372036854775808 in *.
  rewrite py_int_str; [cbn [bind]; apply int_bounds_in; cbn; lia|exact L|apply short_64; change (2 ^ 63) with 9223372036854775808; lia].
Qed.
Lemma version_setting_default {rt : runtime} key v props rp d : ~ In key (map fst d) ->
  rt_limit = 0 \/ 640 <= rt_limit -> short (vid v) ->
  setting_get rp (new_version_setting key v props) d = Ok v.
Proof.
  intros N L S. rewrite setting_get_absent by exact N. cbn [new_version_setting s_parse s_default].
  unfold version_parse. rewrite py_int_str by assumption. cbn [bind]. unfold version_of_id. rewrite lxor_twice. destruct v. reflexivity.
Qed.
Lemma bool_setting_default {rt : runtime} key b props rp d : ~ In key (map fst d) ->
  setting_get rp (new_boolean_setting key b props) d = Ok b.
Proof. intros N. rewrite setting_get_absent by exact N. destruct b; reflexivity. Qed.

(** ** string settings *)
Lemma validate_ok rm v s : validate rm v s = Ok tt <-> rm (rv_regex v) s = Some (rv_matching v).
Proof.
  unfold validate. destruct (rm (rv_regex v) s) as [[]|]; destruct (rv_matching v); cbn; split; congruence.
Qed.
Lemma new_string_setting_ok rm key default v props st : new_string_setting rm key default v props = Ok st ->
  (forall w, v = Some w -> rm (rv_regex w) default = Some (rv_matching w)) /\
  st = mkSetting TSTRING key default (fun s => Ok s) (option_map (validate rm) v) [PTuple props].
Proof.
  unfold new_string_setting. intros H. apply bind_ok in H as ([] & Hv & H). apply Ok_inj in H.
  split; [|symmetry; exact H]. intros w ->. apply validate_ok, Hv.
Qed.
Lemma string_setting_valid rm key default v props st rp d s :
  new_string_setting rm key default (Some v) props = Ok st -> setting_get rp st d = Ok s ->
  rm (rv_regex v) s = Some (rv_matching v).
Proof.
  intros H G. apply new_string_setting_ok in H as [Hv ->].
  destruct (setting_get_cases _ rp (mkSetting TSTRING key default (fun s => Ok s) (option_map (validate rm) (Some v)) [PTuple props]) d)
    as [E|(x & _ & E)]; rewrite E in G; cbn [s_parse s_validate s_default option_map] in G.
  - apply Ok_inj in G. subst. apply Hv. reflexivity.
  - apply bind_ok in G as ([] & V & G). apply Ok_inj in G. subst. apply validate_ok, V.
Qed.
Lemma string_setting_default rm key default v props st rp d :
  new_string_setting rm key default v props = Ok st -> ~ In key (map fst d) -> setting_get rp st d = Ok default.
Proof.
  intros H N. apply new_string_setting_ok in H as [_ ->]. rewrite setting_get_absent by exact N. reflexivity.
Qed.

(** ** quantities with a unit *)
Lemma take_while_app f a b : Forall (fun c => f c = true) a -> take_while f b = [] -> take_while f (a ++ b) = a.
Proof. intros H E. induction H as [|c a Hc _ IH]; cbn; [exact E|]. rewrite Hc, IH. reflexivity. Qed.
Lemma drop_while_app f a b : Forall (fun c => f c = true) a -> drop_while f b = b -> drop_while f (a ++ b) = b.
Proof. intros H E. induction H as [|c a Hc _ IH]; cbn; [exact E|]. rewrite Hc, IH. reflexivity. Qed.
Definition letter (c : Z) : Prop := 97 <= c <= 122.
Lemma lower_letters {rt : runtime} u : Forall (fun c => 48 <= c <= 57 \/ letter c) u -> lower u = u.
Proof.
  induction 1 as [|c u Hc _ IH]; [reflexivity|]. unfold lower in *. cbn [flat_map]. rewrite IH.
  unfold letter in Hc. destruct (Z.ltb_spec c 128); [|lia]. unfold lower1. destruct (_ && _) eqn:E; [lia|reflexivity].
Qed.
Lemma letter_class {rt : runtime} c : letter c -> is_decimal c = false /\ re_space c = false /\ re_word c = true.
Proof.
  unfold letter, is_decimal, digit_val, re_space, re_word, is_word, is_digit. intros H. destruct (Z.ltb_spec c 128); [|lia].
  destruct (_ && _) eqn:E; [lia|]. split; [reflexivity|]. lia.
Qed.
Lemma split_quantity_str {rt : runtime} ds u : ds <> [] -> Forall (fun d => 0 <= d <= 9) ds -> u <> [] -> Forall letter u ->
  fits (zlen ds) -> split_quantity (map (Z.add 48) ds ++ u) = Ok (digits_value ds, u).
Proof.
  intros Hne Hd Hu Hl F. unfold split_quantity.
  assert (L : lower (map (Z.add 48) ds ++ u) = map (Z.add 48) ds ++ u).
  { apply lower_letters, Forall_app. split; [apply Forall_map|]; eapply Forall_impl; [|exact Hd| |exact Hl]; cbv beta; lia || auto. }
  cbv zeta. rewrite L.
  destruct u as [|c u]; [contradiction|]. inversion Hl as [|? ? Hc Hu']; subst.
  destruct (letter_class c Hc) as (Nd & Ns & _).
  assert (D : Forall (fun c => is_decimal c = true) (map (Z.add 48) ds)).
  { apply Forall_map. eapply Forall_impl; [|exact Hd]. intros d H. apply is_decimal_char, H. }
  rewrite take_while_app; [|exact D|cbn; rewrite Nd; reflexivity].
  rewrite drop_while_app; [|exact D|cbn; rewrite Nd; reflexivity].
  replace (drop_while re_space (c :: u)) with (c :: u) by (cbn; rewrite Ns; reflexivity).
  assert (W : take_while re_word (c :: u) = c :: u).
  { rewrite <- (app_nil_r (c :: u)) at 1. apply take_while_app; [|reflexivity].
    eapply Forall_impl; [|exact Hl]. intros x H. apply letter_class, H. }
  rewrite W, py_int_digits by assumption.
  destruct ds as [|d ds]; [contradiction|]. reflexivity.
Qed.

Lemma bsv_text n u : 0 <= n -> exists ds, ds <> [] /\ Forall (fun d => 0 <= d <= 9) ds /\ digits_value ds = n /\
  (0 < n -> hd 0 ds <> 0) /\ (n = 0 -> ds = [0]) /\ str_int n ++ u = map (Z.add 48) ds ++ u.
Proof.
  intros H. destruct (str_nat_spec n H) as (ds & A & B & C & D & E & F). exists ds.
  unfold str_int. destruct (Z.ltb_spec n 0); [lia|]. rewrite D. auto 8.
Qed.
Ltac letters := repeat (constructor; [split; [discriminate|discriminate]|]); constructor.
Lemma bsv_parse_str {rt : runtime} v : rt_limit = 0 \/ 640 <= rt_limit -> short (bs_size v) ->
  0 <= bs_size v -> 0 <= bs_unit v < 6 -> bsv_parse (bsv_str v) = Ok v.
Proof.
  destruct v as [n u]. cbn [bs_size bs_unit]. intros L Sh Hn Hu. unfold bsv_parse, bsv_str. cbn [bs_size bs_unit].
  destruct (bsv_text n (nth (Z.to_nat u) byte_units []) Hn) as (ds & A & B & C & P & P0 & E). rewrite E.
  assert (Q : u = 0 \/ u = 1 \/ u = 2 \/ u = 3 \/ u = 4 \/ u = 5) by lia.
  assert (S : forall x, x <> [] -> Forall letter x -> split_quantity (map (Z.add 48) ds ++ x) = Ok (n, x)).
  { intros x Hx Lx. rewrite <- C. apply split_quantity_str; try assumption. apply fits_short; [exact L|].
    apply short_digits; rewrite ?C; assumption. }
  repeat (destruct Q as [->|Q]; [rewrite S by (try letters; discriminate); reflexivity|]).
  subst. rewrite S by (try letters; discriminate); reflexivity.
Qed.
Lemma tv_parse_str {rt : runtime} v : rt_limit = 0 \/ 640 <= rt_limit -> short (tv_dur v) ->
  0 <= tv_dur v -> 0 <= tv_unit v < 7 -> tv_parse (tv_str v) = Ok v.
Proof.
  destruct v as [n u]. cbn [tv_dur tv_unit]. intros L Sh Hn Hu. unfold tv_parse, tv_str. cbn [tv_dur tv_unit].
  destruct (bsv_text n (nth (Z.to_nat u) time_units []) Hn) as (ds & A & B & C & P & P0 & E). rewrite E.
  assert (Q : u = 0 \/ u = 1 \/ u = 2 \/ u = 3 \/ u = 4 \/ u = 5 \/ u = 6) by lia.
  assert (S : forall x, x <> [] -> Forall letter x -> split_quantity (map (Z.add 48) ds ++ x) = Ok (n, x)).
  { intros x Hx Lx. rewrite <- C. apply split_quantity_str; try assumption. apply fits_short; [exact L|].
    apply short_digits; rewrite ?C; assumption. }
  repeat (destruct Q as [->|Q]; [rewrite S by (try letters; discriminate); reflexivity|]).
  subst. rewrite S by (try letters; discriminate); reflexivity.
Qed.

Lemma bs_bounds_ok p v w : bs_bounds_check p v = Ok w -> w = v /\
  (0 <= bs_size (bp_min p) -> bsv_to_bytes (bp_min p) <= bsv_to_bytes v) /\
  (0 <= bs_size (bp_max p) -> bsv_to_bytes v <= bsv_to_bytes (bp_max p)).
Proof.
  unfold bs_bounds_check. destruct (_ && _) eqn:E; [discriminate|]. destruct ((_ <=? bs_size (bp_max p)) && _) eqn:E2; [discriminate|].
  intros H. apply Ok_inj in H. split; [congruence|lia].
Qed.
Lemma bs_bounds_in p v : (0 <= bs_size (bp_min p) -> bsv_to_bytes (bp_min p) <= bsv_to_bytes v) ->
  (0 <= bs_size (bp_max p) -> bsv_to_bytes v <= bsv_to_bytes (bp_max p)) -> bs_bounds_check p v = Ok v.
Proof.
  intros H1 H2. unfold bs_bounds_check. destruct (_ && _) eqn:E; [lia|]. destruct ((_ <=? bs_size (bp_max p)) && _) eqn:E2; [lia|]. reflexivity.
Qed.
Lemma tv_bounds_ok p v w : tv_bounds_check p v = Ok w -> w = v /\
  (0 <= tv_dur (tp_min p) -> tv_to_nanos (tp_min p) <= tv_to_nanos v) /\
  (0 <= tv_dur (tp_max p) -> tv_to_nanos v <= tv_to_nanos (tp_max p)).
Proof.
  unfold tv_bounds_check. destruct (_ && _) eqn:E; [discriminate|]. destruct ((_ <=? tv_dur (tp_max p)) && _) eqn:E2; [discriminate|].
  intros H. apply Ok_inj in H. split; [congruence|lia].
Qed.
Lemma tv_bounds_in p v : (0 <= tv_dur (tp_min p) -> tv_to_nanos (tp_min p) <= tv_to_nanos v) ->
  (0 <= tv_dur (tp_max p) -> tv_to_nanos v <= tv_to_nanos (tp_max p)) -> tv_bounds_check p v = Ok v.
Proof.
  intros H1 H2. unfold tv_bounds_check. destruct (_ && _) eqn:E; [lia|]. destruct ((_ <=? tv_dur (tp_max p)) && _) eqn:E2; [lia|]. reflexivity.
Qed.
Lemma new_byte_size_ok {rt : runtime} key default lo hi props st p : new_byte_size_setting key default lo hi props = Ok (st, p) ->
  -1 <= bs_size lo /\ -1 <= bs_size hi /\ bs_bounds_check (mkBP lo hi key) default = Ok default /\ p = mkBP lo hi key /\
  st = mkSetting TTIME_VALUE key (bsv_str default) (bs_parse (mkBP lo hi key)) None [PTuple props].
Proof.
  unfold new_byte_size_setting, new_bs_parser. destruct (Z.ltb_spec (bs_size lo) (-1)); [discriminate|].
  destruct (Z.ltb_spec (bs_size hi) (-1)); [discriminate|]. cbn [bind]. intros H1. apply bind_ok in H1 as (w & B & H1).
  apply Ok_inj in H1. apply pair_equal_spec in H1 as [<- <-]. pose proof (bs_bounds_ok _ _ _ B) as [-> _]. auto.
Qed.
Lemma new_byte_size_raise {rt : runtime} key default lo hi props :
  bs_size lo < -1 \/ bs_size hi < -1 \/ (0 <= bs_size lo /\ bsv_to_bytes default < bsv_to_bytes lo) \/
  (0 <= bs_size hi /\ bsv_to_bytes hi < bsv_to_bytes default) ->
  new_byte_size_setting key default lo hi props = Raise EValue.
Proof.
  intros H. unfold new_byte_size_setting, new_bs_parser. destruct (Z.ltb_spec (bs_size lo) (-1)); [reflexivity|].
  destruct (Z.ltb_spec (bs_size hi) (-1)); [reflexivity|]. cbn [bind]. unfold bs_bounds_check. cbn [bp_min bp_max].
  destruct (_ && _) eqn:E; [reflexivity|]. destruct ((_ <=? bs_size hi) && _) eqn:E2; [reflexivity|]. lia.
Qed.
Lemma new_time_ok {rt : runtime} key default lo hi props st p : new_time_setting key default lo hi props = Ok (st, p) ->
  -1 <= tv_dur lo /\ -1 <= tv_dur hi /\ tv_bounds_check (mkTP lo hi key false) default = Ok default /\
  p = mkTP lo hi key false /\
  st = mkSetting TTIME_VALUE key (tv_str default) (tvs_parse (mkTP lo hi key false)) None [PTuple props].
Proof.
  unfold new_time_setting, new_tv_parser. destruct (Z.ltb_spec (tv_dur lo) (-1)); [discriminate|].
  destruct (Z.ltb_spec (tv_dur hi) (-1)); [discriminate|]. change (has_filtered [PTuple props]) with false.
  cbn [bind]. intros H1. apply bind_ok in H1 as (w & B & H1).
  apply Ok_inj in H1. apply pair_equal_spec in H1 as [<- <-]. pose proof (tv_bounds_ok _ _ _ B) as [-> _]. auto.
Qed.
Lemma new_time_raise {rt : runtime} key default lo hi props :
  tv_dur lo < -1 \/ tv_dur hi < -1 \/ (0 <= tv_dur lo /\ tv_to_nanos default < tv_to_nanos lo) \/
  (0 <= tv_dur hi /\ tv_to_nanos hi < tv_to_nanos default) ->
  new_time_setting key default lo hi props = Raise EValue.
Proof.
  intros H. unfold new_time_setting, new_tv_parser. destruct (Z.ltb_spec (tv_dur lo) (-1)); [reflexivity|].
  destruct (Z.ltb_spec (tv_dur hi) (-1)); [reflexivity|]. cbn [bind]. unfold tv_bounds_check. cbn [tp_min tp_max].
  destruct (_ && _) eqn:E; [reflexivity|]. destruct ((_ <=? tv_dur hi) && _) eqn:E2; [reflexivity|]. lia.
Qed.

Lemma setting_get_parsed A rp (st : setting A) d v : s_validate st = None -> setting_get rp st d = Ok v ->
  exists x, s_parse st x = Ok v.
Proof.
  intros Hv G. destruct (setting_get_cases _ rp st d) as [E|(x & _ & E)]; rewrite E in G; [eauto|].
  rewrite Hv in G. cbn [bind] in G. eauto.
Qed.

(** ** parsers on the wire *)
Lemma z_long_survives : survives write_z_long read_z_long (fun i => Z.abs i < 2 ^ 63).
Proof. intros i Hi. apply z_long_wire, Hi. Qed.
Lemma enum_small_survives n : 0 <= n <= 2 ^ 7 -> survives write_byte (read_enum n) (fun i => 0 <= i < n).
Proof.
  intros Hn i Hi. destruct (v_int_survives i ltac:(cbv beta; lia)) as (b & W & R).
  assert (E : write_byte i = write_v_int i) by (unfold write_v_int; destruct (Z.ltb_spec i 0x80); lia || reflexivity).
  exists b. rewrite E. split; [exact W|]. intros s. unfold read_enum.
  rewrite (rbind_step _ _ _ _ _ _ _ (R s)). destruct (_ && _) eqn:Q; [reflexivity|lia].
Qed.
Lemma enum_v_int_survives n : n <= 2 ^ 35 -> survives write_v_int (read_enum n) (fun i => 0 <= i < n).
Proof.
  intros Hn i Hi. destruct (v_int_survives i ltac:(cbv beta; lia)) as (b & W & R).
  exists b. split; [exact W|]. intros s. unfold read_enum.
  rewrite (rbind_step _ _ _ _ _ _ _ (R s)). destruct (_ && _) eqn:Q; [reflexivity|lia].
Qed.
Lemma bsv_survives : survives write_bsv read_bsv (fun v => Z.abs (bs_size v) < 2 ^ 63 /\ 0 <= bs_unit v < 6).
Proof.
  intros [n u] [Hn Hu]. cbn [bs_size bs_unit] in *. field (z_long_survives n Hn).
  field (enum_v_int_survives 6 ltac:(lia) u Hu). eexists. split; [unfold write_bsv, write_enum; cbn [bs_size bs_unit]; write_out|].
  intros s. assoc. unfold read_bsv. rstep R. rstep R0. reflexivity.
Qed.
Lemma tv_survives : survives write_time_value read_time_value (fun v => Z.abs (tv_dur v) < 2 ^ 63 /\ 0 <= tv_unit v < 7).
Proof.
  intros [n u] [Hn Hu]. cbn [tv_dur tv_unit] in *. field (z_long_survives n Hn).
  field (enum_small_survives 7 ltac:(lia) u Hu). eexists. split; [unfold write_time_value; cbn [tv_dur tv_unit]; write_out|].
  intros s. assoc. unfold read_time_value. rstep R. rstep R0. reflexivity.
Qed.
Lemma integer_parser_survives : survives write_integer_parser read_integer_parser (fun p =>
  - 2 ^ 31 <= ip_min p < 2 ^ 31 /\ - 2 ^ 31 <= ip_max p < 2 ^ 31 /\ text_ok (ip_key p)).
Proof.
  intros [a b k f] (Ha & Hb & Hk). cbn [ip_min ip_max ip_key] in *.
  field (int_survives a Ha). field (int_survives b Hb). field (string_survives k Hk). field (bool_survives f I).
  eexists. split; [unfold write_integer_parser; cbn [ip_min ip_max ip_key ip_filtered]; write_out|].
  intros s. assoc. unfold read_integer_parser. rstep R. rstep R0. rstep R1. rstep R2. reflexivity.
Qed.
Lemma long_parser_survives : survives write_long_parser read_long_parser (fun p =>
  - 2 ^ 63 <= ip_min p < 2 ^ 63 /\ - 2 ^ 63 <= ip_max p < 2 ^ 63 /\ text_ok (ip_key p)).
Proof.
  intros [a b k f] (Ha & Hb & Hk). cbn [ip_min ip_max ip_key] in *.
  field (long_survives a Ha). field (long_survives b Hb). field (string_survives k Hk). field (bool_survives f I).
  eexists. split; [unfold write_long_parser; cbn [ip_min ip_max ip_key ip_filtered]; write_out|].
  intros s. assoc. unfold read_long_parser. rstep R. rstep R0. rstep R1. rstep R2. reflexivity.
Qed.
Lemma validator_survives : survives write_validator read_validator (fun v => text_ok (rv_regex v)).
Proof.
  intros [r m] Hr. cbn in Hr. field (string_survives r Hr). field (bool_survives m I).
  eexists. split; [unfold write_validator; cbn [rv_regex rv_matching]; write_out|].
  intros s. assoc. unfold read_validator. rstep R. rstep R0. reflexivity.
Qed.
Lemma bs_parser_survives : survives write_bs_parser read_bs_parser (fun p =>
  (Z.abs (bs_size (bp_min p)) < 2 ^ 63 /\ 0 <= bs_unit (bp_min p) < 6) /\
  (Z.abs (bs_size (bp_max p)) < 2 ^ 63 /\ 0 <= bs_unit (bp_max p) < 6) /\ text_ok (bp_key p)).
Proof.
  intros [a b k] (Ha & Hb & Hk). cbn [bp_min bp_max bp_key] in *.
  field (bsv_survives a Ha). field (bsv_survives b Hb). field (string_survives k Hk).
  eexists. split; [unfold write_bs_parser; cbn [bp_min bp_max bp_key]; write_out|].
  intros s. assoc. unfold read_bs_parser. rstep R. rstep R0. rstep R1. reflexivity.
Qed.
Lemma tv_parser_survives p :
  (Z.abs (tv_dur (tp_min p)) < 2 ^ 63 /\ 0 <= tv_unit (tp_min p) < 7) ->
  (0 <= tv_dur (tp_max p) -> tv_dur (tp_max p) < 2 ^ 63 /\ 0 <= tv_unit (tp_max p) < 7) -> text_ok (tp_key p) ->
  exists bs, write_tv_parser p = Ok bs /\ forall s, exists p', read_tv_parser (bs ++ s) = Ok (p', s) /\
    tp_min p' = tp_min p /\ tp_key p' = tp_key p /\ tp_filtered p' = tp_filtered p /\
    (0 <= tv_dur (tp_max p) -> tp_max p' = tp_max p) /\ (tv_dur (tp_max p) < 0 -> tv_dur (tp_max p') = -1).
Proof.
  destruct p as [a b k f]. cbn [tp_min tp_max tp_key tp_filtered]. intros Ha Hb Hk.
  unfold write_tv_parser. cbn [tp_min tp_max tp_key tp_filtered].
  field (tv_survives a Ha). field (string_survives k Hk). field (bool_survives f I).
  destruct (Z.leb_spec 0 (tv_dur b)) as [H|H].
  - field (tv_survives b ltac:(cbv beta; pose proof (Hb H); lia)). field (bool_survives true I).
    eexists. split; [write_out|]. intros s. exists (mkTP a b k f). split; [|cbn; intuition lia].
    assoc. unfold read_tv_parser. rstep R3. rstep R0. rstep R. rstep R2. rstep R1. reflexivity.
  - field (bool_survives false I).
    eexists. split; [write_out; reflexivity|]. intros s. exists (mkTP a TV_MINUS_ONE k f). split; [|cbn; intuition lia].
    assoc. unfold read_tv_parser. rstep R2. rstep R0. rstep R. cbv iota. unfold rret at 1. 
    rewrite (rbind_step _ _ _ _ _ _ _ (eq_refl : rret TV_MINUS_ONE (b2 ++ s) = Ok (TV_MINUS_ONE, b2 ++ s))).
    rstep R1. reflexivity.
Qed.

(** ** Settings on the wire *)
Definition merge (d d' : sdict pyval) : sdict pyval :=
  fold_left (fun d kv => dict_set streqb (fst kv) (snd kv) d) d' d.
Lemma settings_pairs n f l : (n < f)%nat ->
  Forall (fun kv => text_ok (fst kv) /\ generic_ok (snd kv) /\ nested (snd kv) n) l ->
  exists bs, wcat (map (fun kv => wcat [write_string (fst kv); write_generic_value (snd kv)]) l) = Ok bs /\
    forall d s, read_settings_loop f (length l) d (bs ++ s) = (Ok s, merge d l).
Proof.
  intros Hf H. induction H as [|[k v] l (Hk & Hv & Hn) _ (bs & W & R)].
  - exists []. split; reflexivity.
  - cbn [fst snd] in *. field (string_survives k Hk). field (generic_survives n f Hf v (conj Hv Hn)).
    exists ((b ++ b0 ++ []) ++ bs). split.
    + cbn [map fst snd]. apply wcat_cons_eq; [write_out|exact W].
    + intros d s. cbn [length read_settings_loop]. rewrite <- !app_assoc. cbn [app].
      rewrite (rbind_step _ _ _ _ _ _ _ (R0 _)), (rbind_step _ _ _ _ _ _ _ (R1 _)). unfold rret.
      rewrite R. reflexivity.
Qed.
Lemma settings_read n f d' : (n < f)%nat -> dict_ok (fun v => generic_ok v /\ nested v n) d' ->
  exists bs, write_settings d' = Ok bs /\ forall d s, read_settings f d (bs ++ s) = (Ok s, merge d d').
Proof.
  intros Hf (Hl & _ & H). destruct (settings_pairs n f d' Hf H) as (b & W & R).
  destruct (v_int_survives (zlen d') (conj (zlen_nonneg _ d') Hl)) as (b0 & W0 & R0).
  exists (b0 ++ b). split; [unfold write_settings; apply wcat_cons_eq; assumption|].
  intros d s. unfold read_settings. rewrite <- app_assoc, R0. unfold zlen. rewrite Nat2Z.id. apply R.
Qed.
Lemma merge_empty d' : NoDup (map fst d') -> merge [] d' = d'.
Proof. intros H. unfold merge. rewrite (dict_fold_new streqb streqb_eq); [reflexivity|exact H]. Qed.
Lemma merge_get d' : forall d k, NoDup (map fst d') -> dict_get streqb k (merge d d') =
  match dict_get streqb k d' with Some v => Some v | None => dict_get streqb k d end.
Proof.
  induction d' as [|[k' v'] d' IH]; intros d k H; [reflexivity|]. cbn [map fst] in H. inversion_clear H as [|? ? Hn Hd].
  unfold merge. cbn [fold_left fst snd]. fold (merge (dict_set streqb k' v' d) d'). rewrite IH by exact Hd.
  cbn [dict_get]. destruct (streqb k k') eqn:E.
  - apply streqb_eq in E. subst k'. rewrite (proj2 (dict_get_None streqb streqb_eq k d')) by exact Hn.
    apply dict_get_set_same, streqb_eq.
  - destruct (dict_get streqb k d'); [reflexivity|]. apply dict_get_set_other; [apply streqb_eq|].
    intros ->. rewrite streqb_refl in E. discriminate.
Qed.
