(** * Properties C61, C78: nodes and addresses as a program makes them *)
From Coq Require Import String ZArith List Bool Lia Strings.Byte.
From Verif Require Import Py Stream Version Messages Settings Address Spec PyFacts SettingsFacts DecimalFacts.
Import ListNotations.
Open Scope list_scope.
Open Scope Z_scope.

(** ** Specification *)
(** [dotted a x]: [x] is the dotted decimal notation of the 32-bit address [a] *)
Definition dotted (a : Z) (x : pystr) : Prop :=
  exists p q r s tp tq tr ts,
    0 <= p <= 255 /\ 0 <= q <= 255 /\ 0 <= r <= 255 /\ 0 <= s <= 255 /\
    decimal p tp /\ decimal q tq /\ decimal r tr /\ decimal s ts /\
    a = p * 2 ^ 24 + q * 2 ^ 16 + r * 2 ^ 8 + s /\
    x = tp ++ py "." ++ tq ++ py "." ++ tr ++ py "." ++ ts.
(** the text given, if it is given and not empty *)
Definition given (o : option pystr) (x : pystr) : Prop := o = Some x /\ x <> [].
Definition absent (o : option pystr) : Prop := o = None \/ o = Some [].

(** ** Facts *)
Lemma octet_parsed n o : 0 <= n <= 255 -> decimal n o -> parse_octet o = Ok n.
Proof.
  intros B D. pose proof (decimal_small n o D ltac:(lia)) as L. destruct D as (ds & -> & Hne & F & V & Z0).
  pose proof (@py_int_digits ascii_rt ds Hne F (or_introl eq_refl)) as I. pose proof (text_digits ds F) as T.
  destruct ds as [|d ds]; [contradiction|]. cbn [map] in *. unfold parse_octet. rewrite T. cbn [negb].
  replace (3 <? zlen _) with false by (symmetry; apply Z.ltb_ge; exact L).
  destruct (Z.eqb_spec (48 + d) 48) as [E|E].
  - assert (d = 0) by lia. subst d. injection (Z0 eq_refl) as ->. cbn in V. subst n. reflexivity.
  - rewrite andb_false_r, I, V. cbn [bind]. replace (255 <? n) with false by (symmetry; apply Z.ltb_ge; lia). reflexivity.
Qed.
Lemma octet_only o n : parse_octet o = Ok n -> 0 <= n <= 255 /\ decimal n o.
Proof.
  unfold parse_octet. destruct o as [|c o]; [discriminate|].
  destruct (forallb is_digit (c :: o)) eqn:T; [|discriminate]. cbn [negb].
  destruct (3 <? zlen (c :: o)) eqn:L; [discriminate|].
  destruct (negb (streqb (c :: o) (py "0")) && (c =? 48)) eqn:Z0; [discriminate|].
  apply digits_text in T as (ds & E & F). rewrite E.
  assert (Hne : ds <> []) by (intros ->; discriminate E).
  rewrite (@py_int_digits ascii_rt ds Hne F (or_introl eq_refl)). cbn [bind]. destruct (Z.ltb_spec 255 (digits_value ds)); [discriminate|].
  intros H0. injection H0 as <-. pose proof (digits_value_bound ds F). split; [lia|].
  exists ds. do 4 (split; [solve [reflexivity|assumption]|]).
  intros Hh. destruct ds as [|d ds]; [contradiction|]. cbn [hd] in Hh. subst d. cbn [map] in E. injection E as -> E.
  cbn [Z.eqb] in Z0. rewrite andb_true_r in Z0. apply negb_false_iff, streqb_eq in Z0.
  change (py "0") with [48] in Z0. injection Z0 as ->. destruct ds; [reflexivity|discriminate E].
Qed.
Lemma octet_refused o : (forall n, ~ (0 <= n <= 255 /\ decimal n o)) -> parse_octet o = Raise EValue.
Proof.
  intros N. destruct (parse_octet o) as [n|e] eqn:P; [exfalso; exact (N n (octet_only o n P))|].
  unfold parse_octet in P. destruct o as [|c o]; [symmetry; exact P|].
  destruct (forallb is_digit (c :: o)) eqn:T; [|symmetry; exact P]. cbn [negb] in P.
  destruct (3 <? zlen (c :: o)); [symmetry; exact P|].
  destruct (negb (streqb (c :: o) (py "0")) && (c =? 48)); [symmetry; exact P|].
  apply digits_text in T as (ds & E & F). rewrite E in P.
  assert (Hne : ds <> []) by (intros ->; discriminate E).
  rewrite (@py_int_digits ascii_rt ds Hne F (or_introl eq_refl)) in P. cbn [bind] in P. destruct (255 <? digits_value ds); [symmetry; exact P|discriminate P].
Qed.

Fixpoint join_dots (l : list pystr) : pystr :=
  match l with
  | [] => []
  | [x] => x
  | x :: t => x ++ [46] ++ join_dots t
  end.
Lemma split_nonempty s : split_dots s <> [].
Proof. destruct s as [|c s]; cbn; [discriminate|]. destruct (c =? 46); [discriminate|]. destruct (split_dots s); discriminate. Qed.
Lemma join_split s : join_dots (split_dots s) = s.
Proof.
  induction s as [|c s IH]; [reflexivity|]. cbn [split_dots]. pose proof (split_nonempty s) as N.
  destruct (Z.eqb_spec c 46) as [->|].
  - destruct (split_dots s) as [|h r] eqn:E; [contradiction|]. cbn [join_dots app] in *. rewrite IH. reflexivity.
  - destruct (split_dots s) as [|h r]; [contradiction|]. destruct r; cbn [join_dots app] in *; rewrite IH; reflexivity.
Qed.
Lemma split_word x : ~ In 46 x -> split_dots x = [x].
Proof.
  induction x as [|c x IH]; intros N; [reflexivity|]. cbn [split_dots].
  destruct (Z.eqb_spec c 46) as [->|]; [exfalso; apply N; left; reflexivity|].
  rewrite IH by (intros I; apply N; right; exact I). reflexivity.
Qed.
Lemma split_app x t : ~ In 46 x -> split_dots (x ++ [46] ++ t) = x :: split_dots t.
Proof.
  induction x as [|c x IH]; intros N; [reflexivity|]. cbn [app split_dots] in *.
  destruct (Z.eqb_spec c 46) as [->|]; [exfalso; apply N; left; reflexivity|].
  rewrite IH by (intros I; apply N; right; exact I). reflexivity.
Qed.
Lemma decimal_no_dot n x : decimal n x -> ~ In 46 x.
Proof.
  intros (ds & -> & _ & F & _) I. apply in_map_iff in I as (d & E & I). rewrite Forall_forall in F.
  specialize (F d I). lia.
Qed.

Lemma ip_parsed a x : dotted a x -> parse_ip x = Ok a.
Proof.
  intros (p & q & r & s & tp & tq & tr & ts & Bp & Bq & Br & Bs & Dp & Dq & Dr & Ds & -> & ->).
  unfold parse_ip. change (py ".") with [46].
  rewrite !split_app by (eapply decimal_no_dot; eassumption).
  rewrite split_word by (eapply decimal_no_dot; eassumption).
  rewrite (octet_parsed p tp), (octet_parsed q tq), (octet_parsed r tr), (octet_parsed s ts) by assumption.
  reflexivity.
Qed.
Lemma ip_only x a : parse_ip x = Ok a -> dotted a x.
Proof.
  unfold parse_ip. intros H. pose proof (join_split x) as J.
  destruct (split_dots x) as [|tp [|tq [|tr [|ts [|? ?]]]]]; try discriminate H.
  destruct (parse_octet tp) as [p|] eqn:P; [|discriminate H]. destruct (parse_octet tq) as [q|] eqn:Q; [|discriminate H].
  destruct (parse_octet tr) as [r|] eqn:R; [|discriminate H]. destruct (parse_octet ts) as [s|] eqn:S; [|discriminate H].
  cbn [bind] in H. apply octet_only in P as [Bp Dp]. apply octet_only in Q as [Bq Dq].
  apply octet_only in R as [Br Dr]. apply octet_only in S as [Bs Ds].
  exists p, q, r, s, tp, tq, tr, ts. do 8 (split; [assumption|]).
  split; [injection H as <-; reflexivity|symmetry; exact J].
Qed.
Lemma ip_refused x : (forall a, ~ dotted a x) -> parse_ip x = Raise EValue.
Proof.
  intros N. destruct (parse_ip x) as [a|e] eqn:P; [exfalso; exact (N a (ip_only x a P))|].
  unfold parse_ip in P.
  destruct (split_dots x) as [|tp [|tq [|tr [|ts [|? ?]]]]]; try (symmetry; exact P).
  assert (O : forall o e', parse_octet o = Raise e' -> e' = EValue).
  { intros o e' E. rewrite octet_refused in E; [congruence|]. intros n [B D].
    rewrite (octet_parsed n o B D) in E. discriminate E. }
  destruct (parse_octet tp) as [p|] eqn:P1; [|cbn [bind] in P; apply O in P1; congruence].
  destruct (parse_octet tq) as [q|] eqn:P2; [|cbn [bind] in P; apply O in P2; congruence].
  destruct (parse_octet tr) as [r|] eqn:P3; [|cbn [bind] in P; apply O in P3; congruence].
  destruct (parse_octet ts) as [s|] eqn:P4; [|cbn [bind] in P; apply O in P4; congruence].
  cbn [bind] in P. discriminate P.
Qed.
Ltac Zify.zify_post_hook ::= Z.to_euclidean_division_equations.
Lemma ip_str_dotted a : 0 <= a < 2 ^ 32 -> dotted a (ip_str a).
Proof.
  intros H. exists (a / 16777216), ((a / 65536) mod 256), ((a / 256) mod 256), (a mod 256).
  exists (str_nat (a / 16777216)), (str_nat ((a / 65536) mod 256)), (str_nat ((a / 256) mod 256)), (str_nat (a mod 256)).
  do 4 (split; [lia|]). do 4 (split; [apply str_nat_decimal; lia|]). split; [lia|reflexivity].
Qed.
Ltac Zify.zify_post_hook ::= idtac.
Lemma dotted_range a x : dotted a x -> 0 <= a < 2 ^ 32.
Proof. intros (p & q & r & s & _ & _ & _ & _ & ? & ? & ? & ? & _ & _ & _ & _ & -> & _). lia. Qed.
Lemma dotted_one a x y : dotted a x -> dotted a y -> x = y.
Proof.
  intros (p & q & r & s & tp & tq & tr & ts & Bp & Bq & Br & Bs & Dp & Dq & Dr & Ds & E & ->)
         (p' & q' & r' & s' & tp' & tq' & tr' & ts' & Bp' & Bq' & Br' & Bs' & Dp' & Dq' & Dr' & Ds' & E' & ->).
  assert (p = p') by lia. subst p'. assert (q = q') by lia. subst q'. assert (r = r') by lia. subst r'.
  assert (s = s') by lia. subst s'.
  rewrite (decimal_one p tp tp'), (decimal_one q tq tq'), (decimal_one r tr tr'), (decimal_one s ts ts') by assumption.
  reflexivity.
Qed.

(** ** C78: an address is accepted exactly in dotted decimal notation, stands for the number
    that notation means, and is printed in it (so that it is accepted again) *)
Theorem C78_addresses :
  (forall x port host ad, make_addr x port host = Ok ad ->
     dotted (a_addr ad) x /\ 0 <= a_addr ad < 2 ^ 32 /\ a_port ad = port /\
     (forall h, given host h -> a_host ad = h) /\ (absent host -> a_host ad = x)) /\
  (forall x port host a, dotted a x -> exists ad, make_addr x port host = Ok ad) /\
  (forall x port host, (forall a, ~ dotted a x) -> make_addr x port host = Raise EValue) /\
  (forall a, 0 <= a < 2 ^ 32 -> exists x, dotted a x) /\
  (forall a b x, dotted a x -> dotted b x -> a = b) /\
  (forall a x y, dotted a x -> dotted a y -> x = y).
Proof.
  split.
  { intros x port host ad H. unfold make_addr in H. destruct (parse_ip x) as [a|] eqn:P; [|discriminate H].
    cbn [bind] in H. injection H as <-. apply ip_only in P as D. pose proof (dotted_range a x D) as B.
    cbn [new_addr a_addr a_port]. split; [exact D|]. split; [exact B|]. split; [reflexivity|].
    split.
    - intros h [-> Hne]. destruct h; [contradiction|reflexivity].
    - intros A. cbn [a_host]. rewrite (dotted_one a x (ip_str a) D (ip_str_dotted a B)).
      destruct A as [->| ->]; reflexivity. }
  split; [intros x port host a D; eexists; unfold make_addr; rewrite (ip_parsed a x D); reflexivity|].
  split; [intros x port host N; unfold make_addr; rewrite (ip_refused x N); reflexivity|].
  split; [intros a H; exists (ip_str a); apply ip_str_dotted, H|].
  split; [|exact dotted_one].
  intros a b x Da Db. apply ip_parsed in Da, Db. congruence.
Qed.
Print Assumptions C78_addresses.
Example C78_case :
  dotted 2130706433 (py "127.0.0.1") /\
  make_addr (py "127.0.0.1") 9300 None = Ok (mkAddr 2130706433 (py "127.0.0.1") 9300) /\
  Forall (fun x => make_addr x 0 None = Raise EValue)
    [py ""; py "127.0.1"; py "127.0.0.1.2"; py "127.0.0.01"; py "127.0.0.256"; py "1234.0.0.1"; py "127..0.1"; py "::1"; py "127.0.0.1/8"].
Proof.
  split; [apply ip_only; vm_compute; reflexivity|]. split; [vm_compute; reflexivity|].
  repeat (constructor; [vm_compute; reflexivity|]). constructor.
Qed.

(** ** C61: what a program gives a node is kept, and what it does not give is filled in from
    the address, the random bytes and the current version *)
Theorem C61_constructed : forall u nm id eph host hostaddr ad at' ro v,
  0 <= a_addr ad < 2 ^ 32 ->
  let n := new_node u nm id eph host hostaddr ad at' ro v in
  n_name n = nm /\ n_id n = id /\ n_addr n = ad /\ n_attrs n = at' /\ n_roles n = ro /\
  (forall x, given eph x -> n_eph n = x) /\ (absent eph -> n_eph n = new_ephemeral_id u) /\
  (forall x, given host x -> n_host n = x) /\ (absent host -> n_host n = a_host ad) /\
  (forall x, given hostaddr x -> n_hostaddr n = x) /\ (absent hostaddr -> dotted (a_addr ad) (n_hostaddr n)) /\
  (forall w, v = Some w -> n_version n = w) /\
  (v = None -> vid (n_version n) = 2 ^ 27 + 3000099).
Proof.
  intros u nm id eph host hostaddr ad at' ro v B n. unfold n, new_node.
  cbn [n_name n_id n_addr n_attrs n_roles n_eph n_host n_hostaddr n_version].
  do 5 (split; [reflexivity|]).
  assert (G : forall o x y, given o x -> or_else o y = x).
  { intros o x y [-> Hne]. destruct x; [contradiction|reflexivity]. }
  assert (A : forall o y, absent o -> or_else o y = y) by (intros o y [->| ->]; reflexivity).
  split; [intros x; apply G|]. split; [apply A|]. split; [intros x; apply G|]. split; [apply A|].
  split; [intros x; apply G|]. split; [intros H; rewrite (A _ _ H); apply ip_str_dotted, B|].
  split; [intros w ->; reflexivity|intros ->; vm_compute; reflexivity].
Qed.
Print Assumptions C61_constructed.
Example C61_constructed_case :
  let n := new_node (List.repeat Byte.x00 16) (py "node") (py "id") None (Some (py "")) None
             (mkAddr 2130706433 (py "h") 9300) [] [] None in
  0 <= a_addr (n_addr n) < 2 ^ 32 /\ absent (Some (py "")) /\
  (n_eph n, n_host n, n_hostaddr n) = (py "AAAAAAAAAAAAAAAAAAAAAA", py "h", py "127.0.0.1").
Proof. split; [split; [discriminate|reflexivity]|]. split; [right; reflexivity|vm_compute; reflexivity]. Qed.
