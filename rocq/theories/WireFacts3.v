(** * The SDK follows the wire format: generic values and messages *)
From Coq Require Import ZArith List Bool Lia ZifyBool Permutation.
From Coq Require Import Strings.Byte.
From Verif Require Import Py Stream Version Frame Proto Messages Rest Settings PyFacts Utf8Facts
  StreamFacts StreamFacts2 Spec SpecFacts VersionFacts Wire MsgFacts RestFacts SettingsFacts WireFacts WireFacts2.
Import ListNotations.
Open Scope list_scope.
Open Scope Z_scope.
Ltac Zify.zify_post_hook ::= Z.to_euclidean_division_equations.

(** ** Generic values *)
Lemma generic_parts strict l bss : Forall2 (w_generic strict) l bss -> parts (map (w_generic strict) l) (concat bss).
Proof. induction 1; cbn [map concat]; constructor; assumption. Qed.
Lemma parts_generic strict l : forall bs, parts (map (w_generic strict) l) bs ->
  exists bss, Forall2 (w_generic strict) l bss /\ bs = concat bss.
Proof.
  induction l as [|v l IH]; intros bs H; cbn [map] in H.
  - apply parts_nil_inv in H. subst. exists []. split; [constructor|reflexivity].
  - apply parts_cons_inv in H as (a & b & -> & Ha & Hb). destruct (IH _ Hb) as (bss & F & ->).
    exists (a :: bss). split; [constructor; assumption|reflexivity].
Qed.
Lemma generic_reads strict f : forall n, (n < f)%nat ->
  reads (read_generic_value f) (w_generic strict) (fun v => nested v n).
Proof.
  induction f as [|f IH]; intros n Hn v bs s HN H; [lia|]. cbn [read_generic_value].
  destruct H; cbn [app]; rewrite (rbind_step _ _ _ _ _ _ _ (read_byte_cons _ _));
    match goal with |- context [sbyte ?b] => let z := eval vm_compute in (sbyte b) in change (sbyte b) with z end;
    cbn [Z.eqb Pos.eqb].
  - reflexivity.
  - rewrite (rbind_step _ _ _ _ _ _ _ (string_reads strict _ _ _ I H)). reflexivity.
  - rewrite (rbind_step _ _ _ _ _ _ _ (int_reads _ _ _ I H0)). reflexivity.
  - rewrite (rbind_step _ _ _ _ _ _ _ (long_reads _ _ _ I H)). reflexivity.
  - rewrite (rbind_step _ _ _ _ _ _ _ (bool_reads _ _ _ I H)). reflexivity.
  - rewrite (rbind_step _ _ _ _ _ _ _ (bytes_reads strict _ _ _ I H)). reflexivity.
  - rewrite <- app_assoc. rewrite (rbind_step _ _ _ _ _ _ _ (v_int_reads strict _ _ _ I H)).
    inversion HN as [? ? Hf|? m Hm]; subst; [exfalso; apply (Hf l); reflexivity|].
    apply generic_parts in H0. rewrite zlen_to_nat.
    rewrite (rbind_step _ _ _ _ _ _ _ (n_reads _ _ _ _ (IH m ltac:(lia)) _ _ _ Hm H0)). reflexivity.
  - rewrite (rbind_step _ _ _ _ _ _ _ (byte_reads _ _ _ I H0)). reflexivity.
  - rewrite (rbind_step _ _ _ _ _ _ _ (short_reads _ _ _ I H0)). reflexivity.
Qed.
Lemma tag_only s t s' : read_byte s = Ok (t, s') -> s' <> [] -> exists b, s = b :: s' /\ sbyte b = t.
Proof.
  intros H Hne. destruct s as [|b s].
  - vm_compute in H. apply Ok_inj, pair_equal_spec in H as [_ <-]. contradiction.
  - rewrite read_byte_cons in H. apply Ok_inj, pair_equal_spec in H as [<- <-]. eauto.
Qed.
Lemma sbyte_val b : sbyte b = if b2z b <? 128 then b2z b else b2z b - 256.
Proof. destruct b; reflexivity. Qed.
Lemma sbyte_inj a b : sbyte a = sbyte b -> a = b.
Proof.
  rewrite !sbyte_val. pose proof (b2z_range a). pose proof (b2z_range b). intros E. apply b2z_inj.
  destruct (Z.ltb_spec (b2z a) 128), (Z.ltb_spec (b2z b) 128); lia.
Qed.
Lemma generic_only f : reads_only (read_generic_value f) (w_generic false).
Proof.
  induction f as [|f IH]; intros s v s' H Hne; [discriminate|]. cbn [read_generic_value] in H.
  apply rbind_ok in H as (t & s1 & R & H).
  assert (G : forall tb, s1 <> [] -> t = sbyte tb -> s = tb :: s1).
  { intros tb H1 E. destruct (tag_only _ _ _ R H1) as (b & -> & Eb). f_equal. apply sbyte_inj. congruence. }
  Ltac tag G H b := match type of H with (if ?x =? ?z then _ else _) _ = _ =>
    destruct (Z.eqb_spec x z) as [Et|_]; [specialize (fun H1 => G b H1 Et)|] end.
  tag G H xff. { ret H. rewrite (G Hne). exists [xff]. split; [reflexivity|constructor]. }
  tag G H x00. { fwd H R1. ret H. back R1 string_only. rewrite G by ne. eexists (x00 :: _). split; [reflexivity|]. constructor; assumption. }
  tag G H x01. { fwd H R1. ret H. back R1 int_only. rewrite G by ne. eexists (x01 :: _). split; [reflexivity|]. constructor; [reflexivity|assumption]. }
  tag G H x02. { fwd H R1. ret H. back R1 long_only. rewrite G by ne. eexists (x02 :: _). split; [reflexivity|]. constructor; assumption. }
  tag G H x05. { fwd H R1. ret H. back R1 bool_only. rewrite G by ne. eexists (x05 :: _). split; [reflexivity|]. constructor; assumption. }
  tag G H x06. { fwd H R1. ret H. back R1 bytes_only'. rewrite G by ne. eexists (x06 :: _). split; [reflexivity|]. constructor; assumption. }
  tag G H x07.
  { apply rbind_ok in H as (k & s2 & R1 & H). apply rbind_ok in H as (l & s3 & R2 & H). ret H.
    destruct (list_only _ _ _ IH s1 l s3) as (b & -> & F);
      [rewrite (rbind_step _ _ _ _ _ _ _ R1); exact R2|exact Hne|]. rewrite G by ne.
    apply parts_cons_inv in F as (n & b' & -> & Hn & Hb). apply parts_generic in Hb as (bss & Hb & ->).
    eexists (x07 :: _). split; [reflexivity|]. constructor; assumption. }
  tag G H x0b. { fwd H R1. ret H. back R1 byte_only. rewrite G by ne. eexists (x0b :: _). split; [reflexivity|]. constructor; [reflexivity|assumption]. }
  tag G H x10. { fwd H R1. ret H. back R1 short_only. rewrite G by ne. eexists (x10 :: _). split; [reflexivity|]. constructor; [reflexivity|assumption]. }
  discriminate.
Qed.
Lemma tagged t tb w bs : write_byte t = Ok [tb] -> w = Ok bs -> wcat [write_byte t; w] = Ok (tb :: bs).
Proof. intros H ->. cbn [wcat]. rewrite H. cbn [bind]. rewrite app_nil_r. reflexivity. Qed.
Lemma generic_writes strict : writes write_generic_value (w_generic strict) generic_ok.
Proof.
  intros v. induction v as [|b|x|i|b|l IH|t x] using pyval_ind'; intros H; inversion H; subst; cbn [write_generic_value].
  - exists [xff]. split; [reflexivity|constructor].
  - destruct (bool_writes b I) as (bs & W & F). exists (x05 :: bs). split; [apply tagged; [reflexivity|exact W]|constructor; exact F].
  - destruct (string_writes strict x) as (bs & W & F); [assumption|]. exists (x00 :: bs).
    split; [apply tagged; [reflexivity|exact W]|constructor; exact F].
  - destruct (long_writes i) as (bs & W & F); [assumption|]. exists (x02 :: bs).
    split; [apply tagged; [reflexivity|exact W]|constructor; exact F].
  - destruct (bytes_writes strict b) as (bs & W & F); [assumption|]. exists (x06 :: bs).
    split; [apply tagged; [reflexivity|exact W]|constructor; exact F].
  - assert (L : exists bss, wcat (map write_generic_value l) = Ok (concat bss) /\ Forall2 (w_generic strict) l bss).
    { match goal with H : Forall generic_ok l |- _ => revert H end. clear H H1. intros HP.
      induction IH as [|v l Hv IH IH']; [exists []; split; [reflexivity|constructor]|].
      apply Forall_cons_iff in HP as [Hx HP].
      destruct (Hv Hx) as (b & Wb & Fb). destruct (IH' HP) as (bss & Wl & Fl). exists (b :: bss).
      split; [cbn [map concat]; apply wcat_cons_eq; assumption|constructor; assumption]. }
    destruct L as (bss & Wl & Fl). destruct (v_int_writes strict (zlen l)) as (n & Wn & Fn);
      [pose proof (zlen_nonneg _ l); lia|]. exists (x07 :: n ++ concat bss).
    split; [apply tagged; [reflexivity|apply wcat_cons_eq; assumption]|constructor; assumption].
Qed.

(** ** automation for messages *)
Lemma version_reads strict : reads read_version (w_version strict) (fun _ => True).
Proof.
  intros [i] bs s _ H. unfold read_version. rewrite (rbind_step _ _ _ _ _ _ _ (v_int_reads strict _ _ _ I H)).
  cbn [vid]. unfold version_of_id. rewrite Z.lxor_assoc, Z.lxor_nilpotent, Z.lxor_0_r. reflexivity.
Qed.
Lemma version_only : reads_only read_version (w_version false).
Proof.
  intros s v s' H Hne. unfold read_version in H. fwd H R. ret H. back R v_int_only. eexists. split; [reflexivity|].
  unfold w_version, version_of_id. cbn [vid]. rewrite Z.lxor_assoc, Z.lxor_nilpotent, Z.lxor_0_r. assumption.
Qed.
Lemma version_writes strict : writes write_version (w_version strict) version_ok.
Proof. intros v Hv. apply v_int_writes, Hv. Qed.

(** read the next part *)
Tactic Notation "rd1" uconstr(L) := match goal with P : ?F ?a |- rbind ?r ?k (?a ++ ?s) = _ =>
  rewrite (rbind_step _ _ _ _ _ _ _ (L _ _ s I P)) end.
Ltac rd := first
  [ rd1 (string_reads _) | rd1 int_reads | rd1 long_reads | rd1 bool_reads
  | rd1 (version_reads _) | rd1 byte_reads | rd1 (string_dict_reads _) | rd1 (strings_dict_reads _)
  | rd1 (strings_reads _) | rd1 (enum_reads _ _) | rd1 (z_long_reads _) | rd1 (v_int_reads _) ].
Ltac opened H := parts_in H; rewrite ?app_nil_r; rewrite <- ?app_assoc; cbn [app].
(** what the steps of a reader read *)
Ltac bk := match goal with
  | R : read_string _ = Ok _ |- _ => back R string_only
  | R : read_int _ = Ok _ |- _ => back R int_only
  | R : read_long _ = Ok _ |- _ => back R long_only
  | R : read_boolean _ = Ok _ |- _ => back R bool_only
  | R : read_version _ = Ok _ |- _ => back R version_only
  | R : read_v_int _ = Ok _ |- _ => back R v_int_only
  | R : read_z_long _ = Ok _ |- _ => back R z_long_only
  | R : read_enum _ _ = Ok _ |- _ => back R enum_only
  | R : read_string_array _ = Ok _ |- _ => back R strings_only
  | R : read_string_to_string_dict _ = Ok _ |- _ => back R (dict_only _ _ _ string_only)
  | R : read_string_to_string_array_dict _ = Ok _ |- _ => back R (dict_only _ _ _ strings_only)
  end.
Ltac bks := repeat bk.
Ltac fwds H := repeat (let R := fresh "R" in fwd H R).

Lemma wparts (A : Type) (a : A) ws Ps : Forall2 (fun w P => exists b, w = Ok b /\ P b) ws Ps ->
  exists bs, wcat ws = Ok bs /\ parts Ps bs.
Proof. apply wcat_parts. Qed.
Ltac wr := apply wcat_parts; repeat (constructor; [|]); [..|constructor].

(** ** tasks, addresses, nodes *)
Lemma task_reads strict : reads read_task (w_task strict) (fun _ => True).
Proof.
  intros [n i] bs s _ [(Hn & Hi & H)|(Hn & j & Hi & H)]; cbn [t_node t_id] in *; subst; unfold read_task.
  - rd. reflexivity.
  - opened H. rd. destruct n as [|c n]; [contradiction|]. rd. reflexivity.
Qed.
Lemma task_only : reads_only read_task (w_task false).
Proof.
  intros s t s' H Hne. unfold read_task in H. apply rbind_ok in H as (n & s1 & R & H). destruct n as [|c n].
  - ret H. bks. eexists. split; [reflexivity|]. left. repeat split; assumption.
  - apply rbind_ok in H as (i & s2 & R1 & H). ret H. bks.
    enough (E : exists bs, x0 ++ x ++ s2 = bs ++ s2 /\ parts [w_string false (c :: n); w_signed 8 i] bs)
      by (destruct E as (bs & E & Hp); exists bs; split; [exact E|]; right; split; [discriminate|]; exists i; split; [reflexivity|exact Hp]).
    assemble.
Qed.
Lemma task_writes strict : writes write_task (w_task strict) task_ok.
Proof.
  intros [n i] [[Hn Hi]|(Hn & Ht & j & Hi & Hj)]; cbn [t_node t_id] in *; subst; unfold write_task; cbn [t_node t_id].
  - destruct (string_writes strict [] text_ok_nil) as (b & W & F). exists b.
    split; [cbn [wcat]; rewrite W; cbn [bind]; rewrite app_nil_r; reflexivity|]. left. auto.
  - destruct (wcat_parts [write_string n; match n with [] => Ok [] | _ => write_opt_long (Some j) end]
      [w_string strict n; w_signed 8 j]) as (bs & W & F).
    + constructor; [apply string_writes, Ht|]. constructor; [|constructor]. destruct n; [contradiction|]. apply long_writes, Hj.
    + exists bs. split; [exact W|]. right. split; [exact Hn|]. exists j. auto.
Qed.
Lemma unsigned_low i bs : w_unsigned 4 i bs -> i < 2 ^ 31 -> w_signed 4 i bs.
Proof.
  intros [Hl Hv] Hi. assert (0 <= i) by (rewrite <- Hv, be_from; apply from_bytes_unsigned_range).
  split; [exact Hl|]. change (8 * 4 - 1) with 31. change (8 * 4) with 32. split; [lia|]. rewrite Hv. symmetry. apply Z.mod_small. lia.
Qed.
Lemma signed_unsigned i bs : w_signed 4 i bs -> 0 <= i -> w_unsigned 4 i bs.
Proof.
  intros (Hl & Hr & Hv) Hi. split; [exact Hl|]. rewrite Hv. change (8 * 4 - 1) with 31 in Hr. change (8 * 4) with 32.
  apply Z.mod_small. lia.
Qed.
Lemma addr_reads strict : reads read_addr (w_addr strict) low.
Proof.
  intros [a h p] bs s Hl H. unfold low in Hl. cbn [a_addr] in Hl. unfold w_addr in H. cbn [a_addr a_host a_port] in H.
  parts_in H. unfold exactly in P. subst a0. rewrite app_nil_r, <- !app_assoc. cbn [app]. unfold read_addr.
  assert (0 <= a) by (destruct P0 as [_ <-]; rewrite be_from; apply from_bytes_unsigned_range).
  pose proof (unsigned_low _ _ P0 Hl).
  rewrite (rbind_step _ _ _ _ _ _ _ (read_byte_cons _ _)). change (sbyte x04) with 4. cbn [Z.eqb Pos.eqb negb].
  rd. destruct (Z.ltb_spec a 0); [lia|]. rd. rd. reflexivity.
Qed.
Lemma addr_only : reads_only read_addr (fun a bs => w_addr false a bs /\ low a).
Proof.
  intros s a s' H Hne. unfold read_addr in H. apply rbind_ok in H as (n & s1 & R & H).
  destruct (Z.eqb_spec n 4) as [->|]; cbn [negb] in H; [|discriminate].
  apply rbind_ok in H as (i & s2 & R1 & H). destruct (Z.ltb_spec i 0); [discriminate|].
  fwds H. ret H. bks. destruct (tag_only _ _ _ R) as (b & -> & Eb); [ne|].
  assert (b = x04) as -> by (apply sbyte_inj; rewrite Eb; reflexivity). clear R.
  assert (Hl : i < 2 ^ 31) by (match goal with H : w_signed 4 i _ |- _ => destruct H as (_ & Hr & _) end;
    change (8 * 4 - 1) with 31 in Hr; lia).
  pose proof (signed_unsigned i _ ltac:(eassumption) ltac:(assumption)).
  match goal with |- exists bs, ?l = bs ++ ?t /\ (w_addr false ?a bs /\ _) =>
    enough (E : exists bs, l = bs ++ t /\ w_addr false a bs)
      by (destruct E as (bs & E & Hp); exists bs; split; [exact E|]; split; [exact Hp|exact Hl]) end.
  match goal with |- exists bs, x04 :: ?l = _ /\ _ => change (x04 :: l) with ([x04] ++ l) end.
  unfold w_addr. cbn [a_addr a_host a_port]. apply asm_cons; [reflexivity|]. assemble.
Qed.
Lemma addr_writes strict : writes write_addr (w_addr strict) (fun a => addr_ok a /\ low a).
Proof.
  intros [a h p] [(Ha & Hh & Hp) Hl]. unfold low in Hl. cbn in Ha, Hh, Hp, Hl. unfold write_addr, w_addr. cbn [a_addr a_host a_port].
  apply wcat_parts. constructor; [exists [x04]; split; reflexivity|].
  constructor; [destruct (int_writes a) as (b & W & F); [lia|]; exists b; split; [exact W|apply signed_unsigned; [exact F|lia]]|].
  constructor; [apply string_writes, Hh|]. constructor; [apply int_writes, Hp|constructor].
Qed.
Lemma role_reads strict : reads read_role (w_role strict) (fun _ => True).
Proof.
  intros [[x y] c] bs s _ H. unfold w_role in H. cbn [fst snd] in H. opened H. unfold read_role. rd. rd. rd. reflexivity.
Qed.
Lemma role_only : reads_only read_role (w_role false).
Proof.
  intros s r s' H Hne. unfold read_role in H. fwds H. ret H. bks. unfold w_role. cbn [fst snd]. assemble.
Qed.
Lemma role_writes strict : writes write_role (w_role strict) role_ok.
Proof.
  intros [[x y] c] [Hx Hy]. cbn in Hx, Hy. unfold write_role, w_role. cbn [fst snd]. apply wcat_parts.
  constructor; [apply string_writes, Hx|]. constructor; [apply string_writes, Hy|]. constructor; [apply bool_writes; exact I|constructor].
Qed.
Lemma deduped_roles l s : deduped l s <-> fold_left role_add l [] = s.
Proof.
  assert (D : forall s x, existsb (role_eqb x) s = true <-> In x s).
  { intros s0 x. rewrite existsb_exists. split; [intros (y & Hy & E); apply role_eqb_eq in E; subst; exact Hy|].
    intros Hx. exists x. split; [exact Hx|apply role_eqb_eq; reflexivity]. }
  apply deduped_fold.
  - intros s0 x Hx. unfold role_add. apply D in Hx. rewrite Hx. reflexivity.
  - intros s0 x Hx. unfold role_add. destruct (existsb (role_eqb x) s0) eqn:E; [apply D in E; contradiction|reflexivity].
  - intros s0 x. rewrite <- D. destruct (existsb _ _); auto.
Qed.
Lemma node_reads strict : reads read_node (w_node strict) low_node.
Proof.
  intros [nm id ep ho ha ad at' ro ve] bs s Hl H. unfold low_node in Hl. unfold w_node in H.
  cbn [n_name n_id n_eph n_host n_hostaddr n_addr n_attrs n_roles n_version] in *. opened H. unfold read_node.
  rd. rd. rd. rd. rd.
  match goal with P : w_addr strict ad ?a |- _ => rewrite (rbind_step _ _ _ _ _ _ _ (addr_reads strict _ _ _ Hl P)) end.
  rd. match goal with P : w_roles strict ro ?a |- _ => destruct P as (l & Hd & _ & HL) end.
  apply deduped_roles in Hd.
  pose proof (list_reads strict _ _ _ _ (role_reads strict) l _ (a7 ++ s) ltac:(apply Forall_forall; auto) HL) as Rl.
  apply rbind_ok in Rl as (k & s1 & K & L).
  rewrite (rbind_step _ _ _ _ _ _ _ K), (rbind_step _ _ _ _ _ _ _ L). rd. rewrite Hd. reflexivity.
Qed.
Lemma keep (F : bytes -> Prop) (Q : Prop) l t : Q -> (exists bs, l = bs ++ t /\ F bs) ->
  exists bs, l = bs ++ t /\ (F bs /\ Q).
Proof. intros HQ (bs & E & H). exists bs. auto. Qed.
Lemma roles_only s l s' : (k <~ read_v_int ;; read_n read_role (Z.to_nat k)) s = Ok (l, s') -> s' <> [] ->
  exists bs, s = bs ++ s' /\ w_roles false (fold_left role_add l []) bs.
Proof.
  intros H Hne. destruct (list_only _ _ _ role_only s l s' H Hne) as (bs & E & F). exists bs. split; [exact E|].
  exists l. split; [apply deduped_roles; reflexivity|]. split; [exact I|exact F].
Qed.
Lemma node_only : reads_only read_node (fun n bs => w_node false n bs /\ low_node n).
Proof.
  intros s n s' H Hne. unfold read_node in H. fwd H R1. fwd H R2. fwd H R3. fwd H R4. fwd H R5.
  apply rbind_ok in H as (ad & s0 & Ra & H). fwd H R6. apply rbind_ok in H as (k & s2 & Rk & H).
  apply rbind_ok in H as (l & s3 & Rl & H). fwd H Rv. ret H. bks.
  pose proof (rbind_step _ _ _ (fun k => read_n read_role (Z.to_nat k)) _ _ _ Rk) as E. cbv beta in E. rewrite Rl in E.
  apply roles_only in E as (br & -> & Fr); [|ne]. clear Rk Rl. bks.
  backto Ra addr_only as [Fa La]. bks.
  apply keep; [exact La|]. unfold w_node. cbn [n_name n_id n_eph n_host n_hostaddr n_addr n_attrs n_roles n_version]. assemble.
Qed.
Lemma node_writes strict : writes write_node (w_node strict) (fun n => node_ok n /\ low_node n).
Proof.
  intros [nm id ep ho ha ad at' ro ve] [(Ht & Ha & Hd & Hr & Hn & Hro & Hv) Hl]. unfold low_node in Hl.
  cbn [n_name n_id n_eph n_host n_hostaddr n_addr n_attrs n_roles n_version] in *.
  apply Forall_cons_iff in Ht as [T1 Ht]. apply Forall_cons_iff in Ht as [T2 Ht]. apply Forall_cons_iff in Ht as [T3 Ht].
  apply Forall_cons_iff in Ht as [T4 Ht]. apply Forall_cons_iff in Ht as [T5 _].
  unfold write_node, w_node. cbn [n_name n_id n_eph n_host n_hostaddr n_addr n_attrs n_roles n_version].
  apply wcat_parts. do 5 (constructor; [apply string_writes; assumption|]).
  constructor; [apply addr_writes; split; assumption|]. constructor; [apply string_dict_writes, Hd|].
  constructor; [|constructor; [apply version_writes, Hv|constructor]].
  destruct (list_writes strict _ _ _ _ (role_writes strict) ro (conj Hr Hro)) as (b & W & F). exists b. split; [exact W|].
  exists ro. split; [apply deduped_nodup, Hn|]. split; [destruct strict; [reflexivity|exact I]|exact F].
Qed.
Lemma dep_reads strict : reads read_dep (w_dependency strict) (fun _ => True).
Proof. intros [i v] bs s _ H. unfold w_dependency in H. cbn [d_id d_version] in H. opened H. unfold read_dep. rd. rd. reflexivity. Qed.
Lemma dep_only : reads_only read_dep (w_dependency false).
Proof. intros s d s' H Hne. unfold read_dep in H. fwds H. ret H. bks. unfold w_dependency. cbn [d_id d_version]. assemble. Qed.
Lemma dep_writes strict : writes write_dep (w_dependency strict) dep_ok.
Proof.
  intros [i v] [Hi Hv]. cbn in Hi, Hv. unfold write_dep, w_dependency. cbn [d_id d_version]. apply wcat_parts.
  constructor; [apply string_writes, Hi|]. constructor; [apply version_writes, Hv|constructor].
Qed.
Definition low_ext (x : ext_node) : Prop := low_node (x_node x).
Lemma ext_node_reads strict : reads read_ext_node (w_ext_node strict) low_ext.
Proof.
  intros [n v d] bs s Hl H. unfold low_ext in Hl. unfold w_ext_node in H. cbn [x_node x_min x_deps] in *. opened H. unfold read_ext_node.
  rewrite (rbind_step _ _ _ _ _ _ _ (node_reads strict _ _ _ Hl P)). rd.
  pose proof (list_reads strict _ _ _ _ (dep_reads strict) d _ s ltac:(apply Forall_forall; auto) P1) as Rl.
  apply rbind_ok in Rl as (k & s1 & K & L). rewrite (rbind_step _ _ _ _ _ _ _ K), (rbind_step _ _ _ _ _ _ _ L). reflexivity.
Qed.
Lemma ext_node_only : reads_only read_ext_node (fun x bs => w_ext_node false x bs /\ low_ext x).
Proof.
  intros s x s' H Hne. unfold read_ext_node in H. fwd H R1. fwd H R2. apply rbind_ok in H as (k & s2 & Rk & H).
  apply rbind_ok in H as (l & s3 & Rl & H). ret H.
  pose proof (rbind_step _ _ _ (fun k => read_n read_dep (Z.to_nat k)) _ _ _ Rk) as E. cbv beta in E. rewrite Rl in E.
  apply (list_only _ _ _ dep_only) in E as (b & -> & F); [ne|]. clear Rk Rl. bks. backto R1 node_only as [Fn Ln].
  apply keep; [exact Ln|]. unfold w_ext_node. cbn [x_node x_min x_deps]. assemble.
Qed.
Lemma ext_node_writes strict : writes write_ext_node (w_ext_node strict) (fun x => ext_node_ok x /\ low_ext x).
Proof.
  intros [n v d] [(Hn & Hv & Hd & Fd) Hl]. unfold low_ext in Hl. cbn [x_node x_min x_deps] in *. unfold write_ext_node, w_ext_node.
  cbn [x_node x_min x_deps]. apply wcat_parts. constructor; [apply node_writes; split; assumption|].
  constructor; [apply version_writes, Hv|]. constructor; [|constructor].
  exact (list_writes strict _ _ _ _ (dep_writes strict) d (conj Hd Fd)).
Qed.

(** ** requests and responses *)
Definition low_init (r : init_request) : Prop := low_node (ir_source r) /\ low_ext (ir_ext r).
Lemma init_request_reads strict : reads read_init_request (w_init_request strict) low_init.
Proof.
  intros [t n x] bs s [L1 L2] H. unfold w_init_request in H. cbn [ir_task ir_source ir_ext] in *. opened H.
  unfold read_init_request, read_transport_request. rewrite (rbind_step _ _ _ _ _ _ _ (task_reads strict _ _ _ I P)).
  rewrite (rbind_step _ _ _ _ _ _ _ (node_reads strict _ _ _ L1 P0)), (rbind_step _ _ _ _ _ _ _ (ext_node_reads strict _ _ _ L2 P1)).
  reflexivity.
Qed.
Lemma init_request_only : reads_only read_init_request (fun r bs => w_init_request false r bs /\ low_init r).
Proof.
  intros s r s' H Hne. unfold read_init_request, read_transport_request in H. fwd H R1. fwd H R2. fwd H R3. ret H.
  backto R3 ext_node_only as [F3 L3]. backto R2 node_only as [F2 L2]. back R1 task_only.
  apply keep; [split; assumption|]. unfold w_init_request. cbn [ir_task ir_source ir_ext]. assemble.
Qed.
Lemma init_request_writes strict : writes write_init_request (w_init_request strict)
  (fun r => init_request_ok r /\ low_init r).
Proof.
  intros [t n x] [(Ht & Hn & Hx) [L1 L2]]. cbn [ir_task ir_source ir_ext] in *. unfold write_init_request, w_init_request.
  cbn [ir_task ir_source ir_ext]. apply wcat_parts. constructor; [apply task_writes, Ht|].
  constructor; [apply node_writes; split; assumption|]. constructor; [apply ext_node_writes; split; assumption|constructor].
Qed.
Lemma init_response_reads strict : reads read_init_response (w_init_response strict) (fun _ => True).
Proof.
  intros [n l] bs s _ H. unfold w_init_response in H. cbn [is_name is_interfaces] in H. opened H. unfold read_init_response. rd. rd. reflexivity.
Qed.
Lemma init_response_only : reads_only read_init_response (w_init_response false).
Proof. intros s r s' H Hne. unfold read_init_response in H. fwds H. ret H. bks. unfold w_init_response. cbn [is_name is_interfaces]. assemble. Qed.
Lemma init_response_writes strict : writes write_init_response (w_init_response strict) init_response_ok.
Proof.
  intros [n l] [Hn Hl]. cbn in Hn, Hl. unfold write_init_response, w_init_response. cbn [is_name is_interfaces]. apply wcat_parts.
  constructor; [apply string_writes, Hn|]. constructor; [apply strings_writes, Hl|constructor].
Qed.
Definition low_opt (o : option node) : Prop := forall n, o = Some n -> low_node n.
Lemma handshake_response_reads strict : reads read_handshake_response (w_handshake_response strict) (fun r => low_opt (hr_node r)).
Proof.
  intros [o c v] bs s Hl H. unfold w_handshake_response in H. cbn [hr_node hr_cluster hr_version] in *. opened H.
  pose proof (optional_reads _ _ _ _ (node_reads strict) o a (a0 ++ a1 ++ s) Hl P) as Ro.
  unfold read_handshake_response. apply rbind_ok in Ro as (p & s1 & K & L). rewrite (rbind_step _ _ _ _ _ _ _ K).
  rewrite (rbind_step _ _ _ _ _ _ _ L). rd. rd. reflexivity.
Qed.
Lemma handshake_response_only : reads_only read_handshake_response
  (fun r bs => w_handshake_response false r bs /\ low_opt (hr_node r)).
Proof.
  intros s r s' H Hne. unfold read_handshake_response in H. apply rbind_ok in H as (p & s1 & Rp & H).
  apply rbind_ok in H as (o & s2 & Ro & H). fwds H. ret H. bks. cbn [hr_node].
  match type of Ro with _ = Ok (_, ?t) =>
    assert (G : exists bs, s = bs ++ t /\ (w_optional (w_node false) o bs /\ low_opt o)) end.
  { pose proof (rbind_step _ _ _ (fun p : bool => if p then n <~ read_node ;; rret (Some n) else rret None) _ _ _ Rp) as E.
    cbv beta in E. rewrite Ro in E.
    apply (optional_only _ _ _ node_only) in E as (bs & E & F); [ne|]. exists bs. split; [exact E|].
    destruct o as [n|]; cbn [w_optional] in F |- *.
    - apply parts_cons_inv in F as (u & w & -> & F1 & F). apply parts_cons_inv in F as (w1 & w2 & -> & [F2 L] & F).
      apply parts_nil_inv in F. subst w2. split; [constructor; [exact F1|apply parts_one; rewrite app_nil_r; exact F2]|].
      intros m [= <-]. exact L.
    - split; [exact F|]. intros m; discriminate. }
  clear Rp Ro. destruct G as (b & -> & Fo & Lo). apply keep; [exact Lo|]. unfold w_handshake_response.
  cbn [hr_node hr_cluster hr_version]. assemble.
Qed.
