(** * Facts about the Python run-time pieces of Py.v *)
From Coq Require Import ZArith List Bool Lia Permutation.
From Coq Require Import ZifyBool.
From Coq Require Import Strings.Byte.
From Verif Require Import Py.
Import ListNotations.
Open Scope Z_scope.

Lemma Ok_inj A (a b : A) : Ok a = Ok b -> a = b.
Proof. intros H. injection H. auto. Qed.

(** ** bytes *)
Lemma b2z_range b : 0 <= b2z b < 256.
Proof. destruct b; cbv; split; congruence. Qed.

Lemma z2b_b2z b : z2b (b2z b) = b.
Proof. destruct b; reflexivity. Qed.

Lemma b2z_inj a b : b2z a = b2z b -> a = b.
Proof. intros H. rewrite <- (z2b_b2z a), <- (z2b_b2z b), H. reflexivity. Qed.

Lemma b2z_z2b z : b2z (z2b z) = z mod 256.
Proof.
  unfold z2b, b2z.
  pose proof (Z.mod_pos_bound z 256 eq_refl) as Hr.
  destruct (Byte.of_N (Z.to_N (z mod 256))) as [b|] eqn:E.
  - apply Byte.to_of_N in E. rewrite E. rewrite Z2N.id; lia.
  - apply Byte.of_N_None_iff in E. lia.
Qed.

Lemma b2z_z2b_small z : 0 <= z < 256 -> b2z (z2b z) = z.
Proof. intros H. rewrite b2z_z2b. apply Z.mod_small; lia. Qed.

Lemma z2b_mod z : z2b (z mod 256) = z2b z.
Proof. unfold z2b. rewrite Z.mod_mod by lia. reflexivity. Qed.

Lemma zlen_nil A : zlen (@nil A) = 0.
Proof. reflexivity. Qed.
Lemma zlen_cons A (x : A) l : zlen (x :: l) = 1 + zlen l.
Proof. unfold zlen. simpl length. lia. Qed.
Lemma zlen_app A (l1 l2 : list A) : zlen (l1 ++ l2) = zlen l1 + zlen l2.
Proof. unfold zlen. rewrite app_length. lia. Qed.
Lemma zlen_nonneg A (l : list A) : 0 <= zlen l.
Proof. unfold zlen. lia. Qed.
Lemma zlen_0 A (l : list A) : zlen l = 0 -> l = [].
Proof. destruct l; auto. rewrite zlen_cons. pose proof (zlen_nonneg _ l). lia. Qed.
Lemma zlen_map A B (f : A -> B) l : zlen (map f l) = zlen l.
Proof. unfold zlen. rewrite map_length. reflexivity. Qed.

(** ** big-endian integers *)
Lemma be_bytes_length n v : length (be_bytes n v) = n.
Proof.
  revert v; induction n as [|n IH]; intros v; simpl; auto.
  rewrite app_length, IH. simpl. lia.
Qed.

Lemma be_bytes_zlen n v : zlen (be_bytes n v) = Z.of_nat n.
Proof. unfold zlen. rewrite be_bytes_length. reflexivity. Qed.

Lemma from_bytes_unsigned_snoc l b :
  from_bytes_unsigned (l ++ [b]) = from_bytes_unsigned l * 256 + b2z b.
Proof. unfold from_bytes_unsigned. rewrite fold_left_app. reflexivity. Qed.

Lemma from_bytes_unsigned_range l : 0 <= from_bytes_unsigned l < 256 ^ zlen l.
Proof.
  induction l as [|b l IH] using rev_ind.
  - cbv. split; congruence.
  - rewrite from_bytes_unsigned_snoc, zlen_app. change (zlen [b]) with 1.
    rewrite Z.pow_add_r by (try lia; apply zlen_nonneg).
    pose proof (b2z_range b). change (256 ^ 1) with 256. nia.
Qed.

Lemma from_be_bytes n v :
  0 <= v < 256 ^ Z.of_nat n -> from_bytes_unsigned (be_bytes n v) = v.
Proof.
  revert v; induction n as [|n IH]; intros v Hv.
  - simpl in Hv. cbn. unfold from_bytes_unsigned. simpl. lia.
  - cbn [be_bytes]. rewrite from_bytes_unsigned_snoc, b2z_z2b.
    rewrite Nat2Z.inj_succ, Z.pow_succ_r in Hv by lia.
    rewrite IH.
    + pose proof (Z.div_mod v 256). lia.
    + split; [apply Z.div_pos; lia|apply Z.div_lt_upper_bound; lia].
Qed.

Lemma be_from_bytes l : be_bytes (length l) (from_bytes_unsigned l) = l.
Proof.
  induction l as [|b l IH] using rev_ind; auto.
  rewrite app_length, Nat.add_comm. simpl.
  rewrite from_bytes_unsigned_snoc.
  replace ((from_bytes_unsigned l * 256 + b2z b) / 256) with (from_bytes_unsigned l).
  - rewrite IH. f_equal. f_equal. apply b2z_inj. rewrite b2z_z2b.
    rewrite Z.add_comm, Z.mod_add by lia. apply Z.mod_small, b2z_range.
  - rewrite Z.add_comm, Z.div_add by lia. rewrite Z.div_small by apply b2z_range. lia.
Qed.

Lemma pow_256_2 n : 256 ^ Z.of_nat n = 2 ^ (8 * Z.of_nat n).
Proof. rewrite Z.pow_mul_r by lia. reflexivity. Qed.

Lemma to_bytes_signed_ok n i bs :
  (0 < n)%nat -> to_bytes_signed n i = Ok bs ->
  - 2 ^ (8 * Z.of_nat n - 1) <= i < 2 ^ (8 * Z.of_nat n - 1) /\
  length bs = n /\ from_bytes_signed bs = i.
Proof.
  unfold to_bytes_signed. intros Hn.
  set (m := 2 ^ (8 * Z.of_nat n - 1)).
  destruct ((- m <=? i) && (i <? m)) eqn:E; [|discriminate].
  intros HO; apply Ok_inj in HO; subst bs. split; [lia|]. split; [apply be_bytes_length|].
  assert (Hm : 2 * m = 256 ^ Z.of_nat n).
  { unfold m. rewrite pow_256_2, <- Z.pow_succ_r by lia. f_equal. lia. }
  assert (0 < m) by (unfold m; apply Z.pow_pos_nonneg; lia).
  assert (Hmd : 2 ^ (8 * Z.of_nat n - 1) = m) by reflexivity. clearbody m.
  unfold from_bytes_signed.
  pose proof (Z.mod_pos_bound i (2 * m) ltac:(lia)) as Hr.
  rewrite from_be_bytes by (rewrite <- Hm; exact Hr). rewrite be_bytes_zlen, Hmd.
  destruct (be_bytes n (i mod (2 * m))) eqn:Eb.
  { apply (f_equal (@length _)) in Eb. rewrite be_bytes_length in Eb. simpl in Eb. lia. }
  assert (i mod (2 * m) = i \/ i mod (2 * m) = i + 2 * m) as [Hi|Hi].
  { destruct (Z_lt_le_dec i 0).
    - right. symmetry. apply Z.mod_unique with (-1); lia.
    - left. apply Z.mod_small. lia. }
  - rewrite Hi in *. destruct (m <=? i) eqn:E2; lia.
  - rewrite Hi in *. destruct (m <=? i + 2 * m) eqn:E2; lia.
Qed.

Lemma to_bytes_signed_in_range n i :
  - 2 ^ (8 * Z.of_nat n - 1) <= i < 2 ^ (8 * Z.of_nat n - 1) ->
  to_bytes_signed n i = Ok (be_bytes n (i mod 2 ^ (8 * Z.of_nat n))).
Proof.
  intros H. unfold to_bytes_signed.
  destruct (_ && _) eqn:E; [|lia].
  rewrite <- Z.pow_succ_r.
  - do 4 f_equal. lia.
  - destruct n; [|lia]. simpl in H. lia.
Qed.

Lemma to_bytes_signed_raise n i :
  ~ (- 2 ^ (8 * Z.of_nat n - 1) <= i < 2 ^ (8 * Z.of_nat n - 1)) ->
  to_bytes_signed n i = Raise EOverflow.
Proof. intros H. unfold to_bytes_signed. destruct (_ && _) eqn:E; [lia|reflexivity]. Qed.

Lemma to_bytes_unsigned_ok n i bs :
  to_bytes_unsigned n i = Ok bs ->
  0 <= i < 2 ^ (8 * Z.of_nat n) /\ length bs = n /\ from_bytes_unsigned bs = i.
Proof.
  unfold to_bytes_unsigned. destruct (_ && _) eqn:E; [|discriminate].
  intros [= <-]. split; [lia|]. split; [apply be_bytes_length|].
  apply from_be_bytes. rewrite pow_256_2. lia.
Qed.

(** ** BytesIO.read *)
Lemma takeZ_app A (l s : list A) : takeZ (zlen l) (l ++ s) = l.
Proof.
  induction l as [|x l IH].
  - destruct s; reflexivity.
  - rewrite zlen_cons. cbn [takeZ dropZ app]. pose proof (zlen_nonneg _ l).
    destruct (1 + zlen l <=? 0) eqn:E; [lia|].
    replace (1 + zlen l - 1) with (zlen l) by lia. rewrite IH. reflexivity.
Qed.

Lemma dropZ_app A (l s : list A) : dropZ (zlen l) (l ++ s) = s.
Proof.
  induction l as [|x l IH].
  - destruct s; reflexivity.
  - rewrite zlen_cons. cbn [takeZ dropZ app]. pose proof (zlen_nonneg _ l).
    destruct (1 + zlen l <=? 0) eqn:E; [lia|].
    replace (1 + zlen l - 1) with (zlen l) by lia. exact IH.
Qed.

Lemma takeZ_dropZ A n (l : list A) : takeZ n l ++ dropZ n l = l.
Proof.
  revert n; induction l as [|x l IH]; intros n; simpl; auto.
  destruct (n <=? 0); simpl; auto. rewrite IH. reflexivity.
Qed.

Lemma takeZ_zlen A n (l : list A) : 0 <= n -> zlen (takeZ n l) = Z.min n (zlen l).
Proof.
  revert n; induction l as [|x l IH]; intros n Hn; simpl.
  - rewrite zlen_nil. lia.
  - pose proof (zlen_nonneg _ l).
    destruct (n <=? 0) eqn:E; rewrite !zlen_cons; [rewrite zlen_nil|rewrite IH]; lia.
Qed.

Lemma bio_read_app l s : bio_read (zlen l) (l ++ s) = (l, s).
Proof.
  unfold bio_read. pose proof (zlen_nonneg _ l).
  destruct (zlen l <? 0) eqn:E; [lia|]. rewrite takeZ_app, dropZ_app. reflexivity.
Qed.

Lemma bio_read_split n s a r : bio_read n s = (a, r) -> s = a ++ r.
Proof.
  unfold bio_read. destruct (n <? 0); intros [= <- <-].
  - rewrite app_nil_r. reflexivity.
  - rewrite takeZ_dropZ. reflexivity.
Qed.

(** ** monads *)
Lemma bind_ok A B (m : res A) (k : A -> res B) b :
  bind m k = Ok b <-> exists a, m = Ok a /\ k a = Ok b.
Proof.
  destruct m as [a|e]; simpl; split.
  - intros H. exists a. auto.
  - intros (a' & [= <-] & H). exact H.
  - discriminate.
  - intros (a' & H & _). discriminate.
Qed.

Lemma rmap_ok A B (f : A -> B) m b : rmap f m = Ok b <-> exists a, m = Ok a /\ b = f a.
Proof.
  destruct m as [a|e]; simpl; split.
  - intros [= <-]. exists a. auto.
  - intros (a' & [= <-] & ->). reflexivity.
  - discriminate.
  - intros (a' & H & _). discriminate.
Qed.

Lemma rbind_ok A B (r : reader A) (k : A -> reader B) s b s' :
  rbind r k s = Ok (b, s') <-> exists a s1, r s = Ok (a, s1) /\ k a s1 = Ok (b, s').
Proof.
  unfold rbind. destruct (r s) as [[a s1]|e]; split.
  - intros H. exists a, s1. auto.
  - intros (a' & s1' & [= <- <-] & H). exact H.
  - discriminate.
  - intros (a' & s1' & H & _). discriminate.
Qed.

Lemma rbind_step A B (r : reader A) (k : A -> reader B) s a s1 :
  r s = Ok (a, s1) -> rbind r k s = k a s1.
Proof. intros H. unfold rbind. rewrite H. reflexivity. Qed.

Lemma rbind_raise A B (r : reader A) (k : A -> reader B) s e :
  r s = Raise e -> rbind r k s = Raise e.
Proof. intros H. unfold rbind. rewrite H. reflexivity. Qed.

Lemma wcat_cons_ok w l bs :
  wcat (w :: l) = Ok bs <-> exists a b, w = Ok a /\ wcat l = Ok b /\ bs = a ++ b.
Proof.
  simpl. split.
  - intros H. apply bind_ok in H as (a & Ha & H). apply bind_ok in H as (b & Hb & [= <-]).
    eauto.
  - intros (a & b & -> & Hb & ->). simpl. rewrite Hb. reflexivity.
Qed.

Lemma wcat_nil_ok bs : wcat [] = Ok bs <-> bs = [].
Proof. simpl. split; [intros [= <-]; auto|intros ->; auto]. Qed.

Lemma wcat_app l1 l2 :
  wcat (l1 ++ l2) = (a <- wcat l1 ;; b <- wcat l2 ;; Ok (a ++ b)).
Proof.
  induction l1 as [|w l1 IH]; simpl.
  - destruct (wcat l2); reflexivity.
  - destruct w as [a|e]; simpl; auto. rewrite IH.
    destruct (wcat l1) as [b|e]; simpl; auto.
    destruct (wcat l2) as [c|e]; simpl; auto. rewrite app_assoc. reflexivity.
Qed.

(** Turn [wcat [...] = Ok bs] into the pieces. *)
Ltac winv :=
  repeat match goal with
  | H : wcat (_ :: _) = Ok _ |- _ =>
      let a := fresh "w" in let b := fresh "bs" in
      let Ha := fresh "Hw" in let Hb := fresh "Hbs" in
      apply wcat_cons_ok in H as (a & b & Ha & Hb & ->)
  | H : wcat [] = Ok _ |- _ => apply wcat_nil_ok in H as ->
  | H : Ok ?x = Ok ?y |- _ =>
      apply Ok_inj in H; first [ is_var y; subst y | is_var x; subst x | idtac ]
  | H : bind _ _ = Ok _ |- _ =>
      let a := fresh "a" in let Ha := fresh "Ha" in
      apply bind_ok in H as (a & Ha & H)
  | H : rmap _ _ = Ok _ |- _ =>
      let a := fresh "a" in let Ha := fresh "Ha" in
      apply rmap_ok in H as (a & Ha & H)
  end.

(** ** strings *)
Lemma streqb_eq a b : streqb a b = true <-> a = b.
Proof.
  revert b; induction a as [|x a IH]; intros [|y b]; simpl; split; try easy.
  - intros H. apply andb_prop in H as [H1 H2]. apply IH in H2 as ->. f_equal. lia.
  - intros [= -> ->]. rewrite Z.eqb_refl. simpl. apply IH. reflexivity.
Qed.

Lemma streqb_refl a : streqb a a = true.
Proof. apply streqb_eq. reflexivity. Qed.

Lemma streqb_neq a b : streqb a b = false <-> a <> b.
Proof.
  split.
  - intros H ->. rewrite streqb_refl in H. discriminate.
  - intros H. destruct (streqb a b) eqn:E; auto. apply streqb_eq in E. easy.
Qed.

Lemma streqb_sym a b : streqb a b = streqb b a.
Proof.
  destruct (streqb a b) eqn:E.
  - apply streqb_eq in E as ->. symmetry. apply streqb_refl.
  - apply streqb_neq in E. symmetry. apply streqb_neq. congruence.
Qed.

Lemma str_mem_In x l : str_mem x l = true <-> In x l.
Proof.
  unfold str_mem. rewrite existsb_exists. split.
  - intros (y & Hy & E). apply streqb_eq in E as ->. exact Hy.
  - intros H. exists x. split; auto. apply streqb_refl.
Qed.

Lemma str_mem_not_In x l : str_mem x l = false <-> ~ In x l.
Proof.
  split.
  - intros H Hi. apply str_mem_In in Hi. congruence.
  - intros H. destruct (str_mem x l) eqn:E; auto. apply str_mem_In in E. easy.
Qed.

Definition str_eq_dec (a b : pystr) : {a = b} + {a <> b} := list_eq_dec Z.eq_dec a b.

(** ** sets *)
Lemma set_add_In x s y : In y (set_add x s) <-> y = x \/ In y s.
Proof.
  unfold set_add. destruct (str_mem x s) eqn:E.
  - apply str_mem_In in E. split; auto. intros [->|H]; auto.
  - rewrite in_app_iff. simpl. intuition auto.
Qed.

Lemma set_add_NoDup x s : NoDup s -> NoDup (set_add x s).
Proof.
  intros H. unfold set_add. destruct (str_mem x s) eqn:E; auto.
  apply str_mem_not_In in E.
  eapply Permutation_NoDup; [apply Permutation_cons_append|]. constructor; auto.
Qed.

Lemma set_fold_NoDup l s : NoDup (s ++ l) ->
  fold_left (fun s x => set_add x s) l s = s ++ l.
Proof.
  revert s; induction l as [|x l IH]; intros s H; simpl.
  - rewrite app_nil_r. reflexivity.
  - assert (set_add x s = s ++ [x]) as ->.
    { unfold set_add. destruct (str_mem x s) eqn:E; auto.
      apply str_mem_In in E. apply NoDup_remove_2 in H. rewrite in_app_iff in H. tauto. }
    rewrite IH; rewrite <- app_assoc; auto.
Qed.

Lemma set_of_list_NoDup l : NoDup l -> set_of_list l = l.
Proof. intros H. unfold set_of_list. rewrite set_fold_NoDup; auto. Qed.

Lemma set_of_list_In l x : In x (set_of_list l) <-> In x l.
Proof.
  unfold set_of_list.
  assert (H : forall l s, In x (fold_left (fun s x => set_add x s) l s) <-> In x s \/ In x l).
  { clear l. induction l as [|y l IH]; intros s; simpl; [tauto|].
    rewrite IH, set_add_In. intuition auto. }
  rewrite H. simpl. tauto.
Qed.

Lemma set_of_list_nodup l : NoDup (set_of_list l).
Proof.
  unfold set_of_list.
  assert (H : forall l s, NoDup s -> NoDup (fold_left (fun s x => set_add x s) l s)).
  { clear l. induction l as [|y l IH]; intros s Hs; simpl; auto.
    apply IH, set_add_NoDup, Hs. }
  apply H. constructor.
Qed.

(** ** dicts *)
Section DictFacts.
  Context {K V : Type} (keqb : K -> K -> bool).
  Hypothesis keqb_eq : forall a b, keqb a b = true <-> a = b.

  Lemma keqb_refl k : keqb k k = true.
  Proof. apply keqb_eq. reflexivity. Qed.
  Lemma keqb_neq a b : a <> b -> keqb a b = false.
  Proof. intros H. destruct (keqb a b) eqn:E; auto. apply keqb_eq in E. easy. Qed.

  Lemma dict_get_set_same k (v : V) d : dict_get keqb k (dict_set keqb k v d) = Some v.
  Proof.
    induction d as [|[k' v'] d IH]; simpl; [rewrite keqb_refl; auto|].
    destruct (keqb k k') eqn:E; simpl; rewrite E; auto.
  Qed.
  Lemma dict_get_set_other k k2 (v : V) d :
    k <> k2 -> dict_get keqb k2 (dict_set keqb k v d) = dict_get keqb k2 d.
  Proof.
    intros Hn. induction d as [|[k' v'] d IH]; simpl.
    - rewrite (keqb_neq k2 k); auto.
    - destruct (keqb k k') eqn:E; simpl.
      + apply keqb_eq in E as <-. rewrite (keqb_neq k2 k); auto.
      + destruct (keqb k2 k'); auto.
  Qed.
  Lemma dict_set_new k (v : V) d :
    ~ In k (map fst d) -> dict_set keqb k v d = d ++ [(k, v)].
  Proof.
    induction d as [|[k' v'] d IH]; simpl; auto. intros H.
    rewrite (keqb_neq k k') by (intros ->; tauto). rewrite IH; auto.
  Qed.
  Lemma dict_set_keys k (v : V) d x :
    In x (map fst (dict_set keqb k v d)) <-> x = k \/ In x (map fst d).
  Proof.
    induction d as [|[k' v'] d IH]; simpl; [intuition auto|].
    destruct (keqb k k') eqn:E; simpl.
    - apply keqb_eq in E as <-. intuition auto.
    - rewrite IH. intuition auto.
  Qed.
  Lemma dict_set_NoDup k (v : V) d :
    NoDup (map fst d) -> NoDup (map fst (dict_set keqb k v d)).
  Proof.
    induction d as [|[k' v'] d IH]; simpl; intros H.
    - constructor; auto.
    - inversion H as [|? ? H1 H2]; subst. destruct (keqb k k') eqn:E; simpl.
      + constructor; auto.
      + constructor; auto. rewrite dict_set_keys. intros [->|Hi]; auto.
        rewrite keqb_refl in E. discriminate.
  Qed.
  Lemma dict_get_In k (v : V) d : dict_get keqb k d = Some v -> In (k, v) d.
  Proof.
    induction d as [|[k' v'] d IH]; simpl; [discriminate|].
    destruct (keqb k k') eqn:E.
    - apply keqb_eq in E as <-. intros [= <-]. auto.
    - auto.
  Qed.
  Lemma dict_get_None k (d : list (K * V)) :
    dict_get keqb k d = None <-> ~ In k (map fst d).
  Proof.
    induction d as [|[k' v'] d IH]; simpl; [tauto|].
    destruct (keqb k k') eqn:E.
    - apply keqb_eq in E as <-. split; [discriminate|tauto].
    - rewrite IH. split; [|tauto]. intros H [->|Hi]; auto.
      rewrite keqb_refl in E. discriminate.
  Qed.
  Lemma dict_In_get k (v : V) d : NoDup (map fst d) -> In (k, v) d -> dict_get keqb k d = Some v.
  Proof.
    induction d as [|[k' v'] d IH]; simpl; [tauto|]. intros Hn [[= -> ->]|Hi].
    - rewrite keqb_refl. auto.
    - inversion Hn as [|? ? H1 H2]; subst. rewrite keqb_neq; auto.
      intros ->. apply H1. apply (in_map fst) in Hi. exact Hi.
  Qed.
  Lemma dict_fold_new l : forall d : list (K * V), NoDup (map fst (d ++ l)) ->
    fold_left (fun d kv => dict_set keqb (fst kv) (snd kv) d) l d = d ++ l.
  Proof.
    induction l as [|[k v] l IH]; intros d H; simpl.
    - rewrite app_nil_r. reflexivity.
    - rewrite dict_set_new.
      + rewrite IH; rewrite <- app_assoc; auto.
      + rewrite map_app in H. simpl in H. apply NoDup_remove_2 in H.
        rewrite in_app_iff in H. tauto.
  Qed.
  Lemma dict_del_get k k2 (d : list (K * V)) :
    NoDup (map fst d) ->
    dict_get keqb k2 (dict_del keqb k d) = if keqb k k2 then None else dict_get keqb k2 d.
  Proof.
    induction d as [|[k' v'] d IH]; simpl; intros Hn.
    - destruct (keqb k k2); auto.
    - inversion Hn as [|? ? H1 H2]; subst. destruct (keqb k k') eqn:E.
      + apply keqb_eq in E as <-. destruct (keqb k k2) eqn:E2.
        * apply keqb_eq in E2 as <-. apply dict_get_None; auto.
        * rewrite (keqb_neq k2 k); auto. intros ->. rewrite keqb_refl in E2. discriminate.
      + simpl. rewrite IH by auto. destruct (keqb k k2) eqn:E2; auto.
        apply keqb_eq in E2 as <-. rewrite E. auto.
  Qed.
  Lemma dict_del_keys k (d : list (K * V)) x :
    In x (map fst (dict_del keqb k d)) -> In x (map fst d).
  Proof.
    induction d as [|[k' v'] d IH]; simpl; auto. destruct (keqb k k'); simpl; intuition auto.
  Qed.
  Lemma dict_del_NoDup k (d : list (K * V)) :
    NoDup (map fst d) -> NoDup (map fst (dict_del keqb k d)).
  Proof.
    induction d as [|[k' v'] d IH]; simpl; auto. intros H.
    inversion H as [|? ? H1 H2]; subst. destruct (keqb k k'); simpl; auto.
    constructor; auto. intros Hi. apply H1. eapply dict_del_keys; eauto.
  Qed.
  Lemma dict_del_absent k (d : list (K * V)) :
    ~ In k (map fst d) -> dict_del keqb k d = d.
  Proof.
    induction d as [|[k' v'] d IH]; simpl; auto. intros H.
    rewrite (keqb_neq k k') by (intros ->; tauto). rewrite IH; auto.
  Qed.
End DictFacts.

(** ** sorting *)
Lemma insert_sorted_perm x l : Permutation (insert_sorted x l) (x :: l).
Proof.
  induction l as [|y l IH]; simpl; auto.
  destruct (strleb x y); auto. rewrite IH. apply perm_swap.
Qed.
Lemma py_sorted_perm l : Permutation (py_sorted l) l.
Proof.
  induction l as [|x l IH]; simpl; auto.
  unfold py_sorted in *. simpl. rewrite insert_sorted_perm, IH. reflexivity.
Qed.
Lemma strleb_refl a : strleb a a = true.
Proof. induction a as [|x a IH]; simpl; auto. rewrite Z.ltb_irrefl. auto. Qed.
Lemma strleb_total a b : strleb a b = true \/ strleb b a = true.
Proof.
  revert b; induction a as [|x a IH]; intros [|y b]; simpl; auto.
  destruct (x <? y) eqn:E1; auto. destruct (y <? x) eqn:E2; auto.
Qed.
Lemma strleb_antisym a b : strleb a b = true -> strleb b a = true -> a = b.
Proof.
  revert b; induction a as [|x a IH]; intros [|y b]; simpl; try easy.
  destruct (x <? y) eqn:E1; destruct (y <? x) eqn:E2; try easy; try lia.
  intros H1 H2. f_equal; [lia|auto].
Qed.
Lemma strleb_trans a b c : strleb a b = true -> strleb b c = true -> strleb a c = true.
Proof.
  revert b c; induction a as [|x a IH]; intros [|y b] [|z c]; simpl; try easy.
  destruct (x <? y) eqn:E1; destruct (y <? z) eqn:E2; destruct (x <? z) eqn:E3; auto; try lia;
  destruct (y <? x) eqn:E4; destruct (z <? y) eqn:E5; destruct (z <? x) eqn:E6; try lia; try easy.
  eauto.
Qed.
Inductive str_sorted : list pystr -> Prop :=
| ss_nil : str_sorted []
| ss_cons x l : (forall y, In y l -> strleb x y = true) -> str_sorted l -> str_sorted (x :: l).
Lemma insert_sorted_sorted x l : str_sorted l -> str_sorted (insert_sorted x l).
Proof.
  induction 1 as [|y l Hy Hs IH]; simpl.
  - constructor; [easy|constructor].
  - destruct (strleb x y) eqn:E.
    + constructor.
      * intros z [->|Hz]; auto. eapply strleb_trans; eauto.
      * constructor; auto.
    + constructor; auto. intros z Hz.
      apply (Permutation_in _ (insert_sorted_perm x l)) in Hz. destruct Hz as [->|Hz]; auto.
      destruct (strleb_total z y); congruence.
Qed.
Lemma py_sorted_sorted l : str_sorted (py_sorted l).
Proof.
  induction l as [|x l IH]; unfold py_sorted; simpl; [constructor|].
  apply insert_sorted_sorted, IH.
Qed.
Lemma str_sorted_unique l1 l2 :
  str_sorted l1 -> str_sorted l2 -> Permutation l1 l2 -> l1 = l2.
Proof.
  intros H1. revert l2. induction H1 as [|x l Hx Hs IH]; intros l2 H2 Hp.
  - apply Permutation_nil in Hp. auto.
  - destruct H2 as [|y l2 Hy Hs2].
    + symmetry in Hp. apply Permutation_nil in Hp. discriminate.
    + assert (x = y) as ->.
      { assert (Hi : In x (y :: l2)) by (eapply Permutation_in; eauto; simpl; auto).
        assert (Hj : In y (x :: l)) by (eapply Permutation_in; [symmetry; eauto|]; simpl; auto).
        destruct Hi as [->|Hi]; auto. destruct Hj as [->|Hj]; auto.
        apply strleb_antisym; auto. }
      f_equal. apply IH; auto. eapply Permutation_cons_inv; eauto.
Qed.
Lemma py_sorted_perm_eq l1 l2 : Permutation l1 l2 -> py_sorted l1 = py_sorted l2.
Proof.
  intros H. apply str_sorted_unique; try apply py_sorted_sorted.
  rewrite !py_sorted_perm. exact H.
Qed.
Lemma py_sorted_nodup l : NoDup l -> NoDup (py_sorted l).
Proof. intros H. eapply Permutation_NoDup; [symmetry; apply py_sorted_perm|exact H]. Qed.
