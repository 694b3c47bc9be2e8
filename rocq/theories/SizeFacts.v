(** * How long what was read is when it is written again *)
From Coq Require Import ZArith List Bool Lia ZifyBool Permutation.
From Coq Require Import Strings.Byte.
From Verif Require Import Py Stream Frame PyFacts Spec StreamFacts Utf8Facts.
Import ListNotations.
Open Scope list_scope.
Open Scope Z_scope.

(** ** vInts *)
Lemma bio_len n s a s' : bio_read n s = (a, s') -> zlen a + zlen s' = zlen s.
Proof.
  unfold bio_read. destruct (n <? 0); intros H; apply pair_equal_spec in H as [<- <-].
  - cbn. lia.
  - rewrite <- (zlen_app byte). now rewrite takeZ_dropZ.
Qed.
Lemma takeZ_le {A} (l : list A) : forall n, 0 <= n -> zlen (takeZ n l) <= n.
Proof.
  induction l as [|x l IH]; intros n H; cbn [takeZ]; [cbn; lia|]. destruct (Z.leb_spec n 0); [cbn; lia|]. rewrite zlen_cons.
  specialize (IH (n - 1) ltac:(lia)). lia.
Qed.
Lemma byte_takes s b s' : read_byte s = Ok (b, s') -> (s = [] /\ s' = [] /\ b = 0) \/ (1 + zlen s' = zlen s).
Proof.
  intros H. unfold read_byte, read_bytes, rbind, rret in H. destruct (bio_read 1 s) as [a t] eqn:E.
  pose proof (bio_len _ _ _ _ E) as L. apply Ok_inj in H. apply pair_equal_spec in H as [Hb <-].
  destruct s as [|x s].
  - left. cbn in E. apply pair_equal_spec in E as [<- <-]. split; [reflexivity|]. split; [reflexivity|]. now subst b.
  - right. cbn in E. apply pair_equal_spec in E as [<- <-]. rewrite zlen_cons in *. change (zlen [x]) with 1 in L. destruct s; cbn in *; lia.
Qed.
Lemma low_bits b : 0 <= Z.land b 0x7F < 128.
Proof. change 0x7F with (Z.ones 7). rewrite Z.land_ones by lia. apply Z.mod_pos_bound. lia. Qed.
Lemma lor_bound acc b sh : 0 <= sh -> 0 <= acc < 2 ^ sh -> 0 <= Z.lor acc (Z.shiftl (Z.land b 0x7F) sh) < 2 ^ (sh + 7).
Proof.
  intros Hs Ha. pose proof (low_bits b) as Hb. set (x := Z.land b 0x7F) in *. rewrite Z.shiftl_mul_pow2 by lia.
  assert (P : 0 < 2 ^ sh) by (apply Z.pow_pos_nonneg; lia).
  assert (E : Z.lor acc (x * 2 ^ sh) = acc + x * 2 ^ sh).
  { rewrite <- Z.lxor_lor; [symmetry; apply Z.add_nocarry_lxor|]; apply Z.bits_inj_0; intros i; rewrite Z.land_spec, andb_false_iff;
      (destruct (Z.lt_ge_cases i sh) as [L|G]; [right; apply Z.mul_pow2_bits_low; lia|left]);
      (destruct (Z.eq_dec acc 0) as [->|Na]; [apply Z.bits_0|apply Z.bits_above_log2; [lia|]; apply Z.lt_le_trans with sh; [apply Z.log2_lt_pow2; lia|lia]]). }
  rewrite E, Z.pow_add_r by lia. change (2 ^ 7) with 128. nia.
Qed.
Lemma groups_bound k : forall sh acc s n s', 0 <= sh -> 0 <= acc < 2 ^ sh -> sh + 7 * Z.of_nat k = 28 ->
  vgroups k sh acc fin_int s = Ok (n, s') -> zlen s' <= zlen s /\ 0 <= n < 2 ^ (sh + 7 * (zlen s - zlen s')).
Proof.
  assert (Mono : forall n a b, 0 <= n < 2 ^ a -> 0 <= a <= b -> 0 <= n < 2 ^ b).
  { intros n a b H L. pose proof (Z.pow_le_mono_r 2 a b ltac:(lia) ltac:(lia)). lia. }
  induction k as [|k IH]; intros sh acc s n s' Hs Ha E H.
  - cbn [vgroups] in H. unfold fin_int in H. unfold rbind in H. destruct (read_byte s) as [[b t]|e] eqn:R; [|discriminate H].
    destruct (negb (Z.land b 0x80 =? 0)); [discriminate H|]. unfold rret in H. apply Ok_inj in H. apply pair_equal_spec in H as [<- <-].
    assert (sh = 28) by lia. subst sh. apply byte_takes in R as [(-> & -> & ->)|L].
    + split; [lia|]. change (Z.land 0 127) with 0. rewrite Z.shiftl_0_l, Z.lor_0_r. exact Ha.
    + split; [lia|]. eapply Mono; [apply lor_bound; [lia|exact Ha]|lia].
  - cbn [vgroups] in H. unfold rbind in H. destruct (read_byte s) as [[b t]|e] eqn:R; [|discriminate H]. cbv zeta in H.
    apply byte_takes in R as [(-> & -> & ->)|L].
    + change (Z.land 0 127) with 0 in H. change (Z.land 0 0x80 =? 0) with true in H. rewrite Z.shiftl_0_l, Z.lor_0_r in H.
      unfold rret in H. apply Ok_inj in H. apply pair_equal_spec in H as [<- <-]. split; [lia|]. rewrite Z.sub_diag, Z.mul_0_r, Z.add_0_r. exact Ha.
    + destruct (Z.land b 0x80 =? 0).
      * unfold rret in H. apply Ok_inj in H. apply pair_equal_spec in H as [<- <-]. split; [lia|].
        eapply Mono; [apply lor_bound; [lia|exact Ha]|lia].
      * apply IH in H; [|lia|apply lor_bound; [lia|exact Ha]|lia]. destruct H as [L1 B]. split; [lia|].
        replace (sh + 7 * (zlen s - zlen s')) with (sh + 7 + 7 * (zlen t - zlen s')) by lia. exact B.
Qed.
Lemma size_mono a b : 0 <= a <= b -> v_int_size a <= v_int_size b.
Proof.
  intros H. destruct (v_int_size_least b ltac:(lia)) as (L & B & _). apply (proj2 (proj2 (v_int_size_least a ltac:(lia)))); [lia|]. lia.
Qed.
Lemma size_pos a : 1 <= v_int_size a.
Proof. destruct (Z.lt_ge_cases a 0); [rewrite v_int_size_small by lia; lia|]. apply v_int_size_least. lia. Qed.
Lemma v_int_takes s n s' : read_v_int s = Ok (n, s') -> 0 <= n /\ zlen s' <= zlen s /\ v_int_size n <= Z.max 1 (zlen s - zlen s').
Proof.
  rewrite read_v_int_groups. intros H. apply (groups_bound 4 0 0) in H; [|lia|cbn; lia|lia]. destruct H as [L B].
  split; [lia|]. split; [exact L|]. apply (v_int_size_least n); [lia|lia|].
  destruct B as [_ B]. eapply Z.lt_le_trans; [exact B|]. change 128 with (2 ^ 7). rewrite <- Z.pow_mul_r by lia. apply Z.pow_le_mono_r; lia.
Qed.

(** ** strings *)
Definition weight (s : pystr) : Z := match utf8_encode s with Ok e => v_int_size (zlen e) + zlen e | Raise _ => 1 end.
Lemma weight_pos s : 1 <= weight s.
Proof. unfold weight. destruct (utf8_encode s) as [e|]; [|lia]. pose proof (size_pos (zlen e)). pose proof (zlen_nonneg _ e). lia. Qed.
Lemma weight_empty : weight [] = 1.
Proof. reflexivity. Qed.
Lemma write_string_weight s b : write_string s = Ok b -> zlen b = weight s.
Proof.
  intros H. unfold write_string in H. unfold weight. destruct (utf8_encode s) as [e|]; [|discriminate H]. cbn [bind] in H.
  apply wcat_cons_ok in H as (b1 & r & H1 & H & ->). apply wcat_cons_ok in H as (b2 & r2 & H2 & H & ->). apply wcat_nil_ok in H as ->.
  rewrite (v_int_size_correct _ _ H1), !zlen_app. pose proof (zlen_nonneg _ e). destruct (0 <? zlen e) eqn:Z; apply Ok_inj in H2; subst b2; cbn; lia.
Qed.
Definition eof (s : bytes) : Z := match s with [] => 1 | _ => 0 end.
Lemma eof_le s : 0 <= eof s <= 1.
Proof. destruct s; cbn; lia. Qed.
Lemma string_takes s t s' : read_string s = Ok (t, s') -> zlen s' <= zlen s /\ weight t + zlen s' <= zlen s + eof s /\ (s = [] -> t = [] /\ s' = []).
Proof.
  intros H. unfold read_string, read_array_size, rbind, rlift, rret, rfail, read_bytes in H.
  destruct (read_v_int s) as [[n s1]|e] eqn:R; [|discriminate H]. destruct (2 ^ 31 <? n); [discriminate H|].
  destruct (bio_read n s1) as [b s2] eqn:B. destruct (utf8_decode b) as [u|e] eqn:D; [|discriminate H].
  apply Ok_inj in H. apply pair_equal_spec in H as [<- <-]. pose proof R as R0. apply v_int_takes in R as (Hn & L1 & Sz). pose proof (bio_len _ _ _ _ B) as LB.
  pose proof (zlen_nonneg _ b). pose proof (zlen_nonneg _ s2).
  assert (Ln : zlen b <= n).
  { unfold bio_read in B. destruct (Z.ltb_spec n 0); [lia|]. apply pair_equal_spec in B as [<- _]. apply takeZ_le. lia. }
  split; [lia|]. split.
  - unfold weight. rewrite (utf8_encode_decode _ _ D). pose proof (size_mono (zlen b) n ltac:(lia)).
    destruct s as [|x s].
    + assert (X : read_v_int [] = Ok (0, [])) by reflexivity. rewrite X in R0. apply Ok_inj in R0. apply pair_equal_spec in R0 as [<- <-]. cbn in LB |- *.
      change (v_int_size 0) with 1 in H1. lia.
    + cbn [eof]. rewrite zlen_cons in *. assert (zlen s1 < 1 + zlen s); [|lia].
      rewrite read_v_int_groups in R0. cbn [vgroups] in R0. unfold rbind at 1 in R0. destruct (read_byte (x :: s)) as [[b0 t0]|] eqn:RB; [|discriminate R0].
      apply byte_takes in RB as [(RB & _)|RB]; [discriminate RB|]. rewrite zlen_cons in RB. cbv zeta in R0.
      destruct (Z.land b0 0x80 =? 0).
      * unfold rret in R0. apply Ok_inj in R0. apply pair_equal_spec in R0 as [_ <-]. lia.
      * apply (groups_bound 3) in R0; [lia|lia|apply (lor_bound 0 b0 0); [lia|cbn; lia]|lia].
  - intros ->. assert (X : read_v_int [] = Ok (0, [])) by reflexivity. rewrite X in R0. apply Ok_inj in R0. apply pair_equal_spec in R0 as [<- <-].
    cbn in B. apply pair_equal_spec in B as [<- <-]. cbn in D. apply Ok_inj in D. now subst u.
Qed.

(** ** dicts: a value reader that costs nothing extra unless the input ended *)
Section Dict.
  Variables (V : Type) (rv : reader V) (wv : V -> Z).
  Hypothesis wv_pos : forall v, 1 <= wv v.
  Hypothesis rv_takes : forall s v s', rv s = Ok (v, s') -> zlen s' <= zlen s /\ wv v + zlen s' <= zlen s + eof s'.
  Hypothesis rv_eof : forall v s', rv [] = Ok (v, s') -> wv v = 1 /\ s' = [].
  Definition entries (d : sdict V) : Z := fold_right (fun kv a => weight (fst kv) + wv (snd kv) + a) 0 d.
  Lemma entries_set k v d : entries (dict_set streqb k v d) <= entries d + weight k + wv v.
  Proof.
    induction d as [|[k' v'] d IH]; cbn [dict_set entries fold_right fst snd]; [lia|]. destruct (streqb k k') eqn:E.
    - apply streqb_eq in E as ->. cbn [entries fold_right fst snd]. fold (entries d). pose proof (wv_pos v'). pose proof (weight_pos k'). lia.
    - cbn [entries fold_right fst snd] in *. fold (entries d) in *. fold (entries (dict_set streqb k v d)) in *. lia.
  Qed.
  Lemma entries_replace k v d : In k (map fst d) -> wv v = 1 -> entries (dict_set streqb k v d) <= entries d.
  Proof.
    intros I W. induction d as [|[k' v'] d IH]; [destruct I|]. cbn [dict_set]. destruct (streqb k k') eqn:E.
    - cbn [entries fold_right fst snd]. pose proof (wv_pos v'). lia.
    - cbn [entries fold_right fst snd] in *. fold (entries d) in *. fold (entries (dict_set streqb k v d)) in *.
      destruct I as [<-|I]; [|specialize (IH I); lia]. cbn [fst] in E. rewrite streqb_refl in E. discriminate E.
  Qed.
  Lemma keys_set k v d x : In x (map fst (dict_set streqb k v d)) <-> x = k \/ In x (map (@fst pystr V) d).
  Proof.
    induction d as [|[k' v'] d IH]; cbn; [intuition|]. destruct (streqb k k') eqn:E.
    - apply streqb_eq in E as ->. cbn. intuition.
    - cbn. rewrite IH. intuition.
  Qed.
  Lemma length_set k v (d : sdict V) : zlen (dict_set streqb k v d) <= zlen d + 1.
  Proof. unfold zlen. enough (List.length (dict_set streqb k v d) <= S (List.length d))%nat by lia. induction d as [|[k' v'] d IH]; cbn; [lia|]. destruct (streqb k k'); cbn; lia. Qed.
  Definition empty_key (d : sdict V) : Z := if in_dec (list_eq_dec Z.eq_dec) [] (map fst d) then 0 else 2.
  Lemma empty_key_le d : 0 <= empty_key d <= 2.
  Proof. unfold empty_key. destruct (in_dec _ _ _); lia. Qed.
  Lemma empty_key_set k v d : empty_key (dict_set streqb k v d) <= empty_key d.
  Proof.
    unfold empty_key. destruct (in_dec _ [] (map fst d)) as [I|N].
    - destruct (in_dec _ [] (map fst (dict_set streqb k v d))) as [_|N]; [lia|]. exfalso. apply N, keys_set. now right.
    - destruct (in_dec _ _ _); lia.
  Qed.
  Lemma pairs_take n : forall s l s' d, read_n (read_pair rv) n s = Ok (l, s') ->
    let d' := fold_left (fun d kv => dict_set streqb (fst kv) (snd kv) d) l d in
    zlen s' <= zlen s /\ zlen d' <= zlen d + Z.of_nat n /\
    entries d' + zlen s' + (1 - eof s') + empty_key d' <= entries d + zlen s + (1 - eof s) + empty_key d.
  Proof.
    induction n as [|n IH]; intros s l s' d H d'.
    - cbn in H. apply Ok_inj in H. apply pair_equal_spec in H as [<- <-]. subst d'. cbn [fold_left]. lia.
    - cbn [read_n] in H. unfold rbind at 1 in H. destruct (read_pair rv s) as [[[k v] s1]|e] eqn:P; [|discriminate H].
      unfold rbind in H. destruct (read_n (read_pair rv) n s1) as [[l1 s2]|e] eqn:Q; [|discriminate H]. unfold rret in H.
      apply Ok_inj in H. apply pair_equal_spec in H as [<- <-]. subst d'. cbn [fold_left fst snd].
      destruct (IH s1 l1 s2 (dict_set streqb k v d) Q) as (L2 & Ld & B). clear IH Q. cbv zeta in Ld, B.
      pose proof (length_set k v d). pose proof (empty_key_set k v d).
      unfold read_pair, rbind, rret in P. destruct (read_string s) as [[k0 s0]|e] eqn:RS; [|discriminate P].
      destruct (rv s0) as [[v0 s3]|e] eqn:RV; [|discriminate P]. apply Ok_inj in P. apply pair_equal_spec in P as [P <-]. apply pair_equal_spec in P as [<- <-].
      apply string_takes in RS as (L1 & W1 & E1).
      split; [apply rv_takes in RV; lia|]. split; [lia|].
      set (dd := fold_left _ l1 _) in *. clearbody dd.
      destruct s as [|x s].
      + destruct (E1 eq_refl) as (-> & ->). apply rv_eof in RV as (Wv & ->). change (zlen (@nil byte)) with 0 in *. cbn [eof] in *.
        destruct (in_dec (list_eq_dec Z.eq_dec) [] (map fst d)) as [I|N].
        * pose proof (entries_replace [] v0 d I Wv). lia.
        * pose proof (entries_set [] v0 d). rewrite weight_empty in *.
          assert (empty_key d = 2) by (unfold empty_key; destruct (in_dec _ _ _); [contradiction|reflexivity]).
          assert (empty_key (dict_set streqb [] v0 d) = 0).
          { unfold empty_key. destruct (in_dec _ _ _) as [_|N']; [reflexivity|]. exfalso. apply N', keys_set. now left. }
          lia.
      + cbn [eof] in W1 |- *. apply rv_takes in RV as (L3 & W3). pose proof (entries_set k0 v0 d). pose proof (eof_le s3). lia.
  Qed.
  Lemma dict_takes s d s' : read_dict rv s = Ok (d, s') -> zlen s' <= zlen s /\ v_int_size (zlen d) + entries d + zlen s' <= zlen s + 4.
  Proof.
    intros H. unfold read_dict, rbind in H. destruct (read_v_int s) as [[n s1]|e] eqn:R; [|discriminate H]. apply v_int_takes in R as (Hn & L & Sz).
    destruct (n =? 0) eqn:N.
    - unfold rret in H. apply Ok_inj in H. apply pair_equal_spec in H as [<- <-]. split; [exact L|]. change (v_int_size (zlen (@nil (pystr * V)))) with 1. change (entries []) with 0. lia.
    - destruct (read_n _ _ s1) as [[l s2]|e] eqn:Q; [|discriminate H]. unfold rret in H. apply Ok_inj in H. apply pair_equal_spec in H as [<- <-].
      destruct (pairs_take _ _ _ _ [] Q) as (L2 & Ld & B). cbv zeta in Ld, B. fold (dict_of_pairs l) in Ld, B.
      change (zlen (@nil (pystr * V))) with 0 in Ld. pose proof (zlen_nonneg _ (dict_of_pairs l)). pose proof (zlen_nonneg _ s2).
      pose proof (size_mono (zlen (dict_of_pairs l)) n ltac:(lia)). pose proof (empty_key_le (dict_of_pairs l)). pose proof (empty_key_le []).
      pose proof (eof_le s1). pose proof (eof_le s2). change (entries []) with 0 in B. split; [lia|]. 
      lia.
  Qed.
End Dict.

(** ** sets and arrays of strings *)
Definition texts (l : list pystr) : Z := fold_right (fun t a => weight t + a) 0 l.
Definition bunch (l : list pystr) : Z := v_int_size (zlen l) + texts l.
Lemma texts_nonneg l : 0 <= texts l.
Proof. induction l as [|t l IH]; cbn; [lia|]. fold (texts l). pose proof (weight_pos t). lia. Qed.
Lemma texts_app a b : texts (a ++ b) = texts a + texts b.
Proof. induction a as [|t a IH]; cbn [app texts fold_right]; [reflexivity|]. fold (texts a) (texts (a ++ b)). lia. Qed.
Lemma texts_perm a b : Permutation a b -> texts a = texts b.
Proof. intros P. induction P; cbn [texts fold_right] in *; unfold texts in *; lia. Qed.
Lemma v_int_eats x s n s' : read_v_int (x :: s) = Ok (n, s') -> zlen s' <= zlen s.
Proof.
  rewrite read_v_int_groups. cbn [vgroups]. unfold rbind at 1. destruct (read_byte (x :: s)) as [[b0 t0]|] eqn:RB; [|discriminate].
  apply byte_takes in RB as [(RB & _)|RB]; [discriminate RB|]. rewrite zlen_cons in RB. cbv zeta. intros R.
  destruct (Z.land b0 0x80 =? 0).
  - unfold rret in R. apply Ok_inj in R. apply pair_equal_spec in R as [_ <-]. lia.
  - apply (groups_bound 3) in R; [lia|lia|apply (lor_bound 0 b0 0); [lia|cbn; lia]|lia].
Qed.
Lemma size_takes s n s' : read_array_size s = Ok (n, s') ->
  0 <= n /\ zlen s' <= zlen s /\ v_int_size n + zlen s' <= zlen s + eof s /\ (s = [] -> n = 0).
Proof.
  unfold read_array_size, rbind, rret, rfail. destruct (read_v_int s) as [[m s1]|e] eqn:R; [|discriminate]. destruct (2 ^ 31 <? m); [discriminate|].
  intros H. apply Ok_inj in H. apply pair_equal_spec in H as [<- <-]. pose proof (v_int_takes _ _ _ R) as (Hn & L & Z). split; [exact Hn|]. split; [exact L|].
  destruct s as [|x s].
  - assert (X : read_v_int [] = Ok (0, [])) by reflexivity. rewrite X in R. apply Ok_inj in R. apply pair_equal_spec in R as [<- <-]. split; [cbn; lia|reflexivity].
  - apply v_int_eats in R. cbn [eof]. rewrite zlen_cons in *. split; [lia|discriminate].
Qed.
Lemma strings_take n : forall s l s', read_n read_string n s = Ok (l, s') ->
  zlen s' <= zlen s /\ zlen l = Z.of_nat n /\ (s' <> [] -> texts l + zlen s' <= zlen s).
Proof.
  induction n as [|n IH]; intros s l s' H; cbn [read_n] in H.
  - unfold rret in H. apply Ok_inj in H. apply pair_equal_spec in H as [<- <-]. split; [lia|]. split; [reflexivity|]. intros _. cbn. lia.
  - unfold rbind at 1 in H. destruct (read_string s) as [[t s1]|e] eqn:R; [|discriminate H]. unfold rbind in H.
    destruct (read_n read_string n s1) as [[l1 s2]|e] eqn:Q; [|discriminate H]. unfold rret in H. apply Ok_inj in H. apply pair_equal_spec in H as [<- <-].
    apply IH in Q as (L2 & Ln & W2). apply string_takes in R as (L1 & W1 & _). split; [lia|]. split; [rewrite zlen_cons; lia|].
    intros N. specialize (W2 N). cbn [texts fold_right]. fold (texts l1).
    destruct s as [|x s]; [|cbn [eof] in W1; lia]. change (zlen (@nil byte)) with 0 in *. pose proof (zlen_nonneg _ s2).
    exfalso. destruct s2; [now apply N|]. rewrite zlen_cons in *. pose proof (zlen_nonneg _ s2). lia.
Qed.
Definition lacks (l : list pystr) : Z := if in_dec (list_eq_dec Z.eq_dec) [] l then 0 else 1.
Lemma lacks_le l : 0 <= lacks l <= 1.
Proof. unfold lacks. destruct (in_dec _ _ _); lia. Qed.
Lemma set_add_spec t l : (set_add t l = l /\ In t l) \/ set_add t l = l ++ [t].
Proof.
  unfold set_add. destruct (str_mem t l) eqn:E; [left|now right]. split; [reflexivity|]. now apply str_mem_In.
Qed.
Lemma set_add_lacks t l : lacks (set_add t l) <= lacks l.
Proof.
  destruct (set_add_spec t l) as [[-> _]| ->]; [lia|]. unfold lacks. destruct (in_dec _ [] l) as [I|N].
  - destruct (in_dec _ [] (l ++ [t])) as [_|N]; [lia|]. exfalso. apply N, in_or_app. now left.
  - destruct (in_dec _ _ _); lia.
Qed.
Lemma set_takes_n n : forall s l s' acc, read_n read_string n s = Ok (l, s') ->
  let acc' := fold_left (fun s x => set_add x s) l acc in
  texts acc' + zlen s' <= texts acc + zlen s + eof s' * lacks acc /\ zlen acc' <= zlen acc + Z.of_nat n.
Proof.
  induction n as [|n IH]; intros s l s' acc H acc'; cbn [read_n] in H.
  - unfold rret in H. apply Ok_inj in H. apply pair_equal_spec in H as [<- <-]. subst acc'. cbn [fold_left]. pose proof (lacks_le acc). pose proof (eof_le s). nia.
  - unfold rbind at 1 in H. destruct (read_string s) as [[t s1]|e] eqn:R; [|discriminate H]. unfold rbind in H.
    destruct (read_n read_string n s1) as [[l1 s2]|e] eqn:Q; [|discriminate H]. unfold rret in H. apply Ok_inj in H. apply pair_equal_spec in H as [<- <-].
    subst acc'. cbn [fold_left]. pose proof (strings_take _ _ _ _ Q) as (L2 & _). apply (IH _ _ _ (set_add t acc)) in Q as (B & Ln). cbv zeta in B, Ln.
    pose proof (set_add_lacks t acc) as La. pose proof (lacks_le acc). pose proof (lacks_le (set_add t acc)). pose proof (eof_le s2).
    apply string_takes in R as (L1 & W1 & E1). set (acc' := fold_left _ l1 _) in *. clearbody acc'.
    assert (Lz : zlen (set_add t acc) <= zlen acc + 1).
    { destruct (set_add_spec t acc) as [[-> _]| ->]; [lia|]. rewrite zlen_app. cbn. lia. }
    split; [|lia]. destruct s as [|x s].
    + destruct (E1 eq_refl) as (-> & ->). change (zlen (@nil byte)) with 0 in *. pose proof (zlen_nonneg _ s2).
      assert (s2 = []) by (destruct s2; [reflexivity|rewrite zlen_cons in *; pose proof (zlen_nonneg _ s2); lia]). subst s2. cbn [eof] in *.
      destruct (set_add_spec [] acc) as [[E _]|E]; rewrite E in *; [lia|].
      assert (lacks (acc ++ [[]]) = 0).
      { unfold lacks. destruct (in_dec _ _ _) as [_|N]; [reflexivity|]. exfalso. apply N, in_or_app. right. now left. }
      destruct (in_dec (list_eq_dec Z.eq_dec) [] acc) as [I|N].
      * exfalso. unfold set_add in E. rewrite (proj2 (str_mem_In [] acc) I) in E. apply (f_equal (@List.length _)) in E. rewrite app_length in E. cbn in E. lia.
      * assert (lacks acc = 1) by (unfold lacks; destruct (in_dec _ _ _); [contradiction|reflexivity]).
        rewrite texts_app in B. change (texts [[]]) with 1 in B. unfold pystr in *. lia.
    + cbn [eof] in W1. assert (texts (set_add t acc) <= texts acc + weight t).
      { destruct (set_add_spec t acc) as [[-> _]| ->]; [pose proof (weight_pos t); lia|]. rewrite texts_app. cbn. lia. }
      nia.
Qed.
Lemma set_takes so : set_order_ok so -> forall s l s', read_string_set so s = Ok (l, s') -> zlen s' <= zlen s /\ bunch l + zlen s' <= zlen s + eof s'.
Proof.
  intros Hso s l s' H. unfold read_string_set, read_string_array in H. unfold rbind at 1 in H. unfold rbind at 1 in H.
  destruct (read_array_size s) as [[n s1]|e] eqn:R; [|discriminate H]. apply size_takes in R as (Hn & L1 & W & En).
  assert (Hp : forall a, bunch (so a) = bunch a).
  { intros a. unfold bunch. rewrite (texts_perm _ _ (Hso a)). unfold zlen. now rewrite (Permutation_length (Hso a)). }
  destruct (Z.eqb_spec n 0) as [->|Nz].
  - unfold rret in H. apply Ok_inj in H. apply pair_equal_spec in H as [<- <-]. split; [exact L1|]. rewrite Hp. change (bunch (set_of_list [])) with 1.
    change (v_int_size 0) with 1 in W. destruct s as [|x s]; [|cbn [eof] in W; pose proof (eof_le s1); lia].
    change (zlen (@nil byte)) with 0 in *. destruct s1; [cbn; lia|]. rewrite zlen_cons in L1. pose proof (zlen_nonneg _ s1). lia.
  - destruct (read_n read_string (Z.to_nat n) s1) as [[a s2]|e] eqn:Q; [|discriminate H]. unfold rret in H. apply Ok_inj in H. apply pair_equal_spec in H as [<- <-].
    pose proof (strings_take _ _ _ _ Q) as (L2 & _). apply (set_takes_n _ _ _ _ []) in Q as (B & Ln). cbv zeta in B, Ln. fold (set_of_list a) in B, Ln.
    split; [lia|]. rewrite Hp. unfold bunch. change (zlen (@nil pystr)) with 0 in Ln. change (texts []) with 0 in B.
    pose proof (zlen_nonneg _ (set_of_list a)). pose proof (size_mono (zlen (set_of_list a)) n ltac:(lia)). pose proof (lacks_le []). pose proof (eof_le s2).
    destruct s as [|x s]; [specialize (En eq_refl); lia|]. cbn [eof] in W. nia.
Qed.

(** ** the thread context *)
Definition context (c : ctx) : Z :=
  v_int_size (zlen (c_req c)) + entries pystr weight (c_req c) + (v_int_size (zlen (c_res c)) + entries (list pystr) bunch (c_res c)).
Lemma ctx_takes so s c s' : set_order_ok so -> read_ctx so s = Ok (c, s') -> zlen s' <= zlen s /\ context c + zlen s' <= zlen s + 8.
Proof.
  intros Hso H. unfold read_ctx, rbind in H. destruct (read_string_to_string_dict s) as [[a s1]|e] eqn:A; [|discriminate H].
  destruct (read_string_to_string_set_dict so s1) as [[b s2]|e] eqn:B; [|discriminate H]. unfold rret in H. apply Ok_inj in H. apply pair_equal_spec in H as [<- <-].
  apply (dict_takes pystr read_string weight weight_pos) in A.
  - apply (dict_takes (list pystr) (read_string_set so) bunch) in B.
    + unfold context. cbn [c_req c_res]. lia.
    + intros v. unfold bunch. pose proof (size_pos (zlen v)). pose proof (texts_nonneg v). lia.
    + apply set_takes, Hso.
    + intros v t H. cbn in H. apply Ok_inj in H. apply pair_equal_spec in H as [<- <-]. split; [|reflexivity].
      change (set_of_list []) with (@nil pystr). rewrite (Permutation_nil (Permutation_sym (Hso []))). reflexivity.
  - intros r v t H. apply string_takes in H as (L & W & E). split; [exact L|]. destruct r as [|x r]; [destruct (E eq_refl) as (_ & ->); exact W|]. cbn [eof] in W. pose proof (eof_le t). lia.
  - intros v t H. apply string_takes in H as (_ & _ & E). destruct (E eq_refl) as (-> & ->). split; reflexivity.
Qed.
Lemma wcat_sum {A} (f : A -> res bytes) (w : A -> Z) l b : (forall x b, In x l -> f x = Ok b -> zlen b = w x) ->
  wcat (map f l) = Ok b -> zlen b = fold_right (fun x a => w x + a) 0 l.
Proof.
  revert b. induction l as [|x l IH]; intros b F H; cbn [map] in H.
  - apply wcat_nil_ok in H as ->. reflexivity.
  - apply wcat_cons_ok in H as (b1 & b2 & H1 & H2 & ->). rewrite zlen_app, (F x b1 (or_introl eq_refl) H1), (IH b2 (fun y c I => F y c (or_intror I)) H2). reflexivity.
Qed.
Lemma array_weight l b : write_string_array l = Ok b -> zlen b = bunch l.
Proof.
  intros H. unfold write_string_array in H. apply wcat_cons_ok in H as (b1 & b2 & H1 & H2 & ->). unfold bunch, texts.
  rewrite zlen_app, (v_int_size_correct _ _ H1). f_equal. apply (wcat_sum write_string weight); [|exact H2]. intros x c _. apply write_string_weight.
Qed.
Lemma dict_weight {V} (wr : V -> res bytes) (wv : V -> Z) (d : sdict V) b : (forall v b, wr v = Ok b -> zlen b = wv v) ->
  wcat (write_v_int (zlen d) :: map (fun kv => wcat [write_string (fst kv); wr (snd kv)]) d) = Ok b ->
  zlen b = v_int_size (zlen d) + entries V wv d.
Proof.
  intros F H. apply wcat_cons_ok in H as (b1 & b2 & H1 & H2 & ->). rewrite zlen_app, (v_int_size_correct _ _ H1). f_equal.
  unfold entries. apply (wcat_sum _ (fun kv => weight (fst kv) + wv (snd kv))) in H2.
  - rewrite H2. clear. induction d as [|x d IH]; cbn; [reflexivity|]. lia.
  - intros [k v] c _ H. cbn [fst snd] in *. apply wcat_cons_ok in H as (c1 & c2 & K & H & ->). apply wcat_cons_ok in H as (c3 & c4 & V3 & H & ->).
    apply wcat_nil_ok in H as ->. rewrite app_nil_r, zlen_app, (write_string_weight _ _ K), (F _ _ V3). reflexivity.
Qed.
Lemma ctx_weight c b : write_ctx c = Ok b -> zlen b = context c.
Proof.
  intros H. unfold write_ctx in H. apply wcat_cons_ok in H as (b1 & b2 & H1 & H & ->). apply wcat_cons_ok in H as (b3 & b4 & H3 & H & ->).
  apply wcat_nil_ok in H as ->. rewrite app_nil_r, zlen_app. unfold context. f_equal.
  - exact (dict_weight write_string weight _ _ write_string_weight H1).
  - exact (dict_weight write_string_array bunch _ _ array_weight H3).
Qed.

(** ** the variable bytes *)
Lemma variable_takes vb f a : read_variable vb = Ok (f, a) -> weight a <= zlen vb + 1 /\ (a <> [] -> bunch f + weight a <= zlen vb).
Proof.
  unfold read_variable. destruct ((f <~ read_string_array ;; a <~ read_string ;; rret (f, a)) vb) as [[[f0 a0] r]|e] eqn:R; [|discriminate].
  cbn [rmap bind fst]. intros H. apply Ok_inj in H. apply pair_equal_spec in H as [<- <-]. unfold read_string_array in R. unfold rbind at 1 in R. unfold rbind at 1 in R.
  destruct (read_array_size vb) as [[n s1]|e] eqn:Z; [|discriminate R]. apply size_takes in Z as (Hn & L1 & W & En).
  assert (X : exists s2, (if n =? 0 then rret [] else read_n read_string (Z.to_nat n)) s1 = Ok (f0, s2) /\ read_string s2 = Ok (a0, r)).
  { destruct ((if n =? 0 then rret [] else read_n read_string (Z.to_nat n)) s1) as [[f1 s2]|e]; [|discriminate R]. unfold rbind in R.
    destruct (read_string s2) as [[a1 s3]|e] eqn:S; [|discriminate R]. unfold rret in R. apply Ok_inj in R. apply pair_equal_spec in R as [R <-]. apply pair_equal_spec in R as [<- <-]. now exists s2. }
  clear R. destruct X as (s2 & X & S). pose proof S as S0. apply string_takes in S as (L3 & W3 & E3).
  pose proof (zlen_nonneg _ r). pose proof (eof_le s2). pose proof (eof_le vb).
  assert (Y : zlen s2 <= zlen s1 /\ (s2 <> [] -> zlen f0 = n /\ texts f0 + zlen s2 <= zlen s1)).
  { destruct (Z.eqb_spec n 0) as [->|Nz].
    - unfold rret in X. apply Ok_inj in X. apply pair_equal_spec in X as [<- <-]. split; [lia|]. intros _. cbn. lia.
    - apply strings_take in X as (L2 & Ln & T). split; [exact L2|]. intros N. specialize (T N). split; [lia|exact T]. }
  destruct Y as (L2 & Y). split; [lia|]. intros Na.
  assert (N2 : s2 <> []) by (intros ->; destruct (E3 eq_refl); contradiction). destruct (Y N2) as (Ln & T). unfold bunch. rewrite Ln.
  destruct s2 as [|y s2]; [contradiction|]. cbn [eof] in W3. destruct vb as [|x vb]; [|cbn [eof] in W; lia].
  change (zlen (@nil byte)) with 0 in *. rewrite zlen_cons in *. pose proof (zlen_nonneg _ s2). lia.
Qed.
Lemma string_encodes s t s' : read_string s = Ok (t, s') -> exists e, utf8_encode t = Ok e.
Proof.
  intros H. unfold read_string, rbind, rlift, read_bytes in H. destruct (read_array_size s) as [[n s1]|e]; [|discriminate H].
  destruct (bio_read n s1) as [b s2]. destruct (utf8_decode b) as [u|e] eqn:D; [|discriminate H]. apply Ok_inj in H. apply pair_equal_spec in H as [<- <-].
  exists b. now apply utf8_encode_decode.
Qed.
Lemma variable_encodes vb f a : read_variable vb = Ok (f, a) -> exists e, utf8_encode a = Ok e.
Proof.
  unfold read_variable. destruct ((f <~ read_string_array ;; a <~ read_string ;; rret (f, a)) vb) as [[[f0 a0] r]|e] eqn:R; [|discriminate].
  cbn [rmap bind fst]. intros H. apply Ok_inj in H. apply pair_equal_spec in H as [<- <-]. unfold rbind in R.
  destruct (read_string_array vb) as [[f1 s1]|e]; [|discriminate R]. destruct (read_string s1) as [[a1 s2]|e] eqn:S; [|discriminate R].
  unfold rret in R. apply Ok_inj in R. apply pair_equal_spec in R as [R _]. apply pair_equal_spec in R as [_ <-]. exact (string_encodes _ _ _ S).
Qed.
Lemma size_add a b : 0 <= a -> 0 <= b -> v_int_size (a + b) <= v_int_size a + v_int_size b.
Proof.
  intros Ha Hb. destruct (v_int_size_least a Ha) as (La & Ba & _). destruct (v_int_size_least b Hb) as (Lb & Bb & _).
  apply (v_int_size_least (a + b)); [lia|lia|]. rewrite Z.pow_add_r by lia.
  pose proof (Z.pow_le_mono_r 128 1 (v_int_size a) ltac:(lia) ltac:(lia)). pose proof (Z.pow_le_mono_r 128 1 (v_int_size b) ltac:(lia) ltac:(lia)). nia.
Qed.
