(** * Facts about the REST messages *)
From Coq Require Import ZArith List Bool Lia ZifyBool Permutation.
From Coq Require Import Strings.Byte.
From Verif Require Import Py Stream Version Frame Proto Messages Rest PyFacts StreamFacts Spec
  SpecFacts MsgFacts.
Import ListNotations.
Open Scope Z_scope.

Lemma enum_survives n : n <= 2 ^ 35 -> survives write_opt_enum (e <~ read_enum n ;; rret (Some e)) (member n).
Proof.
  intros Hn o (m & -> & Hm). destruct (v_int_survives m ltac:(cbv beta; lia)) as (b & W & R).
  exists b. split; [exact W|]. intros s. unfold read_enum.
  assert (E : (i <~ read_v_int ;; (if (0 <=? i) && (i <? n) then rret i else rfail EValue)) (b ++ s) = Ok (m, s)).
  { rstep R. destruct (Z.leb_spec 0 m), (Z.ltb_spec m n); try lia. reflexivity. }
  rewrite (rbind_step _ _ _ _ _ _ _ E). reflexivity.
Qed.
Lemma enum_parts n o : n <= 2 ^ 35 -> member n o ->
  exists m b, o = Some m /\ write_opt_enum o = Ok b /\ forall s, read_enum n (b ++ s) = Ok (m, s).
Proof.
  intros Hn Ho. destruct (enum_survives n Hn o Ho) as (b & W & R). destruct Ho as (m & -> & _).
  exists m, b. split; [reflexivity|]. split; [exact W|]. intros s. specialize (R s).
  apply rbind_ok in R as (m' & s' & R & E). unfold rret in E. apply Ok_inj in E.
  apply pair_equal_spec in E as [E E2]. assert (m' = m) by congruence. subst m' s'. exact R.
Qed.
Lemma size_survives : survives write_v_int read_array_size (fun n => 0 <= n <= 2 ^ 31).
Proof.
  intros n Hn. destruct (write_v_int_total n) as [b W]; [lia|]. exists b. split; [exact W|].
  intros s. apply array_size_roundtrip; assumption.
Qed.

Lemma media_survives m : text_ok m -> exists b c, write_boolean (0 <? zlen m) = Ok b /\
  match m with [] => Ok [] | _ => write_string m end = Ok c /\
  forall s, exists t, read_boolean (b ++ c ++ s) = Ok (0 <? zlen m, t) /\
    (if 0 <? zlen m then read_string else rret []) t = Ok (m, s).
Proof.
  intros H. field (bool_survives (0 <? zlen m) I). destruct m as [|x m].
  - exists b, []. split; [exact W|]. split; [reflexivity|]. intros s. exists s. split; [apply R|reflexivity].
  - field (string_survives _ H). exists b, b0. split; [exact W|]. split; [exact W0|].
    intros s. exists (b0 ++ s). split; [apply R|].
    destruct (Z.ltb_spec 0 (zlen (x :: m))); [apply R0|unfold zlen in *; cbn [length] in *; lia].
Qed.

Lemma rest_request_survives :
  survives_upto received_request write_rest_request read_rest_request rest_request_ok.
Proof.
  intros r (Ht & Hm & F & Hp & Hh & Hc & Hv).
  inversion_clear F as [|? ? T1 F']. inversion_clear F' as [|? ? T2 F].
  inversion_clear F as [|? ? T3 F']. inversion_clear F' as [|? ? T4 _].
  destruct (enum_parts 9 _ ltac:(lia) Hm) as (m & mb & Em & Wm & Rm).
  destruct (enum_parts 2 _ ltac:(lia) Hv) as (v & vb & Ev & Wv & Rv).
  destruct (media_survives _ T3) as (b1 & b2 & W1 & W2 & R12).
  pose proof (zlen_nonneg _ (rq_content r)).
  field (task_survives _ Ht). field (string_survives _ T1). field (string_survives _ T2).
  field (string_dict_survives _ Hp). field (string_array_dict_survives _ Hh).
  field (size_survives (zlen (rq_content r)) ltac:(cbv beta; lia)). field (string_survives _ T4).
  eexists. split.
  - unfold write_rest_request. unfold write_transport_request. write_out. reflexivity.
  - intros s. assoc.
    match goal with |- context [b1 ++ b2 ++ ?x] => destruct (R12 x) as (t & Rb & Rs) end.
    eexists. split.
    + unfold read_rest_request, read_transport_request.
      rstep R. rstep Rm. rstep R0. rstep R1. rstep R2. rstep R3.
      rewrite (rbind_step _ _ _ _ _ _ _ Rb), (rbind_step _ _ _ _ _ _ _ Rs).
      rstep R4. rewrite (rbind_step _ _ _ _ _ _ _ (read_bytes_app _ _)). rstep R5. rstep Rv. reflexivity.
    + repeat split; cbn; congruence.
Qed.
Lemma texts_ok_perm l l' : Permutation l l' -> texts_ok l -> texts_ok l'.
Proof.
  intros P [H F]. split; [unfold zlen in *; rewrite <- (Permutation_length P); exact H|].
  eapply Permutation_Forall; eassumption.
Qed.
Lemma rest_response_survives so : set_order_ok so ->
  survives_upto same_response write_rest_response (read_rest_response so) rest_response_ok.
Proof.
  intros Hso r (Hs & Hc & Ht & Hh & Hp & Hn).
  destruct (enum_parts 47 _ ltac:(lia) Hs) as (m & mb & Em & Wm & Rm).
  pose proof (zlen_nonneg _ (rp_content r)).
  field (size_survives (zlen (rp_content r)) ltac:(cbv beta; lia)). field (string_survives _ Ht).
  field (string_array_dict_survives _ Hh).
  field (string_array_survives (py_sorted (rp_consumed r))
           (texts_ok_perm _ _ (Permutation_sym (py_sorted_perm _)) Hp)).
  field (bool_survives (rp_content_consumed r) I).
  eexists. split.
  - unfold write_rest_response. write_out. reflexivity.
  - intros s. assoc. eexists. split.
    + unfold read_rest_response. rstep Rm. rstep R. rewrite (rbind_step _ _ _ _ _ _ _ (read_bytes_app _ _)).
      rstep R0. rstep R1. rstep R2. rstep R3. reflexivity.
    + repeat split; cbn; try congruence.
      rewrite set_of_list_NoDup by (apply py_sorted_nodup, Hn).
      rewrite (Hso _), py_sorted_perm. reflexivity.
Qed.
Lemma exec_response_survives : survives write_exec_response read_exec_response exec_response_ok.
Proof.
  intros r (Hs & Ht & Hc & Hh & Hp).
  destruct (enum_parts 47 _ ltac:(lia) Hs) as (m & mb & Em & Wm & Rm).
  pose proof (zlen_nonneg _ (ex_content r)).
  field (size_survives (zlen (ex_content r)) ltac:(cbv beta; lia)). field (string_survives _ Ht).
  field (string_array_dict_survives _ Hh). field (string_array_survives _ Hp).
  field (bool_survives (ex_content_consumed r) I).
  eexists. split.
  - unfold write_exec_response. write_out. reflexivity.
  - intros s. assoc.
    unfold read_exec_response. rstep Rm. rstep R0. rstep R. rewrite (rbind_step _ _ _ _ _ _ _ (read_bytes_app _ _)).
    rstep R1. rstep R2. rstep R3. destruct r; cbn in *; subst; reflexivity.
Qed.

(** the bytes do not depend on the iteration order *)
Lemma response_order st c ct h p p' cc : Permutation p p' ->
  write_rest_response (mkResp st c ct h p cc) = write_rest_response (mkResp st c ct h p' cc).
Proof.
  intros H. unfold write_rest_response. cbn [rp_status rp_content rp_ctype rp_headers rp_consumed rp_content_consumed].
  rewrite (py_sorted_perm_eq _ _ H). reflexivity.
Qed.

(** ** consumption *)
Lemma do_call_same r c : let r' := snd (do_call r c) in
  rq_params r' = rq_params r /\ rq_content r' = rq_content r.
Proof. destruct c; split; reflexivity. Qed.
Lemma do_calls_params cs : forall r, rq_params (do_calls r cs) = rq_params r /\ rq_content (do_calls r cs) = rq_content r.
Proof.
  induction cs as [|c cs IH]; intros r; [split; reflexivity|].
  change (do_calls r (c :: cs)) with (do_calls (snd (do_call r c)) cs).
  destruct (IH (snd (do_call r c))) as [-> ->]. apply do_call_same.
Qed.
Lemma do_calls_consumed cs : forall r k,
  In k (rq_consumed (do_calls r cs)) <-> In k (rq_consumed r) \/ In (CParam k) cs.
Proof.
  induction cs as [|c cs IH]; intros r k; cbn [do_calls fold_left In]; [tauto|].
  unfold do_calls in IH. rewrite IH.
  destruct c; cbn [do_call snd with_consumed rq_consumed]; rewrite ?set_add_In;
    intuition (try congruence; auto).
Qed.
Lemma do_calls_nodup cs : forall r, NoDup (rq_consumed r) -> NoDup (rq_consumed (do_calls r cs)).
Proof.
  induction cs as [|c cs IH]; intros r H; [exact H|]. cbn [do_calls fold_left]. apply IH.
  destruct c; cbn [do_call snd with_consumed rq_consumed]; try apply set_add_NoDup; exact H.
Qed.
Lemma do_calls_content cs : forall r,
  rq_content_consumed (do_calls r cs) = true <-> rq_content_consumed r = true \/ In (CContent true) cs.
Proof.
  induction cs as [|c cs IH]; intros r; cbn [do_calls fold_left In]; [tauto|].
  unfold do_calls in IH. rewrite IH.
  destruct c as [| |[]|]; cbn [do_call snd with_consumed rq_content_consumed];
    rewrite ?orb_true_r, ?orb_false_r; intuition (try congruence).
Qed.
Lemma do_calls_answers r cs c : fst (do_call (do_calls r cs) c) = fst (do_call r c).
Proof.
  destruct (do_calls_params cs r) as [Hp Hc].
  destruct c; cbn [do_call fst]; rewrite ?Hp, ?Hc; reflexivity.
Qed.
Lemma param_answer r k : NoDup (map fst (rq_params r)) ->
  (forall v, In (k, v) (rq_params r) -> fst (do_call r (CParam k)) = AStr (Some v) /\
                                        fst (do_call r (CHasParam k)) = ABool true) /\
  (~ In k (map fst (rq_params r)) -> fst (do_call r (CParam k)) = AStr None /\
                                     fst (do_call r (CHasParam k)) = ABool false).
Proof.
  intros H. cbn [do_call fst]. split.
  - intros v Hv. rewrite (dict_In_get streqb streqb_eq _ _ _ H Hv). auto.
  - intros Hn. apply (dict_get_None streqb streqb_eq) in Hn. rewrite Hn. auto.
Qed.
