(** * The SDK follows the wire format: handshakes, REST messages, settings, parsers *)
From Coq Require Import ZArith List Bool Lia ZifyBool Permutation.
From Coq Require Import Strings.Byte.
From Verif Require Import Py Stream Version Frame Proto Messages Rest Settings PyFacts Utf8Facts
  StreamFacts StreamFacts2 Spec SpecFacts VersionFacts Wire MsgFacts ProtoFacts RestFacts SettingsFacts
  WireFacts WireFacts2 WireFacts3.
Import ListNotations.
Open Scope list_scope.
Open Scope Z_scope.
Ltac Zify.zify_post_hook ::= Z.to_euclidean_division_equations.

Lemma handshake_response_writes strict : writes write_handshake_response (w_handshake_response strict)
  (fun r => handshake_response_ok r /\ low_opt (hr_node r)).
Proof.
  intros [o c v] [(Hn & Hc & Hv) Hl]. cbn [hr_node hr_cluster hr_version] in *.
  unfold write_handshake_response, w_handshake_response. cbn [hr_node hr_cluster hr_version]. apply wcat_parts.
  constructor; [|constructor; [apply string_writes, Hc|constructor; [apply version_writes, Hv|constructor]]].
  destruct o as [n|]; cbn [w_optional]; [|apply bool_writes; exact I].
  apply wcat_parts. constructor; [apply bool_writes; exact I|]. constructor; [apply node_writes; split; auto|constructor].
Qed.
Lemma tcp_request_reads strict : reads read_tcp_handshake_request (w_tcp_handshake_request strict) (fun _ => True).
Proof.
  intros [t ov] bs s _ (v & n & b & Ev & Hv & _ & H). cbn [tr_version tr_task] in *. subst ov. opened H.
  unfold exactly in P1. subst. unfold read_tcp_handshake_request, read_transport_request.
  rewrite (rbind_step _ _ _ _ _ _ _ (task_reads strict _ _ _ I P)). rd. rd. reflexivity.
Qed.
Lemma tcp_request_only : reads_only read_tcp_handshake_request (w_tcp_handshake_request false).
Proof.
  intros s r s' H Hne. unfold read_tcp_handshake_request, read_transport_request in H. fwd H Rt. fwd H Rk. fwd H Rv. ret H.
  bks. back Rt task_only. unfold w_tcp_handshake_request. cbn [tr_version tr_task].
  match goal with Hv : w_version false ?v ?b, Hn : w_vint false ?n _, Ht : w_task false ?x _ |- exists bs, ?l = bs ++ ?t /\ _ =>
    enough (E : exists bs, l = bs ++ t /\ parts [w_task false x; w_vint false n; exactly b] bs)
      by (destruct E as (bs & E & Hp); exists bs; split; [exact E|]; exists v, n, b;
          exact (conj eq_refl (conj Hv (conj I Hp)))) end.
  apply asm_cons; [assumption|]. apply asm_cons; [assumption|]. apply asm_cons; [reflexivity|]. apply asm_nil.
Qed.
(** as OpenSearch itself: the size of what follows.  The SDK takes it from C17's version_size. *)
Lemma tcp_request_writes strict : writes write_tcp_handshake_request (w_tcp_handshake_request strict)
  (fun r => tcp_handshake_request_ok r /\ exists v, tr_version r = Some v /\ vid v < 2 ^ 28).
Proof.
  intros [t ov] [(Ht & Hv) (v & Ev & Hlt)]. cbn [tr_version tr_task] in *. subst ov. specialize (Hv v eq_refl).
  unfold write_tcp_handshake_request. cbn [tr_version tr_task]. unfold w_tcp_handshake_request. cbn [tr_version tr_task].
  destruct (version_writes strict v Hv) as (b & Wb & Fb).
  assert (E : version_size v = zlen b).
  { apply (proj2 version_size_partial v b); [apply Hv|exact Wb|]. right. exact Hlt. }
  destruct (wcat_parts [write_transport_request t; wcat [write_v_int (version_size v); write_version v]]
    [w_task strict t; parts [w_vint strict (zlen b); exactly b]]) as (bs & W & F).
  - constructor; [apply task_writes, Ht|]. constructor; [|constructor]. apply wcat_parts. rewrite E.
    constructor; [apply v_int_writes|].
    + destruct Hv as [Hv0 Hv1]. pose proof (version_size_range v (conj Hv0 Hv1)). pose proof (zlen_nonneg _ b). lia.
    + constructor; [exists b; split; [exact Wb|reflexivity]|constructor].
  - exists bs. split; [exact W|]. exists v, (zlen b), b. split; [reflexivity|]. split; [exact Fb|].
    split; [destruct strict; [reflexivity|exact I]|].
    apply parts_cons_inv in F as (a & r & -> & Fa & F). apply parts_cons_inv in F as (c & r' & -> & Fc & F).
    apply parts_nil_inv in F. subst r'. rewrite app_nil_r. constructor; assumption.
Qed.
Lemma tcp_response_reads strict : reads read_tcp_handshake_response
  (fun o bs => exists v, o = Some v /\ w_version strict v bs) (fun _ => True).
Proof. intros o bs s _ (v & -> & H). unfold read_tcp_handshake_response. rd. reflexivity. Qed.
Lemma tcp_response_only : reads_only read_tcp_handshake_response
  (fun o bs => exists v, o = Some v /\ w_version false v bs).
Proof. intros s o s' H Hne. unfold read_tcp_handshake_response in H. fwds H. ret H. bks. eauto 6. Qed.
Lemma tcp_response_writes strict v : version_ok v ->
  exists bs, write_tcp_handshake_response (Some v) = Ok bs /\ w_version strict v bs.
Proof. apply version_writes. Qed.

(** ** thread context *)
Lemma ctx_reads strict so : set_order_ok so -> reads_upto same_ctx (read_ctx so) (w_ctx strict) (fun _ => True).
Proof.
  intros Hso [a b] bs s _ H. unfold w_ctx in H. cbn [c_req c_res] in H. opened H. unfold read_ctx.
  destruct (set_dict_reads strict so Hso b a1 s I P0) as (b' & R & E). exists (mkCtx a b').
  split; [|split; [reflexivity|exact E]]. rd.
  rewrite (rbind_step _ _ _ _ _ _ _ R). reflexivity.
Qed.
Lemma ctx_only so : set_order_ok so -> reads_only (read_ctx so) (w_ctx false).
Proof.
  intros Hso s c s' H Hne. unfold read_ctx in H. fwd H R. fwd H R1. ret H.
  back R1 (dict_only _ _ _ (set_only so Hso)). bks. unfold w_ctx. cbn [c_req c_res]. assemble.
Qed.
Lemma ctx_writes strict : writes write_ctx (w_ctx strict) ctx_ok.
Proof.
  intros [a b] [Ha Hb]. cbn [c_req c_res] in *. unfold write_ctx, w_ctx. cbn [c_req c_res]. apply wcat_parts.
  constructor; [apply string_dict_writes, Ha|]. constructor; [apply (set_dict_writes strict), Hb|constructor].
Qed.

(** ** REST messages *)
Lemma media_reads strict o bs s : w_optional (w_string strict) o bs ->
  exists p t, read_boolean (bs ++ s) = Ok (p, t) /\
    (if p then read_string else rret []) t = Ok (match o with Some x => x | None => [] end, s).
Proof.
  intros H. destruct o as [x|]; cbn [w_optional] in H.
  - opened H. exists true, (a0 ++ s). rewrite (bool_reads _ _ _ I P). split; [reflexivity|]. exact (string_reads strict _ _ _ I P0).
  - exists false, s. rewrite (bool_reads _ _ _ I H). split; reflexivity.
Qed.
Lemma media_only s p t m s' : read_boolean s = Ok (p, t) -> (if p then read_string else rret []) t = Ok (m, s') ->
  s' <> [] -> exists o bs, m = match o with Some x => x | None => [] end /\ s = bs ++ s' /\ w_optional (w_string false) o bs.
Proof.
  intros R H Hne. destruct p.
  - bks. exists (Some m). enough (E : exists bs, x0 ++ x ++ s' = bs ++ s' /\ parts [w_bool true; w_string false m] bs)
      by (destruct E as (bs & E & F); exists bs; repeat split; [exact E|exact F]).
    assemble.
  - ret H. bks. exists None. eexists. repeat split. assumption.
Qed.
Lemma rest_request_reads strict : reads_upto received_request read_rest_request (w_rest_request strict) (fun _ => True).
Proof.
  intros [t om u p ps hs md ct tk oh co cc] bs s _ (m & h & o & Em & Eh & Eo & _ & H).
  cbn [rq_task rq_method rq_uri rq_path rq_params rq_headers rq_media rq_content rq_token rq_http] in *. subst om oh md.
  opened H. unfold read_rest_request, read_transport_request.
  exists (mkReq t (Some m) u p ps hs (match o with Some x => x | None => [] end) ct tk (Some h) [] false).
  split; [|repeat split].
  rewrite (rbind_step _ _ _ _ _ _ _ (task_reads strict _ _ _ I P)). rd. rd. rd. rd. rd.
  match goal with P : w_optional _ _ ?a |- context [?a ++ ?r] => destruct (media_reads strict o a r P) as (pp & tt' & R1 & R2) end.
  rewrite (rbind_step _ _ _ _ _ _ _ R1), (rbind_step _ _ _ _ _ _ _ R2).
  match goal with P : w_bytes _ _ ?a |- context [?a ++ ?r] => pose proof (sized_reads strict _ _ r I P) as Rs end.
  apply rbind_ok in Rs as (k & s1 & K & L). rewrite (rbind_step _ _ _ _ _ _ _ K), (rbind_step _ _ _ _ _ _ _ L).
  rd. rd. reflexivity.
Qed.
Lemma rest_request_only : reads_only read_rest_request (w_rest_request false).
Proof.
  intros s r s' H Hne. unfold read_rest_request, read_transport_request in H.
  fwd H Rt. fwd H R1. fwd H R2. fwd H R3. fwd H R4. fwd H R5. apply rbind_ok in H as (p & s1 & Rp & H).
  apply rbind_ok in H as (md & s2 & Rm & H). apply rbind_ok in H as (k & s3 & Rk & H).
  apply rbind_ok in H as (ct & s4 & Rc & H). fwd H R6. fwd H R7. ret H. bks.
  pose proof (rbind_step _ _ _ (fun n => read_bytes n) _ _ _ Rk) as E. cbv beta in E. rewrite Rc in E.
  apply sized_only in E as (b & -> & F); [ne|]. clear Rk Rc.
  destruct (media_only _ _ _ _ _ Rp Rm) as (o & bm & -> & -> & Fm); [ne|]. clear Rp Rm. bks. back Rt task_only.
  change N_METHODS with 9 in *. change N_HTTP with 2 in *.
  match goal with R7 : w_enum false 2 ?h _, R1 : w_enum false 9 ?m _ |- exists bs, ?l = bs ++ ?t /\ w_rest_request _ ?r _ =>
    enough (E : exists bs, l = bs ++ t /\ parts [w_task false (rq_task r); w_enum false 9 m; w_string false (rq_uri r);
      w_string false (rq_path r); w_dict false (w_string false) (rq_params r); w_dict false (w_strings false) (rq_headers r);
      w_optional (w_string false) o; w_bytes false (rq_content r); w_string false (rq_token r); w_enum false 2 h] bs)
      by (destruct E as (bs & E & Hp); exists bs; split; [exact E|]; exists m, h, o; exact (conj eq_refl (conj eq_refl (conj eq_refl (conj I Hp))))) end.
  cbn [rq_task rq_method rq_uri rq_path rq_params rq_headers rq_media rq_content rq_token rq_http]. assemble.
Qed.
Lemma parts_glue (P Q R : bytes -> Prop) : (forall a b, P a -> Q b -> R (a ++ b)) ->
  forall l1 l2 bs, parts (l1 ++ P :: Q :: l2) bs -> parts (l1 ++ R :: l2) bs.
Proof.
  intros G. induction l1 as [|S l1 IH]; intros l2 bs H; cbn [app] in *.
  - apply parts_cons_inv in H as (a & r & -> & Ha & H). apply parts_cons_inv in H as (b & c & -> & Hb & H).
    rewrite app_assoc. constructor; [apply G|]; assumption.
  - apply parts_cons_inv in H as (a & r & -> & Ha & H). constructor; auto.
Qed.
Lemma glue_bytes strict b x y : zlen b <= 2 ^ 31 -> w_vint strict (zlen b) x -> exactly b y -> w_bytes strict b (x ++ y).
Proof.
  intros Hb Hx Hy. split; [exact Hb|]. constructor; [exact Hx|]. rewrite <- (app_nil_r y).
  constructor; [exact Hy|constructor].
Qed.
Lemma size_part strict (b : bytes) : zlen b <= 2 ^ 31 -> exists x, write_v_int (zlen b) = Ok x /\ w_vint strict (zlen b) x.
Proof. intros H. apply v_int_writes. pose proof (zlen_nonneg _ b). lia. Qed.
Lemma rest_request_writes strict : writes write_rest_request (w_rest_request strict) rest_request_ok.
Proof.
  intros [t om u p ps hs md ct tk oh co cc] (Ht & (m & Em & Hm) & F & Hp & Hh & Hc & (h & Eh & Hv)).
  cbn [rq_task rq_method rq_uri rq_path rq_params rq_headers rq_media rq_content rq_token rq_http] in *. subst om oh.
  apply Forall_cons_iff in F as [T1 F]. apply Forall_cons_iff in F as [T2 F]. apply Forall_cons_iff in F as [T3 F].
  apply Forall_cons_iff in F as [T4 _].
  unfold write_rest_request, w_rest_request.
  cbn [rq_task rq_method rq_uri rq_path rq_params rq_headers rq_media rq_content rq_token rq_http write_opt_enum].
  set (o := match md with [] => None | _ => Some md end).
  edestruct (wcat_parts [write_transport_request t; write_enum m; write_string u; write_string p;
      write_string_to_string_dict ps; write_string_to_string_array_dict hs; write_boolean (0 <? zlen md);
      match md with [] => Ok [] | _ => write_string md end; write_v_int (zlen ct); Ok ct; write_string tk; write_enum h]
    [w_task strict t; w_enum strict 9 m; w_string strict u; w_string strict p; w_dict strict (w_string strict) ps;
     w_dict strict (w_strings strict) hs; w_bool (0 <? zlen md);
     match md with [] => exactly [] | _ => w_string strict md end;
     w_vint strict (zlen ct); exactly ct; w_string strict tk; w_enum strict 2 h]) as (bs & W & Hbs).
  - constructor; [apply task_writes, Ht|]. constructor; [apply enum_writes; [lia|exact Hm]|].
    constructor; [apply string_writes, T1|]. constructor; [apply string_writes, T2|].
    constructor; [apply string_dict_writes, Hp|]. constructor; [apply strings_dict_writes, Hh|].
    constructor; [apply bool_writes; exact I|].
    constructor; [destruct md; [exists []; split; reflexivity|apply string_writes, T3]|].
    constructor; [apply size_part, Hc|]. constructor; [exists ct; split; reflexivity|].
    constructor; [apply string_writes, T4|]. constructor; [apply enum_writes; [lia|exact Hv]|constructor].
  - exists bs. split; [exact W|]. exists m, h, o. split; [reflexivity|]. split; [reflexivity|].
    split; [destruct md; reflexivity|]. split; [unfold canonical, o; destruct strict, md; try exact I; discriminate|].
    clear W. apply (parts_glue _ _ (w_bytes strict ct) (fun a b => glue_bytes strict ct a b Hc) [_;_;_;_;_;_;_;_]) in Hbs.
    apply (parts_glue _ _ (w_optional (w_string strict) o)) with (l1 := [_;_;_;_;_;_]) in Hbs; [exact Hbs|].
    intros a b Ha Hb. unfold o. destruct md; cbn [w_optional].
    + unfold exactly in Hb. subst b. rewrite app_nil_r. exact Ha.
    + constructor; [exact Ha|]. apply parts_one. exact Hb.
Qed.

Lemma deduped_sorted (l s : list pystr) : NoDup s -> Permutation l s -> deduped l l.
Proof. intros Hn Hp. apply deduped_nodup. apply (Permutation_NoDup (Permutation_sym Hp) Hn). Qed.
Lemma rest_response_reads strict so : set_order_ok so ->
  reads_upto same_response (read_rest_response so) (w_rest_response strict) (fun _ => True).
Proof.
  intros Hso [ost ct ty hs cs cc] bs s _ (st & Est & H).
  cbn [rp_status rp_content rp_ctype rp_headers rp_consumed rp_content_consumed] in *. subst ost. opened H.
  match goal with P : w_set _ cs ?a |- _ => destruct P as (l & d & Hd & Hp & _ & P); apply deduped_set in Hd end.
  exists (mkResp (Some st) ct ty hs (so (set_of_list l)) cc). split.
  - unfold read_rest_response. rd.
    match goal with P : w_bytes _ _ ?a |- context [?a ++ ?r] => pose proof (sized_reads strict _ _ r I P) as Rs end.
    apply rbind_ok in Rs as (k & s1 & K & L). rewrite (rbind_step _ _ _ _ _ _ _ K), (rbind_step _ _ _ _ _ _ _ L).
    rd. rd. rd. rd. reflexivity.
  - repeat split. cbn [rp_consumed]. rewrite <- Hp, <- Hd. symmetry. apply Hso.
Qed.
Lemma rest_response_only so : set_order_ok so -> reads_only (read_rest_response so) (w_rest_response false).
Proof.
  intros Hso s r s' H Hne. unfold read_rest_response in H.
  fwd H R1. apply rbind_ok in H as (k & s3 & Rk & H). apply rbind_ok in H as (ct & s4 & Rc & H).
  fwd H R2. fwd H R3. fwd H R4. fwd H R5. ret H. bks.
  pose proof (rbind_step _ _ _ (fun n => read_bytes n) _ _ _ Rk) as E. cbv beta in E. rewrite Rc in E.
  apply sized_only in E as (b & -> & F); [ne|]. clear Rk Rc. bks. change N_STATUS with 47 in *.
  match goal with L : w_strings false ?l ?x |- _ => assert (w_set false (so (set_of_list l)) x) by
    (exists l, (set_of_list l); split; [apply deduped_set; reflexivity|]; split; [symmetry; apply Hso|]; split; [exact I|exact L]) end.
  match goal with R1 : w_enum false 47 ?m _ |- exists bs, ?l = bs ++ ?t /\ w_rest_response _ ?r _ =>
    enough (E : exists bs, l = bs ++ t /\ parts [w_enum false 47 m; w_bytes false (rp_content r); w_string false (rp_ctype r);
         w_dict false (w_strings false) (rp_headers r); w_set false (rp_consumed r);
         w_bool (rp_content_consumed r)] bs)
      by (destruct E as (bs & E & Hp); exists bs; split; [exact E|]; exists m; exact (conj eq_refl Hp)) end.
  cbn [rp_status rp_content rp_ctype rp_headers rp_consumed rp_content_consumed]. assemble.
Qed.
Lemma sorted_perm l : Permutation (py_sorted l) l.
Proof. exact (py_sorted_perm l). Qed.
Lemma rest_response_writes strict : writes write_rest_response (w_rest_response strict) rest_response_ok.
Proof.
  intros [ost ct ty hs cs cc] ((st & Est & Hst) & Hc & Ht & Hh & Hp & Hn).
  cbn [rp_status rp_content rp_ctype rp_headers rp_consumed rp_content_consumed] in *. subst ost.
  unfold write_rest_response, w_rest_response. cbn [rp_status rp_content rp_ctype rp_headers rp_consumed rp_content_consumed write_opt_enum].
  destruct (wcat_parts [write_enum st; write_v_int (zlen ct); Ok ct; write_string ty; write_string_to_string_array_dict hs;
      write_string_array (py_sorted cs); write_boolean cc]
    [w_enum strict 47 st; w_vint strict (zlen ct); exactly ct; w_string strict ty; w_dict strict (w_strings strict) hs;
     w_set strict cs; w_bool cc]) as (bs & W & Hbs).
  - constructor; [apply enum_writes; [lia|exact Hst]|]. constructor; [apply size_part, Hc|].
    constructor; [exists ct; split; reflexivity|]. constructor; [apply string_writes, Ht|].
    constructor; [apply strings_dict_writes, Hh|]. constructor; [|constructor; [apply bool_writes; exact I|constructor]].
    destruct (strings_writes strict (py_sorted cs)) as (b & Wb & Fb).
    { apply (texts_ok_perm cs); [symmetry; apply sorted_perm|exact Hp]. }
    exists b. split; [exact Wb|]. exists (py_sorted cs), (py_sorted cs).
    split; [apply (deduped_sorted _ cs Hn), sorted_perm|]. split; [apply sorted_perm|].
    split; [destruct strict; [reflexivity|exact I]|exact Fb].
  - exists bs. split; [exact W|]. exists st. split; [reflexivity|].
    apply (parts_glue _ _ (w_bytes strict ct) (fun a b => glue_bytes strict ct a b Hc) [_]) in Hbs. exact Hbs.
Qed.
Lemma exec_response_reads strict : reads read_exec_response (w_exec_response strict) (fun _ => True).
Proof.
  intros [ost ty ct hs cs cc] bs s _ (st & Est & H).
  cbn [ex_status ex_content ex_ctype ex_headers ex_consumed ex_content_consumed] in *. subst ost. opened H.
  unfold read_exec_response. rd. rd.
  match goal with P : w_bytes _ _ ?a |- context [?a ++ ?r] => pose proof (sized_reads strict _ _ r I P) as Rs end.
  apply rbind_ok in Rs as (k & s1 & K & L). rewrite (rbind_step _ _ _ _ _ _ _ K), (rbind_step _ _ _ _ _ _ _ L).
  rd. rd. rd. reflexivity.
Qed.
Lemma exec_response_only : reads_only read_exec_response (w_exec_response false).
Proof.
  intros s r s' H Hne. unfold read_exec_response in H.
  fwd H R1. fwd H R2. apply rbind_ok in H as (k & s3 & Rk & H). apply rbind_ok in H as (ct & s4 & Rc & H).
  fwd H R3. fwd H R4. fwd H R5. ret H. bks.
  pose proof (rbind_step _ _ _ (fun n => read_bytes n) _ _ _ Rk) as E. cbv beta in E. rewrite Rc in E.
  apply sized_only in E as (b & -> & F); [ne|]. clear Rk Rc. bks. change N_STATUS with 47 in *.
  match goal with R1 : w_enum false 47 ?m _ |- exists bs, ?l = bs ++ ?t /\ w_exec_response _ ?r _ =>
    enough (E : exists bs, l = bs ++ t /\ parts [w_enum false 47 m; w_string false (ex_ctype r); w_bytes false (ex_content r);
         w_dict false (w_strings false) (ex_headers r); w_strings false (ex_consumed r);
         w_bool (ex_content_consumed r)] bs)
      by (destruct E as (bs & E & Hp); exists bs; split; [exact E|]; exists m; exact (conj eq_refl Hp)) end.
  cbn [ex_status ex_content ex_ctype ex_headers ex_consumed ex_content_consumed]. assemble.
Qed.
Lemma exec_response_writes strict : writes write_exec_response (w_exec_response strict) exec_response_ok.
Proof.
  intros [ost ty ct hs cs cc] ((st & Est & Hst) & Ht & Hc & Hh & Hp).
  cbn [ex_status ex_content ex_ctype ex_headers ex_consumed ex_content_consumed] in *. subst ost.
  unfold write_exec_response, w_exec_response. cbn [ex_status ex_content ex_ctype ex_headers ex_consumed ex_content_consumed write_opt_enum].
  destruct (wcat_parts [write_enum st; write_string ty; write_v_int (zlen ct); Ok ct; write_string_to_string_array_dict hs;
      write_string_array cs; write_boolean cc]
    [w_enum strict 47 st; w_string strict ty; w_vint strict (zlen ct); exactly ct; w_dict strict (w_strings strict) hs;
     w_strings strict cs; w_bool cc]) as (bs & W & Hbs).
  - constructor; [apply enum_writes; [lia|exact Hst]|]. constructor; [apply string_writes, Ht|]. constructor; [apply size_part, Hc|].
    constructor; [exists ct; split; reflexivity|].
    constructor; [apply strings_dict_writes, Hh|]. constructor; [apply strings_writes, Hp|].
    constructor; [apply bool_writes; exact I|constructor].
  - exists bs. split; [exact W|]. exists st. split; [reflexivity|].
    apply (parts_glue _ _ (w_bytes strict ct) (fun a b => glue_bytes strict ct a b Hc) [_; _]) in Hbs. exact Hbs.
Qed.

(** ** Settings and parsers *)
Lemma bsv_reads strict : reads read_bsv (w_byte_size strict) (fun _ => True).
Proof. intros [n u] bs s _ H. unfold w_byte_size in H. cbn [bs_size bs_unit] in H. opened H. unfold read_bsv. rd. rd. reflexivity. Qed.
Lemma bsv_only : reads_only read_bsv (w_byte_size false).
Proof. intros s v s' H Hne. unfold read_bsv in H. fwds H. ret H. bks. unfold w_byte_size. cbn [bs_size bs_unit]. assemble. Qed.
Lemma bsv_writes strict : writes write_bsv (w_byte_size strict) bsv_ok.
Proof.
  intros [n u] [Hn Hu]. unfold byte_unit in Hu. cbn in Hn, Hu. unfold write_bsv, w_byte_size. cbn [bs_size bs_unit]. apply wcat_parts.
  constructor; [apply z_long_writes, Hn|]. constructor; [apply enum_writes; [lia|exact Hu]|constructor].
Qed.
Lemma time_reads strict : reads read_time_value (w_time strict) (fun _ => True).
Proof. intros [n u] bs s _ H. unfold w_time in H. cbn [tv_dur tv_unit] in H. opened H. unfold read_time_value. rd. rd. reflexivity. Qed.
Lemma time_only : reads_only read_time_value (w_time false).
Proof. intros s v s' H Hne. unfold read_time_value in H. fwds H. ret H. bks. unfold w_time. cbn [tv_dur tv_unit]. assemble. Qed.
Lemma time_writes strict : writes write_time_value (w_time strict) tv_ok.
Proof.
  intros [n u] [Hn Hu]. unfold time_unit in Hu. cbn in Hn, Hu. unfold write_time_value, w_time. cbn [tv_dur tv_unit]. apply wcat_parts.
  constructor; [apply z_long_writes, Hn|]. constructor; [|constructor].
  destruct (enum_writes strict 7 ltac:(lia) u Hu) as (b & W & F). exists b. split; [|exact F].
  unfold write_enum, write_v_int in W. destruct (Z.ltb_spec u 128); [exact W|lia].
Qed.
Lemma integer_parser_reads strict : reads read_integer_parser (w_int_parser strict 4) (fun _ => True).
Proof.
  intros [a b k f] bs s _ H. unfold w_int_parser in H. cbn [ip_min ip_max ip_key ip_filtered] in H. opened H.
  unfold read_integer_parser. rd. rd. rd. rd. reflexivity.
Qed.
Lemma integer_parser_only : reads_only read_integer_parser (w_int_parser false 4).
Proof.
  intros s v s' H Hne. unfold read_integer_parser in H. fwds H. ret H. bks. unfold w_int_parser.
  cbn [ip_min ip_max ip_key ip_filtered]. assemble.
Qed.
Lemma integer_parser_writes strict : writes write_integer_parser (w_int_parser strict 4) (int_parser_ok 31).
Proof.
  intros [a b k f] (Ha & Hb & Hk). cbn in Ha, Hb, Hk. unfold write_integer_parser, w_int_parser. cbn [ip_min ip_max ip_key ip_filtered].
  apply wcat_parts. constructor; [apply int_writes, Ha|]. constructor; [apply int_writes, Hb|].
  constructor; [apply string_writes, Hk|]. constructor; [apply bool_writes; exact I|constructor].
Qed.
Lemma long_parser_reads strict : reads read_long_parser (w_int_parser strict 8) (fun _ => True).
Proof.
  intros [a b k f] bs s _ H. unfold w_int_parser in H. cbn [ip_min ip_max ip_key ip_filtered] in H. opened H.
  unfold read_long_parser. rd. rd. rd. rd. reflexivity.
Qed.
Lemma long_parser_only : reads_only read_long_parser (w_int_parser false 8).
Proof.
  intros s v s' H Hne. unfold read_long_parser in H. fwds H. ret H. bks. unfold w_int_parser.
  cbn [ip_min ip_max ip_key ip_filtered]. assemble.
Qed.
Lemma long_parser_writes strict : writes write_long_parser (w_int_parser strict 8) (int_parser_ok 63).
Proof.
  intros [a b k f] (Ha & Hb & Hk). cbn in Ha, Hb, Hk. unfold write_long_parser, w_int_parser. cbn [ip_min ip_max ip_key ip_filtered].
  apply wcat_parts. constructor; [apply long_writes, Ha|]. constructor; [apply long_writes, Hb|].
  constructor; [apply string_writes, Hk|]. constructor; [apply bool_writes; exact I|constructor].
Qed.
Lemma bs_parser_reads strict : reads read_bs_parser (w_bs_parser strict) (fun _ => True).
Proof.
  intros [a b k] bs s _ H. unfold w_bs_parser in H. cbn [bp_min bp_max bp_key] in H. opened H. unfold read_bs_parser.
  rewrite (rbind_step _ _ _ _ _ _ _ (bsv_reads strict _ _ _ I P)), (rbind_step _ _ _ _ _ _ _ (bsv_reads strict _ _ _ I P0)).
  rd. reflexivity.
Qed.
Lemma bs_parser_only : reads_only read_bs_parser (w_bs_parser false).
Proof.
  intros s v s' H Hne. unfold read_bs_parser in H. fwd H R1. fwd H R2. fwd H R3. ret H. bks. back R2 bsv_only. back R1 bsv_only.
  unfold w_bs_parser. cbn [bp_min bp_max bp_key]. assemble.
Qed.
Lemma bs_parser_writes strict : writes write_bs_parser (w_bs_parser strict) bs_parser_ok.
Proof.
  intros [a b k] (Ha & Hb & Hk). cbn [bp_min bp_max bp_key] in *. unfold write_bs_parser, w_bs_parser. cbn [bp_min bp_max bp_key].
  apply wcat_parts. constructor; [apply bsv_writes, Ha|]. constructor; [apply bsv_writes, Hb|].
  constructor; [apply string_writes, Hk|constructor].
Qed.
Lemma tv_parser_reads strict : reads_upto same_tv_parser read_tv_parser (w_tv_parser strict) (fun _ => True).
Proof.
  intros [a b k f] bs s _ (h & H & _ & Hf). cbn [tp_min tp_max tp_key tp_filtered] in *. opened H.
  unfold read_tv_parser. exists (mkTP a (if h then b else TV_MINUS_ONE) k f). split.
  - rd. rd. rewrite (rbind_step _ _ _ _ _ _ _ (time_reads strict _ _ _ I P1)). destruct h.
    + rewrite (rbind_step _ _ _ _ _ _ _ (time_reads strict _ _ _ I P2)). rd. reflexivity.
    + unfold exactly in P2. subst. cbn [app]. rewrite (rbind_step _ _ _ _ _ TV_MINUS_ONE _ eq_refl). rd. reflexivity.
  - repeat split. cbn [tp_max]. destruct h; [left; reflexivity|]. right. split; [apply Hf; reflexivity|reflexivity].
Qed.
Lemma tv_parser_only : reads_only read_tv_parser (w_tv_parser false).
Proof.
  intros s v s' H Hne. unfold read_tv_parser in H. apply rbind_ok in H as (h & s1 & R1 & H). fwd H R2. fwd H R3.
  apply rbind_ok in H as (hi & s2 & R4 & H). fwd H R5. ret H. bks. unfold w_tv_parser. cbn [tp_min tp_max tp_key tp_filtered].
  destruct h.
  - back R4 time_only. bks. back R3 time_only. bks.
    match goal with |- exists bs, ?l = bs ++ ?t /\ (exists b, parts [_; w_string _ ?k; w_time _ ?lo; _; w_bool ?f] _ /\ _) =>
      enough (E : exists bs, l = bs ++ t /\ parts [w_bool true; w_string false k; w_time false lo; w_time false hi; w_bool f] bs)
        by (destruct E as (bs & E & Hp); exists bs; split; [exact E|]; exists true; split; [exact Hp|]; split; [intros _; exact I|discriminate]) end.
    assemble.
  - apply Ok_inj, pair_equal_spec in R4 as [<- E4]. subst. back R3 time_only. bks.
    match goal with |- exists bs, ?l = bs ++ ?t /\ (exists b, parts [_; w_string _ ?k; w_time _ ?lo; _; w_bool ?f] _ /\ _) =>
      enough (E : exists bs, l = bs ++ t /\ parts [w_bool false; w_string false k; w_time false lo; exactly []; w_bool f] bs)
        by (destruct E as (bs & E & Hp); exists bs; split; [exact E|]; exists false; split; [exact Hp|]; split; [discriminate|reflexivity]) end.
    do 3 (apply asm_cons; [assumption|]).
    match goal with |- exists bs, ?l = _ /\ _ => change l with ([] ++ l) end. apply asm_cons; [reflexivity|]. assemble.
Qed.
Lemma tv_parser_writes strict : writes write_tv_parser (w_tv_parser strict) tv_parser_ok.
Proof.
  intros [a b k f] (Ha & Hb & Hk). cbn [tp_min tp_max tp_key tp_filtered] in *. unfold write_tv_parser, w_tv_parser.
  cbn [tp_min tp_max tp_key tp_filtered]. cbv zeta. set (h := 0 <=? tv_dur b).
  destruct (wcat_parts [write_boolean h; write_string k; write_time_value a; if h then write_time_value b else Ok []; write_boolean f]
    [w_bool h; w_string strict k; w_time strict a; (if h then w_time strict b else exactly []); w_bool f]) as (bs & W & F).
  - constructor; [apply bool_writes; exact I|]. constructor; [apply string_writes, Hk|]. constructor; [apply time_writes, Ha|].
    constructor; [destruct h; [apply time_writes, Hb|exists []; split; reflexivity]|].
    constructor; [apply bool_writes; exact I|constructor].
  - exists bs. split; [exact W|]. exists h. split; [exact F|]. unfold h, canonical. split; destruct strict; try exact (fun _ => I); lia.
Qed.
Lemma validator_reads strict : reads read_validator (w_validator strict) (fun _ => True).
Proof. intros [r m] bs s _ H. unfold w_validator in H. cbn [rv_regex rv_matching] in H. opened H. unfold read_validator. rd. rd. reflexivity. Qed.
Lemma validator_only : reads_only read_validator (w_validator false).
Proof. intros s v s' H Hne. unfold read_validator in H. fwds H. ret H. bks. unfold w_validator. cbn [rv_regex rv_matching]. assemble. Qed.
Lemma validator_writes strict : writes write_validator (w_validator strict) (fun v => text_ok (rv_regex v)).
Proof.
  intros [r m] Hr. cbn [rv_regex] in Hr. unfold write_validator, w_validator. cbn [rv_regex rv_matching]. apply wcat_parts.
  constructor; [apply string_writes, Hr|]. constructor; [apply bool_writes; exact I|constructor].
Qed.

(** settings are read by a loop updating a dict in place *)
Definition settings_reader f : reader (sdict pyval) := fun s =>
  match read_settings f [] s with (Ok s', d) => Ok (d, s') | (Raise e, _) => Raise e end.
Lemma settings_loop_dict f n : forall d s,
  match read_settings_loop f n d s with (Ok s', d') => Ok (d', s') | (Raise e, _) => Raise e end =
  (l <~ read_n (read_pair (read_generic_value f)) n ;;
   rret (fold_left (fun d kv => dict_set streqb (fst kv) (snd kv) d) l d)) s.
Proof.
  induction n as [|n IH]; intros d s; cbn [read_settings_loop read_n]; [reflexivity|].
  change (key <~ read_string ;; v <~ read_generic_value f ;; rret (key, v)) with (read_pair (read_generic_value f)).
  destruct (read_pair (read_generic_value f) s) as [[[k v] s1]|e] eqn:E.
  - rewrite IH. unfold rbind at 2 3. rewrite E. unfold rbind.
    destruct (read_n _ n s1) as [[l s2]|e]; reflexivity.
  - unfold rbind. rewrite E. reflexivity.
Qed.
Lemma settings_as_dict f s : settings_reader f s = read_dict (read_generic_value f) s.
Proof.
  unfold settings_reader, read_settings, read_dict. unfold rbind at 1. destruct (read_v_int s) as [[n s1]|e]; [|reflexivity].
  rewrite settings_loop_dict. destruct (Z.eqb_spec n 0) as [->|]; reflexivity.
Qed.
(** values nested less deeply than the recursion limit *)
Definition shallow (n : nat) (d : sdict pyval) : Prop := Forall (fun kv => nested (snd kv) n) d.
Definition w_value (strict : bool) (n : nat) : fmt pyval := fun v bs => w_generic strict v bs /\ nested v n.
Lemma settings_reads strict n f : (n < f)%nat ->
  reads (settings_reader f) (w_dict strict (w_value strict n)) (fun _ => True).
Proof.
  intros Hf d bs s _ H. rewrite settings_as_dict. refine (dict_reads strict _ _ _ _ d bs s I H). clear d bs s H.
  intros v bs s _ [H Hn]. exact (generic_reads strict f n Hf v bs s Hn H).
Qed.
Lemma settings_only f : reads_only (settings_reader f) (w_settings false).
Proof.
  intros s d s' H Hne. rewrite settings_as_dict in H. exact (dict_only _ _ _ (generic_only f) s d s' H Hne).
Qed.
Lemma settings_writes strict : writes write_settings (w_settings strict) (dict_ok generic_ok).
Proof. apply (dict_writes strict), generic_writes. Qed.

(** ** Protocol buffers *)
Lemma varint_writes n : 0 <= n -> varint n (pb_varint n).
Proof.
  intros Hn. assert (G : forall m n, 0 <= n < 128 ^ Z.of_nat m -> varint n (pb_varint n)).
  { clear n Hn. induction m as [|m IH]; intros n Hn.
    - assert (n = 0) as -> by (change (128 ^ Z.of_nat 0) with 1 in Hn; lia). split; [|intros _; reflexivity].
      change (pb_varint 0) with [z2b 0]. change 0 with (b2z (z2b 0)) at 2. constructor. reflexivity.
    - rewrite pb_varint_unfold by lia. destruct (Z.ltb_spec n 128) as [Hs|Hs].
      + split; [|intros _; reflexivity]. replace n with (b2z (z2b n)) at 2 by (rewrite b2z_z2b; lia). constructor. rewrite b2z_z2b; lia.
      + rewrite Nat2Z.inj_succ, Z.pow_succ_r in Hn by lia. destruct (IH (n / 128)) as [L S]; [lia|]. split.
        * replace n with (b2z (z2b (n mod 128 + 128)) - 128 + 128 * (n / 128)) at 3 by (rewrite b2z_z2b; lia).
          constructor; [rewrite b2z_z2b; lia|exact L].
        * intros E. assert (Hne : pb_varint (n / 128) <> []) by (apply pb_varint_nonempty; lia).
          destruct (pb_varint (n / 128)) as [|c t] eqn:Ec; [contradiction|].
          change (last (z2b (n mod 128 + 128) :: c :: t) x00) with (last (c :: t) x00) in E.
          specialize (S E). assert (t = []) as -> by (destruct t; [reflexivity|unfold zlen in S; cbn [length] in S; lia]).
          cbn [last] in E. subst c. rewrite pb_varint_unfold in Ec by lia.
          destruct (Z.ltb_spec (n / 128) 128); [|destruct (pb_varint (n / 128 / 128)) eqn:Ex;
            [apply pb_varint_nonempty in Ex; [contradiction|lia]|discriminate]].
          injection Ec as Ec. apply (f_equal b2z) in Ec. rewrite b2z_z2b in Ec by lia. change (b2z x00) with 0 in Ec. lia. }
  apply (G (Z.to_nat n)). split; [exact Hn|]. rewrite Z2Nat.id by exact Hn. apply Z.pow_gt_lin_r; lia.
Qed.
Lemma field_writes num b : 0 <= num -> pb_field num b (pb_bytes_field num b).
Proof.
  intros Hn. unfold pb_field, pb_bytes_field. constructor; [apply varint_writes; lia|].
  constructor; [apply varint_writes, zlen_nonneg|apply parts_one; reflexivity].
Qed.
Lemma text_writes num x e : 0 <= num -> utf8_encode x = Ok e -> pb_text num x (pb_bytes_field num e).
Proof. intros Hn H. exists e. split; [apply is_utf8_encode, H|apply field_writes, Hn]. Qed.
Lemma identity_writes u e : utf8_encode u = Ok e -> pb_identity u (pb_bytes_field 1 (ser_identity e)).
Proof.
  intros H. exists (ser_identity e). split; [apply field_writes; lia|]. unfold ser_identity.
  destruct (Z.ltb_spec 0 (zlen e)) as [Hl|Hl].
  - right. split; [|apply text_writes; [lia|exact H]]. intros ->. cbn in H. apply Ok_inj in H. subst e. discriminate Hl.
  - left. split; [apply (utf8_encode_empty _ _ H), Hl|reflexivity].
Qed.
Lemma ext_request_writes u ty bs : 0 <= ty < 2 ^ 31 -> ser_ext_request (mkER (Some u) ty) = Ok bs -> pb_ext_request u ty bs.
Proof.
  intros Ht H. unfold ser_ext_request in H. cbn [er_identity er_type] in H.
  apply bind_ok in H as (ib & Hi & H). apply bind_ok in Hi as (e & He & Hi). apply Ok_inj in Hi, H. subst.
  constructor; [apply identity_writes, He|]. apply parts_one. destruct (ty =? 0); [reflexivity|].
  unfold pb_varint_field. rewrite Z.mod_small by lia. constructor; [apply varint_writes; lia|apply parts_one, varint_writes; lia].
Qed.
Lemma strings_parts num l bs : 0 <= num -> ser_strings num l = Ok bs -> parts (map (pb_text num) l) bs.
Proof.
  intros Hn. unfold ser_strings. revert bs. induction l as [|x l IH]; intros bs H; cbn [map] in H |- *.
  - cbn in H. apply Ok_inj in H. subst. constructor.
  - cbn [wcat] in H. apply bind_ok in H as (a & Ha & H). apply bind_ok in H as (b & Hb & H). apply Ok_inj in H. subst.
    apply bind_ok in Ha as (e & He & Ha). apply Ok_inj in Ha. subst. constructor; [apply text_writes; assumption|apply IH, Hb].
Qed.
Lemma parts_app l1 l2 a b : parts l1 a -> parts l2 b -> parts (l1 ++ l2) (a ++ b).
Proof. induction 1; intros H2; [exact H2|]. rewrite <- app_assoc. constructor; auto. Qed.
Lemma rest_actions_writes u acts dep bs : ser_rest_actions (mkRRA (Some u) acts dep) = Ok bs -> pb_rest_actions u acts dep bs.
Proof.
  intros H. unfold ser_rest_actions in H. cbn [rra_identity rra_actions rra_deprecated] in H.
  apply bind_ok in H as (ib & Hi & H). apply bind_ok in Hi as (e & He & Hi). apply bind_ok in H as (a & Ha & H).
  apply bind_ok in H as (d & Hd & H). apply Ok_inj in Hi, H. subst.
  constructor; [apply identity_writes, He|]. apply parts_app; apply strings_parts; try assumption; lia.
Qed.
(** the envelope around both *)
Lemma envelope_writes t b w bs : task_ok t -> wcat [write_transport_request t; wcat [write_v_int (zlen b); Ok b]] = w -> w = Ok bs ->
  zlen bs < 2 ^ 35 -> parts [w_task true t; w_vint true (zlen b); exactly b] bs.
Proof.
  intros Ht Hw -> Hl. apply wcat_cons_ok in Hw as (tb & r & Wt & Hw & ->). apply wcat_cons_ok in Hw as (vb & r' & Wv & Hw & ->).
  apply wcat_nil_ok in Hw as ->. apply wcat_cons_ok in Wv as (n & r & Wn & Wv & ->). apply wcat_cons_ok in Wv as (x & r' & Wx & Wv & ->).
  apply wcat_nil_ok in Wv as ->. apply Ok_inj in Wx. subst x.
  destruct (task_writes true t Ht) as (tb' & Wt' & Ft). unfold write_transport_request in Wt. rewrite Wt in Wt'. apply Ok_inj in Wt'. subst tb'.
  pose proof (zlen_nonneg _ b). pose proof (zlen_nonneg _ tb). pose proof (zlen_nonneg _ n).
  rewrite !zlen_app in Hl. change (zlen (@nil byte)) with 0 in Hl.
  destruct (v_int_writes true (zlen b)) as (n' & Wn' & Fn); [cbv beta; lia|]. rewrite Wn in Wn'. apply Ok_inj in Wn'. subst n'.
  constructor; [exact Ft|]. rewrite app_nil_r. constructor; [exact Fn|]. constructor; [reflexivity|constructor].
Qed.
Lemma etr_writes t u ty bs : task_ok t -> 0 <= ty < 2 ^ 31 -> write_ext_transport_request (mkETR t (mkER (Some u) ty)) = Ok bs ->
  zlen bs < 2 ^ 35 -> w_ext_transport_request t u ty bs.
Proof.
  intros Ht Hty W Hl. unfold write_ext_transport_request in W. cbn [etr_task etr_er] in W.
  destruct (ser_ext_request (mkER (Some u) ty)) as [b|e] eqn:Hb.
  - exists b. split; [apply ext_request_writes; assumption|]. eapply envelope_writes; [exact Ht|reflexivity|exact W|exact Hl].
  - apply wcat_cons_ok in W as (tb & r & _ & W & _). apply wcat_cons_ok in W as (vb & r' & W & _). discriminate.
Qed.
Lemma rrr_writes t u acts dep bs : task_ok t -> write_register_request (mkRRR t (mkRRA (Some u) acts dep)) = Ok bs ->
  zlen bs < 2 ^ 35 -> w_register_request t u acts dep bs.
Proof.
  intros Ht W Hl. unfold write_register_request in W. cbn [rrr_task rrr_rra] in W.
  destruct (ser_rest_actions (mkRRA (Some u) acts dep)) as [b|e] eqn:Hb.
  - exists b. split; [apply rest_actions_writes; assumption|]. eapply envelope_writes; [exact Ht|reflexivity|exact W|exact Hl].
  - apply wcat_cons_ok in W as (tb & r & _ & W & _). apply wcat_cons_ok in W as (vb & r' & W & _). discriminate.
Qed.
