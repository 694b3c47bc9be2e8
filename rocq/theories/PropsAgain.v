(** * Property C119: what is read and written again is the same bytes *)
From Coq Require Import String ZArith List Bool Lia Permutation.
From Coq Require Import Strings.Byte.
From Verif Require Import Py PyFacts Utf8Facts Stream StreamFacts StreamFacts2 Version Proto Frame Messages Rest Settings
  Spec SpecFacts MsgFacts SettingsFacts FrameFacts VersionFacts ProtoFacts Wire WireFacts WireFacts2 WireFacts3 WireFacts4 WireFacts5 PropsMessages PropsRest.
Import ListNotations.
Open Scope list_scope.
Open Scope Z_scope.

(** ** Specification *)
(** whatever stands for a value of [P] in the format (numbers in the shortest way, dicts and sets
    without repetitions), whatever follows: [r] reads it, and [w] writes what was read as those
    very bytes *)
Definition again {A} (r : reader A) (w : A -> res bytes) (F : bool -> fmt A) (P : A -> Prop) : Prop :=
  forall a bs s, P a -> F true a bs -> exists a', r (bs ++ s) = Ok (a', s) /\ w a' = Ok bs.
Definition every {A} : A -> Prop := fun _ => True.
(** at most one element; at most one in each set of response headers *)
Definition few {A} (l : list A) : Prop := zlen l <= 1.
Definition few_each (c : ctx) : Prop := Forall (fun kv => few (snd kv)) (c_res c).
(** not zero; versions below 2^28 *)
Definition nonzero (i : Z) : Prop := i <> 0.
Definition small_version (r : tcp_handshake_request) : Prop := forall v, tr_version r = Some v -> vid v < 2 ^ 28.
(** the messages with protocol buffers in them: a uniqueId, no negative request type, less than 2^31 bytes *)
Definition w_etr (strict : bool) : fmt ext_transport_request := fun r bs => exists u, er_identity (etr_er r) = Some u /\
  0 <= er_type (etr_er r) < 2 ^ 31 /\ zlen bs < 2 ^ 31 /\ w_ext_transport_request (etr_task r) u (er_type (etr_er r)) bs.
Definition w_rrr (strict : bool) : fmt register_request := fun r bs => exists u, rra_identity (rrr_rra r) = Some u /\
  zlen bs < 2 ^ 31 /\ w_register_request (rrr_task r) u (rra_actions (rrr_rra r)) (rra_deprecated (rrr_rra r)) bs.

(** ** Proofs *)
Definition rewrites {A} (w : A -> res bytes) (F : fmt A) (P : A -> Prop) : Prop := forall a bs, P a -> F a bs -> w a = Ok bs.
Lemma again_of (A : Type) (r : reader A) (w : A -> res bytes) (F : bool -> fmt A) (P Q : A -> Prop) : reads r (F true) Q -> (forall a, P a -> Q a) -> rewrites w (F true) P -> again r w F P.
Proof. intros R H W a bs s Pa Fa. exists a. split; [apply R; auto|apply W; assumption]. Qed.
Lemma vint_rewrites : rewrites write_v_int (w_vint true) every.
Proof. intros i bs _ H. eapply written; [apply (v_int_writes true)|apply vint_single|eapply vint_range, H|exact H]. Qed.
Lemma vlong_rewrites : rewrites write_v_long (w_vlong true) every.
Proof.
  intros i bs _ H. eapply written; [apply (v_long_writes true)|apply vlong_single| |exact H].
  destruct H as (L & Hi & _). apply leb128_range in L. lia.
Qed.
Lemma byte_rewrites : rewrites write_byte (w_signed 1) every. Proof. intros i bs _ H. apply byte_written, H. Qed.
Lemma int_rewrites : rewrites write_int (w_signed 4) every. Proof. intros i bs _ H. apply int_written, H. Qed.
Lemma long_rewrites : rewrites write_long (w_signed 8) every. Proof. intros i bs _ H. apply long_written, H. Qed.
Lemma bool_rewrites : rewrites write_boolean w_bool every.
Proof. intros b bs _ H. unfold w_bool in H. subst bs. destruct b; reflexivity. Qed.
Lemma bytes_rewrites : rewrites write_byte_array (w_bytes true) every.
Proof. intros b bs _ [_ H]. parts_in H. unfold exactly in *. subst. unfold write_byte_array. apply wcat_cons_eq; [apply vint_rewrites; [exact I|assumption]|]. apply wcat_cons_eq; reflexivity. Qed.
Lemma string_rewrites : rewrites write_string (w_string true) every.
Proof. intros x bs _ H. eapply written; [apply (string_writes true)|apply string_single|eapply string_text, H|exact H]. Qed.
Lemma strings_rewrites : rewrites write_string_array (w_strings true) every.
Proof. intros x bs _ H. eapply written; [apply (strings_writes true)|apply strings_single|eapply strings_texts, H|exact H]. Qed.
Lemma dict_rewrites : rewrites write_string_to_string_dict (w_dict true (w_string true)) every.
Proof.
  intros d bs _ H. eapply written; [apply (string_dict_writes true)|apply dict_single, string_single| |exact H].
  eapply dict_fits; [|exact H]. intros a b. apply string_text.
Qed.
Lemma dicts_rewrites : rewrites write_string_to_string_array_dict (w_dict true (w_strings true)) every.
Proof.
  intros d bs _ H. eapply written; [apply (strings_dict_writes true)|apply dict_single, strings_single| |exact H].
  eapply dict_fits; [|exact H]. intros a b. apply strings_texts.
Qed.
Lemma enum_rewrites n : rewrites write_enum (w_enum true n) every.
Proof. intros v bs _ [_ H]. apply vint_rewrites; [exact I|exact H]. Qed.
Lemma list_rewrites A (w : A -> res bytes) F P l bs : rewrites w F P -> Forall P l -> w_list true F l bs ->
  wcat (write_v_int (zlen l) :: map w l) = Ok bs.
Proof.
  intros W HP H. apply parts_cons_inv in H as (x & y & -> & Hx & Hy). apply wcat_cons_eq; [apply vint_rewrites; [exact I|exact Hx]|].
  clear Hx. revert y Hy. induction HP as [|a l Ha _ IH]; intros y Hy; [inversion Hy; reflexivity|].
  cbn [map] in *. apply parts_cons_inv in Hy as (b & c & -> & Hb & Hc). apply wcat_cons_eq; [apply W; assumption|apply IH, Hc].
Qed.
Ltac wr1 := solve [ reflexivity | unfold exactly in *; subst; reflexivity | eauto with again | eapply enum_rewrites; [exact I|eassumption] ].
Ltac wrs := repeat (first [ apply wcat_nil_eq | apply wcat_cons_eq; [wr1|] ]).
Create HintDb again.
Lemma yes A (a : A) : every a. Proof. exact I. Qed.
#[local] Hint Resolve yes byte_rewrites int_rewrites long_rewrites bool_rewrites bytes_rewrites string_rewrites strings_rewrites
  dict_rewrites dicts_rewrites vint_rewrites vlong_rewrites : again.
Lemma version_rewrites : rewrites write_version (w_version true) every.
Proof. intros v bs _ H. apply vint_rewrites; [exact I|exact H]. Qed.
Lemma task_rewrites : rewrites write_task (w_task true) every.
Proof.
  intros [n i] bs _ [(Hn & Hi & H)|(Hn & j & Hi & H)]; cbn [t_node t_id] in *; subst; unfold write_task; cbn [t_node t_id].
  - rewrite <- (app_nil_r bs). wrs.
  - parts_in H. destruct n; [congruence|]. cbn [write_opt_long]. wrs.
Qed.
#[local] Hint Resolve version_rewrites task_rewrites : again.
Lemma role_rewrites : rewrites write_role (w_role true) every.
Proof. intros [[a b] c] bs _ H. unfold w_role in H. cbn [fst snd] in H. parts_in H. unfold write_role. cbn [fst snd]. wrs. Qed.
Lemma dep_rewrites : rewrites write_dep (w_dependency true) every.
Proof. intros [a b] bs _ H. unfold w_dependency in H. cbn [d_id d_version] in H. parts_in H. unfold write_dep. cbn [d_id d_version]. wrs. Qed.
Lemma addr_rewrites : rewrites write_addr (w_addr true) low.
Proof.
  intros [a h p] bs Hl H. unfold low in Hl. unfold w_addr in H. cbn [a_addr a_host a_port] in *. parts_in H. unfold write_addr. cbn [a_addr a_host a_port].
  match goal with U : w_unsigned 4 _ _ |- _ => apply (fun x => unsigned_low _ _ x Hl) in U end. wrs.
Qed.
#[local] Hint Resolve role_rewrites dep_rewrites addr_rewrites : again.
Lemma all_every A (l : list A) : Forall every l. Proof. apply Forall_forall. intros. exact I. Qed.
Lemma node_rewrites : rewrites write_node (w_node true) low_node.
Proof.
  intros [n1 n2 n3 n4 n5 a d rs v] bs Hl H. unfold low_node in Hl. unfold w_node in H.
  cbn [n_name n_id n_eph n_host n_hostaddr n_addr n_attrs n_roles n_version] in *. parts_in H. unfold write_node.
  cbn [n_name n_id n_eph n_host n_hostaddr n_addr n_attrs n_roles n_version].
  match goal with U : w_roles true _ _ |- _ => destruct U as (l & _ & El & Hr); cbn [canonical] in El; subst l end.
  apply (list_rewrites _ _ _ _ _ _ role_rewrites (all_every _ _)) in Hr. wrs.
Qed.
#[local] Hint Resolve node_rewrites : again.
Lemma ext_node_rewrites : rewrites write_ext_node (w_ext_node true) low_ext.
Proof.
  intros [n v d] bs Hl H. unfold low_ext in Hl. unfold w_ext_node in H. cbn [x_node x_min x_deps] in *. parts_in H. unfold write_ext_node. cbn [x_node x_min x_deps].
  match goal with U : w_list true _ _ _ |- _ => apply (list_rewrites _ _ _ _ _ _ dep_rewrites (all_every _ _)) in U end. wrs.
Qed.
#[local] Hint Resolve ext_node_rewrites : again.
Lemma init_request_rewrites : rewrites write_init_request (w_init_request true) low_init.
Proof.
  intros [t n x] bs [L1 L2] H. unfold w_init_request in H. cbn [ir_task ir_source ir_ext] in *. parts_in H. unfold write_init_request, write_transport_request.
  cbn [ir_task ir_source ir_ext]. wrs.
Qed.
Lemma init_response_rewrites : rewrites write_init_response (w_init_response true) every.
Proof. intros [n i] bs _ H. unfold w_init_response in H. cbn [is_name is_interfaces] in H. parts_in H. unfold write_init_response. cbn [is_name is_interfaces]. wrs. Qed.
Lemma handshake_response_rewrites : rewrites write_handshake_response (w_handshake_response true) (fun r => low_opt (hr_node r)).
Proof.
  intros [o c v] bs Hl H. unfold w_handshake_response in H. cbn [hr_node hr_cluster hr_version] in *. parts_in H. unfold write_handshake_response.
  cbn [hr_node hr_cluster hr_version]. apply wcat_cons_eq; [|wrs].
  destruct o as [n|]; cbn [w_optional] in *; [|eauto with again]. specialize (Hl n eq_refl).
  match goal with U : parts [w_bool true; _] _ |- _ => parts_in U end. wrs.
Qed.
Lemma version_bytes v b : w_version true v b -> vid v < 2 ^ 28 -> version_size v = zlen b.
Proof.
  intros H L. apply version_size_exact; [|apply version_rewrites; [exact I|exact H]|right; exact L]. apply vint_range in H. lia.
Qed.
Lemma tcp_request_rewrites : rewrites write_tcp_handshake_request (w_tcp_handshake_request true) small_version.
Proof.
  intros [t ov] bs Hs (v & n & b & Ev & Hv & En & H). unfold small_version in Hs. cbn [tr_version tr_task canonical] in *. subst ov n. parts_in H.
  unfold write_tcp_handshake_request, write_transport_request. cbn [tr_version tr_task]. specialize (Hs v eq_refl).
  apply wcat_cons_eq; [wr1|]. match goal with E : exactly b ?x |- _ => unfold exactly in E; subst x end.
  rewrite <- (app_nil_r (_ ++ b ++ [])). apply wcat_cons_eq; [|apply wcat_nil_eq]. rewrite (version_bytes _ _ Hv Hs). wrs.
Qed.
Lemma tcp_response_rewrites : rewrites write_tcp_handshake_response (fun o bs => exists v, o = Some v /\ w_version true v bs) every.
Proof. intros o bs _ (v & -> & H). cbn [write_tcp_handshake_response]. eauto with again. Qed.
Lemma sized_rewrites b x : w_bytes true b x -> exists n, x = n ++ b /\ write_v_int (zlen b) = Ok n.
Proof. intros [_ H]. parts_in H. unfold exactly in *. subst. eexists. rewrite app_nil_r. split; [reflexivity|]. eauto with again. Qed.
Ltac sized := match goal with U : w_bytes true _ _ |- _ => apply sized_rewrites in U as (?n & -> & ?U) end.
Lemma rest_request_again : again read_rest_request write_rest_request w_rest_request every.
Proof.
  intros r bs s _ H. destruct (rest_request_reads true r bs s I H) as (r' & R & E). exists r'. split; [exact R|]. clear R.
  destruct r as [t om u p ps hs md ct tk oh co cc], r' as [t' om' u' p' ps' hs' md' ct' tk' oh' co' cc']. unfold received_request in E.
  destruct H as (m & h & o & Em & Eh & Eo & Ec & H).
  cbn [rq_task rq_method rq_uri rq_path rq_params rq_headers rq_media rq_content rq_token rq_http canonical] in *. decompose [and] E. clear E. subst.
  parts_in H. sized. unfold write_rest_request, write_transport_request.
  cbn [rq_task rq_method rq_uri rq_path rq_params rq_headers rq_media rq_content rq_token rq_http write_opt_enum].
  do 6 (apply wcat_cons_eq; [wr1|]). rewrite <- (app_assoc n).
  destruct o as [x|]; cbn [w_optional] in *.
  - match goal with U : parts [w_bool true; _] _ |- _ => parts_in U end. rewrite <- !app_assoc. cbn [app]. destruct x as [|c x]; [destruct (Ec eq_refl)|].
    apply wcat_cons_eq; [|wrs]. rewrite (proj2 (Z.ltb_lt _ _)); [eauto with again|]. unfold zlen. cbn [length]. lia.
  - rewrite <- (app_nil_l (n ++ _)). wrs.
Qed.
Lemma exec_response_rewrites : rewrites write_exec_response (w_exec_response true) every.
Proof.
  intros [ost ty ct hs cs cc] bs _ (st & Est & H). cbn [ex_status ex_content ex_ctype ex_headers ex_consumed ex_content_consumed] in *. subst ost.
  parts_in H. sized. unfold write_exec_response. cbn [ex_status ex_content ex_ctype ex_headers ex_consumed ex_content_consumed write_opt_enum].
  rewrite <- !app_assoc. wrs.
Qed.
Lemma few_perm A (l l' : list A) : few l -> Permutation l l' -> l = l'.
Proof.
  intros H P. destruct l as [|x [|y l]]; [apply Permutation_nil in P; congruence|apply Permutation_length_1_inv in P; congruence|].
  unfold few, zlen in H. cbn [length] in H. lia.
Qed.
Lemma set_strings s bs : few s -> w_set true s bs -> w_strings true s bs.
Proof. intros Hf (l & d & _ & Hp & El & H). cbn [canonical] in El. subst l. rewrite (few_perm _ _ _ Hf (Permutation_sym Hp)). exact H. Qed.
Lemma set_rewrites : rewrites write_string_set (w_set true) few.
Proof.
  intros l bs Hf H. apply (set_strings _ _ Hf) in H as [_ H]. unfold write_string_set.
  apply (list_rewrites _ _ _ _ _ _ string_rewrites (all_every _ _)), H.
Qed.
Lemma set_again so : set_order_ok so -> again (read_string_set so) write_string_set w_set few.
Proof.
  intros Hso l bs s Hf H. destruct (set_reads true so Hso l bs s I H) as (l' & R & E). exists l'. split; [exact R|].
  rewrite <- (few_perm _ _ _ Hf E). apply set_rewrites; assumption.
Qed.
Lemma rest_response_again so : set_order_ok so -> again (read_rest_response so) write_rest_response w_rest_response (fun r => few (rp_consumed r)).
Proof.
  intros Hso r bs s Hf H. destruct (rest_response_reads true so Hso r bs s I H) as (r' & R & E). exists r'. split; [exact R|]. clear R.
  destruct r as [ost ct ty hs cs cc], r' as [ost' ct' ty' hs' cs' cc']. unfold same_response in E. destruct H as (st & Est & H).
  cbn [rp_status rp_content rp_ctype rp_headers rp_consumed rp_content_consumed] in *. decompose [and] E. clear E. subst.
  match goal with U : Permutation _ _ |- _ => apply (few_perm _ _ _ Hf) in U; subst end.
  parts_in H. sized. match goal with U : w_set true _ _ |- _ => apply (set_strings _ _ Hf) in U end.
  unfold write_rest_response. cbn [rp_status rp_content rp_ctype rp_headers rp_consumed rp_content_consumed write_opt_enum].
  rewrite (few_perm _ (py_sorted cs') cs'); [rewrite <- !app_assoc; wrs| |apply sorted_perm].
  unfold few, zlen in *. rewrite (Permutation_length (sorted_perm cs')). exact Hf.
Qed.
Lemma generic_rewrites : rewrites write_generic_value (w_generic true) every.
Proof.
  intros v. induction v using pyval_ind'; intros bs _ W; inversion W; subst; try discriminate; cbn [write_generic_value].
  all: try reflexivity.
  all: try (apply tagged; [reflexivity|]; solve [eauto with again]).
  apply tagged; [reflexivity|]. match goal with U : w_vint true _ ?n, V : Forall2 _ _ _ |- _ =>
    apply generic_parts in V; apply wcat_cons_eq; [eauto with again|]; revert V; generalize (concat bss) end. clear - H.
  induction H as [|v l Hv _ IH]; intros y V; [inversion V; reflexivity|]. cbn [map] in *. apply parts_cons_inv in V as (b & c & -> & Hb & Hc).
  apply wcat_cons_eq; [apply Hv; [exact I|exact Hb]|apply IH, Hc].
Qed.
#[local] Hint Resolve generic_rewrites : again.
Lemma settings_rewrites n : rewrites write_settings (w_dict true (w_value true n)) every.
Proof.
  intros d bs _ (l & _ & El & H). cbn [canonical] in El. subst l. unfold write_settings.
  apply (list_rewrites _ (fun kv => wcat [write_string (fst kv); write_generic_value (snd kv)]) _ every d bs) in H; [exact H| |apply all_every].
  intros [k v] y _ V. cbn [fst snd] in *. parts_in V. match goal with U : w_value _ _ _ _ |- _ => destruct U as [U _] end. wrs.
Qed.
Lemma z_long_rewrites : rewrites write_z_long (w_zlong true) nonzero.
Proof.
  intros i bs Hi (m & neg & Hm & -> & H). unfold nonzero in Hi. pose proof (vlong_rewrites _ _ I H) as W. destruct H as (_ & Hr & _).
  unfold write_z_long. cbv zeta.
  assert (E : 2 * Z.abs (if neg then - m else m) + (if (if neg then - m else m) <? 0 then 1 else 0) = 2 * m + (if neg then 1 else 0)).
  { destruct neg; [rewrite (proj2 (Z.ltb_lt _ _))|rewrite (proj2 (Z.ltb_ge _ _))]; lia. }
  rewrite E, Z.shiftr_div_pow2, Z.div_small; [exact W| |]; destruct neg; lia.
Qed.
#[local] Hint Resolve z_long_rewrites : again.
Lemma bsv_rewrites : rewrites write_bsv (w_byte_size true) (fun v => nonzero (bs_size v)).
Proof. intros [n u] bs Hn H. unfold w_byte_size in H. cbn [bs_size bs_unit] in *. parts_in H. unfold write_bsv. cbn [bs_size bs_unit]. wrs. Qed.
Lemma unit_rewrites u bs : w_enum true 7 u bs -> write_byte u = Ok bs.
Proof.
  intros [Hu H]. pose proof (vint_rewrites _ _ I H) as W. rewrite write_v_int_small in W by lia. apply Ok_inj in W. subst bs.
  assert (u = 0 \/ u = 1 \/ u = 2 \/ u = 3 \/ u = 4 \/ u = 5 \/ u = 6) as K by lia.
  destruct K as [-> |[-> |[-> |[-> |[-> |[-> | ->]]]]]]; reflexivity.
Qed.
#[local] Hint Resolve unit_rewrites bsv_rewrites : again.
Lemma time_rewrites : rewrites write_time_value (w_time true) (fun v => nonzero (tv_dur v)).
Proof. intros [n u] bs Hn H. unfold w_time in H. cbn [tv_dur tv_unit] in *. parts_in H. unfold write_time_value. cbn [tv_dur tv_unit]. wrs. Qed.
#[local] Hint Resolve time_rewrites : again.
Lemma integer_parser_rewrites : rewrites write_integer_parser (w_int_parser true 4) every.
Proof. intros [a b k f] bs _ H. unfold w_int_parser in H. cbn [ip_min ip_max ip_key ip_filtered] in *. parts_in H. unfold write_integer_parser. cbn [ip_min ip_max ip_key ip_filtered]. wrs. Qed.
Lemma long_parser_rewrites : rewrites write_long_parser (w_int_parser true 8) every.
Proof. intros [a b k f] bs _ H. unfold w_int_parser in H. cbn [ip_min ip_max ip_key ip_filtered] in *. parts_in H. unfold write_long_parser. cbn [ip_min ip_max ip_key ip_filtered]. wrs. Qed.
Lemma validator_rewrites : rewrites write_validator (w_validator true) every.
Proof. intros [r m] bs _ H. unfold w_validator in H. cbn [rv_regex rv_matching] in *. parts_in H. unfold write_validator. cbn [rv_regex rv_matching]. wrs. Qed.
Lemma bs_parser_rewrites : rewrites write_bs_parser (w_bs_parser true) (fun p => nonzero (bs_size (bp_min p)) /\ nonzero (bs_size (bp_max p))).
Proof. intros [a b k] bs [Ha Hb] H. unfold w_bs_parser in H. cbn [bp_min bp_max bp_key] in *. parts_in H. unfold write_bs_parser. cbn [bp_min bp_max bp_key]. wrs. Qed.
Lemma tv_parser_again : again read_tv_parser write_tv_parser w_tv_parser (fun p => nonzero (tv_dur (tp_min p)) /\ nonzero (tv_dur (tp_max p))).
Proof.
  intros p bs s [Ha Hb] H. destruct (tv_parser_reads true p bs s I H) as (p' & R & E). exists p'. split; [exact R|]. clear R.
  destruct p as [a b k f], p' as [a' b' k' f']. unfold same_tv_parser in E. destruct H as (h & H & Ht & Hf).
  cbn [tp_min tp_max tp_key tp_filtered canonical] in *. destruct E as (<- & <- & <- & E). parts_in H. unfold write_tv_parser. cbn [tp_min tp_max tp_key tp_filtered].
  assert (Eh : (0 <=? tv_dur b') = h).
  { destruct h; [apply Z.leb_le|apply Z.leb_gt]; [specialize (Ht eq_refl)|specialize (Hf eq_refl)]; destruct E as [->|[E E']]; lia. }
  cbv zeta. rewrite Eh. apply wcat_cons_eq; [wr1|]. apply wcat_cons_eq; [wr1|]. apply wcat_cons_eq; [wr1|].
  destruct h; [|wrs]. specialize (Ht eq_refl). destruct E as [->|[E _]]; [|lia]. wrs.
Qed.
Lemma ctx_rewrites : rewrites write_ctx (w_ctx true) few_each.
Proof.
  intros c bs Hf H. unfold w_ctx in H. parts_in H. unfold write_ctx. apply wcat_cons_eq; [wr1|]. apply wcat_cons_eq; [|reflexivity].
  match goal with U : w_dict true (w_set true) _ ?x |- _ => destruct U as (l & Hd & El & D) end. cbn [canonical] in El. subst l.
  unfold write_string_to_string_array_dict.
  apply (list_rewrites _ (fun kv => wcat [write_string (fst kv); write_string_array (snd kv)]) _ (fun kv => few (snd kv))) in D; [exact D| |exact Hf].
  intros [k v] y Hv V. cbn [fst snd] in *. parts_in V. match goal with U : w_set true _ _ |- _ => apply (set_strings _ _ Hv) in U end. wrs.
Qed.
Lemma few_same c c' : few_each c -> same_ctx c c' -> c = c'.
Proof.
  destruct c as [q r], c' as [q' r']. unfold few_each, same_ctx. cbn [c_req c_res]. intros Hf [-> H]. f_equal. unfold same_set_dict in H.
  induction H as [|[k v] [k' v'] l l' [Ek Ev] _ IH]; [reflexivity|]. apply Forall_cons_iff in Hf as [Hv Hf]. cbn [fst snd] in *.
  rewrite Ek, (few_perm _ _ _ Hv Ev), (IH Hf). reflexivity.
Qed.
Lemma ctx_again so : set_order_ok so -> again (read_ctx so) write_ctx w_ctx few_each.
Proof.
  intros Hso c bs s Hf H. destruct (ctx_reads true so Hso c bs s I H) as (c' & R & E). exists c'. split; [exact R|].
  rewrite <- (few_same _ _ Hf E). apply ctx_rewrites; assumption.
Qed.
Lemma settings_value n d bs : w_settings true d bs -> shallow n d -> w_dict true (w_value true n) d bs.
Proof.
  intros (l & Hd & El & H) Hs. exists l. split; [exact Hd|]. split; [exact El|]. cbn [canonical] in El. subst l.
  apply parts_cons_inv in H as (x & y & -> & Hx & Hy). constructor; [exact Hx|]. clear Hx Hd. revert y Hy. unfold shallow in Hs.
  induction Hs as [|[k v] d Hv _ IH]; intros y Hy; [exact Hy|]. cbn [map fst snd] in *. apply parts_cons_inv in Hy as (b & c & -> & Hb & Hc).
  constructor; [|apply IH, Hc]. cbn [fst snd] in *. parts_in Hb. constructor; [assumption|]. constructor; [split; assumption|constructor].
Qed.
Lemma settings_again n f : (n < f)%nat -> again (settings_reader f) write_settings w_settings (shallow n).
Proof.
  intros Hf d bs s Hs H. apply (settings_value n) in H; [|exact Hs]. exists d. split; [apply (settings_reads true n f Hf); [exact I|exact H]|].
  apply (settings_rewrites n); [exact I|exact H].
Qed.
Lemma varint_bytes n bs : 0 <= n -> varint n bs -> bs = pb_varint n.
Proof. intros Hn H. apply (leb_single n); [exact H|apply varint_writes, Hn]. Qed.
Lemma field_bytes num b bs : 0 <= num -> pb_field num b bs -> bs = pb_bytes_field num b.
Proof.
  intros Hn H. unfold pb_field in H. parts_in H. unfold exactly in *. unfold pb_bytes_field.
  match goal with U : varint (num * 8 + 2) _ |- _ => apply varint_bytes in U; [|lia] end.
  match goal with U : varint (zlen b) _ |- _ => apply varint_bytes in U; [|apply zlen_nonneg] end. subst. rewrite app_nil_r. reflexivity.
Qed.
Lemma text_bytes num x bs : 0 <= num -> pb_text num x bs -> exists e, utf8_encode x = Ok e /\ bs = pb_bytes_field num e.
Proof. intros Hn (e & He & H). exists e. split; [apply is_utf8_encode, He|apply field_bytes; assumption]. Qed.
Lemma identity_bytes u bs : pb_identity u bs -> exists e, utf8_encode u = Ok e /\ bs = pb_bytes_field 1 (ser_identity e).
Proof.
  intros (b & H & [[-> ->]|[Hu Hb]]); apply field_bytes in H; [|lia| |lia].
  - exists []. split; [reflexivity|exact H].
  - apply text_bytes in Hb as (e & He & ->); [|lia]. exists e. split; [exact He|]. subst bs. unfold ser_identity.
    destruct (Z.ltb_spec 0 (zlen e)) as [|Hl]; [reflexivity|]. destruct Hu. apply (utf8_encode_empty _ _ He), Hl.
Qed.
Lemma ext_request_bytes u ty bs : 0 <= ty < 2 ^ 31 -> pb_ext_request u ty bs -> ser_ext_request (mkER (Some u) ty) = Ok bs.
Proof.
  intros Ht H. unfold pb_ext_request in H. parts_in H. match goal with U : pb_identity _ _ |- _ => apply identity_bytes in U as (e & He & ->) end.
  unfold ser_ext_request. cbn [er_identity er_type]. rewrite He. cbn [bind]. rewrite app_nil_r. do 2 f_equal.
  match goal with U : (if _ then _ else _) _ |- _ => rename U into V end. destruct (ty =? 0); [symmetry; exact V|]. parts_in V. unfold pb_varint_field.
  rewrite Z.mod_small by lia. rewrite app_nil_r.
  repeat match goal with U : varint _ _ |- _ => apply varint_bytes in U; [subst|lia] end. reflexivity.
Qed.
Lemma texts_bytes num l bs : 0 <= num -> parts (map (pb_text num) l) bs -> ser_strings num l = Ok bs.
Proof.
  intros Hn. unfold ser_strings. revert bs. induction l as [|x l IH]; intros bs H; cbn [map] in *; [inversion H; reflexivity|].
  apply parts_cons_inv in H as (a & b & -> & Ha & Hb). apply text_bytes in Ha as (e & He & ->); [|exact Hn].
  apply wcat_cons_eq; [rewrite He; reflexivity|apply IH, Hb].
Qed.
Lemma parts_split l1 l2 bs : parts (l1 ++ l2) bs -> exists a b, bs = a ++ b /\ parts l1 a /\ parts l2 b.
Proof.
  revert bs. induction l1 as [|P l1 IH]; intros bs H; [exists [], bs; repeat split; [constructor|exact H]|]. cbn [app] in H.
  apply parts_cons_inv in H as (a & b & -> & Ha & Hb). destruct (IH b Hb) as (c & d & -> & Hc & Hd). exists (a ++ c), d.
  rewrite app_assoc. repeat split; [constructor; assumption|exact Hd].
Qed.
Lemma rest_actions_bytes u acts dep bs : pb_rest_actions u acts dep bs -> ser_rest_actions (mkRRA (Some u) acts dep) = Ok bs.
Proof.
  intros H. apply parts_cons_inv in H as (x & y & -> & Hx & Hy). apply identity_bytes in Hx as (e & He & ->).
  apply parts_split in Hy as (a & b & -> & Ha & Hb). apply texts_bytes in Ha, Hb; try lia. unfold ser_rest_actions. cbn [rra_identity rra_actions rra_deprecated].
  rewrite He, Ha, Hb. reflexivity.
Qed.
Lemma etr_again : again read_ext_transport_request write_ext_transport_request w_etr every.
Proof.
  intros [t [i ty]] bs s _ (u & Ei & Hty & Hl & b & Hb & H). cbn [etr_task etr_er er_identity er_type] in *. subst i. apply ext_request_bytes in Hb; [|exact Hty].
  exists (mkETR t (mkER (Some u) ty)). parts_in H. match goal with U : exactly b _ |- _ => unfold exactly in U; subst end.
  match goal with U : zlen (?x ++ ?y ++ b ++ []) < _ |- _ => assert (Hb' : zlen b < 2 ^ 31) by
    (rewrite !zlen_app in U; pose proof (zlen_nonneg _ x); pose proof (zlen_nonneg _ y); change (zlen (@nil byte)) with 0 in U; lia) end. split.
  - rewrite <- !app_assoc. cbn [app]. unfold read_ext_transport_request, read_transport_request.
    rewrite (rbind_step _ _ _ _ _ _ _ (task_reads true _ _ _ I P)), (rbind_step _ _ _ _ _ _ _ (v_int_reads true _ _ _ I P0)).
    rewrite (rbind_step _ _ _ _ _ _ _ (read_bytes_app_n _ b s eq_refl)). unfold rlift, rbind. rewrite (ext_request_parse (Some u) ty b); [reflexivity|lia|exact Hb|exact Hb'].
  - unfold write_ext_transport_request, write_transport_request. cbn [etr_task etr_er]. rewrite Hb. cbn [bind].
    apply wcat_cons_eq; [wr1|]. rewrite <- (app_nil_r (_ ++ b ++ [])). apply wcat_cons_eq; [wrs|apply wcat_nil_eq].
Qed.
Lemma rrr_again : again read_register_request write_register_request w_rrr every.
Proof.
  intros [t [i acts dep]] bs s _ (u & Ei & Hl & b & Hb & H). cbn [rrr_task rrr_rra rra_identity rra_actions rra_deprecated] in *. subst i.
  apply rest_actions_bytes in Hb.
  exists (mkRRR t (mkRRA (Some u) acts dep)). parts_in H. match goal with U : exactly b _ |- _ => unfold exactly in U; subst end.
  match goal with U : zlen (?x ++ ?y ++ b ++ []) < _ |- _ => assert (Hb' : zlen b < 2 ^ 31) by
    (rewrite !zlen_app in U; pose proof (zlen_nonneg _ x); pose proof (zlen_nonneg _ y); change (zlen (@nil byte)) with 0 in U; lia) end. split.
  - rewrite <- !app_assoc. cbn [app]. unfold read_register_request, read_transport_request.
    rewrite (rbind_step _ _ _ _ _ _ _ (task_reads true _ _ _ I P)), (rbind_step _ _ _ _ _ _ _ (v_int_reads true _ _ _ I P0)).
    rewrite (rbind_step _ _ _ _ _ _ _ (read_bytes_app_n _ b s eq_refl)). unfold rlift, rbind. rewrite (rest_actions_parse _ b Hb Hb'). reflexivity.
  - unfold write_register_request, write_transport_request. cbn [rrr_task rrr_rra]. rewrite Hb. cbn [bind].
    apply wcat_cons_eq; [wr1|]. rewrite <- (app_nil_r (_ ++ b ++ [])). apply wcat_cons_eq; [wrs|apply wcat_nil_eq].
Qed.

(** ** Theorems *)
Theorem C119_values_partial : forall so, set_order_ok so ->
  again read_byte write_byte (fun _ => w_signed 1) every /\
  again read_int write_int (fun _ => w_signed 4) every /\
  again read_long write_long (fun _ => w_signed 8) every /\
  again read_v_int write_v_int w_vint every /\
  again read_v_long write_v_long w_vlong every /\
  again read_z_long write_z_long w_zlong nonzero /\
  again read_boolean write_boolean (fun _ => w_bool) every /\
  again read_byte_array write_byte_array w_bytes every /\
  again read_string write_string w_string every /\
  again read_string_array write_string_array w_strings every /\
  again (read_string_set so) write_string_set w_set few /\
  again read_string_to_string_dict write_string_to_string_dict (fun strict => w_dict strict (w_string strict)) every /\
  again read_string_to_string_array_dict write_string_to_string_array_dict (fun strict => w_dict strict (w_strings strict)) every /\
  (forall n limit, (n < limit)%nat -> again (read_generic_value limit) write_generic_value w_generic (fun v => nested v n)) /\
  again read_version write_version w_version every.
Proof.
  intros so Hso.
  repeat match goal with |- _ /\ _ => split end.
  1: apply (again_of _ _ _ _ _ _ byte_reads (fun _ _ => I) byte_rewrites).
  1: apply (again_of _ _ _ _ _ _ int_reads (fun _ _ => I) int_rewrites).
  1: apply (again_of _ _ _ _ _ _ long_reads (fun _ _ => I) long_rewrites).
  1: apply (again_of _ _ _ _ _ _ (v_int_reads true) (fun _ _ => I) vint_rewrites).
  1: apply (again_of _ _ _ _ _ _ (v_long_reads true) (fun _ _ => I) vlong_rewrites).
  1: apply (again_of _ _ _ _ _ _ (z_long_reads true) (fun _ _ => I) z_long_rewrites).
  1: apply (again_of _ _ _ (fun _ => w_bool) _ _ bool_reads (fun _ _ => I) bool_rewrites).
  1: apply (again_of _ _ _ _ _ _ (bytes_reads true) (fun _ _ => I) bytes_rewrites).
  1: apply (again_of _ _ _ _ _ _ (string_reads true) (fun _ _ => I) string_rewrites).
  1: apply (again_of _ _ _ _ _ _ (strings_reads true) (fun _ _ => I) strings_rewrites).
  1: apply set_again, Hso.
  1: apply (again_of _ _ _ (fun strict => w_dict strict (w_string strict)) _ _ (dict_reads true _ _ _ (string_reads true)) (fun _ _ => I) dict_rewrites).
  1: apply (again_of _ _ _ (fun strict => w_dict strict (w_strings strict)) _ _ (dict_reads true _ _ _ (strings_reads true)) (fun _ _ => I) dicts_rewrites).
  1: intros n f Hf; apply (again_of _ _ _ w_generic _ _ (generic_reads true f n Hf) (fun _ H => H) (fun v bs _ => generic_rewrites v bs I)).
  apply (again_of _ _ _ _ _ _ (version_reads true) (fun _ _ => I) version_rewrites).
Qed.
Print Assumptions C119_values_partial.

(** thread contexts and the messages; addresses below 128.0.0.0 *)
Theorem C119_messages_partial : forall so, set_order_ok so ->
  again (read_ctx so) write_ctx w_ctx few_each /\
  again read_task write_task w_task every /\
  again read_addr write_addr w_addr low /\
  again read_node write_node w_node low_node /\
  again read_ext_node write_ext_node w_ext_node (fun x => low_node (x_node x)) /\
  again read_init_request write_init_request w_init_request (fun r => low_node (ir_source r) /\ low_node (x_node (ir_ext r))) /\
  again read_init_response write_init_response w_init_response every /\
  again read_handshake_response write_handshake_response w_handshake_response (fun r => forall n, hr_node r = Some n -> low_node n) /\
  again read_tcp_handshake_request write_tcp_handshake_request w_tcp_handshake_request small_version /\
  again read_ack write_ack (fun _ => w_bool) every /\
  again read_rest_request write_rest_request w_rest_request every /\
  again (read_rest_response so) write_rest_response w_rest_response (fun r => few (rp_consumed r)) /\
  again read_exec_response write_exec_response w_exec_response every /\
  again read_ext_transport_request write_ext_transport_request w_etr every /\
  again read_register_request write_register_request w_rrr every.
Proof.
  intros so Hso. repeat match goal with |- _ /\ _ => split end.
  1: apply ctx_again, Hso.
  1: apply (again_of _ _ _ _ _ _ (task_reads true) (fun _ _ => I) task_rewrites).
  1: apply (again_of _ _ _ _ _ _ (addr_reads true) (fun _ H => H) addr_rewrites).
  1: apply (again_of _ _ _ _ _ _ (node_reads true) (fun _ H => H) node_rewrites).
  1: apply (again_of _ _ _ _ _ _ (ext_node_reads true) (fun _ H => H) ext_node_rewrites).
  1: apply (again_of _ _ _ _ _ _ (init_request_reads true) (fun _ H => H) init_request_rewrites).
  1: apply (again_of _ _ _ _ _ _ (init_response_reads true) (fun _ _ => I) init_response_rewrites).
  1: apply (again_of _ _ _ _ _ _ (handshake_response_reads true) (fun _ H => H) handshake_response_rewrites).
  1: apply (again_of _ _ _ _ _ _ (tcp_request_reads true) (fun _ _ => I) tcp_request_rewrites).
  1: apply (again_of _ _ _ (fun _ => w_bool) _ _ bool_reads (fun _ _ => I) bool_rewrites).
  1: exact rest_request_again.
  1: apply rest_response_again, Hso.
  1: apply (again_of _ _ _ _ _ _ (exec_response_reads true) (fun _ _ => I) exec_response_rewrites).
  - exact etr_again.
  - exact rrr_again.
Qed.
Print Assumptions C119_messages_partial.

(** settings (nested less deeply than the recursion limit), parsers and their bounds *)
Theorem C119_settings_partial :
  (forall n limit, (n < limit)%nat ->
    again (fun s => match read_settings limit [] s with (Ok s', d) => Ok (d, s') | (Raise e, _) => Raise e end)
      write_settings w_settings (Forall (fun kv => nested (snd kv) n))) /\
  again read_bsv write_bsv w_byte_size (fun v => nonzero (bs_size v)) /\
  again read_time_value write_time_value w_time (fun v => nonzero (tv_dur v)) /\
  again read_integer_parser write_integer_parser (fun strict => w_int_parser strict 4) every /\
  again read_long_parser write_long_parser (fun strict => w_int_parser strict 8) every /\
  again read_bs_parser write_bs_parser w_bs_parser (fun p => nonzero (bs_size (bp_min p)) /\ nonzero (bs_size (bp_max p))) /\
  again read_tv_parser write_tv_parser w_tv_parser (fun p => nonzero (tv_dur (tp_min p)) /\ nonzero (tv_dur (tp_max p))) /\
  again read_validator write_validator w_validator every.
Proof.
  repeat match goal with |- _ /\ _ => split end.
  1: exact settings_again.
  1: apply (again_of _ _ _ _ _ _ (bsv_reads true) (fun _ _ => I) bsv_rewrites).
  1: apply (again_of _ _ _ _ _ _ (time_reads true) (fun _ _ => I) time_rewrites).
  1: apply (again_of _ _ _ (fun strict => w_int_parser strict 4) _ _ (integer_parser_reads true) (fun _ _ => I) integer_parser_rewrites).
  1: apply (again_of _ _ _ (fun strict => w_int_parser strict 8) _ _ (long_parser_reads true) (fun _ _ => I) long_parser_rewrites).
  1: apply (again_of _ _ _ _ _ _ (bs_parser_reads true) (fun _ _ => I) bs_parser_rewrites).
  1: exact tv_parser_again.
  apply (again_of _ _ _ _ _ _ (validator_reads true) (fun _ _ => I) validator_rewrites).
Qed.
Print Assumptions C119_settings_partial.

(** not always: "minus zero" becomes zero, *)
Theorem C119_minus_zero_refuted : ~ again read_z_long write_z_long w_zlong every.
Proof.
  intros H. destruct (H 0 [x01] [] I) as (a & R & W).
  - exists 0, true. split; [lia|]. split; [reflexivity|]. split; [apply leb_last; vm_compute; reflexivity|].
    split; [vm_compute; reflexivity|]. split; [vm_compute; discriminate|]. cbn. intros E. vm_compute in E. discriminate E.
  - vm_compute in R. apply Ok_inj, pair_equal_spec in R as [<- _]. vm_compute in W. discriminate W.
Qed.
Print Assumptions C119_minus_zero_refuted.
(** addresses from 128.0.0.0 on are not even read, *)
Theorem C119_high_address_refuted : ~ again read_addr write_addr w_addr every.
Proof.
  intros H. destruct (H (mkAddr (2 ^ 31) [] 0) [x04; x80; x00; x00; x00; x00; x00; x00; x00; x00] [] I) as (a & R & W).
  - unfold w_addr. cbn [a_addr a_host a_port].
    change [x04; x80; x00; x00; x00; x00; x00; x00; x00; x00] with ([x04] ++ [x80; x00; x00; x00] ++ [x00] ++ [x00; x00; x00; x00] ++ []).
    constructor; [reflexivity|]. constructor; [split; vm_compute; reflexivity|]. constructor.
    + exists []. split; [apply is_utf8_encode; reflexivity|]. split; [vm_compute; discriminate|]. change [x00] with ([x00] ++ [] ++ []).
      constructor; [|constructor; [reflexivity|constructor]]. split; [apply (leb_last x00); reflexivity|]. split; [vm_compute; discriminate|]. intros _. reflexivity.
    + constructor; [|constructor]. split; [reflexivity|]. split; [vm_compute; split; [discriminate|reflexivity]|vm_compute; reflexivity].
  - vm_compute in R. discriminate R.
Qed.
Print Assumptions C119_high_address_refuted.
(** a version from 2^28 on may get a wrong size in front of it, *)
Theorem C119_large_version_refuted : ~ again read_tcp_handshake_request write_tcp_handshake_request w_tcp_handshake_request every.
Proof.
  intros H. set (v := version_of_id (2 ^ 28)). assert (V : w_version true v [x80; x80; x80; xc0; x01]).
  { unfold w_version. assert (W : write_v_int (vid v) = Ok [x80; x80; x80; xc0; x01]) by (vm_compute; reflexivity).
    destruct (v_int_writes true (vid v)) as (x & Wx & F); [vm_compute; split; [discriminate|reflexivity]|]. rewrite W in Wx. apply Ok_inj in Wx. subst x. exact F. }
  destruct (H (mkTcpReq (mkTask [] None) (Some v)) [x00; x05; x80; x80; x80; xc0; x01] [] I) as (a & R & W).
  - exists v, 5, [x80; x80; x80; xc0; x01]. split; [reflexivity|]. split; [exact V|]. split; [reflexivity|].
    change [x00; x05; x80; x80; x80; xc0; x01] with ([x00] ++ [x05] ++ [x80; x80; x80; xc0; x01] ++ []).
    constructor; [|constructor; [|constructor; [reflexivity|constructor]]].
    + left. split; [reflexivity|]. split; [reflexivity|]. destruct (string_writes true []) as (x & Wx & F); [text|].
      vm_compute in Wx. apply Ok_inj in Wx. subst x. exact F.
    + destruct (v_int_writes true 5) as (x & Wx & F); [vm_compute; split; [discriminate|reflexivity]|]. vm_compute in Wx. apply Ok_inj in Wx. subst x. exact F.
  - vm_compute in R. apply Ok_inj, pair_equal_spec in R as [<- _]. vm_compute in W. discriminate W.
Qed.
Print Assumptions C119_large_version_refuted.
(** and sets come in another order *)
Theorem C119_set_refuted : ~ (forall so, set_order_ok so -> again (read_string_set so) write_string_set w_set every).
Proof.
  intros H. destruct (strings_writes true [py "a"%string; py "b"%string]) as (bs & W & F).
  { split; [vm_compute; discriminate|]. repeat constructor; text. }
  destruct (H (fun l => rev l) (fun l => Permutation_sym (Permutation_rev l)) [py "a"%string; py "b"%string] bs [] I) as (a & R & W').
  - exists [py "a"%string; py "b"%string], [py "a"%string; py "b"%string]. split; [apply deduped_nodup|].
    + repeat constructor; cbn; [|tauto]. intros [E|[]]. discriminate E.
    + split; [apply Permutation_refl|]. split; [reflexivity|exact F].
  - vm_compute in W. apply Ok_inj in W. subst bs. vm_compute in R. apply Ok_inj, pair_equal_spec in R as [<- _]. vm_compute in W'. discriminate W'.
Qed.
Print Assumptions C119_set_refuted.

(** a REST request as OpenSearch writes it is in the format (so is, by C73, every message the
    SDK writes), and comes out again *)
Example C119_case : exists bs a, w_rest_request true example_request bs /\ read_rest_request bs = Ok (a, []) /\ write_rest_request a = Ok bs /\ 40 < zlen bs.
Proof.
  destruct (rest_request_writes true example_request (proj1 C32_case)) as (bs & W & F).
  exists bs. destruct (rest_request_again example_request bs [] I F) as (a & R & W'). rewrite app_nil_r in R. exists a.
  split; [exact F|]. split; [exact R|]. split; [exact W'|]. vm_compute in W. apply Ok_inj in W. subst bs. reflexivity.
Qed.
