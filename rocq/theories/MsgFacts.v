(** * Facts about the transport messages *)
From Coq Require Import ZArith List Bool Lia ZifyBool.
From Coq Require Import Strings.Byte.
From Verif Require Import Py Stream Version Frame Proto Messages PyFacts Utf8Facts StreamFacts Spec
  SpecFacts VersionFacts FrameFacts ProtoFacts.
Import ListNotations.
Open Scope Z_scope.

(** ** small codecs in [survives] form *)
Lemma bool_survives : survives write_boolean read_boolean (fun _ => True).
Proof.
  intros b _. destruct (write_boolean b) as [bs|e] eqn:E; [|destruct b; vm_compute in E; discriminate].
  exists bs. split; [reflexivity|]. intros s. apply boolean_roundtrip, E.
Qed.
Lemma int_survives : survives write_int read_int (fun i => - 2 ^ 31 <= i < 2 ^ 31).
Proof.
  intros i Hi. destruct fixed_width_ints as (_ & F & _). destruct (F i) as [G _].
  destruct (G Hi) as (bs & W & _ & _ & R). eauto.
Qed.
Lemma long_survives : survives write_long read_long (fun i => - 2 ^ 63 <= i < 2 ^ 63).
Proof.
  intros i Hi. destruct fixed_width_ints as (_ & _ & F). destruct (F i) as [G _].
  destruct (G Hi) as (bs & W & _ & _ & R). eauto.
Qed.
Lemma v_int_survives : survives write_v_int read_v_int (fun i => 0 <= i < 2 ^ 35).
Proof.
  intros i Hi. destruct (v_int_wire i) as (bs & W & _ & R); [lia|].
  exists bs. split; [exact W|]. intros s. apply R. lia.
Qed.
Lemma counted_survives A (w : A -> res bytes) r (P : A -> Prop) : survives w r P ->
  survives (fun l => wcat (write_v_int (zlen l) :: map w l))
           (k <~ read_v_int ;; read_n r (Z.to_nat k)) (fun l => zlen l < 2 ^ 35 /\ Forall P l).
Proof.
  intros S l [Hl F]. pose proof (zlen_nonneg _ l) as Hp.
  destruct (v_int_survives (zlen l) (conj Hp Hl)) as (b0 & W0 & R0).
  assert (L : exists b, wcat (map w l) = Ok b /\ forall s, read_n r (length l) (b ++ s) = Ok (l, s)).
  { clear - S F. induction F as [|x l Hx F (b & W & R)]; [exists []; split; [reflexivity|intros; reflexivity]|].
    destruct (S x Hx) as (bx & Wx & Rx). exists (bx ++ b). split.
    - cbn [map wcat]. rewrite Wx. cbn [bind]. rewrite W. reflexivity.
    - intros s. cbn [length read_n]. rewrite <- app_assoc.
      rewrite (rbind_step _ _ _ _ _ _ _ (Rx _)), (rbind_step _ _ _ _ _ _ _ (R _)). reflexivity. }
  destruct L as (b & W & R). exists (b0 ++ b). split.
  - cbn [wcat]. rewrite W0. cbn [bind]. rewrite W. reflexivity.
  - intros s. rewrite <- app_assoc. rewrite (rbind_step _ _ _ _ _ _ _ (R0 _)).
    unfold zlen. rewrite Nat2Z.id. apply R.
Qed.

Lemma wcat_cons_eq w l b c : w = Ok b -> wcat l = Ok c -> wcat (w :: l) = Ok (b ++ c).
Proof. intros -> H. cbn [wcat bind]. rewrite H. reflexivity. Qed.
Lemma wcat_nil_eq : wcat [] = Ok []. Proof. reflexivity. Qed.

Ltac field S := let b := fresh "b" in let W := fresh "W" in let R := fresh "R" in
  destruct S as (b & W & R).
Ltac write_out :=
  repeat first [ eassumption | apply wcat_nil_eq | apply wcat_cons_eq ].
Ltac rstep R := rewrite (rbind_step _ _ _ _ _ _ _ (R _)).
Ltac assoc := cbn [app]; rewrite <- ?app_assoc; cbn [app].

(** ** task ids *)
Lemma task_survives : survives write_task read_task task_ok.
Proof.
  intros [n i] [[Hn Hi]|(Hn & Ht & j & Hi & Hj)]; cbn [t_node t_id] in *; subst.
  - assert (Ht : text_ok []) by (exists []; split; [constructor|vm_compute; discriminate]).
    field (string_survives [] Ht). exists (b ++ [] ++ []). split; [unfold write_task; cbn [t_node]; cbn [wcat]; rewrite W; reflexivity|].
    intros s. assoc. unfold read_task. rstep R. reflexivity.
  - field (string_survives n Ht). field (long_survives j Hj).
    exists (b ++ b0 ++ []). split.
    + unfold write_task. cbn [t_node t_id]. destruct n as [|c n]; [contradiction|].
      write_out.
    + intros s. assoc. unfold read_task. rstep R. destruct n as [|c n]; [contradiction|].
      rstep R0. reflexivity.
Qed.
Lemma task_without_id t : t_node t <> [] -> t_id t = None -> exists e, write_task t = Raise e.
Proof.
  intros Hn Hi. unfold write_task. rewrite Hi. cbn [wcat]. destruct (write_string (t_node t)) as [b|e]; cbn [bind]; [|eauto].
  destruct (t_node t); [contradiction|]. cbn [write_opt_long bind]. eauto.
Qed.

(** ** addresses *)
Lemma addr_survives : survives write_addr read_addr (fun a => addr_ok a /\ low a).
Proof.
  intros [a h p] [(Ha & Hh & Hp) Hl]. unfold low in Hl. cbn in Ha, Hh, Hp, Hl.
  field (int_survives a ltac:(cbv beta; lia)). field (string_survives h Hh). field (int_survives p Hp).
  exists ([x04] ++ b ++ b0 ++ b1 ++ []). split.
  - unfold write_addr. cbn [a_addr a_host a_port]. write_out. reflexivity.
  - intros s. unfold read_addr. assoc.
    assert (R4 : forall s, read_byte (x04 :: s) = Ok (4, s)) by (intros s0; exact (byte_roundtrip 4 [x04] s0 eq_refl)).
    rstep R4. cbn [negb Z.eqb Pos.eqb].
    rstep R. destruct (Z.ltb_spec a 0); [lia|]. rstep R0. rstep R1. reflexivity.
Qed.
Lemma write_int_big i : 2 ^ 31 <= i -> write_int i = Raise EOverflow.
Proof. intros H. destruct fixed_width_ints as (_ & F & _). apply (F i). cbn. lia. Qed.
Lemma high_addr_raises a : ~ low a -> exists e, write_addr a = Raise e.
Proof.
  intros H. unfold low in H. unfold write_addr. rewrite write_int_big by lia. cbn. eauto.
Qed.

(** ** nodes *)
Lemma role_survives : survives write_role read_role role_ok.
Proof.
  intros [[x y] c] [Hx Hy]. cbn in Hx, Hy. field (string_survives x Hx). field (string_survives y Hy).
  field (bool_survives c I). exists (b ++ b0 ++ b1 ++ []). split; [unfold write_role; cbn [fst snd]; write_out|].
  intros s. assoc. unfold read_role. rstep R. rstep R0. rstep R1. reflexivity.
Qed.
Lemma role_eqb_eq a b : role_eqb a b = true <-> a = b.
Proof.
  destruct a as [[a1 a2] a3], b as [[b1 b2] b3]. unfold role_eqb. cbn [fst snd].
  rewrite !andb_true_iff, !streqb_eq, Bool.eqb_true_iff. split; [intros [[-> ->] ->]; reflexivity|].
  intros [= -> -> ->]. auto.
Qed.
Lemma role_adds l : forall acc, NoDup (acc ++ l) -> fold_left role_add l acc = acc ++ l.
Proof.
  induction l as [|x l IH]; intros acc H; cbn [fold_left]; [rewrite app_nil_r; reflexivity|].
  unfold role_add at 2. destruct (existsb (role_eqb x) acc) eqn:E.
  - apply existsb_exists in E as (y & Hy & E). apply role_eqb_eq in E. subst y.
    apply NoDup_remove_2 in H. rewrite in_app_iff in H. tauto.
  - rewrite IH; rewrite <- app_assoc; [reflexivity|exact H].
Qed.
Lemma node_survives : survives write_node read_node (fun n => node_ok n /\ low_node n).
Proof.
  intros [nm id ep ho ha ad at' ro ve] [(Ht & Ha & Hd & Hr & Hn & Hro & Hv) Hl]. unfold low_node in Hl.
  cbn [n_name n_id n_eph n_host n_hostaddr n_addr n_attrs n_roles n_version] in *.
  inversion_clear Ht as [|? ? T1 Ht']. inversion_clear Ht' as [|? ? T2 Ht].
  inversion_clear Ht as [|? ? T3 Ht']. inversion_clear Ht' as [|? ? T4 Ht].
  inversion_clear Ht as [|? ? T5 _].
  field (string_survives nm T1). field (string_survives id T2). field (string_survives ep T3).
  field (string_survives ho T4). field (string_survives ha T5). field (addr_survives ad (conj Ha Hl)).
  field (string_dict_survives at' Hd).
  field (counted_survives _ _ _ _ role_survives ro (conj Hr Hro)). field (version_survives ve Hv).
  eexists. split.
  - unfold write_node. cbn [n_name n_id n_eph n_host n_hostaddr n_addr n_attrs n_roles n_version].
    write_out.
  - intros s. assoc. unfold read_node.
    rstep R. rstep R0. rstep R1. rstep R2. rstep R3. rstep R4. rstep R5.
    specialize (R6 (b7 ++ s)). apply rbind_ok in R6 as (k & s1 & K & L).
    rewrite (rbind_step _ _ _ _ _ _ _ K), (rbind_step _ _ _ _ _ _ _ L). rstep R7.
    rewrite role_adds by exact Hn. reflexivity.
Qed.
Lemma wcat_raise_in l e : In (Raise e) l -> exists e', wcat l = Raise e'.
Proof.
  induction l as [|w l IH]; intros []; cbn [wcat].
  - subst w. cbn. eauto.
  - destruct w as [b|e']; cbn [bind]; [|eauto]. destruct (IH H) as [e' ->]. cbn. eauto.
Qed.
Lemma high_node_raises n : ~ low_node n -> exists e, write_node n = Raise e.
Proof.
  intros H. destruct (high_addr_raises _ H) as [e He]. unfold write_node. rewrite He.
  apply (wcat_raise_in _ e). cbn. tauto.
Qed.
Lemma dep_survives : survives write_dep read_dep dep_ok.
Proof.
  intros [i v] [Hi Hv]. cbn in Hi, Hv. field (string_survives i Hi). field (version_survives v Hv).
  eexists. split; [unfold write_dep; cbn [d_id d_version]; write_out|].
  intros s. assoc. unfold read_dep. rstep R. rstep R0. reflexivity.
Qed.
Lemma ext_node_survives :
  survives write_ext_node read_ext_node (fun x => ext_node_ok x /\ low_node (x_node x)).
Proof.
  intros [n m d] [(Hn & Hm & Hc & Hd) Hl]. cbn [x_node x_min x_deps] in *.
  field (node_survives n (conj Hn Hl)). field (version_survives m Hm).
  field (counted_survives _ _ _ _ dep_survives d (conj Hc Hd)).
  eexists. split; [unfold write_ext_node; cbn [x_node x_min x_deps]; write_out|].
  intros s. assoc. unfold read_ext_node. rstep R. rstep R0.
  specialize (R1 s). apply rbind_ok in R1 as (k & s1 & K & L).
  rewrite (rbind_step _ _ _ _ _ _ _ K), (rbind_step _ _ _ _ _ _ _ L). reflexivity.
Qed.
Lemma high_ext_node_raises x : ~ low_node (x_node x) -> exists e, write_ext_node x = Raise e.
Proof.
  intros H. destruct (high_node_raises _ H) as [e He]. unfold write_ext_node. rewrite He.
  apply (wcat_raise_in _ e). cbn. tauto.
Qed.

(** ** requests and responses *)
Lemma init_request_survives : survives write_init_request read_init_request
  (fun r => init_request_ok r /\ low_node (ir_source r) /\ low_node (x_node (ir_ext r))).
Proof.
  intros [t n x] [(Ht & Hn & Hx) [L1 L2]]. cbn [ir_task ir_source ir_ext] in *.
  field (task_survives t Ht). field (node_survives n (conj Hn L1)). field (ext_node_survives x (conj Hx L2)).
  eexists. split; [unfold write_init_request; cbn [ir_task ir_source ir_ext]; write_out|].
  intros s. assoc. unfold read_init_request, read_transport_request. rstep R. rstep R0. rstep R1. reflexivity.
Qed.
Lemma init_response_survives : survives write_init_response read_init_response init_response_ok.
Proof.
  intros [n l] [Hn Hl]. cbn in Hn, Hl. field (string_survives n Hn). field (string_array_survives l Hl).
  eexists. split; [unfold write_init_response; cbn [is_name is_interfaces]; write_out|].
  intros s. assoc. unfold read_init_response. rstep R. rstep R0. reflexivity.
Qed.
Lemma handshake_response_survives : survives write_handshake_response read_handshake_response
  (fun r => handshake_response_ok r /\ forall n, hr_node r = Some n -> low_node n).
Proof.
  intros [o c v] [(Ho & Hc & Hv) L]. cbn [hr_node hr_cluster hr_version] in *.
  field (string_survives c Hc). field (version_survives v Hv).
  destruct o as [n|].
  - field (node_survives n (conj (Ho n eq_refl) (L n eq_refl))). field (bool_survives true I).
    eexists. split; [unfold write_handshake_response; cbn [hr_node hr_cluster hr_version]; write_out|].
    intros s. assoc. unfold read_handshake_response. rstep R2.
    assert (E : forall s, (n0 <~ read_node ;; rret (Some n0)) (b1 ++ s) = Ok (Some n, s))
      by (intros s0; rstep R1; reflexivity).
    rstep E. rstep R. rstep R0. reflexivity.
  - field (bool_survives false I).
    eexists. split; [unfold write_handshake_response; cbn [hr_node hr_cluster hr_version]; write_out|].
    intros s. assoc. unfold read_handshake_response. rstep R1.
    rewrite (rbind_step _ _ _ _ _ None _ eq_refl). rstep R. rstep R0. reflexivity.
Qed.
Lemma version_size_range v : version_ok v -> 0 <= version_size v < 2 ^ 35.
Proof.
  intros H. unfold version_ok in H. unfold version_size.
  assert (S : forall i, i < 2 ^ 42 -> 0 <= v_int_size i < 2 ^ 35).
  { intros i Hi. pose proof (v_int_size_pos i). destruct (Z_lt_le_dec i 0); [rewrite v_int_size_small by lia; lia|].
    destruct (v_int_size_least i) as (_ & _ & L); [lia|]. specialize (L 6 ltac:(lia) ltac:(change (128 ^ 6) with (2 ^ 42); lia)). lia. }
  destruct (Z.land (vid v) MASK =? 0); cbn [negb]; [apply S|]; lia.
Qed.
Lemma tcp_handshake_request_survives :
  survives write_tcp_handshake_request read_tcp_handshake_request
  (fun r => tcp_handshake_request_ok r /\ tr_version r <> None).
Proof.
  intros [t [v|]] [[Ht Hv] Hn]; cbn [tr_task tr_version] in *; [|congruence]. specialize (Hv v eq_refl).
  field (task_survives t Ht). field (v_int_survives _ (version_size_range v Hv)). field (version_survives v Hv).
  eexists. split; [unfold write_tcp_handshake_request; cbn [tr_task tr_version]; write_out|].
  intros s. assoc. unfold read_tcp_handshake_request, read_transport_request. rstep R. rstep R0. rstep R1. reflexivity.
Qed.
Lemma tcp_handshake_response_survives :
  survives write_tcp_handshake_response read_tcp_handshake_response
  (fun o => exists v, o = Some v /\ version_ok v).
Proof.
  intros o (v & -> & Hv). field (version_survives v Hv). exists b. split; [exact W|].
  intros s. unfold read_tcp_handshake_response. rstep R. reflexivity.
Qed.
Lemma ack_survives : survives write_ack read_ack (fun _ => True).
Proof. exact bool_survives. Qed.

Lemma ext_transport_request_survives : survives write_ext_transport_request read_ext_transport_request
  (fun r => task_ok (etr_task r) /\ - 2 ^ 31 <= er_type (etr_er r) < 2 ^ 31 /\
            exists b, ser_ext_request (etr_er r) = Ok b /\ zlen b < 2 ^ 31).
Proof.
  intros [t [u ty]] (Ht & Hty & pb & Hb & Hl). cbn [etr_task etr_er er_type] in *.
  pose proof (zlen_nonneg _ pb).
  field (task_survives t Ht). field (v_int_survives (zlen pb) ltac:(cbv beta; lia)).
  eexists. split.
  - unfold write_ext_transport_request. cbn [etr_task etr_er]. rewrite Hb. cbn [bind].
    apply wcat_cons_eq; [exact W|]. apply wcat_cons_eq; [|apply wcat_nil_eq].
    apply wcat_cons_eq; [exact W0|]. reflexivity.
  - intros s. assoc. unfold read_ext_transport_request, read_transport_request. rstep R. rstep R0.
    rewrite (rbind_step _ _ _ _ _ _ _ (read_bytes_app pb _)).
    unfold rbind, rlift. rewrite (ext_request_parse _ _ _ Hty Hb ltac:(lia)). reflexivity.
Qed.
Lemma register_request_survives : survives write_register_request read_register_request
  (fun r => task_ok (rrr_task r) /\ exists b, ser_rest_actions (rrr_rra r) = Ok b /\ zlen b < 2 ^ 31).
Proof.
  intros [t m] (Ht & pb & Hb & Hl). cbn [rrr_task rrr_rra] in *.
  pose proof (zlen_nonneg _ pb).
  field (task_survives t Ht). field (v_int_survives (zlen pb) ltac:(cbv beta; lia)).
  eexists. split.
  - unfold write_register_request. cbn [rrr_task rrr_rra]. rewrite Hb. cbn [bind].
    apply wcat_cons_eq; [exact W|]. apply wcat_cons_eq; [|apply wcat_nil_eq].
    apply wcat_cons_eq; [exact W0|]. reflexivity.
  - intros s. assoc. unfold read_register_request, read_transport_request. rstep R. rstep R0.
    rewrite (rbind_step _ _ _ _ _ _ _ (read_bytes_app pb _)).
    unfold rbind, rlift. rewrite (rest_actions_parse _ _ Hb ltac:(lia)). reflexivity.
Qed.

(** ** the constructors of the two protobuf requests *)
Lemma wcat_map_ok A (w : A -> res bytes) l : (exists b, wcat (map w l) = Ok b) <-> Forall (fun x => exists b, w x = Ok b) l.
Proof.
  split.
  - intros [b H]. revert b H. induction l as [|x l IH]; intros b H; constructor; cbn [map] in H; winv; eauto.
  - intros H. apply wcat_total, Forall_map, H.
Qed.
Lemma new_etr_survives rt uid r : - 2 ^ 31 <= rt < 2 ^ 31 -> new_ext_transport_request rt uid = Ok r ->
  etr_er r = mkER (Some uid) rt /\
  exists bs, write_ext_transport_request r = Ok bs /\
    (zlen bs < 2 ^ 31 -> forall s, read_ext_transport_request (bs ++ s) = Ok (r, s)).
Proof.
  intros Hrt H. unfold new_ext_transport_request in H. apply bind_ok in H as (e & He & H).
  apply Ok_inj in H. subst r. split; [reflexivity|].
  assert (Ht : task_ok default_task) by (left; split; reflexivity).
  assert (Hs : exists pb, ser_ext_request (mkER (Some uid) rt) = Ok pb)
    by (unfold ser_ext_request; cbn [er_identity]; rewrite He; cbn [bind]; eauto).
  destruct Hs as [pb Hpb].
  destruct (task_survives _ Ht) as (tb & Wt & Rt).
  destruct (write_v_int_total (zlen pb) (zlen_nonneg _ pb)) as [kb Wk].
  assert (W : write_ext_transport_request (mkETR default_task (mkER (Some uid) rt)) = Ok (tb ++ (kb ++ pb ++ []) ++ [])).
  { unfold write_ext_transport_request. cbn [etr_task etr_er]. rewrite Hpb. cbn [bind].
    apply wcat_cons_eq; [exact Wt|]. apply wcat_cons_eq; [|apply wcat_nil_eq].
    apply wcat_cons_eq; [exact Wk|]. reflexivity. }
  eexists. split; [exact W|]. intros Hl s. rewrite !zlen_app in Hl.
  pose proof (zlen_nonneg _ tb). pose proof (zlen_nonneg _ kb). change (zlen (@nil byte)) with 0 in Hl.
  apply (survives_codec _ _ _ _ ext_transport_request_survives); [|exact W]. cbn [etr_task etr_er er_type].
  split; [exact Ht|]. split; [exact Hrt|]. exists pb. split; [exact Hpb|lia].
Qed.
Lemma new_etr_total rt uid : text_ok uid -> exists r, new_ext_transport_request rt uid = Ok r.
Proof.
  intros [e [He _]]. apply is_utf8_encode in He. unfold new_ext_transport_request. rewrite He. cbn. eauto.
Qed.
Lemma ser_strings_total num l : Forall (fun x => exists b, utf8_encode x = Ok b) l ->
  exists b, ser_strings num l = Ok b.
Proof.
  intros H. unfold ser_strings. apply wcat_map_ok. eapply Forall_impl; [|exact H].
  intros x [b Hb]. cbn beta. rewrite Hb. cbn [bind]. eauto.
Qed.
Lemma new_rrr_survives uid acts dep r : new_register_request uid acts dep = Ok r ->
  rrr_rra r = mkRRA (Some uid) acts dep /\
  exists bs, write_register_request r = Ok bs /\
    (zlen bs < 2 ^ 31 -> forall s, read_register_request (bs ++ s) = Ok (r, s)).
Proof.
  intros H. unfold new_register_request in H. apply bind_ok in H as (e & He & H).
  apply bind_ok in H as (a & Ha & H). apply bind_ok in H as (d & Hd & H).
  apply Ok_inj in H. subst r. split; [reflexivity|].
  assert (Ht : task_ok default_task) by (left; split; reflexivity).
  destruct (ser_strings_total 2 acts (proj1 (wcat_map_ok _ _ _) (ex_intro _ a Ha))) as [ab Hab].
  destruct (ser_strings_total 3 dep (proj1 (wcat_map_ok _ _ _) (ex_intro _ d Hd))) as [db Hdb].
  assert (Hs : exists pb, ser_rest_actions (mkRRA (Some uid) acts dep) = Ok pb).
  { unfold ser_rest_actions. cbn [rra_identity rra_actions rra_deprecated]. rewrite He. cbn [bind].
    rewrite Hab, Hdb. cbn [bind]. eauto. }
  destruct Hs as [pb Hpb].
  destruct (task_survives _ Ht) as (tb & Wt & Rt).
  destruct (write_v_int_total (zlen pb) (zlen_nonneg _ pb)) as [kb Wk].
  assert (W : write_register_request (mkRRR default_task (mkRRA (Some uid) acts dep)) = Ok (tb ++ (kb ++ pb ++ []) ++ [])).
  { unfold write_register_request. cbn [rrr_task rrr_rra]. rewrite Hpb. cbn [bind].
    apply wcat_cons_eq; [exact Wt|]. apply wcat_cons_eq; [|apply wcat_nil_eq].
    apply wcat_cons_eq; [exact Wk|]. reflexivity. }
  eexists. split; [exact W|]. intros Hl s. rewrite !zlen_app in Hl.
  pose proof (zlen_nonneg _ tb). pose proof (zlen_nonneg _ kb). change (zlen (@nil byte)) with 0 in Hl.
  apply (survives_codec _ _ _ _ register_request_survives); [|exact W]. cbn [rrr_task rrr_rra].
  split; [exact Ht|]. exists pb. split; [exact Hpb|lia].
Qed.
Lemma text_ok_encodes x : text_ok x -> exists b, utf8_encode x = Ok b.
Proof. intros [e [He _]]. apply is_utf8_encode in He. eauto. Qed.
Lemma new_rrr_total uid acts dep : text_ok uid -> Forall text_ok acts -> Forall text_ok dep ->
  exists r, new_register_request uid acts dep = Ok r.
Proof.
  intros Hu Ha Hd. unfold new_register_request. destruct (text_ok_encodes _ Hu) as [e ->]. cbn [bind].
  destruct (proj2 (wcat_map_ok _ utf8_encode acts)) as [a ->]; [eapply Forall_impl; [|exact Ha]; apply text_ok_encodes|].
  cbn [bind].
  destruct (proj2 (wcat_map_ok _ utf8_encode dep)) as [d ->]; [eapply Forall_impl; [|exact Hd]; apply text_ok_encodes|].
  cbn [bind]. eauto.
Qed.

(** ** refutations *)
Lemma text_ok_nil : text_ok [].
Proof. exists []. split; [constructor|vm_compute; discriminate]. Qed.
Lemma addr_refuted : ~ survives write_addr read_addr addr_ok.
Proof.
  intros S. destruct (S (mkAddr (2 ^ 31) [] 0)) as (bs & W & _).
  - split; [cbn; lia|]. split; [apply text_ok_nil|cbn; lia].
  - vm_compute in W. discriminate.
Qed.
Definition high_node : node :=
  mkNode [] [] [] [] [] (mkAddr (2 ^ 31) [] 0) [] [] (mkVersion 0).
Lemma high_node_ok : node_ok high_node.
Proof.
  split; [repeat constructor; apply text_ok_nil|]. split; [split; [cbn; lia|]; split; [apply text_ok_nil|cbn; lia]|].
  split; [split; [vm_compute; reflexivity|split; constructor]|]. split; [vm_compute; reflexivity|].
  split; [constructor|]. split; [constructor|]. split; cbn; lia.
Qed.
Lemma node_refuted : ~ survives write_node read_node node_ok.
Proof. intros S. destruct (S _ high_node_ok) as (bs & W & _). vm_compute in W. discriminate. Qed.
Lemma tcp_refuted : ~ survives write_tcp_handshake_request read_tcp_handshake_request tcp_handshake_request_ok.
Proof.
  intros S. destruct (S (mkTcpReq default_task None)) as (bs & W & R).
  - split; [left; split; reflexivity|]. discriminate.
  - assert (E : bs = [x00]) by (vm_compute in W; congruence). subst bs. specialize (R []).
    vm_compute in R. discriminate.
Qed.

(** ** base64 *)
Lemma b64_char_ok n : 0 <= n < 64 -> b64_char n = nth (Z.to_nat n) base64url 0.
Proof.
  intros H. assert (E : forallb (fun k => b64_char (Z.of_nat k) =? nth k base64url 0) (seq 0 64) = true) by reflexivity.
  rewrite forallb_forall in E. specialize (E (Z.to_nat n) ltac:(apply in_seq; lia)).
  rewrite Z2Nat.id in E by lia. lia.
Qed.
Lemma b64_char_inj a b : 0 <= a < 64 -> 0 <= b < 64 -> b64_char a = b64_char b -> a = b.
Proof.
  intros Ha Hb. unfold b64_char.
  repeat match goal with |- context [if ?b then _ else _] => destruct b eqn:? end; lia.
Qed.
Ltac Zify.zify_post_hook ::= Z.div_mod_to_equations.
Lemma b64_group a b c : let n := b2z a * 65536 + b2z b * 256 + b2z c in
  0 <= n / 262144 < 64 /\ 0 <= (n / 4096) mod 64 < 64 /\ 0 <= (n / 64) mod 64 < 64 /\ 0 <= n mod 64 < 64 /\
  n = n / 262144 * 262144 + (n / 4096) mod 64 * 4096 + (n / 64) mod 64 * 64 + n mod 64.
Proof.
  cbn zeta. pose proof (b2z_range a). pose proof (b2z_range b). pose proof (b2z_range c). lia.
Qed.
Ltac Zify.zify_post_hook ::= idtac.

Lemma b64_group_inj a b c a' b' c' r r' :
  urlsafe_b64encode (a :: b :: c :: r) = urlsafe_b64encode (a' :: b' :: c' :: r') ->
  a = a' /\ b = b' /\ c = c' /\ urlsafe_b64encode r = urlsafe_b64encode r'.
Proof.
  cbn [urlsafe_b64encode app]. destruct (b64_group a b c) as (H1 & H2 & H3 & H4 & H5).
  destruct (b64_group a' b' c') as (K1 & K2 & K3 & K4 & K5).
  intros H. inversion H as [[E1 E2 E3 E4 E5]]. clear H.
  apply b64_char_inj in E1, E2, E3, E4; try assumption.
  rewrite E1, E2, E3, E4, <- K5 in H5.
  pose proof (b2z_range a). pose proof (b2z_range b). pose proof (b2z_range c).
  pose proof (b2z_range a'). pose proof (b2z_range b'). pose proof (b2z_range c').
  repeat split; try assumption; apply b2z_inj; lia.
Qed.
Ltac Zify.zify_post_hook ::= Z.div_mod_to_equations.
Lemma b64_last a : let n := b2z a * 65536 in
  0 <= n / 262144 < 64 /\ 0 <= (n / 4096) mod 64 < 64 /\
  n = n / 262144 * 262144 + (n / 4096) mod 64 * 4096.
Proof. cbn zeta. pose proof (b2z_range a). lia. Qed.
Ltac Zify.zify_post_hook ::= idtac.

Lemma ephemeral_shape u : length u = 16%nat ->
  exists ds, length ds = 22%nat /\ Forall (fun d => 0 <= d < 64) ds /\ number 64 ds = number 256 (map b2z u) * 16 /\
    new_ephemeral_id u = map (fun d => nth (Z.to_nat d) base64url 0) ds.
Proof.
  intros H. do 16 (destruct u as [|? u]; [discriminate|]). destruct u; [|discriminate]. clear H.
  unfold new_ephemeral_id. cbn [urlsafe_b64encode app]. unfold drop_last2.
  cbn [length Nat.sub firstn map]. unfold number. cbn [fold_left].
  repeat match goal with
  | |- context [b64_char ((b2z ?a * 65536 + b2z ?b * 256 + b2z ?c) / _)] =>
      let H := fresh in pose proof (b64_group a b c) as H; cbv zeta in H; destruct H as (? & ? & ? & ? & ?);
      remember (b2z a * 65536 + b2z b * 256 + b2z c)
  end.
  match goal with |- context [b64_char (b2z ?a * 65536 / _)] => destruct (b64_last a) as (? & ? & ?); remember (b2z a * 65536) end.
  rewrite !b64_char_ok by assumption.
  match goal with |- exists ds, _ /\ _ /\ _ /\ ?l = _ =>
    let rec go l := match l with
      | nth (Z.to_nat ?d) base64url 0 :: ?t => let r := go t in constr:(d :: r) | _ => constr:(@nil Z) end in
    let r := go l in exists r end.
  split; [reflexivity|]. split; [repeat (constructor; [assumption|]); constructor|]. split; [|reflexivity].
  cbn [fold_left]. lia.
Qed.
Lemma ephemeral_inj u v : length u = 16%nat -> length v = 16%nat ->
  new_ephemeral_id u = new_ephemeral_id v -> u = v.
Proof.
  intros Hu Hv H.
  assert (D : forall l : pystr, length l = 24%nat -> l = firstn 22 l ++ skipn 22 l)
    by (intros; symmetry; apply firstn_skipn).
  do 16 (destruct u as [|? u]; [discriminate|]). destruct u; [|discriminate].
  do 16 (destruct v as [|? v]; [discriminate|]). destruct v; [|discriminate].
  assert (E : urlsafe_b64encode [b; b0; b1; b2; b3; b4; b5; b6; b7; b8; b9; b10; b11; b12; b13; b14]
            = urlsafe_b64encode [b15; b16; b17; b18; b19; b20; b21; b22; b23; b24; b25; b26; b27; b28; b29; b30]).
  { match type of H with new_ephemeral_id ?x = new_ephemeral_id ?y =>
      transitivity (new_ephemeral_id x ++ [61; 61]); [reflexivity|]; rewrite H; reflexivity end. }
  clear H D.
  do 5 (apply b64_group_inj in E as (-> & -> & -> & E)).
  cbn [urlsafe_b64encode] in E. inversion E as [[E1 E2]].
  destruct (b64_last b14) as (H1 & H2 & H3). destruct (b64_last b30) as (K1 & K2 & K3).
  apply b64_char_inj in E1, E2; try assumption. rewrite E1, E2, <- K3 in H3.
  assert (X : b14 = b30) by (apply b2z_inj; lia). rewrite X. reflexivity.
Qed.
