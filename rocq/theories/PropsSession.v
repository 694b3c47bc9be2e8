(** * Properties C44, C50: the exchanges of the host in terms of frames in the wire format, and
    of the whole server *)
From Coq Require Import String ZArith List Bool Lia ZifyBool Permutation.
From Coq Require Import Strings.Byte.
From Verif Require Import Py Stream Version Frame Proto Messages Rest Routes Settings Host PyFacts
  Spec SpecFacts MsgFacts SettingsFacts FrameFacts PropsMessages Wire WireFacts WireFacts2 WireFacts3 WireFacts4 WireFacts5
  HostSpec HostFacts PropsHost PropsHistory PropsWire.
Import ListNotations.
Open Scope list_scope.
Open Scope Z_scope.
Ltac Zify.zify_post_hook ::= idtac.

(** a frame in the wire format, contexts affected by C22 excepted, with anything behind it *)
Definition frame_in (resp err : bool) (m : message) (raw : bytes) : Prop :=
  Forall length_prefix_ok (ctx_strings (m_ctx m)) /\ exists f s, w_message resp err m f /\ raw = f ++ s.
(** a chunk with other traffic: a request that is no initialization, an error response, or a
    response to some other request than [ks] *)
Definition other_traffic (ks : list Z) (raw : bytes) : Prop :=
  exists resp err m, frame_in resp err m raw /\
    if resp then err = true \/ ~ In (m_id m) ks else ~ is_init m.

Lemma frame_in_response so err m raw : set_order_ok so -> frame_in true err m raw ->
  exists s, response_in so raw err (m_id m) (m_payload m ++ s).
Proof.
  intros Hso (Hp & f & s & F & ->). exists s.
  destruct (C73_wire_frames_partial so m f Hso Hp) as (_ & _ & R). apply R, F.
Qed.
Lemma frame_in_request so err m raw : set_order_ok so -> frame_in false err m raw ->
  exists m', read_as so raw m' /\ m_action m' = m_action m.
Proof.
  intros Hso (Hp & f & s & F & ->).
  destruct (C73_wire_frames_partial so m f Hso Hp) as (_ & R & _). destruct (R err s F) as (c & _ & Ra).
  eexists. split; [exact Ra|reflexivity].
Qed.
Lemma read_as_action so raw m m' : read_as so raw m -> read_as so raw m' -> m_action m = m_action m'.
Proof.
  intros (hd & t & n & o0 & n' & o & E & _ & N & R & _ & _ & _ & A & _) (hd1 & t1 & n1 & o1 & n1' & o2 & E1 & _ & N1 & R1 & _ & _ & _ & A1 & _).
  rewrite E in E1. apply Ok_inj, pair_equal_spec in E1 as [<- <-].
  rewrite A, A1. rewrite new_blank_request in N, N1. apply pair_equal_spec in N as [N _]. apply pair_equal_spec in N1 as [N1 _].
  apply Ok_inj in N. apply Ok_inj in N1. subst o0 o1.
  rewrite (blank_req so n1 n) in R. rewrite R in R1. apply Ok_inj, pair_equal_spec in R1 as [<- _]. reflexivity.
Qed.
Lemma response_in_id so raw err k p err' k' p' : response_in so raw err k p -> response_in so raw err' k' p' -> err = err' /\ k = k'.
Proof.
  intros (hd & t & n & o0 & n' & o & E & _ & X & Y & _) (hd1 & t1 & n1 & o1 & n1' & o2 & E1 & _ & X1 & Y1 & _).
  rewrite E in E1. apply Ok_inj, pair_equal_spec in E1 as [<- <-]. split; congruence.
Qed.
Lemma other_unrelated so ks raw : set_order_ok so -> other_traffic ks raw -> unrelated so ks raw.
Proof.
  intros Hso (resp & err & m & F & C). destruct resp.
  - destruct (frame_in_response so err m raw Hso F) as (s & R). split.
    + intros m' Hm. exfalso. eapply request_or_response; eassumption.
    + intros k p Hk R'. destruct (response_in_id _ _ _ _ _ _ _ _ R R') as [E <-]. destruct C as [C|C]; [congruence|contradiction].
  - destruct (frame_in_request so err m raw Hso F) as (m' & R & A). split.
    + intros m2 R2 I. apply C. unfold is_init in *. rewrite <- A, <- I. eapply read_as_action; eassumption.
    + intros k p _ R'. eapply request_or_response; eassumption.
Qed.

Lemma merge_snoc d l kv : merge d (l ++ [kv]) = dict_set streqb (fst kv) (snd kv) (merge d l).
Proof. unfold merge. rewrite fold_left_app. reflexivity. Qed.
Lemma merge_lookup l k : forall d, dict_get streqb k (merge d l) =
  match dict_get streqb k (merge [] l) with Some v => Some v | None => dict_get streqb k d end.
Proof.
  intros d. induction l as [|[k' v'] l IH] using rev_ind; [reflexivity|]. rewrite !merge_snoc. cbn [fst snd].
  destruct (streqb k' k) eqn:E.
  - apply streqb_eq in E. subst k'. rewrite !dict_get_set_same by apply streqb_eq. reflexivity.
  - rewrite !dict_get_set_other; [exact IH| | | |]; try apply streqb_eq; intros ->; rewrite streqb_refl in E; discriminate.
Qed.
Lemma settings_into strict n f d bs s old : (n < f)%nat ->
  w_dict strict (fun v b => w_generic strict v b /\ nested v n) d bs ->
  exists new, read_settings f old (bs ++ s) = (Ok s, new) /\
    forall k, dict_get streqb k new = match dict_get streqb k d with Some v => Some v | None => dict_get streqb k old end.
Proof.
  intros Hf (l & Df & _ & W). unfold w_list in W. apply parts_cons_inv in W as (a & b & -> & V & W).
  exists (merge old l). split.
  - unfold read_settings. rewrite <- app_assoc, (v_int_reads strict _ a _ I V). unfold zlen. rewrite Nat2Z.id.
    pose proof (settings_loop_dict f (length l) old (b ++ s)) as L.
    assert (R : reads (read_pair (read_generic_value f))
      (fun kv : pystr * pyval => parts [w_string strict (fst kv); fun b => w_generic strict (snd kv) b /\ nested (snd kv) n]) (fun _ => True)).
    { apply reads_upto_eq. intros kv c t _ H.
      destruct (pair_reads_upto strict _ eq (read_generic_value f) (fun v b => w_generic strict v b /\ nested v n)) with (a := kv) (bs := c) (s := t)
        as (kv' & E & E1 & E2); [|exact I|exact H|].
      - intros v c' t' _ [Wv Nv]. exists v. split; [|reflexivity]. exact (generic_reads strict f n Hf v c' t' Nv Wv).
      - exists kv'. split; [exact E|]. destruct kv, kv'. cbn [fst snd] in *. congruence. }
    rewrite (rbind_step _ _ _ _ _ _ _ (n_reads _ _ _ _ R l b s (proj2 (Forall_forall (fun _ => True) l) (fun _ _ => I)) W)) in L.
    destruct (read_settings_loop f (length l) old (b ++ s)) as [[t|e] d']; [|discriminate].
    unfold rret in L. apply Ok_inj, pair_equal_spec in L as [-> ->]. reflexivity.
  - intros k. rewrite merge_lookup. apply dict_from_pairs in Df. unfold dict_of_pairs in Df. fold (merge [] l) in Df. rewrite Df. reflexivity.
Qed.

(** C44 with every message a frame in the wire format.  [k] and [k + 1] are the ids of the
    requests the host makes. *)
Theorem C44_wire : forall U ev (ext : extension U) strict m raw q,
  set_order_ok (e_so ev) -> frame_in false false m raw -> m_id m <> 0 -> is_init m ->
  w_init_request strict q (m_payload m) ->
  a_addr (n_addr (ir_source q)) < 2 ^ 31 -> a_addr (n_addr (x_node (ir_ext q))) < 2 ^ 31 ->
  text_ok (xt_name ext) -> texts_ok (xt_interfaces ext) -> Forall text_ok (rg_named (xt_registry ext)) ->
  exists pe pr pi,
    w_ext_transport_request (mkTask [] None) [] 4 pe /\
    (zlen pr < 2 ^ 35 -> w_register_request (mkTask [] None) (xt_name ext) (rg_named (xt_registry ext)) [] pr) /\
    w_init_response true (mkInitResp (xt_name ext) (xt_interfaces ext)) pi /\
    (zlen raw <= 2 ^ 30 -> zlen pr < 2 ^ 29 -> zlen pi < 2 ^ 29 ->
     forall h, running ev ext h -> hs_next h + 4 < 2 ^ 63 ->
     exists k register env_settings response,
       w_frame false (request_for m (k + 1) (py "internal:discovery/registerrestactions") pr) register /\
       w_frame false (request_for m k (py "internal:discovery/enviornmentsettings") pe) env_settings /\
       w_frame true (response_to m pi) response /\
       (* the initialization is followed by the registration *)
       forall uuid, exists h1, on_input ev ext uuid raw h = (Ok (Some register), h1) /\
       forall l1, Forall (fun x => other_traffic [k; k + 1] (snd x)) l1 ->
       let h2 := feed ev ext h1 l1 in
       forall uuid2 raw2 r2, frame_in true false r2 raw2 -> m_id r2 = k + 1 ->
         (* a negative acknowledgement ends it *)
         (w_bool false (m_payload r2) -> exists h3, on_input ev ext uuid2 raw2 h2 = (Ok None, h3) /\
            forall l2 uuid4 raw4 r4, frame_in true false r4 raw4 -> m_id r4 = k + 1 ->
              fst (on_input ev ext uuid4 raw4 (feed ev ext h3 l2)) = Ok None) /\
         (* a positive one is followed by the request for the settings, *)
         (w_bool true (m_payload r2) -> exists h3, on_input ev ext uuid2 raw2 h2 = (Ok (Some env_settings), h3) /\
            forall l2, Forall (fun x => other_traffic [k] (snd x)) l2 ->
            let h4 := feed ev ext h3 l2 in
            forall uuid4 raw4 r4 strict4 n d, frame_in true false r4 raw4 -> m_id r4 = k -> (n < e_fuel ev)%nat ->
              w_dict strict4 (fun v b => w_generic strict4 v b /\ nested v n) d (m_payload r4) ->
              (* and those by the response; the settings are then known *)
              exists h5, on_input ev ext uuid4 raw4 h4 = (Ok (Some response), h5) /\
                forall key, dict_get streqb key (hs_settings h5) =
                  match dict_get streqb key d with Some v => Some v | None => dict_get streqb key (hs_settings h4) end)).
Proof.
  intros U ev ext strict m raw q Hso (Hp & f & s & F & ->) Hi Hin Wq L1 L2 T1 T2 T3.
  pose proof (C73_wire_frames_partial (e_so ev) m f Hso Hp) as (Fo & _). specialize (Fo F Hi).
  destruct (C44_initialization U ev ext strict m f q Hso Fo Hin Wq L1 L2 T1 T2 T3) as (pe & pr & pi & R1 & R2 & R3 & X).
  exists pe, pr, pi. split; [exact R1|]. split; [exact R2|]. split; [exact R3|]. intros B1 B2 B3 h Hr Hn.
  assert (Bf : zlen f <= 2 ^ 30) by (rewrite zlen_app in B1; pose proof (zlen_nonneg _ s); lia).
  destruct (X Bf B2 B3 h Hr Hn) as (k & rg & es & rs & C1 & C2 & C3 & Y).
  exists k, rg, es, rs. split; [apply C1, Hp|]. split; [apply C2, Hp|]. split; [apply C3, Hp|].
  intros uuid. destruct (Y uuid s) as (h1 & E1 & Z). exists h1. split; [exact E1|]. intros l1 O1. cbv zeta.
  assert (O1' : Forall (fun x => unrelated (e_so ev) [k; k + 1] (snd x)) l1)
    by (eapply Forall_impl; [|exact O1]; intros x; apply other_unrelated, Hso).
  specialize (Z l1 O1'). cbv zeta in Z. set (h2 := feed ev ext h1 l1) in *.
  intros uuid2 raw2 r2 F2 I2. destruct (Z uuid2 raw2) as (_ & Zn & Zp).
  destruct (frame_in_response (e_so ev) false r2 raw2 Hso F2) as (s2 & Rr2). rewrite I2 in Rr2.
  assert (Ra : forall b, w_bool b (m_payload r2) -> read_ack (m_payload r2 ++ s2) = Ok (b, s2)) by (intros b W; exact (bool_reads b _ s2 I W)).
  split.
  - intros W. destruct (Zn _ _ Rr2 (Ra false W)) as (h3 & E3 & P3). exists h3. split; [exact E3|].
    intros l2 uuid4 raw4 r4 F4 I4. destruct (frame_in_response (e_so ev) false r4 raw4 Hso F4) as (s4 & Rr4). rewrite I4 in Rr4.
    destruct (C46_not_awaited U ev ext uuid4 raw4 false (k + 1) _ (feed ev ext h3 l2) Rr4) as (h5 & E5 & _); [|rewrite E5; reflexivity].
    right. apply P3.
  - intros W. destruct (Zp _ _ Rr2 (Ra true W)) as (h3 & E3 & P3). exists h3. split; [exact E3|].
    intros l2 O2. assert (O2' : Forall (fun x => unrelated (e_so ev) [k] (snd x)) l2)
      by (eapply Forall_impl; [|exact O2]; intros x; apply other_unrelated, Hso).
    specialize (P3 l2 O2'). cbv zeta in *. set (h4 := feed ev ext h3 l2) in *.
    intros uuid4 raw4 r4 strict4 n d F4 I4 Hf W4. destruct (frame_in_response (e_so ev) false r4 raw4 Hso F4) as (s4 & Rr4). rewrite I4 in Rr4.
    destruct (settings_into strict4 n (e_fuel ev) d _ s4 (hs_settings h4) Hf W4) as (new & Rs & G).
    destruct (P3 uuid4 raw4 _ _ _ Rr4 Rs) as (h5 & E5 & <-). exists h5. split; [exact E5|exact G].
Qed.
Print Assumptions C44_wire.
Lemma ex_ctx_ok : ctx_ok ex_ctx.
Proof.
  split; cbn [c_req c_res ex_ctx]; (split; [vm_compute; reflexivity|]); (split; [constructor; [intros []|constructor]|]);
    (constructor; [|constructor]); cbn [fst snd].
  - split; text.
  - split; [text|]. split; [split; [vm_compute; discriminate|constructor; [text|constructor; [text|constructor]]]|].
    constructor; [intros [H|[]]; vm_compute in H; discriminate|constructor; [intros []|constructor]].
Qed.
Lemma ex_prefix : Forall length_prefix_ok (ctx_strings ex_ctx).
Proof.
  cbn [ex_ctx ctx_strings c_req c_res flat_map app fst snd].
  repeat (constructor; [apply length_prefix_ascii; vm_compute; repeat constructor; discriminate|]). constructor.
Qed.
Definition ex_reply (id : Z) (p : bytes) : message := mkMsg ex_ctx [] (version_of_id 2110399) [] id false false p.
Lemma ex_reply_message id p : id <> 0 -> ex_answer id p <> [] -> w_message true false (ex_reply id p) (ex_answer id p).
Proof.
  intros Hi Hne. unfold ex_answer in *.
  match goal with |- context [new_response ?a ?b ?c ?d ?e ?f ?g ?h] => destruct (new_response a b c d e f g h) as [[o|e0] n'] eqn:E end;
    [|contradiction Hne; reflexivity].
  destruct (write_outbound o) as [out|] eqn:W; [|contradiction Hne; reflexivity].
  exact (response_frame _ _ _ _ _ _ _ _ _ _ _ ex_ctx_ok Hi E W ex_prefix).
Qed.
Lemma ex_reply_in id p : id <> 0 -> ex_answer id p <> [] -> frame_in true false (ex_reply id p) (ex_answer id p).
Proof.
  intros Hi Hne. split; [exact ex_prefix|]. exists (ex_answer id p), []. split; [|symmetry; apply app_nil_r].
  apply ex_reply_message; assumption.
Qed.
Example C44_wire_case :
  frame_in false false (ex_init 77) (ex_raw (ex_init 77) ++ [x00]) /\ is_init (ex_init 77) /\
  w_init_request true ex_init_request (m_payload (ex_init 77)) /\
  other_traffic [2; 3] (ex_answer 9 []) /\ other_traffic [2; 3] (ex_raw ex_tcp) /\
  frame_in true false (ex_reply 3 [x01]) (ex_answer 3 [x01]) /\ w_bool true (m_payload (ex_reply 3 [x01])) /\
  frame_in true false (ex_reply 2 ex_settings) (ex_answer 2 ex_settings) /\
  w_dict true (fun v b => w_generic true v b /\ nested v 0) [(py "k", VStr (py "v"))] (m_payload (ex_reply 2 ex_settings)).
Proof.
  split; [split; [exact ex_prefix|]; eexists _, _; split; [apply ex_wire; [text|discriminate|vm_compute; discriminate]|reflexivity]|].
  split; [reflexivity|]. split; [apply ex_init_wire|].
  split; [exists true, false, (ex_reply 9 []); split; [apply ex_reply_in; [discriminate|vm_compute; discriminate]|];
    right; intros [H|[H|[]]]; discriminate|].
  split; [exists false, false, ex_tcp; split; [|intros H; vm_compute in H; discriminate];
    split; [exact ex_prefix|]; exists (ex_raw ex_tcp), []; split; [apply ex_wire; [text|discriminate|vm_compute; discriminate]|symmetry; apply app_nil_r]|].
  split; [apply ex_reply_in; [discriminate|vm_compute; discriminate]|]. split; [reflexivity|].
  split; [apply ex_reply_in; [discriminate|vm_compute; discriminate]|].
  exists [(py "k", VStr (py "v"))]. split; [apply dict_from_self; constructor; [intros []|constructor]|]. split; [reflexivity|].
  assert (S1 : w_string true (py "k") [x01; x6b]) by (apply (by_writer _ _ _ _ _ _ (string_writes true)); [text|reflexivity]).
  assert (S2 : w_string true (py "v") [x01; x76]) by (apply (by_writer _ _ _ _ _ _ (string_writes true)); [text|reflexivity]).
  assert (N1 : w_vint true 1 [x01]).
  { split; [constructor; reflexivity|]. split; [discriminate|]. intros H. discriminate. }
  unfold w_list. apply (parts_cons _ _ [x01] [x01; x6b; x00; x01; x76] N1). cbn [map fst snd]. apply parts_one.
  apply (parts_cons _ _ [x01; x6b] [x00; x01; x76] S1). apply parts_one. split; [constructor; exact S2|constructor; discriminate].
Qed.

(** C50: the server handles the chunks of all connections one after the other, in the order
    received, with one host state: what the theorems about [on_input] and [feed] say holds for
    whatever connections the chunks come from. *)
Theorem C50_one_history : forall U ev (ext : extension U) u es,
  let chunks l := map (fun x => (hd_uuid x, hd_raw x)) l in
  let l := log ev ext (initial_world u) es in
  w_host (run_world ev ext (initial_world u) es) = feed ev ext (initial_host u) (chunks l) /\
  forall l1 x l2, l = l1 ++ x :: l2 ->
    hd_reply x = match fst (on_input ev ext (hd_uuid x) (hd_raw x) (feed ev ext (initial_host u) (chunks l1))) with
                 | Ok r => r | Raise _ => None end.
Proof.
  intros U ev ext u es. cbv zeta. split; [apply host_of_run|].
  induction es as [|e es IH] using rev_ind; intros l1 x l2 E.
  - destruct l1; discriminate.
  - rewrite log_snoc in E. set (w := run_world ev ext (initial_world u) es) in *.
    assert (C : handles ev ext w e = [] \/ exists y, handles ev ext w e = [y] /\
      hd_reply y = match fst (on_input ev ext (hd_uuid y) (hd_raw y) (w_host w)) with Ok r => r | Raise _ => None end).
    { unfold handles. destruct e as [a|a raw uuid|a ok|a|a| | |]; auto. destruct (10240 <? zlen raw); [auto|].
      destruct (conn_of w a) as [[|d|]|]; auto. destruct raw as [|b raw]; [auto|]. right. eexists. split; [reflexivity|]. reflexivity. }
    destruct C as [C|(y & C & R)]; rewrite C in E; [rewrite app_nil_r in E; apply (IH _ _ _ E)|].
    destruct l2 as [|z l2] using rev_ind.
    + apply app_inj_tail in E as [<- <-]. rewrite R. unfold w. rewrite host_of_run. reflexivity.
    + clear IHl2. rewrite app_comm_cons, app_assoc in E. apply app_inj_tail in E as [E _]. apply (IH _ _ _ E).
Qed.
Print Assumptions C50_one_history.
Example C50_one_history_case : let es := [Accept 0; Accept 1; Recv 1 (ex_raw (ex_init 77)) []; Recv 0 (ex_answer 3 [x01]) []; SendDone 0 true] in
  map hd_conn (log ex_env ex_ext (initial_world 0) es) = [1; 0] /\
  length (sent_on (run_world ex_env ex_ext (initial_world 0) es) 0) = 1%nat.
Proof. vm_compute. split; reflexivity. Qed.
