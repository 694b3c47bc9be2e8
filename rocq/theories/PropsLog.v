(** * Properties C95, C96: what the log tells *)
From Coq Require Import String ZArith List Bool Lia.
From Coq Require Import Strings.Byte.
From Verif Require Import Py PyFacts Stream StreamFacts StreamFacts2 Version VersionFacts Frame Proto Messages Rest Routes Settings Host
  Spec SpecFacts FrameFacts Wire WireFacts WireFacts4 HostSpec HostFacts PropsMessages PropsHost Log.
Import ListNotations.
Open Scope list_scope.
Open Scope Z_scope.

(** what splits a text into lines (str.splitlines) *)
Definition line_breaks : list Z := [10; 11; 12; 13; 28; 29; 30; 133; 8232; 8233].
Definition one_line (x : pystr) : Prop := forall c, In c x -> ~ In c line_breaks.
(** In every version of Unicode the breaks from 128 up (NEL, LINE SEPARATOR, PARAGRAPH
    SEPARATOR) are not printable; the text of an object is its class and address. *)
Definition display_ok (ds : display) : Prop :=
  (forall c, In c line_breaks -> ds_printable ds c = false) /\ forall i, one_line (ds_object ds i).

(** ** which texts have no breaks *)
Lemma one_nil : one_line []. Proof. intros c []. Qed.
Lemma one_app x y : one_line (x ++ y) <-> one_line x /\ one_line y.
Proof.
  unfold one_line. split; [intros H; split; intros c I; apply H, in_or_app; auto|].
  intros [A B] c I. apply in_app_or in I as [I|I]; auto.
Qed.
Lemma one_cons c x : one_line (c :: x) <-> ~ In c line_breaks /\ one_line x.
Proof.
  change (c :: x) with ([c] ++ x). rewrite one_app. split; intros [A B]; (split; [|exact B]).
  - apply A. left. reflexivity.
  - intros d [<-|[]]. exact A.
Qed.
Fixpoint one_lineb (x : pystr) : bool :=
  match x with [] => true | c :: t => negb (existsb (Z.eqb c) line_breaks) && one_lineb t end.
Lemma one_lineb_ok x : one_lineb x = true -> one_line x.
Proof.
  induction x as [|c t IH]; [intros _; apply one_nil|]. cbn [one_lineb]. intros H. apply andb_true_iff in H as [A B].
  apply one_cons. split; [|auto]. intros I. rewrite negb_true_iff in A.
  assert (existsb (Z.eqb c) line_breaks = true); [|congruence]. apply existsb_exists. exists c. split; [exact I|apply Z.eqb_refl].
Qed.
Ltac lit := apply one_lineb_ok; vm_compute; reflexivity.
Lemma one_range c : 32 <= c < 128 -> ~ In c line_breaks.
Proof. intros H. cbn [In line_breaks]. lia. Qed.
Lemma one_printable x : Forall (fun c => 32 <= c < 128) x -> one_line x.
Proof. intros H c I. rewrite Forall_forall in H. apply one_range, H, I. Qed.
Lemma hex_printable n c : Forall (fun c => 32 <= c < 128) (hex_digits n c).
Proof.
  revert c. induction n as [|n IH]; intros c; cbn [hex_digits]; [constructor|]. apply Forall_app. split; [apply IH|].
  constructor; [|constructor]. unfold hex_digit. pose proof (Z.mod_pos_bound c 16 eq_refl). destruct (c mod 16 <? 10) eqn:E; lia.
Qed.
Lemma quote_two l : quote_of l = 39 \/ quote_of l = 34.
Proof. unfold quote_of. destruct (_ && _); auto. Qed.
Lemma one_repr_ascii q c : q = 39 \/ q = 34 -> c < 128 -> one_line (repr_ascii q c).
Proof.
  intros Q C. unfold repr_ascii. destruct ((c =? q) || (c =? 92)) eqn:E1.
  { apply one_printable. constructor; [lia|]. constructor; [|constructor]. apply orb_true_iff in E1. destruct E1, Q; lia. }
  destruct (c =? 9) eqn:E2; [lit|]. destruct (c =? 10) eqn:E3; [lit|]. destruct (c =? 13) eqn:E4; [lit|].
  destruct ((c <? 32) || (c =? 127)) eqn:E5.
  - apply one_printable. do 2 (constructor; [lia|]). apply hex_printable.
  - apply one_printable. constructor; [|constructor]. apply orb_false_iff in E5. lia.
Qed.
Lemma one_flat {A} (f : A -> pystr) l : (forall x, In x l -> one_line (f x)) -> one_line (flat_map f l).
Proof.
  induction l as [|x t IH]; intros H; cbn [flat_map]; [apply one_nil|]. apply one_app.
  split; [apply H; left; reflexivity|]. apply IH. intros y I. apply H. right. exact I.
Qed.
Lemma one_quoted q x : q = 39 \/ q = 34 -> one_line x -> one_line (q :: x ++ [q]).
Proof.
  intros Q H. apply one_cons. split; [apply one_range; lia|]. apply one_app. split; [exact H|].
  apply one_cons. split; [apply one_range; lia|apply one_nil].
Qed.
Lemma one_repr_bytes b : one_line (repr_bytes b).
Proof.
  unfold repr_bytes. apply one_cons. split; [apply one_range; lia|]. pose proof (quote_two (map b2z b)) as Q.
  apply one_quoted; [exact Q|]. apply one_flat. intros c _. unfold repr_byte. destruct (c <? 128) eqn:E.
  - apply one_repr_ascii; [exact Q|lia].
  - apply one_printable. do 2 (constructor; [lia|]). apply hex_printable.
Qed.
Lemma one_repr_str ds s : display_ok ds -> one_line (repr_str ds s).
Proof.
  intros [Dp _]. unfold repr_str. pose proof (quote_two s) as Q. apply one_quoted; [exact Q|]. apply one_flat. intros c _.
  unfold repr_char. destruct (c <? 128) eqn:E; [apply one_repr_ascii; [exact Q|lia]|].
  destruct (ds_printable ds c) eqn:P.
  { apply one_cons. split; [|apply one_nil]. intros I. apply Dp in I. congruence. }
  destruct (c <? 256); [|destruct (c <? 65536)]; apply one_printable; do 2 (constructor; [lia|]); apply hex_printable.
Qed.
Lemma one_commas l : Forall one_line l -> one_line (commas l).
Proof.
  induction l as [|x t IH]; intros H; [apply one_nil|]. apply Forall_cons_iff in H as [A B].
  cbn [commas]. destruct t as [|y t]; [exact A|]. repeat (apply one_app; split); [exact A|lit|apply IH, B].
Qed.
Lemma one_map {A} (f : A -> pystr) l : (forall x, one_line (f x)) -> Forall one_line (map f l).
Proof. intros H. apply Forall_map, Forall_forall. auto. Qed.
Lemma one_repr_list l : Forall one_line l -> one_line (repr_list l).
Proof. intros H. unfold repr_list. repeat (apply one_app; split); [lit|apply one_commas, H|lit]. Qed.
Lemma one_repr_set l : Forall one_line l -> one_line (repr_set l).
Proof. intros H. unfold repr_set. destruct l; [lit|]. repeat (apply one_app; split); [lit|apply one_commas, H|lit]. Qed.
Lemma one_repr_dict V ds (show : V -> pystr) d : display_ok ds -> (forall v, one_line (show v)) -> one_line (repr_dict ds show d).
Proof.
  intros D H. unfold repr_dict. repeat (apply one_app; split); [lit| |lit]. apply one_commas, one_map. intros [k v]. cbn [fst snd].
  repeat (apply one_app; split); [apply one_repr_str, D|lit|apply H].
Qed.
Lemma dec_printable f n acc : 0 <= n -> Forall (fun c => 32 <= c < 128) acc -> Forall (fun c => 32 <= c < 128) (dec_digits f n acc).
Proof.
  revert n acc. induction f as [|f IH]; intros n acc N H; cbn [dec_digits]; [exact H|].
  destruct (n <? 10) eqn:E; [constructor; [lia|exact H]|]. apply IH; [apply Z.div_pos; lia|].
  constructor; [|exact H]. pose proof (Z.mod_pos_bound n 10 eq_refl). lia.
Qed.
Lemma one_str_int i : one_line (str_int i).
Proof.
  apply one_printable. unfold str_int, str_nat. destruct (i <? 0) eqn:E; [constructor; [lia|]|]; apply dec_printable; try lia; constructor.
Qed.
Ltac ol D := repeat lazymatch goal with |- one_line (_ ++ _) => apply one_app; split end;
  lazymatch goal with
  | |- one_line (py _) => lit
  | |- one_line (str_int _) => apply one_str_int
  | |- one_line (repr_bytes _) => apply one_repr_bytes
  | |- one_line (repr_str _ _) => apply one_repr_str, D
  | |- one_line (repr_list (map (repr_str _) _)) => apply one_repr_list, one_map; intros ?x; apply one_repr_str, D
  | |- one_line (repr_dict _ (repr_str _) _) => apply one_repr_dict; [exact D|intros ?x; apply one_repr_str, D]
  | |- one_line [_] => lit
  | |- _ => try solve [auto with lines]
  end.
Create HintDb lines.
#[local] Hint Constants Opaque : lines.
Lemma one_v_str v : one_line (v_str v).
Proof. unfold v_str. ol I. Qed.
#[local] Hint Resolve one_v_str : lines.
Lemma one_header ds h : display_ok ds -> one_line (str_header ds h).
Proof.
  intros D. unfold str_header. ol D. destruct (h_version h); cbn [str_hver]; ol D.
Qed.
#[local] Hint Resolve one_header : lines.
Lemma one_strs ds l : display_ok ds -> one_line (repr_list (map (repr_str ds) l)).
Proof. intros D. ol D. Qed.
Lemma one_envelope ds txt o : display_ok ds -> one_line txt -> one_line (str_envelope ds txt o).
Proof.
  intros D H. unfold str_envelope, str_ctx. ol D. apply one_repr_dict; [exact D|]. intros v. apply one_repr_set, one_map. intros x. ol D.
Qed.
#[local] Hint Resolve one_envelope : lines.
Lemma one_no_message : one_line no_message. Proof. lit. Qed.
#[local] Hint Resolve one_no_message : lines.
Lemma one_response_with ds txt o : display_ok ds -> one_line txt -> one_line (str_response ds txt o).
Proof. intros D H. unfold str_response. ol D. Qed.
Lemma one_response ds o : display_ok ds -> one_line (str_response ds no_message o).
Proof. intros D. apply one_response_with; [exact D|lit]. Qed.
Lemma one_request_with ds txt o : display_ok ds -> one_line txt -> one_line (o_action o) -> one_line (str_request ds txt o).
Proof. intros D T H. unfold str_request. ol D. Qed.
Lemma one_request ds o : display_ok ds -> (one_line (str_request ds no_message o) <-> one_line (o_action o)).
Proof.
  intros D. split; [unfold str_request; rewrite !one_app; tauto|]. intros H. apply one_request_with; [exact D|lit|exact H].
Qed.
Lemma one_node_with ds roles n : display_ok ds -> one_line roles -> Forall one_line [n_id n; n_name n; n_host n; n_hostaddr n] ->
  one_line (str_node_with ds roles n).
Proof.
  intros D R. unfold str_node_with. rewrite !Forall_cons_iff. intros (A & B & C & E & _). ol D.
Qed.
Lemma one_role ds r : display_ok ds -> one_line (repr_role ds r).
Proof.
  intros D. unfold repr_role. ol D. apply one_commas. repeat constructor; [ol D|ol D|]. destruct (snd r); lit.
Qed.
Lemma one_node ds n : display_ok ds ->
  (one_line (str_node ds n) <-> Forall one_line [n_id n; n_name n; n_host n; n_hostaddr n]).
Proof.
  intros D. unfold str_node. split; [unfold str_node_with; rewrite !one_app, !Forall_cons_iff; intuition constructor|].
  intros H. apply one_node_with; [exact D| |exact H]. ol D. apply one_repr_list, one_map. intros r. apply one_role, D.
Qed.
Lemma one_nth l n : Forall one_line l -> one_line (nth n l []).
Proof. intros H. destruct (nth_in_or_default n l []) as [I| ->]; [|apply one_nil]. rewrite Forall_forall in H. auto. Qed.
Lemma one_rest ds r : display_ok ds -> (one_line (str_rest_request ds r) <-> one_line (rq_uri r) /\ one_line (rq_path r)).
Proof.
  intros D. unfold str_rest_request. split; [rewrite !one_app; tauto|]. intros [A B]. ol D.
  - destruct (rq_http r) as [v|]; [|lit]. cbn [str_http]. ol D. apply one_nth. repeat constructor; lit.
  - destruct (rq_method r) as [v|]; [|lit]. cbn [str_method]. ol D.
    apply one_nth. apply Forall_forall. intros x I. apply in_map_iff in I as (y & <- & I). cbn [In] in I.
    repeat (destruct I as [<-|I]; [lit|]). contradiction.
Qed.

(** ** C95.  The strings of a request [m] that its records show as they are *)
Definition shown (m : message) (x : pystr) : Prop :=
  x = m_action m \/
  (* the REST request: uri and path *)
  (m_action m = py "internal:extensions/restexecuteonextensiontaction" /\
   exists q t, read_rest_request (m_payload m) = Ok (q, t) /\ In x [rq_uri q; rq_path q]) \/
  (* the transport handshake: the node of its task *)
  (m_action m = py "internal:transport/handshake" /\
   exists k t, read_transport_request (m_payload m) = Ok (k, t) /\ x = t_node k) \/
  (* the initialization: the names and addresses of the two nodes *)
  (m_action m = py "internal:discovery/extensions" /\
   exists q t n, read_init_request (m_payload m) = Ok (q, t) /\ In n [ir_source q; x_node (ir_ext q)] /\
     In x [n_id n; n_name n; n_host n; n_hostaddr n]).

(** C95: whatever arrives, every record the host logs about it is one line *)
Definition C95_statement : Prop := forall U ev ds raw (h : host U), display_ok ds -> set_order_ok (e_so ev) ->
  forall l x, In (l, x) (log_chunk ev ds raw h) -> one_line x.

Lemma log_read_one A (r : res (A * bytes)) (show : A -> pystr) :
  (forall l x, In (l, x) (log_read r show) -> one_line x) <-> (forall a t, r = Ok (a, t) -> one_line (show a)).
Proof.
  unfold log_read. destruct r as [[a t]|e]; [|split; [intros _ b t; discriminate|intros _ l x []]]. split.
  - intros H b t' E. apply Ok_inj, pair_equal_spec in E as [<- _]. specialize (H DEBUG _ (or_introl eq_refl)). apply one_app in H. tauto.
  - intros H l x [E|[]]. apply pair_equal_spec in E as [_ <-]. ol I; exact (H a t eq_refl).
Qed.
Lemma one_task k : one_line (str_task k) <-> one_line (t_node k).
Proof.
  unfold str_task. split; [rewrite !one_app; tauto|]. intros H. ol I.
  destruct (t_id k); cbn [str_opt_int]; ol I.
Qed.
Lemma one_init ds q : display_ok ds -> (one_line (str_init_request ds q) <->
  forall n x, In n [ir_source q; x_node (ir_ext q)] -> In x [n_id n; n_name n; n_host n; n_hostaddr n] -> one_line x).
Proof.
  intros D. unfold str_init_request, str_ext_node. split.
  - rewrite !one_app, !one_node, !Forall_forall by exact D. intros (A & _ & B & _) n x [<-|[<-|[]]]; auto.
  - intros H. repeat lazymatch goal with |- one_line (_ ++ _) => apply one_app; split end.
    1,3: apply one_node; [exact D|]; apply Forall_forall; intros x I; eapply H; [|exact I]; cbn [In]; auto.
    1,2,4: lit. { apply one_v_str. } apply one_repr_list, one_map, D.
Qed.
Lemma log_chunk_cons U ev ds raw (h : host U) : 
  ((forall l x, In (l, x) (log_chunk ev ds raw h) -> one_line x) <-> (forall l x, In (l, x) (log_input ev ds raw h) -> one_line x)).
Proof.
  unfold log_chunk. split; intros H l x I; [apply (H l), in_cons, in_cons, I|].
  destruct I as [E|[E|I]]; [| |exact (H l x I)]; apply pair_equal_spec in E as [_ <-]; ol I.
Qed.
(** what is logged about a request *)
Lemma log_request U ev ds raw m (h : host U) : read_as (e_so ev) raw m ->
  exists hd o, log_input ev ds raw h = (DEBUG, py "< " ++ str_header ds hd) :: (INFO, py "< " ++ str_request ds no_message o) :: log_handler ds o (m_payload m)
    /\ (exists t, read_header raw = Ok (hd, t)) /\ o_hdr o = hd /\ seen m o.
Proof.
  intros (hd & t & n & o0 & n' & o & Rh & Eq & En & Ro & C & F & V & A & Id & Hs & Cp).
  rewrite new_blank_request in En. apply pair_equal_spec in En as [En _]. apply Ok_inj in En. subst o0.
  assert (Eh : o_hdr o = hd).
  { unfold read_outbound in Ro. apply rbind_ok in Ro as (c & s1 & _ & Ro). destruct (0 <? h_vhs hd).
    - apply rbind_ok in Ro as (z & s2 & _ & Ro). apply rbind_ok in Ro as (vb & s3 & _ & Ro).
      apply rbind_ok in Ro as (fa & s4 & _ & Ro). apply Ok_inj, pair_equal_spec in Ro as [<- _]. reflexivity.
    - apply Ok_inj, pair_equal_spec in Ro as [<- _]. reflexivity. }
  exists hd, o. unfold log_input. rewrite Rh, Eq, new_blank_request. cbn [fst]. rewrite (blank_req _ n), Ro.
  split; [reflexivity|]. split; [eauto|]. split; [exact Eh|]. repeat split; congruence.
Qed.
Lemma log_other U ev ds raw (h : host U) : display_ok ds -> (forall m, ~ read_as (e_so ev) raw m) ->
  forall l x, In (l, x) (log_input ev ds raw h) -> one_line x.
Proof.
  intros D N. assert (G : forall T (L : list T), (forall m, ~ read_as (e_so ev) raw m) -> True) by auto. clear G.
  unfold log_input. destruct (read_header raw) as [[hd rest]|e] eqn:Rh; [|intros l x []].
  intros l x [E|I]; [apply pair_equal_spec in E as [_ <-]; ol D|]. revert l x I. destruct (is_request hd) eqn:Q.
  - rewrite new_blank_request. cbn [fst]. destruct (read_outbound _ _ _ _ _) as [[o p]|e] eqn:Ro; [exfalso|intros l x []].
    assert (exists v, h_version hd = HVer v) as [v Ev].
    { unfold read_header in Rh. repeat (apply rbind_ok in Rh as (? & ? & _ & Rh)).
      apply Ok_inj, pair_equal_spec in Rh as [<- _]. cbn. eauto. }
    apply (N (mkMsg (o_ctx o) (o_features o) v (o_action o) (h_id hd) (is_handshake hd) (is_compress hd) p)).
    exists hd, rest, (hs_next h + 1), (blank_request (hs_next h + 1)), (hs_next h + 1 + 1), o. cbn. rewrite Ev.
    repeat (split; [first [assumption|reflexivity]|]). reflexivity.
  - rewrite new_blank_response. cbn [fst]. destruct (read_outbound _ _ _ _ _) as [[o p]|e]; [|intros l x []].
    destruct (is_error hd); intros l x I.
    + destruct I as [E|[]]. apply pair_equal_spec in E as [_ <-]. ol D.
    + destruct I as [E|I]. { apply pair_equal_spec in E as [_ <-]. ol D. apply one_response, D. }
      assert (W : forall i y, (l, y) = not_registered i -> one_line y).
      { intros i y E. apply pair_equal_spec in E as [_ ->]. ol D. }
      unfold log_response in I. destruct (dict_get _ _ _) as [[sr|]|].
      * apply in_app_or in I as [I|I].
        -- revert I. apply log_read_one. intros a t _. unfold str_ack. ol D. destruct a; lit.
        -- destruct (read_ack p) as [[[|] t]|e]; try contradiction. destruct I as [I|[]]. exact (W _ _ (eq_sym I)).
      * destruct (read_settings _ _ _) as [[t|e] d]; [|contradiction]. destruct I as [I|[]]. apply pair_equal_spec in I as [_ <-]. ol D. apply D.
      * destruct I as [I|[]]. exact (W _ _ (eq_sym I)).
Qed.

(** what holds: the records are single lines exactly if the strings shown are *)
Theorem C95_lines_partial : forall U ev ds raw (h : host U), display_ok ds ->
  (forall l x, In (l, x) (log_chunk ev ds raw h) -> one_line x) <->
  (forall m x, read_as (e_so ev) raw m -> shown m x -> one_line x).
Proof.
  intros U ev ds raw h D. rewrite log_chunk_cons. destruct (request_dec (e_so ev) raw) as [[m Hm]|N].
  2: { split; [intros _ m x Hm; destruct (N m Hm)|intros _; apply log_other; assumption]. }
  destruct (log_request U ev ds raw m h Hm) as (hd & o & -> & _ & _ & (_ & _ & Ea & _)).
  assert (A : (forall l x, In (l, x) ((DEBUG, py "< " ++ str_header ds hd) :: (INFO, py "< " ++ str_request ds no_message o) :: log_handler ds o (m_payload m)) -> one_line x)
    <-> one_line (m_action m) /\ forall l x, In (l, x) (log_handler ds o (m_payload m)) -> one_line x).
  { split.
    - intros H. split; [|intros l x I; apply (H l), in_cons, in_cons, I].
      specialize (H INFO _ (or_intror (or_introl eq_refl))). apply one_app in H as [_ H]. rewrite <- Ea. apply (one_request ds); assumption.
    - intros [B H] l x [E|[E|I]]; [| |exact (H l x I)]; apply pair_equal_spec in E as [_ <-]; ol D. apply one_request; [exact D|]. rewrite Ea. exact B. }
  rewrite A. clear A.
  assert (S : (forall m' x, read_as (e_so ev) raw m' -> shown m' x -> one_line x) <-> (forall x, shown m x -> one_line x)).
  { split; [intros H x; apply H, Hm|]. intros H m' x Hm' I. rewrite (read_as_fun _ _ _ _ Hm' Hm) in I. exact (H x I). }
  rewrite S. clear S. unfold log_handler. rewrite Ea.
  destruct (streqb (m_action m) A_DISCOVERY) eqn:E1; [apply streqb_eq in E1|].
  { rewrite log_read_one. split.
    - intros [B H] x [->|[[C _]|[[C _]|(_ & q & t & n & R & In1 & In2)]]];
        [exact B|rewrite E1 in C; discriminate|rewrite E1 in C; discriminate|].
      specialize (H q t R). rewrite one_init in H by exact D. exact (H n x In1 In2).
    - intros H. split; [apply H; left; reflexivity|]. intros q t R. apply one_init; [exact D|]. intros n x In1 In2.
      apply H. right. right. right. split; [exact E1|]. exists q, t, n. auto. }
  destruct (streqb (m_action m) A_REST) eqn:E2; [apply streqb_eq in E2|].
  { rewrite log_read_one. split.
    - intros [B H] x [->|[(_ & q & t & R & I)|[[C _]|[C _]]]];
        [exact B| |rewrite E2 in C; discriminate|rewrite E2 in C; discriminate].
      specialize (H q t R). rewrite one_rest in H by exact D. destruct H as [H1 H2]. destruct I as [<-|[<-|[]]]; assumption.
    - intros H. split; [apply H; left; reflexivity|]. intros q t R. apply one_rest; [exact D|].
      split; apply H; right; left; (split; [exact E2|]); exists q, t; (split; [exact R|]); cbn [In]; auto. }
  assert (N1 : m_action m <> A_DISCOVERY) by (apply streqb_neq; exact E1).
  assert (N2 : m_action m <> A_REST) by (apply streqb_neq; exact E2).
  destruct (streqb (m_action m) A_TCP) eqn:E3; [apply streqb_eq in E3|].
  { rewrite log_read_one. split.
    - intros [B H] x [->|[[C _]|[[C _]|[C _]]]]; [exact B|destruct (N2 C)|rewrite E3 in C; discriminate|destruct (N1 C)].
    - intros H. split; [apply H; left; reflexivity|]. intros q t _. unfold str_tcp_handshake_request. ol D. destruct (tr_version q); ol D. }
  destruct (streqb (m_action m) A_TRANSPORT) eqn:E4; [apply streqb_eq in E4|].
  { rewrite log_read_one. split.
    - intros [B H] x [->|[[C _]|[(_ & k & t & R & ->)|[C _]]]]; [exact B|destruct (N2 C)| |destruct (N1 C)].
      apply one_task. exact (H k t R).
    - intros H. split; [apply H; left; reflexivity|]. intros k t R. apply one_task, H. right. right. left. split; [exact E4|]. exists k, t. auto. }
  assert (N3 : m_action m <> A_TRANSPORT) by (apply streqb_neq; exact E4).
  split.
  - intros [B _] x [->|[[C _]|[[C _]|[C _]]]]; [exact B|destruct (N2 C)|destruct (N3 C)|destruct (N1 C)].
  - intros H. split; [apply H; left; reflexivity|]. intros l x [].
Qed.
Print Assumptions C95_lines_partial.

(** A peer writes whatever it likes into the log: at the beginning of a line, in a record of
    level INFO, in every state of the host. *)
Definition forging (t : pystr) : message := mkMsg empty_ctx [] (version_of_id 2110399) (10 :: t) 1 false false [].
Lemma forging_frame t e : is_utf8 t e -> zlen e <= 10000 -> exists raw, frame_of (forging t) raw /\ zlen raw <= 10240.
Proof.
  intros He L. assert (Ha : is_utf8 (10 :: t) (x0a :: e)).
  { unfold is_utf8. cbn [map]. apply (ut_cons 10 [10]); [apply utf8_1; lia|exact He]. }
  assert (La : zlen (x0a :: e) = 1 + zlen e) by apply zlen_cons.
  destruct (string_wire _ _ Ha) as (l & _ & Hw & _); [lia|].
  assert (Ll : 0 <= zlen l <= 2).
  { split; [apply zlen_nonneg|]. destruct (write_string_form _ _ Hw) as (e' & l' & U & V & E).
    apply is_utf8_encode in Ha. rewrite Ha in U. apply Ok_inj in U. subst e'. apply app_inv_tail in E. subst l'.
    destruct (agree_v_int (zlen (x0a :: e)) _ _ eq_refl V) as [_ [_ Q]]. rewrite <- (Q Logic.I).
    change 2 with (v_int_size 10001). apply v_int_size_mono. pose proof (zlen_nonneg _ e). lia. }
  set (vb := [x00] ++ (l ++ x0a :: e) ++ []).
  assert (Hv : request_variable_bytes [] (10 :: t) = Ok vb).
  { unfold request_variable_bytes. change (write_string_array []) with (Ok [x00]). rewrite Hw. reflexivity. }
  assert (Lv : zlen vb = zlen l + zlen e + 2).
  { unfold vb. rewrite app_nil_r, !zlen_app, La. change (zlen [x00]) with 1. lia. }
  pose proof (zlen_nonneg _ e) as Le.
  set (h := mkHeader ES (17 + 2 + 0 - 0 + zlen vb) 1 0 (HVer (version_of_id 2110399)) (2 - 0 + zlen vb)).
  assert (Hh : header_ok h).
  { unfold header_ok, h. cbn [h_prefix h_size h_id h_status h_vhs h_version]. split; [reflexivity|]. rewrite Lv.
    repeat (split; [lia|]). exists (version_of_id 2110399). split; [reflexivity|]. vm_compute. split; [discriminate|reflexivity]. }
  destruct (header_wire h Hh) as (a1 & a2 & a3 & a4 & a5 & W & _). pose proof (header_23 _ _ Hh W) as L23.
  set (hb := h_prefix h ++ a1 ++ a2 ++ a3 ++ a4 ++ a5) in *.
  exists (hb ++ [x00; x00] ++ vb ++ []). split.
  - right. cbn [forging m_ctx m_features m_payload m_version m_action m_id m_hs m_cp].
    split. { split; (split; [vm_compute; reflexivity|]); split; constructor. }
    split. { split; [vm_compute; discriminate|constructor]. }
    split. { exists (x0a :: e). split; [exact Ha|lia]. }
    split; [discriminate|].
    exists 0, (mkOut h empty_ctx (Some vb) (Some []) [] (10 :: t)), 0. split.
    + cbn [forging m_ctx m_features m_payload m_version m_action m_id m_hs m_cp]. unfold new_request. unfold ibind at 1.
      change (new_outbound (Some empty_ctx) (HVer (version_of_id 2110399)) 0 (Some 1) (Some (Ok [])) [] (10 :: t) 0)
        with (Ok (mkOut (mkHeader ES (17 + 2 + 0) 1 0 (HVer (version_of_id 2110399)) 2) empty_ctx None (Some []) [] (10 :: t)), 0).
      cbv beta iota. unfold ibind. rewrite Hv. reflexivity.
    + unfold write_outbound. cbn [o_hdr o_ctx o_var o_msg]. rewrite W. change (write_ctx empty_ctx) with (Ok [x00; x00]).
      unfold wcat, bind. rewrite !app_nil_r. reflexivity.
  - rewrite !zlen_app. change (zlen [x00; x00]) with 2. change (zlen (@nil byte)) with 0. lia.
Qed.
Theorem C95_forged_refuted : ~ C95_statement /\
  forall t e, is_utf8 t e -> zlen e <= 10000 -> exists m raw, frame_of m raw /\ zlen raw <= 10240 /\
    forall U ev ds (h : host U), set_order_ok (e_so ev) -> display_ok ds ->
    exists before, one_line before /\ In (INFO, before ++ [10] ++ t) (log_chunk ev ds raw h).
Proof.
  assert (A : forall t e, is_utf8 t e -> zlen e <= 10000 -> exists m raw, frame_of m raw /\ zlen raw <= 10240 /\
    forall U ev ds (h : host U), set_order_ok (e_so ev) -> display_ok ds ->
    exists before, one_line before /\ In (INFO, before ++ [10] ++ t) (log_chunk ev ds raw h)).
  { intros t e He L. destruct (forging_frame t e He L) as (raw & F & Lr). exists (forging t), raw. split; [exact F|]. split; [exact Lr|].
    intros U ev ds h So D. destruct (read_as_frame _ _ _ So F) as (c & _ & R). specialize (R []). rewrite app_nil_r in R.
    destruct (log_request U ev ds raw _ h R) as (hd & o & E & _ & _ & (_ & _ & Ea & _)). cbn [m_action forging] in Ea.
    exists (py "< " ++ str_envelope ds no_message o ++ py ", features=" ++ repr_list (map (repr_str ds) (o_features o)) ++ py ", action=").
    split; [ol D|]. unfold log_chunk. rewrite E. right. right. right. left. f_equal. unfold str_request. rewrite Ea, <- !app_assoc. reflexivity. }
  split; [|exact A]. intros S. destruct (A [] []) as (m & raw & _ & _ & B); [constructor|vm_compute; discriminate|].
  assert (D : display_ok (mkDisplay (fun _ => false) (fun _ => []))) by (split; [reflexivity|intros i; apply one_nil]).
  pose (ev := mkEnv (fun l => l) (fun l => l) 10 (fun _ => None)).
  assert (So : set_order_ok (e_so ev)) by (intros l; apply Permutation.Permutation_refl).
  destruct (B unit ev _ (initial_host tt) So D) as (b & _ & I). specialize (S _ _ _ _ _ D So _ _ I).
  apply (S 10); [|cbn; auto]. apply in_or_app. right. left. reflexivity.
Qed.
Print Assumptions C95_forged_refuted.

(** ** C96 *)
(** the records an installation keeps that does not debug *)
Definition kept (l : list record) : list record := filter (fun r => match fst r with DEBUG => false | _ => true end) l.
(** the same request to the extension but for what is confidential: headers, content and
    identity token *)
Definition same_but_secrets (q q' : rest_request) : Prop :=
  rq_method q = rq_method q' /\ rq_uri q = rq_uri q' /\ rq_path q = rq_path q' /\ rq_params q = rq_params q' /\
  rq_media q = rq_media q' /\ rq_http q = rq_http q' /\ rq_task q = rq_task q'.
(** C96: the log above level DEBUG does not tell the headers, content and token of a REST
    request: it is the same for all values of them (of the same length altogether) *)
Definition C96_statement : Prop := forall U ev ds (h : host U) strict m m' raw raw' q q',
  set_order_ok (e_so ev) -> display_ok ds -> frame_of m raw -> frame_of m' raw' ->
  m_action m = py "internal:extensions/restexecuteonextensiontaction" ->
  w_rest_request strict q (m_payload m) -> w_rest_request strict q' (m_payload m') -> same_but_secrets q q' ->
  m_ctx m = m_ctx m' -> m_features m = m_features m' -> m_version m = m_version m' -> m_action m = m_action m' ->
  m_id m = m_id m' -> m_hs m = m_hs m' -> m_cp m = m_cp m' -> zlen raw = zlen raw' ->
  kept (log_chunk ev ds raw h) = kept (log_chunk ev ds raw' h).

(** repr() of bytes can be read back *)
Definition unhex (c : Z) : Z := if c <? 58 then c - 48 else c - 87.
Definition unrepr1 (q : Z) (l : pystr) : option (Z * pystr) :=
  match l with
  | 92 :: 120 :: a :: b :: t => Some (16 * unhex a + unhex b, t)
  | 92 :: 116 :: t => Some (9, t)
  | 92 :: 110 :: t => Some (10, t)
  | 92 :: 114 :: t => Some (13, t)
  | 92 :: c :: t => Some (c, t)
  | c :: t => if c =? q then None else Some (c, t)
  | [] => None
  end.
Lemma unrepr1_ok q b t : q = 39 \/ q = 34 -> unrepr1 q (repr_byte q (b2z b) ++ t) = Some (b2z b, t).
Proof. intros [-> | ->]; destruct b; reflexivity. Qed.
Lemma repr_body_inj q a b : q = 39 \/ q = 34 ->
  flat_map (repr_byte q) (map b2z a) ++ [q] = flat_map (repr_byte q) (map b2z b) ++ [q] -> a = b.
Proof.
  intros Q. revert b. induction a as [|x a IH]; intros [|y b]; cbn [map flat_map]; try reflexivity.
  - rewrite <- app_assoc. intros H. pose proof (unrepr1_ok q y (flat_map (repr_byte q) (map b2z b) ++ [q]) Q) as E.
    rewrite <- H in E. destruct Q as [-> | ->]; discriminate E.
  - rewrite <- app_assoc. intros H. pose proof (unrepr1_ok q x (flat_map (repr_byte q) (map b2z a) ++ [q]) Q) as E.
    rewrite H in E. destruct Q as [-> | ->]; discriminate E.
  - rewrite <- !app_assoc. intros H. pose proof (unrepr1_ok q x (flat_map (repr_byte q) (map b2z a) ++ [q]) Q) as E.
    rewrite H, (unrepr1_ok q y _ Q) in E. injection E as E1 E2. f_equal; [exact (b2z_inj _ _ (eq_sym E1))|apply IH; symmetry; exact E2].
Qed.
Lemma repr_bytes_inj a b : repr_bytes a = repr_bytes b -> a = b.
Proof.
  unfold repr_bytes. intros H. injection H as E H. rewrite <- E in H. apply repr_body_inj in H; [exact H|apply quote_two].
Qed.

(** Refuted: above DEBUG the log tells every byte received: who has the log has the chunk. *)
Lemma kept_chunk U ev ds raw (h : host U) :
  kept (log_chunk ev ds raw h) = (INFO, repr_bytes raw) :: kept (log_input ev ds raw h).
Proof. reflexivity. Qed.
Definition ex_token (token : pystr) : rest_request :=
  mkReq (mkTask (py "node") (Some 5)) (Some 0) (py "/hello/you") (py "/hello/you") [] [] [] [] token (Some 1) [] true.
Definition ex_token_msg (token : pystr) : message :=
  ex_msg (py "internal:extensions/restexecuteonextensiontaction") 9 false
    (match write_rest_request (ex_token token) with Ok b => b | Raise _ => [] end).
Definition ex_ds : display := mkDisplay (fun _ => false) (fun _ => py "<object>").
Lemma ex_ds_ok : display_ok ex_ds.
Proof. split; [reflexivity|intros i; lit]. Qed.
Lemma ex_token_ok t : text_ok t -> rest_request_ok (ex_token t).
Proof.
  intros T. split; [right; split; [discriminate|]; split; [text|]; exists 5; split; [reflexivity|vm_compute; split; [discriminate|reflexivity]]|].
  split; [exists 0; split; [reflexivity|vm_compute; split; [discriminate|reflexivity]]|].
  split; [do 3 (constructor; [text|]); constructor; [exact T|constructor]|].
  split; [split; [reflexivity|]; split; constructor|]. split; [split; [reflexivity|]; split; constructor|].
  split; [vm_compute; discriminate|]. exists 1; split; [reflexivity|vm_compute; split; [discriminate|reflexivity]].
Qed.
Lemma ex_token_frame t : text_ok t -> ex_raw (ex_token_msg t) <> [] -> frame_of (ex_token_msg t) (ex_raw (ex_token_msg t)).
Proof. intros T. apply ex_frame; [text|discriminate]. Qed.
Theorem C96_chunk_refuted : ~ C96_statement /\
  forall U ev ds raw raw' (h h' : host U), kept (log_chunk ev ds raw h) = kept (log_chunk ev ds raw' h') -> raw = raw'.
Proof.
  assert (A : forall U ev ds raw raw' (h h' : host U), kept (log_chunk ev ds raw h) = kept (log_chunk ev ds raw' h') -> raw = raw').
  { intros U ev ds raw raw' h h' E. rewrite !kept_chunk in E. apply (f_equal (fun l => snd (hd (INFO, []) l))) in E. exact (repr_bytes_inj _ _ E). }
  split; [|exact A]. intros S.
  assert (K : kept (log_chunk ex_env ex_ds (ex_raw (ex_token_msg (py "one"))) (initial_host 0))
            = kept (log_chunk ex_env ex_ds (ex_raw (ex_token_msg (py "two"))) (initial_host 0))).
  { apply (S Z ex_env ex_ds (initial_host 0) true (ex_token_msg (py "one")) (ex_token_msg (py "two")) _ _ (ex_token (py "one")) (ex_token (py "two")) ex_env_ok ex_ds_ok).
    - apply ex_token_frame; [text|vm_compute; discriminate].
    - apply ex_token_frame; [text|vm_compute; discriminate].
    - reflexivity.
    - apply (by_writer _ _ _ _ _ _ (rest_request_writes true)); [apply ex_token_ok; text|reflexivity].
    - apply (by_writer _ _ _ _ _ _ (rest_request_writes true)); [apply ex_token_ok; text|reflexivity].
    - repeat split.
    - reflexivity. - reflexivity. - reflexivity. - reflexivity. - reflexivity. - reflexivity. - reflexivity.
    - vm_compute. reflexivity. }
  apply A in K. revert K. vm_compute. discriminate.
Qed.
Print Assumptions C96_chunk_refuted.

(** What holds: but for the two dumps of the bytes, no record, of any level, tells anything of
    a REST request except its HTTP version, method, uri, path and parameters: two messages
    that begin with the same envelope and agree on these lead to the same records. *)
Theorem C96_described_partial : forall U ev ds (h h' : host U) e p p' m q q' t t',
  read_as (e_so ev) (e ++ p) m -> m_payload m = p -> p <> [] ->
  m_action m = py "internal:extensions/restexecuteonextensiontaction" ->
  read_rest_request p = Ok (q, t) -> read_rest_request p' = Ok (q', t') ->
  rq_http q = rq_http q' -> rq_method q = rq_method q' -> rq_uri q = rq_uri q' -> rq_path q = rq_path q' ->
  rq_params q = rq_params q' ->
  log_input ev ds (e ++ p) h = log_input ev ds (e ++ p') h'.
Proof.
  intros U ev ds h h' e p p' m q q' t t' Hm <- Np Ea R R' E1 E2 E3 E4 E5.
  destruct Hm as (hd1 & t1 & n & o0 & n' & o1 & Rh & Eq & En & Ro & _ & _ & _ & A & _).
  rewrite new_blank_request in En. apply pair_equal_spec in En as [En _]. apply Ok_inj in En. subst o0.
  destruct (local_read_header _ _ _ Rh) as (a & Ha & La).
  destruct (local_read_outbound _ _ _ _ _ _ _ Ro) as (b & -> & Lb). specialize (Lb Np).
  assert (Nt : b ++ m_payload m <> []) by (intros N; apply app_eq_nil in N as [_ N]; exact (Np N)). specialize (La Nt).
  rewrite app_assoc in Ha. apply app_inv_tail in Ha. subst e.
  unfold log_input. rewrite <- !app_assoc, !La, Eq, !new_blank_request. cbn [fst].
  rewrite (blank_req _ n (hs_next h + 1)), (blank_req _ n (hs_next h' + 1)), !Lb. f_equal. f_equal.
  unfold log_handler. rewrite <- A, Ea.
  change (streqb (py "internal:extensions/restexecuteonextensiontaction") A_DISCOVERY) with false.
  change (streqb (py "internal:extensions/restexecuteonextensiontaction") A_REST) with true. cbv iota.
  unfold log_read. rewrite R, R'. unfold str_rest_request. rewrite E1, E2, E3, E4, E5. reflexivity.
Qed.
Print Assumptions C96_described_partial.
(** Likewise for the settings of the cluster: the records do not tell them. *)
Theorem C96_settings_partial : forall U ev ds (h h' : host U) e p p' k,
  response_in (e_so ev) (e ++ p) false k p -> p <> [] ->
  dict_get Z.eqb k (hs_pending h) = Some EnvRH -> dict_get Z.eqb k (hs_pending h') = Some EnvRH ->
  (exists t, fst (read_settings (e_fuel ev) (hs_settings h) p) = Ok t) ->
  (exists t, fst (read_settings (e_fuel ev) (hs_settings h') p') = Ok t) ->
  log_input ev ds (e ++ p) h = log_input ev ds (e ++ p') h'.
Proof.
  intros U ev ds h h' e p p' k (hd & t & n & o0 & n' & o & Rh & Eq & Ee & <- & En & Ro) Np G G' [x R] [x' R'].
  rewrite new_blank_response in En. apply pair_equal_spec in En as [En _]. apply Ok_inj in En. subst o0.
  destruct (local_read_header _ _ _ Rh) as (a & Ha & La).
  destruct (local_read_outbound _ _ _ _ _ _ _ Ro) as (b & -> & Lb). specialize (Lb Np).
  assert (Nt : b ++ p <> []) by (intros N; apply app_eq_nil in N as [_ N]; exact (Np N)). specialize (La Nt).
  rewrite app_assoc in Ha. apply app_inv_tail in Ha. subst e.
  unfold log_input. rewrite <- !app_assoc, !La, Eq, !new_blank_response. cbn [fst].
  rewrite (blank_resp _ n (hs_next h + 1)), (blank_resp _ n (hs_next h' + 1)), !Lb, Ee. unfold log_response. rewrite G, G'.
  destruct (read_settings _ (hs_settings h) p) as [r s]. cbn [fst] in R. subst r.
  destruct (read_settings _ (hs_settings h') p') as [r s']. cbn [fst] in R'. subst r. reflexivity.
Qed.
Print Assumptions C96_settings_partial.
(** the envelope of the example is what precedes the payload; both tokens are read *)
Example C96_case :
  let m := ex_token_msg (py "one") in let p := m_payload m in let p' := m_payload (ex_token_msg (py "two!")) in
  exists e q t q' t', read_as (e_so ex_env) (e ++ p) m /\ read_rest_request p = Ok (q, t) /\ read_rest_request p' = Ok (q', t') /\
    rq_token q = py "one" /\ rq_token q' = py "two!" /\ rq_http q = rq_http q' /\ rq_method q = rq_method q' /\
    rq_uri q = rq_uri q' /\ rq_path q = rq_path q' /\ rq_params q = rq_params q' /\
    (exists l, In (DEBUG, py "< http version=HttpVersion.HTTP_1_1, method=RestMethod.GET, uri=/hello/you, path=/hello/you, params={}, " ++ l)
      (log_input ex_env ex_ds (e ++ p) (initial_host 0))).
Proof.
  cbv zeta. set (m := ex_token_msg (py "one")).
  assert (F : frame_of m (ex_raw m)) by (apply ex_token_frame; [text|vm_compute; discriminate]).
  pose (e := firstn (List.length (ex_raw m) - List.length (m_payload m)) (ex_raw m)).
  assert (E : ex_raw m = e ++ m_payload m) by (vm_compute; reflexivity).
  exists e. eexists _, _, _, _. rewrite <- E. split.
  { eexists _, _, 0, _, _, _. split; [vm_compute; reflexivity|]. split; [reflexivity|]. split; [apply new_blank_request|].
    split; [vm_compute; reflexivity|]. repeat (split; [reflexivity|]). reflexivity. }
  split; [vm_compute; reflexivity|]. split; [vm_compute; reflexivity|].
  repeat (split; [reflexivity|]). 
  assert (L : exists a b l, log_input ex_env ex_ds (ex_raw m) (initial_host 0) = [a; b; (DEBUG, py "< http version=HttpVersion.HTTP_1_1, method=RestMethod.GET, uri=/hello/you, path=/hello/you, params={}, " ++ l)]).
  { eexists _, _, _. vm_compute. reflexivity. }
  destruct L as (a & b & l & ->). exists l. right. right. left. reflexivity.
Qed.
(** a record of the level INFO whose second line the peer has chosen *)
Example C95_case : display_ok ex_ds /\ exists raw, zlen raw <= 10240 /\
  In (INFO, py "< prefix=b'ES', version=2.11.3.99, type=['request'], message=47 byte(s), id=1, ctx=req={}, res={}, None, features=[], action="
    ++ [10] ++ py "WARNING:root:! #disk full")
    (log_chunk ex_env ex_ds raw (initial_host 0)).
Proof.
  split; [exact ex_ds_ok|]. exists (ex_raw (forging (py "WARNING:root:! #disk full"))).
  split; [vm_compute; discriminate|]. 
  assert (L : exists a b c d, log_chunk ex_env ex_ds (ex_raw (forging (py "WARNING:root:! #disk full"))) (initial_host 0) = [a; b; c; d] /\ d = (INFO, py "< prefix=b'ES', version=2.11.3.99, type=['request'], message=47 byte(s), id=1, ctx=req={}, res={}, None, features=[], action="
    ++ [10] ++ py "WARNING:root:! #disk full")).
  { eexists _, _, _, _. split; [vm_compute; reflexivity|]. vm_compute. reflexivity. }
  destruct L as (a & b & c & d & -> & ->). right. right. right. left. reflexivity.
Qed.
