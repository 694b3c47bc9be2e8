(** * Property C49: what follows a complete message in a chunk does not matter *)
From Coq Require Import String ZArith List Bool Lia.
From Coq Require Import Strings.Byte.
From Verif Require Import Py Stream Version Frame Proto Messages Rest Routes Settings Host PyFacts
  StreamFacts StreamFacts2 Spec SpecFacts FrameFacts PropsMessages Wire WireFacts WireFacts2 WireFacts3 WireFacts4 WireFacts5
  HostSpec HostFacts PropsHost PropsHistory PropsWire PropsSession PropsReaders.
Import ListNotations.
Open Scope list_scope.
Open Scope Z_scope.
Ltac Zify.zify_post_hook ::= idtac.

(** [f] is a whole request: a frame whose payload is a message of the kind its action asks for
    (addresses affected by C28 excepted) *)
Definition whole_request (f : bytes) : Prop := exists m, frame_of m f /\
  (~ In (m_action m) known_actions \/
   (m_action m = py "internal:tcp/handshake" /\ exists strict r, w_tcp_handshake_request strict r (m_payload m)) \/
   (m_action m = py "internal:transport/handshake" /\ exists strict t, w_task strict t (m_payload m)) \/
   (m_action m = py "internal:extensions/restexecuteonextensiontaction" /\ exists strict q, w_rest_request strict q (m_payload m)) \/
   (m_action m = py "internal:discovery/extensions" /\ exists strict q, w_init_request strict q (m_payload m) /\
      a_addr (n_addr (ir_source q)) < 2 ^ 31 /\ a_addr (n_addr (x_node (ir_ext q))) < 2 ^ 31)).
(** [f] is a whole response, for a host in state [h]: a frame marked as error; or with an id the
    host does not wait for; or carrying settings; or carrying a boolean, if the host waits for the
    answer to a registration *)
Definition whole_response {U} (ev : env) (h : host U) (f : bytes) : Prop :=
  exists err m, Forall length_prefix_ok (ctx_strings (m_ctx m)) /\ w_message true err m f /\
  (err = true \/ ~ In (m_id m) (pending_ids h) \/
   (exists strict n d, (n < e_fuel ev)%nat /\ w_dict strict (fun v b => w_generic strict v b /\ nested v n) d (m_payload m)) \/
   (exists b, w_bool b (m_payload m) /\ exists o, In (m_id m, RegisterRH o) (hs_pending h))).

(** reading that does not look beyond [p] *)
Definition steady {A} (r : reader A) (p : bytes) : Prop := exists a, forall s, r (p ++ s) = Ok (a, s).
Lemma steady_local A (r : reader A) p a : local r -> r (p ++ [x00]) = Ok (a, [x00]) -> steady r p.
Proof.
  intros L H. exists a. intros s. apply L in H as (p' & E & H). apply app_inj_tail in E as [<- _]. apply H. discriminate.
Qed.
Lemma steady_bind U A (r : reader A) p (k : A * bytes -> hm U (option bytes)) : steady r p ->
  (forall a s t, k (a, s) = k (a, t)) -> forall s t h, (x <== hlift (r (p ++ s)) ;; k x) h = (x <== hlift (r (p ++ t)) ;; k x) h.
Proof. intros [a R] K s t h. rewrite !R, !hbind_hlift. exact (f_equal (fun g => g h) (K a s t)). Qed.

Lemma request_tail {U} ev (ext : extension U) f uuid s t h : set_order_ok (e_so ev) -> whole_request f ->
  on_input ev ext uuid (f ++ s) h = on_input ev ext uuid (f ++ t) h.
Proof.
  intros Hso (m & Hf & C). destruct (on_frame ev ext m f Hso Hf) as (c & o & Sc & N & S & R). rewrite !R.
  generalize (set_next h (hs_next h + 2)). intros h'. pose proof (seen_action _ _ S) as A. cbn [m_action] in A.
  destruct C as [C|[(C & strict & r & W)|[(C & strict & r & W)|[(C & strict & q & W)|(C & strict & q & W & L1 & L2)]]]].
  - rewrite !dispatch_other by (rewrite A; exact C). reflexivity.
  - rewrite !dispatch_tcp by (rewrite A; exact C). unfold handle_tcp_handshake.
    apply steady_bind; [|reflexivity]. exact (ex_intro _ _ (fun s => tcp_request_reads strict r _ s I W)).
  - rewrite !dispatch_transport by (rewrite A; exact C). unfold handle_transport_handshake.
    apply steady_bind; [|reflexivity]. exact (ex_intro _ _ (fun s => task_reads strict r _ s I W)).
  - rewrite !dispatch_rest by (rewrite A; exact C). unfold handle_rest.
    destruct (rest_request_reads strict q _ [x00] I W) as (q' & Rq & _).
    apply steady_bind; [|reflexivity]. exact (steady_local _ _ _ _ (message_local _ _ mr_rest_request) Rq).
  - rewrite !dispatch_init by (rewrite A; exact C). unfold handle_discovery.
    apply steady_bind; [|reflexivity]. exact (ex_intro _ _ (fun s => init_request_reads strict q _ s (conj L1 L2) W)).
Qed.
Lemma response_tail {U} ev (ext : extension U) f uuid s t h : set_order_ok (e_so ev) -> NoDup (pending_ids h) -> whole_response ev h f ->
  on_input ev ext uuid (f ++ s) h = on_input ev ext uuid (f ++ t) h.
Proof.
  intros Hso Nd (err & m & Hp & F & C).
  pose proof (C73_wire_frames_partial (e_so ev) m f Hso Hp) as (_ & _ & R).
  rewrite (on_response _ _ _ _ _ _ (R err s F)), (on_response _ _ _ _ _ _ (R err t F)). destruct err; [reflexivity|].
  unfold handle_response. cbn [hs_pending set_next]. 
  destruct (dict_get Z.eqb (m_id m) (hs_pending h)) as [x|] eqn:G; [|reflexivity].
  assert (In (m_id m, x) (hs_pending h)) as Ix by (apply (dict_get_In _ Z.eqb_eq) in G; exact G).
  assert (Dict : forall strict n d, (n < e_fuel ev)%nat -> w_dict strict (fun v b => w_generic strict v b /\ nested v n) d (m_payload m) ->
    m_payload m <> [] /\ forall old, exists new, forall s, read_settings (e_fuel ev) old (m_payload m ++ s) = (Ok s, new)).
  { intros strict n d Hn W. split.
    - destruct W as (l & _ & _ & W). unfold w_list in W. apply parts_cons_inv in W as (a & b & -> & V & W).
      destruct V as [V _]. destruct V; discriminate.
    - intros old. destruct (settings_into strict n (e_fuel ev) d _ [x00] old Hn W) as (new & E & _). exists new. intros s0.
      pose proof (local_settings (e_fuel ev) old) as L.
      assert (E0 : (match read_settings (e_fuel ev) old (m_payload m ++ [x00]) with (Ok s', d') => Ok (d', s') | (Raise e, _) => Raise e end) = Ok (new, [x00]))
        by (rewrite E; reflexivity).
      apply L in E0 as (p' & Ep & E0). apply app_inj_tail in Ep as [<- _]. specialize (E0 ltac:(discriminate) s0).
      destruct (read_settings (e_fuel ev) old (m_payload m ++ s0)) as [[s'|e] d']; [|discriminate]. apply Ok_inj, pair_equal_spec in E0 as [-> ->]. reflexivity. }
  destruct C as [C|[C|[(strict & n & d & Hn & W)|(b & W & o & I)]]]; [discriminate|contradiction C; exact (in_map fst _ _ Ix)| |].
  - destruct (Dict strict n d Hn W) as [Ne Rs]. destruct x as [o|].
    + unfold handle_register. unfold read_ack. destruct (m_payload m) as [|b p]; [contradiction|].
      cbn [app]. unfold read_boolean, rbind. rewrite !read_byte_cons.
      destruct (sbyte b =? 0); [reflexivity|]. destruct (sbyte b =? 1); reflexivity.
    + unfold handle_env. cbn [hs_settings set_pending set_next]. destruct (Rs (hs_settings h)) as (new & Rn). rewrite !Rn. reflexivity.
  - assert (x = RegisterRH o) as ->.
    { apply (dict_In_get _ Z.eqb_eq) in I; [|exact Nd]. congruence. }
    unfold handle_register. unfold read_ack. rewrite !(bool_reads b _ _ Logic.I W), !hbind_hlift. reflexivity.
Qed.

(** The same chunks up to what follows the first message in each. *)
Inductive same_frames {U} (ev : env) (ext : extension U) : host U -> list (bytes * bytes) -> list (bytes * bytes) -> Prop :=
| same_end h : same_frames ev ext h [] []
| same_chunk h uuid f s t a b : whole_request f \/ whole_response ev h f ->
    same_frames ev ext (snd (on_input ev ext uuid f h)) a b -> same_frames ev ext h ((uuid, f ++ s) :: a) ((uuid, f ++ t) :: b).
(** what is sent for each chunk, or raised *)
Fixpoint replies {U} (ev : env) (ext : extension U) (h : host U) (l : list (bytes * bytes)) : list (res (option bytes)) :=
  match l with
  | [] => []
  | x :: l => let (r, h') := on_input ev ext (fst x) (snd x) h in r :: replies ev ext h' l
  end.
(** C49, what holds, for whole conversations: the replies and the state depend only on the first
    message of each chunk, if that is whole.  Missing: messages that span chunks, and messages
    after the first in a chunk. *)
Theorem C49_conversation_partial : forall U ev (ext : extension U) h a b, set_order_ok (e_so ev) -> running ev ext h ->
  same_frames ev ext h a b ->
  replies ev ext h a = replies ev ext h b /\ feed ev ext h a = feed ev ext h b.
Proof.
  intros U ev ext h a b Hso Hr S. induction S as [h|h uuid f s t a b W S IH]; [split; reflexivity|].
  assert (E : forall s, on_input ev ext uuid (f ++ s) h = on_input ev ext uuid f h).
  { intros s0. rewrite <- (app_nil_r f) at 2. destruct W as [W|W]; [apply request_tail; assumption|].
    apply response_tail; [exact Hso| |exact W].
    destruct Hr as (u & l & ->). destruct (feed_inv ev ext l Hso (initial_host u) (inv_initial u)) as ((_ & Nd & _) & _). exact Nd. }
  cbn [replies feed fold_left fst snd]. rewrite !E.
  assert (R : running ev ext (snd (on_input ev ext uuid f h))).
  { destruct Hr as (u & l & ->). exists u, (l ++ [(uuid, f)]). rewrite feed_snoc. reflexivity. }
  destruct (IH R) as [I1 I2]. destruct (on_input ev ext uuid f h) as [r h']. cbn [snd] in *. split; [rewrite I1; reflexivity|exact I2].
Qed.
Print Assumptions C49_conversation_partial.
(** an initialization, followed by garbage in every chunk or not *)
Example C49_conversation_case : exists h, running ex_env ex_ext h /\ same_frames ex_env ex_ext h
  [([], ex_raw (ex_init 77)); ([], ex_answer 3 [x01]); ([], ex_answer 2 ex_settings)]
  [([], ex_raw (ex_init 77) ++ ex_garbage); ([], ex_answer 3 [x01] ++ ex_raw ex_tcp); ([], ex_answer 2 ex_settings ++ [x00])] /\
  map (fun r => match r with Ok (Some b) => 0 <? zlen b | _ => false end)
    (replies ex_env ex_ext h [([], ex_raw (ex_init 77)); ([], ex_answer 3 [x01]); ([], ex_answer 2 ex_settings)]) = [true; true; true].
Proof.
  exists (initial_host 0). split; [exists 0, []; reflexivity|]. split; [|vm_compute; reflexivity].
  rewrite <- (app_nil_r (ex_raw (ex_init 77))) at 1. rewrite <- (app_nil_r (ex_answer 3 [x01])) at 1. rewrite <- (app_nil_r (ex_answer 2 ex_settings)) at 1.
  constructor; [left|constructor; [right|constructor; [right|constructor]]].
  - exists (ex_init 77). split; [apply C44_case|]. right; right; right; right. split; [reflexivity|].
    exists true, ex_init_request. split; [apply ex_init_wire|split; vm_compute; reflexivity].
  - exists false, (ex_reply 3 [x01]). split; [exact ex_prefix|].
    split; [apply ex_reply_message; [discriminate|vm_compute; discriminate]|].
    right; right; right. exists true. split; [reflexivity|]. vm_compute. eexists. right. left. reflexivity.
  - exists false, (ex_reply 2 ex_settings). split; [exact ex_prefix|].
    split; [apply ex_reply_message; [discriminate|vm_compute; discriminate]|].
    right; right; left. exists true, 0%nat. eexists. split; [vm_compute; apply le_n_S, Nat.le_0_l|]. apply C44_wire_case.
Qed.
