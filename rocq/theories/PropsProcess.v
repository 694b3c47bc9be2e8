(** * Properties C87-C90: several hosts in one process; starting, restarting, re-serving *)
From Coq Require Import String ZArith List Bool Lia.
From Coq Require Import Strings.Byte.
From Verif Require Import Py Stream Version Frame Proto Messages Rest Routes Settings Host Process PyFacts
  StreamFacts Spec Wire HostSpec HostFacts PropsHost PropsHistory PropsLife.
Import ListNotations.
Open Scope list_scope.
Open Scope Z_scope.

(** ** What the outside sees of host [k]: the ids it awaits responses to, the state of its
    connections, the replies it is sending *)
Definition awaited {U} (P : process U) (k : Z) : list Z :=
  match get_host P k with Some o => map fst (ho_pending o) | None => [] end.
Definition host_conn {U} (P : process U) (k c : Z) : option conn :=
  match get_host P k with Some o => dict_get Z.eqb c (ho_conns o) | None => None end.
Definition sending {U} (P : process U) (k c : Z) : list bytes :=
  match host_conn P k c with Some (Sending d) => [d] | _ => [] end.
(** the host an event is about *)
Definition event_host {U} (e : pevent U) : option Z :=
  match e with
  | Create k _ _ | Serve k _ | Start k _ | Of k _ | SetPort k _ | CloseServer k => Some k
  | Program _ _ _ | OtherListens _ | OtherStops _ => None
  end.
(** a state some history leads to *)
Definition reachable {U} (ev : env) (P : process U) : Prop := exists u es, P = p_run ev (new_process u) es.

(** ** Facts *)
Lemma put_get {U} (P : process U) k o j : get_host (put_host P k o) j = if k =? j then Some o else get_host P j.
Proof.
  unfold get_host, put_host. cbn [p_hosts]. destruct (Z.eqb_spec k j) as [->|N].
  - apply (dict_get_set_same _ Z.eqb_eq).
  - apply (dict_get_set_other _ Z.eqb_eq). exact N.
Qed.
Definition after {U} (o : hobj U) (w : world U) : hobj U :=
  mkHobj (ho_ext o) (hs_pending (w_host w)) (hs_init (w_host w)) (ho_port o) (ho_server o)
    (w_terminating w) (w_accepting w) (w_conns w) (w_sent w).
Lemma put_world_get {U} (P : process U) k o w j :
  get_host (put_world P k o w) j = if k =? j then Some (after o w) else get_host P j.
Proof.
  unfold get_host, put_world. cbn [p_hosts]. destruct (Z.eqb_spec k j) as [->|N].
  - apply (dict_get_set_same _ Z.eqb_eq).
  - apply (dict_get_set_other _ Z.eqb_eq). exact N.
Qed.
Definition view {U} (P : process U) (o : hobj U) : host U := w_host (world_of P o).
Lemma view_after {U} (P : process U) k o w : view (put_world P k o w) (after o w) = w_host w.
Proof. unfold view, world_of, put_world, after. cbn. destruct (w_host w). reflexivity. Qed.

Lemma world_host_step {U} ev (ext : extension U) w e :
  w_host (world_step ev ext w e) = w_host w \/
  exists c raw uuid, e = Recv c raw uuid /\ w_host (world_step ev ext w e) = snd (on_input ev ext uuid raw (w_host w)).
Proof.
  destruct e as [a|a raw uuid|a ok|a|a| | |]; cbn [world_step].
  - left. destruct (dict_get Z.eqb a (w_conns w)); [reflexivity|]. destruct (w_accepting w); reflexivity.
  - destruct (RECV_LIMIT <? zlen raw); [left; reflexivity|].
    destruct (dict_get Z.eqb a (w_conns w)) as [[|d|]|]; try (left; reflexivity).
    destruct raw as [|b raw]; [left; reflexivity|]. right. exists a, (b :: raw), uuid. split; [reflexivity|].
    destruct (on_input ev ext uuid (b :: raw) (w_host w)) as [[[d|]|x] h]; [reflexivity| |]; apply after_host.
  - left. destruct (dict_get Z.eqb a (w_conns w)) as [[|d|]|]; try reflexivity. apply after_host.
  - left. destruct (dict_get Z.eqb a (w_conns w)) as [[|d|]|]; reflexivity.
  - left. destruct (dict_get Z.eqb a (w_conns w)) as [s|]; reflexivity.
  - left. reflexivity.
  - left. destruct (w_accepting w); reflexivity.
  - left. destruct (w_accepting w); reflexivity.
Qed.

(** every id awaited by a host was issued, no two hosts await the same *)
Definition pinv {U} (P : process U) : Prop :=
  0 <= p_next P /\ (forall k, NoDup (awaited P k)) /\ (forall k i, In i (awaited P k) -> 0 <= i < p_next P) /\
  forall j k i, j <> k -> In i (awaited P j) -> In i (awaited P k) -> False.
Lemma pinv_view {U} (P : process U) k o : pinv P -> get_host P k = Some o -> inv (view P o).
Proof.
  intros (A & B & C & _) G. specialize (B k). specialize (C k). unfold awaited in *. rewrite G in *. split; [exact A|]. split; [exact B|exact C].
Qed.
(** a step in terms of one host: what is awaited after it was awaited before, or is new *)
Lemma pinv_grow {U} (P P' : process U) : pinv P -> p_next P <= p_next P' ->
  (exists k, (forall j, j <> k -> awaited P' j = awaited P j) /\ NoDup (awaited P' k) /\
    forall i, In i (awaited P' k) -> i < p_next P' /\ (In i (awaited P k) \/ p_next P <= i)) -> pinv P'.
Proof.
  intros (A & B & C & D) N (k & O & Nd & K). split; [lia|]. split; [|split].
  - intros j. destruct (Z.eq_dec j k) as [->|E]; [exact Nd|]. rewrite (O j E). apply B.
  - intros j i I. destruct (Z.eq_dec j k) as [->|E].
    + destruct (K i I) as [L [J|J]]; [apply C in J|]; lia.
    + rewrite (O j E) in I. apply C in I. lia.
  - intros j l i E I J. destruct (Z.eq_dec j k) as [->|Ej].
    + assert (El : l <> k) by congruence. rewrite (O l El) in J. destruct (K i I) as [L [I'|I']]; [exact (D k l i E I' J)|].
      apply C in J. lia.
    + rewrite (O j Ej) in I. destruct (Z.eq_dec l k) as [->|El].
      * destruct (K i J) as [L [J'|J']]; [exact (D j k i E I J')|]. apply C in I. lia.
      * rewrite (O l El) in J. exact (D j l i E I J).
Qed.
Lemma pinv_same {U} (P P' : process U) : pinv P -> p_next P <= p_next P' -> (forall j, awaited P' j = awaited P j) -> pinv P'.
Proof.
  intros I N E. apply (pinv_grow P P' I N). exists 0. split; [intros; apply E|]. destruct I as (_ & B & C & _). rewrite E. split; [apply B|].
  intros i J. split; [apply C in J; lia|auto].
Qed.
Lemma awaited_put {U} (P : process U) k o j : awaited (put_host P k o) j = if k =? j then map fst (ho_pending o) else awaited P j.
Proof. unfold awaited. rewrite put_get. destruct (k =? j); reflexivity. Qed.
Lemma put_same {U} (P : process U) k o o' : get_host P k = Some o -> ho_pending o' = ho_pending o ->
  forall j, awaited (put_host P k o') j = awaited P j.
Proof.
  intros G E j. rewrite awaited_put. destruct (Z.eqb_spec k j) as [<-|]; [|reflexivity]. unfold awaited. rewrite G, E. reflexivity.
Qed.
Lemma start_put {U} (P : process U) k o ch : exists o', snd (start P k o ch) = put_host P k o' /\
  ho_pending o' = ho_pending o /\ ho_init o' = ho_init o /\ ho_ext o' = ho_ext o /\ ho_conns o' = ho_conns o.
Proof. unfold start. destruct (listen P (ho_port o) ch); eexists; cbn [snd]; (split; [reflexivity|repeat split]). Qed.

Lemma pinv_step {U} ev (P : process U) e : set_order_ok (e_so ev) -> pinv P ->
  pinv (p_step ev P e) /\ p_next P <= p_next (p_step ev P e) /\
  (forall k, event_host e <> Some k -> get_host (p_step ev P e) k = get_host P k).
Proof.
  intros Hso I.
  assert (Same : pinv P /\ p_next P <= p_next P /\ forall k, event_host e <> Some k -> get_host P k = get_host P k) by (split; [exact I|split; [lia|reflexivity]]).
  assert (Put : forall k o, event_host e = Some k -> pinv (put_host P k o) ->
    pinv (put_host P k o) /\ p_next P <= p_next (put_host P k o) /\
    forall j, event_host e <> Some j -> get_host (put_host P k o) j = get_host P j).
  { intros k o E V. split; [exact V|]. split; [cbn; lia|]. intros j N. rewrite put_get. destruct (Z.eqb_spec k j) as [->|]; [contradiction|reflexivity]. }
  destruct e as [k x port|k x|k ch|k e|k port|k|n d u|p|p]; cbn [p_step].
  - destruct (get_host P k) eqn:G; [exact Same|]. apply Put; [reflexivity|]. apply (pinv_same P); [exact I|cbn; lia|].
    intros j. rewrite awaited_put. destruct (Z.eqb_spec k j) as [<-|]; [|reflexivity]. unfold awaited. rewrite G. reflexivity.
  - destruct (get_host P k) as [o|] eqn:G; [|exact Same]. apply Put; [reflexivity|]. apply (pinv_grow P); [exact I|cbn; lia|].
    exists k. split; [intros j N; rewrite awaited_put; destruct (Z.eqb_spec k j); [congruence|reflexivity]|].
    rewrite awaited_put, Z.eqb_refl. cbn. split; [constructor|intros i []].
  - destruct (get_host P k) as [o|] eqn:G; [|exact Same]. destruct (ho_accepting o || taken P ch || (ch <=? 0) || (65535 <? ch)); [exact Same|].
    destruct (start_put P k o ch) as (o' & -> & E & _). apply Put; [reflexivity|]. apply (pinv_same P); [exact I|cbn; lia|]. apply (put_same P k o); assumption.
  - destruct (get_host P k) as [o|] eqn:G; [|exact Same].
    assert (O : forall j, j <> k -> get_host (put_world P k o (world_step ev (ho_ext o) (world_of P o) e)) j = get_host P j).
    { intros j N. rewrite put_world_get. destruct (Z.eqb_spec k j); [congruence|reflexivity]. }
    split; [|split; [|intros j N; apply O; cbn [event_host] in N; congruence]].
    + set (w := world_step ev (ho_ext o) (world_of P o) e) in *.
      assert (X : p_next P <= hs_next (w_host w) /\ NoDup (pending_ids (w_host w)) /\ forall i, In i (pending_ids (w_host w)) ->
         i < hs_next (w_host w) /\ (In i (awaited P k) \/ p_next P <= i)).
      { pose proof (pinv_view P k o I G) as V. assert (Aw : awaited P k = pending_ids (view P o)) by (unfold awaited; rewrite G; reflexivity).
        rewrite Aw. destruct (world_host_step ev (ho_ext o) (world_of P o) e) as [E|(c & raw & uuid & _ & E)]; fold w in E; rewrite E.
        - fold (view P o). destruct V as (V1 & V2 & V3). split; [cbn; lia|]. split; [exact V2|]. intros i J. apply V3 in J as J'. split; [lia|auto].
        - fold (view P o). destruct (on_input ev (ho_ext o) uuid raw (view P o)) as [r h'] eqn:Eo. cbn [snd].
          destruct (step_inv ev (ho_ext o) uuid raw (view P o) r h' Hso V Eo) as ((W1 & W2 & W3) & N & K & _).
          split; [exact N|]. split; [exact W2|]. intros i J. split; [apply W3, J|]. apply K, J. }
      destruct X as (X1 & X2 & X3). apply (pinv_grow P); [exact I|exact X1|]. exists k.
      split; [intros j N; unfold awaited; rewrite O by exact N; reflexivity|].
      assert (Aw : awaited (put_world P k o w) k = pending_ids (w_host w)) by (unfold awaited; rewrite put_world_get, Z.eqb_refl; reflexivity).
      rewrite Aw. split; [exact X2|exact X3].
    + destruct (world_host_step ev (ho_ext o) (world_of P o) e) as [E|(c & raw & uuid & _ & E)]; cbn [put_world p_next]; rewrite E; [cbn; lia|].
      destruct (on_input ev (ho_ext o) uuid raw (w_host (world_of P o))) as [r h'] eqn:Eo. cbn [snd].
      destruct (step_inv ev (ho_ext o) uuid raw _ r h' Hso (pinv_view P k o I G) Eo) as (_ & N & _). exact N.
  - destruct (get_host P k) as [o|] eqn:G; [|exact Same]. apply Put; [reflexivity|]. apply (pinv_same P); [exact I|cbn; lia|]. apply (put_same P k o); [exact G|reflexivity].
  - destruct (get_host P k) as [o|] eqn:G; [|exact Same]. destruct (ho_accepting o); [exact Same|].
    apply Put; [reflexivity|]. apply (pinv_same P); [exact I|cbn; lia|]. apply (put_same P k o); [exact G|reflexivity].
  - split; [|split; [cbn; lia|reflexivity]]. apply (pinv_same P); [exact I|cbn; lia|reflexivity].
  - destruct (taken P p); [exact Same|]. split; [|split; [cbn; lia|reflexivity]]. apply (pinv_same P); [exact I|cbn; lia|reflexivity].
  - split; [|split; [cbn; lia|reflexivity]]. apply (pinv_same P); [exact I|cbn; lia|reflexivity].
Qed.
Lemma pinv_new {U} (u : U) : pinv (new_process u).
Proof. split; [cbn; lia|]. split; [intros k; constructor|]. split; [intros k i []|intros j k i _ []]. Qed.
Lemma pinv_run {U} ev es : set_order_ok (e_so ev) -> forall P : process U, pinv P ->
  pinv (p_run ev P es) /\ p_next P <= p_next (p_run ev P es).
Proof.
  intros Hso. induction es as [|e es IH]; intros P I; [split; [exact I|cbn; lia]|]. cbn [p_run fold_left].
  destruct (pinv_step ev P e Hso I) as (I' & N & _). destruct (IH _ I') as (I2 & N2). unfold p_run in *. split; [exact I2|lia].
Qed.
Lemma reachable_inv {U} ev (P : process U) : set_order_ok (e_so ev) -> reachable ev P -> pinv P.
Proof. intros Hso (u & es & ->). apply pinv_run; [exact Hso|apply pinv_new]. Qed.

(** ** C87.  Hosts in one process do not disturb each other.  Ids: each is awaited by at most one
    host, and was issued. *)
Theorem C87_ids : forall U ev (P : process U), set_order_ok (e_so ev) -> reachable ev P ->
  (forall k, NoDup (awaited P k)) /\ (forall k i, In i (awaited P k) -> 0 <= i < p_next P) /\
  forall j k i, j <> k -> In i (awaited P j) -> ~ In i (awaited P k).
Proof. intros U ev P Hso R. destruct (reachable_inv ev P Hso R) as (_ & A & B & C). split; [exact A|]. split; [exact B|]. exact C. Qed.
Print Assumptions C87_ids.
(** What is not about a host changes neither what it awaits nor its connections nor what it sends;
    the program and other hosts can only use up ids. *)
Theorem C87_others : forall U ev (P : process U) e k, set_order_ok (e_so ev) -> reachable ev P -> event_host e <> Some k ->
  let P' := p_step ev P e in
  awaited P' k = awaited P k /\ (forall c, host_conn P' k c = host_conn P k c) /\ (forall c, sending P' k c = sending P k c) /\
  p_next P <= p_next P'.
Proof.
  intros U ev P e k Hso R N P'. destruct (pinv_step ev P e Hso (reachable_inv ev P Hso R)) as (_ & Le & G). specialize (G k N).
  unfold awaited, sending, host_conn. fold P' in G. rewrite G. auto.
Qed.
Print Assumptions C87_others.

(** ** a chunk received by host [k] *)
Lemma recv_get {U} ev (P : process U) k o c raw uuid r h' :
  get_host P k = Some o -> host_conn P k c = Some Receiving -> raw <> [] -> zlen raw <= 10240 ->
  on_input ev (ho_ext o) uuid raw (view P o) = (r, h') ->
  let P' := p_step ev P (Of k (Recv c raw uuid)) in
  exists o', get_host P' k = Some o' /\ ho_ext o' = ho_ext o /\ view P' o' = h' /\
    sending P' k c = match r with Ok (Some d) => [d] | _ => [] end.
Proof.
  intros G C Ne L E P'. set (w := world_step ev (ho_ext o) (world_of P o) (Recv c raw uuid)).
  assert (EP : P' = put_world P k o w) by (unfold P'; cbn [p_step]; rewrite G; reflexivity).
  exists (after o w). rewrite EP. split; [rewrite put_world_get, Z.eqb_refl; reflexivity|]. split; [reflexivity|].
  rewrite view_after. unfold sending, host_conn. rewrite put_world_get, Z.eqb_refl. cbn [after ho_conns].
  assert (W : w_host w = h' /\ dict_get Z.eqb c (w_conns w) =
     Some (match r with Ok (Some d) => Sending d | _ => if ho_terminating o then Closed else Receiving end)).
  { unfold w. cbn [world_step]. change RECV_LIMIT with 10240. destruct (Z.ltb_spec 10240 (zlen raw)); [lia|].
    unfold host_conn in C. rewrite G in C. change (w_conns (world_of P o)) with (ho_conns o). rewrite C. destruct raw as [|b raw]; [contradiction|].
    fold (world_of P o). fold (view P o). rewrite E.
    destruct r as [[d|]|x].
    - cbn [w_host w_conns]. split; [reflexivity|]. apply (dict_get_set_same _ Z.eqb_eq).
    - split; [apply after_host|]. unfold after_chunk. change (w_terminating (world_of P o)) with (ho_terminating o). destruct (ho_terminating o); apply (dict_get_set_same _ Z.eqb_eq).
    - split; [apply after_host|]. unfold after_chunk. change (w_terminating (world_of P o)) with (ho_terminating o). destruct (ho_terminating o); apply (dict_get_set_same _ Z.eqb_eq). }
  destruct W as [W1 W2]. split; [exact W1|]. rewrite W2. destruct r as [[d|]|x]; [reflexivity| |]; destruct (ho_terminating o); reflexivity.
Qed.
Lemma read_not_empty so raw m : read_as so raw m -> m_id m <> 0 -> raw <> [].
Proof.
  intros Hm Hi ->. destruct Hm as (hd & t & n & o0 & n' & o & E & Hm). do 7 (destruct Hm as [_ Hm]). destruct Hm as [Hm _]. apply Hi. rewrite Hm.
  assert (X : match read_header [] with Ok (h, _) => h_id h | _ => 1 end = 0) by (vm_compute; reflexivity). rewrite E in X. exact X.
Qed.
Lemma response_not_empty so raw err k p : response_in so raw err k p -> raw <> [].
Proof.
  intros (hd & t & n & o0 & n' & o & E & R & _) ->.
  assert (X : match read_header [] with Ok (h, _) => is_request h | _ => true end = true) by (vm_compute; reflexivity).
  rewrite E in X. congruence.
Qed.

(** Requests other than the initialization get the reply they would get from the same extension
    served alone in a fresh process, whatever has happened in this one (REST: if the user's
    handlers do not share state themselves). *)
Theorem C87_replies : forall U ev (P : process U) k o c raw uuid m u',
  set_order_ok (e_so ev) -> reachable ev P -> get_host P k = Some o -> host_conn P k c = Some Receiving ->
  read_as (e_so ev) raw m -> m_id m <> 0 -> ~ is_init m -> zlen raw <= 10240 ->
  (m_action m = py "internal:extensions/restexecuteonextensiontaction" -> pure_handlers (ho_ext o)) ->
  sending (p_step ev P (Of k (Recv c raw uuid))) k c =
    match fst (on_input ev (ho_ext o) uuid raw (initial_host u')) with Ok (Some out) => [out] | _ => [] end.
Proof.
  intros U ev P k o c raw uuid m u' Hso _ G C Hm Hi Hn L Hp.
  rewrite <- (stateless ev (ho_ext o) uuid raw m (view P o) (initial_host u') Hso Hm Hi Hn Hp).
  destruct (on_input ev (ho_ext o) uuid raw (view P o)) as [r h'] eqn:E.
  destruct (recv_get ev P k o c raw uuid r h' G C (read_not_empty _ _ _ Hm Hi) L E) as (o' & _ & _ & _ & S). exact S.
Qed.
Print Assumptions C87_replies.

(** An event that has nothing to do with an exchange of host [k] that waits for the responses
    [ks]: anything but another initialization of the same host, an early answer to one of [ks]
    received by the same host, or serve() on the same host. *)
Definition bystander {U} (so : set_order) (k : Z) (ks : list Z) (e : pevent U) : Prop :=
  match e with
  | Of j (Recv _ raw _) => j = k -> unrelated so ks raw
  | Serve j _ => j <> k
  | _ => True
  end.
Lemma bystander_step {U} ev (P : process U) k ks o e : set_order_ok (e_so ev) -> pinv P -> get_host P k = Some o ->
  bystander (e_so ev) k ks e ->
  exists o', get_host (p_step ev P e) k = Some o' /\ ho_ext o' = ho_ext o /\ ho_init o' = ho_init o /\
    forall i, In i ks -> dict_get Z.eqb i (ho_pending o') = dict_get Z.eqb i (ho_pending o).
Proof.
  intros Hso I G B.
  assert (Same : forall Q : process U, get_host Q k = get_host P k -> exists o', get_host Q k = Some o' /\ ho_ext o' = ho_ext o /\ ho_init o' = ho_init o /\
     forall i, In i ks -> dict_get Z.eqb i (ho_pending o') = dict_get Z.eqb i (ho_pending o)).
  { intros Q E. exists o. rewrite E, G. auto. }
  assert (Dec : event_host e <> Some k \/ event_host e = Some k).
  { destruct (event_host e) as [j|]; [|left; discriminate]. destruct (Z.eq_dec j k) as [->|N]; [right; reflexivity|left; congruence]. }
  destruct Dec as [N|E].
  { apply Same. apply (pinv_step ev P e Hso I). exact N. }
  destruct e as [j x port|j x|j ch|j e|j port|j|n d u|p|p]; cbn [event_host] in E; try discriminate; apply (f_equal (fun o => match o with Some x => x | None => 0 end)) in E; subst j; cbn [p_step]; rewrite G.
  - apply Same. reflexivity.
  - cbn [bystander] in B. contradiction.
  - destruct (ho_accepting o || taken P ch || (ch <=? 0) || (65535 <? ch)); [apply Same; reflexivity|].
    destruct (start_put P k o ch) as (o' & -> & E1 & E2 & E3 & _). exists o'. rewrite put_get, Z.eqb_refl, E1. auto.
  - exists (after o (world_step ev (ho_ext o) (world_of P o) e)). rewrite put_world_get, Z.eqb_refl. split; [reflexivity|]. split; [reflexivity|].
    cbn [after ho_init ho_pending].
    destruct (world_host_step ev (ho_ext o) (world_of P o) e) as [->|(c & raw & uuid & -> & ->)]; [split; [reflexivity|intros; reflexivity]|].
    cbn [bystander] in B. specialize (B eq_refl).
    pose proof (pinv_view P k o I G) as V. destruct B as [N1 N2]. fold (view P o).
    destruct (on_input ev (ho_ext o) uuid raw (view P o)) as [r h1] eqn:E1. cbn [snd].
    destruct (step_other _ _ _ _ _ _ _ Hso N1 E1) as (_ & E2 & Q). split; [exact E2|]. intros i Hi.
    destruct Q as [->|(j & p & Hr & _ & ->)]; [reflexivity|]. rewrite (dict_del_get _ Z.eqb_eq) by apply V.
    destruct (Z.eqb_spec j i) as [->|]; [|reflexivity]. exfalso. exact (N2 i p Hi Hr).
  - rewrite put_get, Z.eqb_refl. eexists. split; [reflexivity|]. split; [reflexivity|]. split; [reflexivity|]. reflexivity.
  - destruct (ho_accepting o); [apply Same; reflexivity|].
    rewrite put_get, Z.eqb_refl. eexists. split; [reflexivity|]. split; [reflexivity|]. split; [reflexivity|]. reflexivity.
Qed.
Lemma bystander_run {U} ev k ks es : set_order_ok (e_so ev) -> Forall (bystander (e_so ev) k ks) es ->
  forall (P : process U) o, pinv P -> get_host P k = Some o ->
  pinv (p_run ev P es) /\ exists o', get_host (p_run ev P es) k = Some o' /\ ho_ext o' = ho_ext o /\ ho_init o' = ho_init o /\
    forall i, In i ks -> dict_get Z.eqb i (ho_pending o') = dict_get Z.eqb i (ho_pending o).
Proof.
  intros Hso F. induction F as [|e es B F IH]; intros P o I G; [split; [exact I|exists o; auto]|].
  cbn [p_run fold_left]. destruct (bystander_step ev P k ks o e Hso I G B) as (o1 & G1 & X1 & I1 & K1).
  destruct (IH _ o1 (proj1 (pinv_step ev P e Hso I)) G1) as (I2 & o2 & G2 & X2 & J2 & K2). unfold p_run in *.
  split; [exact I2|]. exists o2. split; [exact G2|]. split; [congruence|]. split; [congruence|]. intros i Hi. rewrite (K2 i Hi). apply K1, Hi.
Qed.
Lemma pinv_reach {U} ev (P : process U) e : set_order_ok (e_so ev) -> pinv P -> pinv (p_step ev P e).
Proof. intros Hso I. apply pinv_step; assumption. Qed.

(** The initialization of host [k] runs to its end with the name, interfaces and routes of its own
    extension, whatever the program and the other hosts do meanwhile. *)
Theorem C87_initialization : forall U ev strict m raw q (ext : extension U),
  set_order_ok (e_so ev) -> frame_of m raw -> is_init m ->
  w_init_request strict q (m_payload m) ->
  a_addr (n_addr (ir_source q)) < 2 ^ 31 -> a_addr (n_addr (x_node (ir_ext q))) < 2 ^ 31 ->
  text_ok (xt_name ext) -> texts_ok (xt_interfaces ext) -> Forall text_ok (rg_named (xt_registry ext)) ->
  exists pe pr pi,
    w_ext_transport_request (mkTask [] None) [] 4 pe /\
    (zlen pr < 2 ^ 35 -> w_register_request (mkTask [] None) (xt_name ext) (rg_named (xt_registry ext)) [] pr) /\
    w_init_response true (mkInitResp (xt_name ext) (xt_interfaces ext)) pi /\
    (zlen raw <= 10240 -> zlen pr < 2 ^ 29 -> zlen pi < 2 ^ 29 ->
     forall P k o, reachable ev P -> get_host P k = Some o -> ho_ext o = ext -> p_next P + 4 < 2 ^ 63 ->
     exists i register env_settings response,
       carries false (request_for m (i + 1) (py "internal:discovery/registerrestactions") pr) register /\
       carries false (request_for m i (py "internal:discovery/enviornmentsettings") pe) env_settings /\
       answers m pi response /\
       forall c uuid, host_conn P k c = Some Receiving ->
       let P1 := p_step ev P (Of k (Recv c raw uuid)) in
       sending P1 k c = [register] /\
       forall es1, Forall (bystander (e_so ev) k [i; i + 1]) es1 ->
       let P2 := p_run ev P1 es1 in
       forall c2 raw2 uuid2 p t, host_conn P2 k c2 = Some Receiving -> zlen raw2 <= 10240 ->
         response_in (e_so ev) raw2 false (i + 1) p -> read_ack p = Ok (true, t) ->
         let P3 := p_step ev P2 (Of k (Recv c2 raw2 uuid2)) in
         sending P3 k c2 = [env_settings] /\
         forall es2, Forall (bystander (e_so ev) k [i]) es2 ->
         let P4 := p_run ev P3 es2 in
         forall c4 raw4 uuid4 p4 t4 d, host_conn P4 k c4 = Some Receiving -> zlen raw4 <= 10240 ->
           response_in (e_so ev) raw4 false i p4 ->
           read_settings (e_fuel ev) (p_settings P4) p4 = (Ok t4, d) ->
           sending (p_step ev P4 (Of k (Recv c4 raw4 uuid4))) k c4 = [response]).
Proof.
  intros U ev strict m raw q ext Hso Hf Hi Wq L1 L2 T1 T2 T3.
  destruct (init_started ev ext strict m raw q Hso Hf Hi L1 L2 Wq T1 T2 T3) as (pe & pr & pi & R1 & R2 & R3 & X).
  exists pe, pr, pi. split; [exact R1|]. split; [exact R2|]. split; [exact R3|]. intros B1 B2 B3 P k o Hr G Ex Hn.
  pose proof (reachable_inv ev P Hso Hr) as I.
  destruct (X ltac:(lia) B2 B3 (view P o) ltac:(destruct I; cbn; lia) Hn) as (out1 & sr & out2 & resp & out3 & C1 & C2 & C3 & W2 & W3 & E).
  set (i := hs_next (view P o) + 2) in *. exists i, out1, out2, out3.
  replace (i + 1) with (hs_next (view P o) + 3) by (subst i; lia).
  set (i1 := hs_next (view P o) + 3) in *. assert (NE : i1 <> i) by (subst i i1; lia).
  split; [exact C1|]. split; [exact C2|]. split; [exact C3|]. intros c uuid Hc. cbv zeta.
  specialize (E uuid []). rewrite app_nil_r in E. rewrite <- Ex in E.
  assert (Ne : raw <> []).
  { destruct (read_as_frame (e_so ev) m raw Hso Hf) as (c' & _ & Rm). specialize (Rm []). rewrite app_nil_r in Rm.
    apply (read_not_empty _ _ _ Rm). exact (frame_id m raw Hf). }
  destruct (recv_get ev P k o c raw uuid _ _ G Hc Ne B1 E) as (o1 & G1 & X1 & V1 & S1).
  set (P1 := p_step ev P (Of k (Recv c raw uuid))) in *. split; [exact S1|].
  pose proof (pinv_reach ev P (Of k (Recv c raw uuid)) Hso I) as I1. fold P1 in I1.
  intros es1 F1. destruct (bystander_run ev k [i; i1] es1 Hso F1 P1 o1 I1 G1) as (I2 & o2 & G2 & X2 & J2 & K2).
  set (P2 := p_run ev P1 es1) in *.
  assert (Hp1 : ho_pending o1 = dict_set Z.eqb i1 (RegisterRH sr) (dict_set Z.eqb i EnvRH (ho_pending o))).
  { apply (f_equal hs_pending) in V1. exact V1. }
  assert (Hi1 : ho_init o1 = Some resp) by (apply (f_equal hs_init) in V1; exact V1).
  assert (D1 : dict_get Z.eqb i1 (ho_pending o2) = Some (RegisterRH sr)).
  { rewrite K2 by (right; left; reflexivity). rewrite Hp1. apply (dict_get_set_same _ Z.eqb_eq). }
  assert (D2 : dict_get Z.eqb i (ho_pending o2) = Some EnvRH).
  { rewrite K2 by (left; reflexivity). rewrite Hp1, (dict_get_set_other _ Z.eqb_eq) by exact NE. apply (dict_get_set_same _ Z.eqb_eq). }
  intros c2 raw2 uuid2 p t Hc2 Lr2 Rp Ra.
  pose proof (acked ev (ho_ext o2) uuid2 raw2 i1 p t sr out2 true (view P2 o2) Rp D1 W2 Ra) as E3. cbv iota in E3.
  destruct (recv_get ev P2 k o2 c2 raw2 uuid2 _ _ G2 Hc2 (response_not_empty _ _ _ _ _ Rp) Lr2 E3) as (o3 & G3 & X3 & V3 & S3).
  set (P3 := p_step ev P2 (Of k (Recv c2 raw2 uuid2))) in *. split; [exact S3|].
  pose proof (pinv_reach ev P2 (Of k (Recv c2 raw2 uuid2)) Hso I2) as I3. fold P3 in I3.
  intros es2 F2. destruct (bystander_run ev k [i] es2 Hso F2 P3 o3 I3 G3) as (I4 & o4 & G4 & X4 & J4 & K4).
  set (P4 := p_run ev P3 es2) in *.
  assert (Hp3 : ho_pending o3 = dict_del Z.eqb i1 (ho_pending o2)) by (apply (f_equal hs_pending) in V3; exact V3).
  assert (Hi3 : ho_init o3 = ho_init o2) by (apply (f_equal hs_init) in V3; exact V3).
  assert (D4 : dict_get Z.eqb i (ho_pending o4) = Some EnvRH).
  { rewrite K4 by (left; reflexivity). rewrite Hp3, (dict_del_get _ Z.eqb_eq) by apply (pinv_view P2 k o2 I2 G2).
    destruct (Z.eqb_spec i1 i); [contradiction|]. exact D2. }
  intros c4 raw4 uuid4 p4 t4 d Hc4 Lr4 Re Rs.
  assert (I5 : hs_init (view P4 o4) = Some resp) by (change (ho_init o4 = Some resp); congruence).
  pose proof (env_answered ev (ho_ext o4) uuid4 raw4 i p4 t4 d resp out3 (view P4 o4) Re D4 I5 W3 Rs) as E5.
  destruct (recv_get ev P4 k o4 c4 raw4 uuid4 _ _ G4 Hc4 (response_not_empty _ _ _ _ _ Re) Lr4 E5) as (o5 & _ & _ & _ & S5). exact S5.
Qed.
Print Assumptions C87_initialization.

(** One host that nothing else touches behaves as Host.v says: every theorem about [run_world]
    is about it. *)
Theorem C87_alone : forall U ev (ext : extension U) u k chosen es, 0 < chosen <= 65535 ->
  let P := p_run ev (new_process u) ([Create k ext None; Start k chosen] ++ map (Of k) es) in
  exists o, get_host P k = Some o /\ ho_ext o = ext /\ world_of P o = run_world ev ext (initial_world u) es.
Proof.
  intros U ev ext u k ch es Hc. cbv zeta.
  assert (S0 : p_run ev (new_process u) [Create k ext None; Start k ch] =
    mkProcess 0 [] u [] [(k, mkHobj ext [] None (Some ch) (Some ch) false true [] [])]).
  { unfold p_run. cbn [fold_left].
    change (p_step ev (new_process u) (Create k ext None)) with (mkProcess 0 [] u [] [(k, new_host ext None)]).
    cbn [p_step]. unfold get_host, taken. cbn [p_hosts p_others existsb dict_get]. rewrite Z.eqb_refl.
    cbn [new_host ho_accepting ho_server snd orb].
    destruct (Z.leb_spec ch 0); [lia|]. destruct (Z.ltb_spec 65535 ch); [lia|]. cbn [orb].
    unfold start, listen, put_host. cbn [ho_port Z.eqb snd p_next p_settings p_user p_others p_hosts dict_set ho_ext ho_pending ho_init ho_conns ho_sent].
    change (0 =? 0) with true. cbv iota. cbn [snd p_hosts dict_set]. rewrite (Z.eqb_refl k). reflexivity. }
  induction es as [|e es IH] using rev_ind.
  - cbn [map]. rewrite app_nil_r. rewrite S0. exists (mkHobj ext [] None (Some ch) (Some ch) false true [] []).
    unfold get_host. cbn [p_hosts dict_get find fst snd]. rewrite Z.eqb_refl. split; [reflexivity|]. split; reflexivity.
  - destruct IH as (o & G & X & W). rewrite map_app, app_assoc. cbn [map].
    unfold p_run in *. rewrite fold_left_app. set (P := fold_left (p_step ev) ([Create k ext None; Start k ch] ++ map (Of k) es) (new_process u)) in *.
    cbn [fold_left p_step]. rewrite G. rewrite run_snoc. eexists. rewrite put_world_get, Z.eqb_refl. split; [reflexivity|]. split; [exact X|].
    rewrite X, W. set (w := world_step ev ext (run_world ev ext (initial_world u) es) e). destruct w as [[] ? ? ? ?]. reflexivity.
Qed.
Print Assumptions C87_alone.
(** two extensions, an initialization in each, answers crosswise *)
Definition ex_ext2 : extension Z := mkExtn Z (py "other") (xt_interfaces ex_ext) (xt_registry ex_ext) (xt_invoke ex_ext).
Definition ex_both : list (pevent Z) :=
  [Create 0 ex_ext None; Create 1 ex_ext2 None; Start 0 4000; Start 1 4001; Of 0 (Accept 0); Of 1 (Accept 0);
   Of 0 (Recv 0 (ex_raw (ex_init 77)) []); Of 1 (Recv 0 (ex_raw (ex_init 78)) []);
   Of 0 (SendDone 0 true); Of 1 (SendDone 0 true)].
Example C87_case : let P := p_run ex_env (new_process 0) ex_both in
  reachable ex_env P /\ awaited P 0 = [2; 3] /\ awaited P 1 = [6; 7] /\ host_conn P 0 0 = Some Receiving /\
  host_conn P 1 0 = Some Receiving /\
  (* the acknowledgement of host 1's registration means nothing to host 0 *)
  sending (p_step ex_env P (Of 0 (Recv 0 (ex_answer 7 [x01]) []))) 0 0 = [] /\
  length (sending (p_step ex_env P (Of 1 (Recv 0 (ex_answer 7 [x01]) []))) 1 0) = 1%nat /\
  Forall (bystander (e_so ex_env) 0 [2; 3]) [Of 1 (Recv 0 (ex_raw (ex_init 79)) []); Program 5 [] 9; Serve 1 ex_ext].
Proof.
  cbv zeta. split; [eexists _, _; reflexivity|]. repeat (split; [vm_compute; reflexivity|]).
  repeat constructor; cbn; intros; discriminate.
Qed.

(** ** C90.  serve() on a host in use *)
Lemma awaited_step {U} ev (P : process U) e k : set_order_ok (e_so ev) -> pinv P ->
  forall i, In i (awaited (p_step ev P e) k) -> In i (awaited P k) \/ p_next P <= i.
Proof.
  intros Hso I i J.
  assert (Dec : event_host e <> Some k \/ event_host e = Some k).
  { destruct (event_host e) as [j|]; [|left; discriminate]. destruct (Z.eq_dec j k) as [->|N]; [right; reflexivity|left; congruence]. }
  destruct Dec as [N|E].
  { left. unfold awaited in *. rewrite (proj2 (proj2 (pinv_step ev P e Hso I)) k N) in J. exact J. }
  destruct e as [j x port|j x|j ch|j e|j port|j|n d u|p|p]; cbn [event_host] in E; try discriminate; apply (f_equal (fun o => match o with Some x => x | None => 0 end)) in E; subst j;
    cbn [p_step] in J; destruct (get_host P k) as [o|] eqn:G; try (left; exact J).
  - rewrite awaited_put, Z.eqb_refl in J. destruct J.
  - rewrite awaited_put, Z.eqb_refl in J. destruct J.
  - destruct (ho_accepting o || taken P ch || (ch <=? 0) || (65535 <? ch)); [auto|].
    destruct (start_put P k o ch) as (o' & E' & E1 & _). rewrite E', awaited_put, Z.eqb_refl, E1 in J. left. unfold awaited. rewrite G. exact J.
  - unfold awaited in *. rewrite put_world_get, Z.eqb_refl in J. rewrite G. cbn [after ho_pending] in J.
    destruct (world_host_step ev (ho_ext o) (world_of P o) e) as [E|(c & raw & uuid & _ & E)]; rewrite E in J; [left; exact J|].
    destruct (on_input ev (ho_ext o) uuid raw (w_host (world_of P o))) as [r h'] eqn:Eo. cbn [snd] in J.
    destruct (step_inv ev (ho_ext o) uuid raw _ r h' Hso (pinv_view P k o I G) Eo) as (_ & _ & K & _). apply K, J.
  - rewrite awaited_put, Z.eqb_refl in J. left. unfold awaited. rewrite G. exact J.
  - destruct (ho_accepting o); [auto|]. rewrite awaited_put, Z.eqb_refl in J. left. unfold awaited. rewrite G. exact J.
Qed.
Definition no_serve {U} (k : Z) (e : pevent U) : Prop := match e with Serve j _ => j <> k | _ => True end.
Lemma ext_step {U} ev (P : process U) e k o : get_host P k = Some o -> no_serve k e ->
  exists o', get_host (p_step ev P e) k = Some o' /\ ho_ext o' = ho_ext o.
Proof.
  intros G N.
  assert (Same : exists o', get_host P k = Some o' /\ ho_ext o' = ho_ext o) by eauto.
  assert (Put : forall j x, (j = k -> ho_ext x = ho_ext o) -> exists o', get_host (put_host P j x) k = Some o' /\ ho_ext o' = ho_ext o).
  { intros j x E. rewrite put_get. destruct (Z.eqb_spec j k) as [->|]; [|exact Same]. eauto. }
  destruct e as [j x port|j x|j ch|j e|j port|j|n d u|p|p]; cbn [p_step]; try exact Same.
  - destruct (get_host P j) eqn:Gj; [exact Same|]. apply Put. intros ->. congruence.
  - destruct (get_host P j) eqn:Gj; [|exact Same]. apply Put. intros ->. contradiction.
  - destruct (get_host P j) as [o1|] eqn:Gj; [|exact Same]. destruct (ho_accepting o1 || taken P ch || (ch <=? 0) || (65535 <? ch)); [exact Same|].
    destruct (start_put P j o1 ch) as (o' & -> & _ & _ & E & _). apply Put. intros ->. congruence.
  - destruct (get_host P j) as [o1|] eqn:Gj; [|exact Same]. rewrite put_world_get. destruct (Z.eqb_spec j k) as [->|]; [|exact Same].
    eexists. split; [reflexivity|]. cbn. congruence.
  - destruct (get_host P j) as [o1|] eqn:Gj; [|exact Same]. apply Put. intros ->. cbn. congruence.
  - destruct (get_host P j) as [o1|] eqn:Gj; [|exact Same]. destruct (ho_accepting o1); [exact Same|]. apply Put. intros ->. cbn. congruence.
  - destruct (taken P p); exact Same.
Qed.
Lemma since_serve {U} ev (P : process U) k ext es : set_order_ok (e_so ev) -> pinv P -> get_host P k <> None ->
  Forall (no_serve k) es ->
  let P' := p_run ev (p_step ev P (Serve k ext)) es in
  pinv P' /\ (exists o, get_host P' k = Some o /\ ho_ext o = ext) /\ forall i, In i (awaited P' k) -> p_next P <= i.
Proof.
  intros Hso I G F. cbv zeta. induction es as [|e es IH] using rev_ind.
  - cbn [p_run fold_left]. split; [apply pinv_reach; assumption|]. cbn [p_step]. destruct (get_host P k) as [o|] eqn:E; [|congruence].
    split; [exists (serve_host o ext); rewrite put_get, Z.eqb_refl; split; reflexivity|]. intros i J. rewrite awaited_put, Z.eqb_refl in J. destruct J.
  - apply Forall_app in F as [F1 F2]. apply Forall_cons_iff in F2 as [F2 _]. destruct (IH F1) as (I1 & (o & G1 & X1) & K1).
    unfold p_run in *. rewrite fold_left_app. cbn [fold_left].
    set (Q := fold_left (p_step ev) es (p_step ev P (Serve k ext))) in *.
    split; [apply pinv_reach; assumption|]. destruct (ext_step ev Q e k o G1 F2) as (o' & G2 & X2).
    split; [exists o'; split; [exact G2|congruence]|]. intros i J. destruct (awaited_step ev Q e k Hso I1 i J) as [J'|J']; [auto|].
    assert (L : p_next P <= p_next Q); [|lia]. change Q with (p_run ev P (Serve k ext :: es)). apply pinv_run; assumption.
Qed.
(** The connections stay as they are, with what is being sent on them. *)
Theorem C90_connections : forall U ev (P : process U) k j c ext,
  host_conn (p_step ev P (Serve k ext)) j c = host_conn P j c /\ sending (p_step ev P (Serve k ext)) j c = sending P j c.
Proof.
  intros U ev P k j c ext. assert (H : host_conn (p_step ev P (Serve k ext)) j c = host_conn P j c).
  { cbn [p_step]. destruct (get_host P k) as [o|] eqn:G; [|reflexivity]. unfold host_conn. rewrite put_get.
    destruct (Z.eqb_spec k j) as [<-|]; [rewrite G|]; reflexivity. }
  split; [exact H|]. unfold sending. rewrite H. reflexivity.
Qed.
Print Assumptions C90_connections.
(** From then on requests are answered by the new extension: as it would answer them served alone
    in a fresh process. *)
Theorem C90_new_extension : forall U ev (P : process U) k ext es c raw uuid m u',
  set_order_ok (e_so ev) -> reachable ev P -> get_host P k <> None -> Forall (no_serve k) es ->
  let P' := p_run ev (p_step ev P (Serve k ext)) es in
  host_conn P' k c = Some Receiving -> read_as (e_so ev) raw m -> m_id m <> 0 -> ~ is_init m -> zlen raw <= 10240 ->
  (m_action m = py "internal:extensions/restexecuteonextensiontaction" -> pure_handlers ext) ->
  sending (p_step ev P' (Of k (Recv c raw uuid))) k c =
    match fst (on_input ev ext uuid raw (initial_host u')) with Ok (Some out) => [out] | _ => [] end.
Proof.
  intros U ev P k ext es c raw uuid m u' Hso R G F P' C Hm Hi Hn L Hp.
  destruct (since_serve ev P k ext es Hso (reachable_inv ev P Hso R) G F) as (_ & (o & Go & Xo) & _). fold P' in Go. subst ext.
  apply (C87_replies U ev P' k o c raw uuid m u'); try assumption.
  destruct R as (u & es0 & ->). exists u, (es0 ++ Serve k (ho_ext o) :: es). unfold P', p_run. rewrite fold_left_app. reflexivity.
Qed.
Print Assumptions C90_new_extension.
(** Exchanges begun for the old extension are over: an answer to a request made before serve() is
    received in silence. *)
Theorem C90_old_answers : forall U ev (P : process U) k ext es c raw uuid err i p,
  set_order_ok (e_so ev) -> reachable ev P -> get_host P k <> None -> Forall (no_serve k) es ->
  let P' := p_run ev (p_step ev P (Serve k ext)) es in
  host_conn P' k c = Some Receiving -> zlen raw <= 10240 -> response_in (e_so ev) raw err i p -> i < p_next P ->
  let P'' := p_step ev P' (Of k (Recv c raw uuid)) in
  sending P'' k c = [] /\ awaited P'' k = awaited P' k /\ p_settings P'' = p_settings P'.
Proof.
  intros U ev P k ext es c raw uuid err i p Hso R G F P' C L Rp Hi. cbv zeta.
  destruct (since_serve ev P k ext es Hso (reachable_inv ev P Hso R) G F) as (_ & (o & Go & Xo) & K). fold P' in Go, K.
  assert (E : on_input ev (ho_ext o) uuid raw (view P' o) = (Ok None, set_next (view P' o) (hs_next (view P' o) + 2))).
  { rewrite (on_response ev (ho_ext o) raw err i p Rp). destruct err; [reflexivity|]. unfold handle_response.
    destruct (dict_get Z.eqb i (hs_pending (set_next (view P' o) (hs_next (view P' o) + 2)))) as [x|] eqn:D; [|reflexivity].
    exfalso. apply (dict_get_In _ Z.eqb_eq) in D. apply (in_map fst) in D. assert (J : In i (awaited P' k)) by (unfold awaited; rewrite Go; exact D).
    apply K in J. lia. }
  destruct (recv_get ev P' k o c raw uuid _ _ Go C (response_not_empty _ _ _ _ _ Rp) L E) as (o' & G' & _ & V & S).
  split; [exact S|]. split.
  - unfold awaited. rewrite G', Go. apply (f_equal hs_pending) in V. change (ho_pending o' = ho_pending o) in V. rewrite V. reflexivity.
  - apply (f_equal hs_settings) in V. exact V.
Qed.
Print Assumptions C90_old_answers.
Example C90_case : let P := p_run ex_env (new_process 0) ex_both in
  reachable ex_env P /\ get_host P 0 <> None /\ awaited P 0 = [2; 3] /\ 3 < p_next P /\
  Forall (no_serve (U := Z) 0) [Program 1 [] 0; Serve 1 ex_ext] /\
  let P' := p_run ex_env (p_step ex_env P (Serve 0 ex_ext2)) [Program 1 [] 0; Serve 1 ex_ext] in
  host_conn P' 0 0 = Some Receiving /\ awaited P' 0 = [] /\
  response_in (e_so ex_env) (ex_answer 3 [x01]) false 3 [x01].
Proof.
  cbv zeta. split; [eexists _, _; reflexivity|]. split; [vm_compute; discriminate|]. split; [vm_compute; reflexivity|]. split; [vm_compute; reflexivity|].
  split; [repeat constructor; cbn; discriminate|]. split; [vm_compute; reflexivity|]. split; [vm_compute; reflexivity|].
  apply ex_answer_in; [reflexivity|right; split; reflexivity|reflexivity].
Qed.

(** ** C89.  Ports.  [someone P p]: a socket listens at the port, of another program or of a host *)
Definition someone {U} (P : process U) (p : Z) : Prop :=
  In p (p_others P) \/ exists k o, get_host P k = Some o /\ ho_server o = Some p.
Definition pkeys {U} (P : process U) : Prop := NoDup (map fst (p_hosts P)).
Lemma taken_iff {U} (P : process U) p : pkeys P -> taken P p = true <-> someone P p.
Proof.
  intros N. unfold taken, someone. rewrite orb_true_iff, !existsb_exists. split.
  - intros [(q & I & E)|((k & o) & I & E)]; [left; apply Z.eqb_eq in E; subst q; exact I|right]. cbn [snd] in E.
    exists k, o. split; [apply (dict_In_get _ Z.eqb_eq); assumption|]. destruct (ho_server o) as [q|]; [|discriminate]. apply Z.eqb_eq in E. congruence.
  - intros [I|(k & o & G & S)]; [left; exists p; split; [exact I|apply Z.eqb_refl]|right]. exists (k, o). split; [apply (dict_get_In _ Z.eqb_eq), G|].
    cbn [snd]. rewrite S. apply Z.eqb_refl.
Qed.
Lemma taken_false {U} (P : process U) p : pkeys P -> taken P p = false -> ~ someone P p.
Proof. intros N T S. apply (taken_iff P p N) in S. congruence. Qed.
(** what the ports have in common in every reachable state *)
Definition ports {U} (P : process U) : Prop :=
  pkeys P /\ forall k o, get_host P k = Some o ->
    (ho_accepting o = true -> ho_server o <> None) /\
    forall p, ho_server o = Some p -> 0 < p <= 65535 /\ ~ In p (p_others P) /\
      forall j o', j <> k -> get_host P j = Some o' -> ho_server o' <> Some p.
Lemma ports_put {U} (P : process U) k o : ports P -> (ho_accepting o = true -> ho_server o <> None) ->
  (forall p, ho_server o = Some p -> 0 < p <= 65535 /\ ~ In p (p_others P) /\
     forall j o', j <> k -> get_host P j = Some o' -> ho_server o' <> Some p) -> ports (put_host P k o).
Proof.
  intros (N & I) A S. split; [apply (dict_set_NoDup _ Z.eqb_eq), N|]. intros j x G. rewrite put_get in G. destruct (Z.eqb_spec k j) as [<-|D].
  - assert (x = o) by congruence. subst x. split; [exact A|]. intros p Hp. destruct (S p Hp) as (S1 & S2 & S3). split; [exact S1|]. split; [exact S2|].
    intros j o' Nj G'. rewrite put_get in G'. destruct (Z.eqb_spec k j); [congruence|]. exact (S3 j o' Nj G').
  - destruct (I j x G) as [I1 I2]. split; [exact I1|]. intros p Hp. destruct (I2 p Hp) as (S1 & S2 & S3). split; [exact S1|]. split; [exact S2|].
    intros l o' Nl G'. rewrite put_get in G'. destruct (Z.eqb_spec k l) as [<-|]; [|exact (S3 l o' Nl G')].
    assert (o' = o) by congruence. subst o'. intros E. destruct (S p E) as (_ & _ & S4). exact (S4 j x (not_eq_sym D) G Hp).
Qed.
Lemma ports_same {U} (P : process U) k o o' : ports P -> get_host P k = Some o ->
  ho_server o' = ho_server o -> (ho_accepting o' = true -> ho_accepting o = true) -> ports (put_host P k o').
Proof.
  intros I G E A. destruct I as [N I]. destruct (I k o G) as [I1 I2]. apply ports_put; [split; assumption|rewrite E; auto|rewrite E; exact I2].
Qed.
Lemma accepting_step {U} ev (ext : extension U) w e : w_accepting (world_step ev ext w e) = true -> w_accepting w = true.
Proof. intros H. destruct (w_accepting w) eqn:A; [reflexivity|]. rewrite (proj1 (PropsLife.deaf_step ev ext w e A)) in H. discriminate. Qed.
Lemma ports_step {U} ev (P : process U) e : ports P -> ports (p_step ev P e).
Proof.
  intros I. pose proof I as [N J]. destruct e as [k x port|k x|k ch|k e|k port|k|n d u|p|p]; cbn [p_step].
  - destruct (get_host P k) eqn:G; [exact I|]. apply ports_put; [exact I|cbn; discriminate|cbn; discriminate].
  - destruct (get_host P k) as [o|] eqn:G; [|exact I]. apply (ports_same P k o); [exact I|exact G|reflexivity|auto].
  - destruct (get_host P k) as [o|] eqn:G; [|exact I]. destruct (ho_accepting o) eqn:A; [exact I|]. cbn [orb].
    destruct (taken P ch) eqn:T; [exact I|]. cbn [orb]. destruct (Z.leb_spec ch 0); [exact I|]. destruct (Z.ltb_spec 65535 ch); [exact I|]. cbn [orb].
    assert (New : forall p, 0 < p <= 65535 -> taken P p = false -> ports (put_host P k (mkHobj (ho_ext o) (ho_pending o) (ho_init o) (Some p) (Some p)
                              false true (ho_conns o) (ho_sent o)))).
    { intros p L Tp. apply ports_put; [exact I|cbn; discriminate|]. cbn [ho_server]. intros q E. assert (q = p) by congruence. subst q. split; [exact L|].
      pose proof (taken_false P p N Tp) as S. split; [intros X; apply S; left; exact X|]. intros j o' Nj G' E'. apply S. right. eauto. }
    unfold start, listen. set (q := match ho_port o with Some q => q | None => 0 end). destruct (Z.eqb_spec q 0); [cbn [snd]; apply New; [lia|exact T]|].
    destruct (Z.ltb_spec q 0); [apply (ports_same P k o); [exact I|exact G|reflexivity|cbn; auto]|].
    destruct (Z.ltb_spec 65535 q); [apply (ports_same P k o); [exact I|exact G|reflexivity|cbn; auto]|]. cbn [orb].
    destruct (taken P q) eqn:Tq; [apply (ports_same P k o); [exact I|exact G|reflexivity|cbn; auto]|]. cbn [snd]. apply New; [lia|exact Tq].
  - destruct (get_host P k) as [o|] eqn:G; [|exact I]. set (w := world_step ev (ho_ext o) (world_of P o) e).
    pose proof (ports_same P k o (after o w) I G eq_refl (accepting_step ev (ho_ext o) (world_of P o) e)) as [H1 H2].
    split; [exact H1|]. intros j x Gj. apply (H2 j x). exact Gj.
  - destruct (get_host P k) as [o|] eqn:G; [|exact I]. apply (ports_same P k o); [exact I|exact G|reflexivity|auto].
  - destruct (get_host P k) as [o|] eqn:G; [|exact I]. destruct (ho_accepting o) eqn:A; [exact I|]. apply ports_put; [exact I| |]; cbn; discriminate.
  - exact I.
  - destruct (taken P p) eqn:T; [exact I|]. split; [exact N|]. intros k o G. destruct (J k o G) as [J1 J2]. split; [exact J1|]. intros q Hq.
    destruct (J2 q Hq) as (S1 & S2 & S3). split; [exact S1|]. split; [|exact S3]. intros [->|X]; [|contradiction].
    apply (taken_false P q N T). right. eauto.
  - split; [exact N|]. intros k o G. destruct (J k o G) as [J1 J2]. split; [exact J1|]. intros q Hq.
    destruct (J2 q Hq) as (S1 & S2 & S3). split; [exact S1|]. split; [|exact S3]. cbn [p_others]. intros X. apply in_remove in X as [X _]. contradiction.
Qed.
Lemma ports_reachable {U} ev (P : process U) : reachable ev P -> ports P.
Proof.
  intros (u & es & ->). induction es as [|e es IH] using rev_ind.
  - split; [constructor|]. intros k o G. discriminate.
  - unfold p_run in *. rewrite fold_left_app. apply ports_step, IH.
Qed.
Definition no_set_port {U} (k : Z) (e : pevent U) : Prop := match e with SetPort j _ => j <> k | _ => True end.
Lemma published_step {U} ev (P : process U) e k : no_set_port k e ->
  (forall o p, get_host P k = Some o -> ho_server o = Some p -> ho_port o = Some p) ->
  forall o p, get_host (p_step ev P e) k = Some o -> ho_server o = Some p -> ho_port o = Some p.
Proof.
  intros N I.
  assert (Put : forall j x, (j = k -> forall p, ho_server x = Some p -> ho_port x = Some p) ->
     forall o p, get_host (put_host P j x) k = Some o -> ho_server o = Some p -> ho_port o = Some p).
  { intros j x H o p G. rewrite put_get in G. destruct (Z.eqb_spec j k) as [->|]; [|exact (I o p G)]. assert (o = x) by congruence. subst x. apply H. reflexivity. }
  destruct e as [j x port|j x|j ch|j e|j port|j|n d u|p|p]; cbn [p_step].
  - destruct (get_host P j) eqn:G; [exact I|]. apply Put. cbn. discriminate.
  - destruct (get_host P j) as [o|] eqn:G; [|exact I]. apply Put. intros ->. exact (fun p => I o p G).
  - destruct (get_host P j) as [o|] eqn:G; [|exact I]. destruct (ho_accepting o || taken P ch || (ch <=? 0) || (65535 <? ch)); [exact I|].
    unfold start. destruct (listen P (ho_port o) ch); cbn [snd]; apply Put; [auto|]. intros ->. exact (fun p => I o p G).
  - destruct (get_host P j) as [o|] eqn:G; [|exact I]. intros o' p G'. rewrite put_world_get in G'. destruct (Z.eqb_spec j k) as [->|]; [|exact (I o' p G')].
    intros S. assert (E : o' = after o (world_step ev (ho_ext o) (world_of P o) e)) by congruence. rewrite E in *. exact (I o p G S).
  - destruct (get_host P j) as [o|] eqn:G; [|exact I]. apply Put. intros ->. contradiction.
  - destruct (get_host P j) as [o|] eqn:G; [|exact I]. destruct (ho_accepting o); [exact I|]. apply Put. cbn. discriminate.
  - exact I.
  - destruct (taken P p); exact I.
  - exact I.
Qed.
(** A host that accepts connections listens at the port it publishes (unless the program overwrote
    the attribute), which no other host and no other program listens at. *)
Theorem C89_ports : forall U ev (u : U) es k o, let P := p_run ev (new_process u) es in
  get_host P k = Some o -> ho_accepting o = true ->
  exists p, ho_server o = Some p /\ 0 < p <= 65535 /\ ~ In p (p_others P) /\
    (forall j o', j <> k -> get_host P j = Some o' -> ho_server o' <> Some p) /\
    (Forall (no_set_port k) es -> ho_port o = Some p).
Proof.
  intros U ev u es k o P G A. assert (R : reachable ev P) by (exists u, es; reflexivity).
  destruct (ports_reachable ev P R) as [N I]. destruct (I k o G) as [I1 I2]. destruct (ho_server o) as [p|] eqn:S; [|exfalso; apply I1; auto].
  exists p. split; [reflexivity|]. destruct (I2 p eq_refl) as (S1 & S2 & S3). split; [exact S1|]. split; [exact S2|]. split; [exact S3|].
  intros F. revert o p G S A I1 I2 S1 S2 S3. clear N R I. subst P. 
  enough (H : forall o p, get_host (p_run ev (new_process u) es) k = Some o -> ho_server o = Some p -> ho_port o = Some p) by (intros; eauto).
  induction es as [|e es IH] using rev_ind; [discriminate|]. apply Forall_app in F as [F1 F2]. apply Forall_cons_iff in F2 as [F2 _].
  unfold p_run in *. rewrite fold_left_app. cbn [fold_left]. apply published_step; [exact F2|exact (IH F1)].
Qed.
Print Assumptions C89_ports.
(** a host given a port keeps it *)
Theorem C89_given_port : forall U ev (P : process U) es k o q, get_host P k = Some o -> ho_port o = Some q -> q <> 0 ->
  Forall (no_set_port k) es -> exists o', get_host (p_run ev P es) k = Some o' /\ ho_port o' = Some q.
Proof.
  intros U ev P es k o q G E Nz F. induction es as [|e es IH] using rev_ind; [exists o; auto|]. apply Forall_app in F as [F1 F2].
  apply Forall_cons_iff in F2 as [F2 _]. destruct (IH F1) as (o1 & G1 & E1). unfold p_run in *. rewrite fold_left_app. cbn [fold_left].
  set (Q := fold_left (p_step ev) es P) in *. clearbody Q. clear G E F1 IH.
  assert (Same : exists o', get_host Q k = Some o' /\ ho_port o' = Some q) by eauto.
  assert (Put : forall j x, (j = k -> ho_port x = Some q) -> exists o', get_host (put_host Q j x) k = Some o' /\ ho_port o' = Some q).
  { intros j x H. rewrite put_get. destruct (Z.eqb_spec j k) as [->|]; [|exact Same]. eauto. }
  destruct e as [j x port|j x|j ch|j e|j port|j|n d u|p|p]; cbn [p_step]; try exact Same.
  - destruct (get_host Q j) eqn:Gj; [exact Same|]. apply Put. intros ->. congruence.
  - destruct (get_host Q j) as [oj|] eqn:Gj; [|exact Same]. apply Put. intros ->. cbn. congruence.
  - destruct (get_host Q j) as [oj|] eqn:Gj; [|exact Same]. destruct (ho_accepting oj || taken Q ch || (ch <=? 0) || (65535 <? ch)); [exact Same|].
    unfold start. destruct (listen Q (ho_port oj) ch) as [p|] eqn:L; cbn [snd]; apply Put; intros ->; cbn [ho_port]; [|congruence].
    assert (oj = o1) by congruence. subst oj. unfold listen in L. rewrite E1 in L. destruct (Z.eqb_spec q 0); [contradiction|].
    destruct ((q <? 0) || (65535 <? q)); [discriminate|]. destruct (taken Q q); [discriminate|]. apply Ok_inj in L. congruence.
  - destruct (get_host Q j) as [oj|] eqn:Gj; [|exact Same]. rewrite put_world_get. destruct (Z.eqb_spec j k) as [->|]; [|exact Same].
    eexists. split; [reflexivity|]. cbn. congruence.
  - destruct (get_host Q j) as [oj|] eqn:Gj; [|exact Same]. apply Put. intros ->. contradiction.
  - destruct (get_host Q j) as [oj|] eqn:Gj; [|exact Same]. destruct (ho_accepting oj); [exact Same|]. apply Put. intros ->. cbn. congruence.
  - destruct (taken Q p); exact Same.
Qed.
Print Assumptions C89_given_port.
Example C89_case : let P := p_run ex_env (new_process 0) ([OtherListens 9200; Create 2 ex_ext (Some 9200); Start 2 4002] ++ ex_both) in
  (exists o, get_host P 0 = Some o /\ ho_accepting o = true /\ ho_server o = Some 4000 /\ ho_port o = Some 4000) /\
  (exists o, get_host P 1 = Some o /\ ho_accepting o = true /\ ho_server o = Some 4001) /\
  (exists o, get_host P 2 = Some o /\ ho_accepting o = false /\ ho_server o = None /\ ho_port o = Some 9200) /\
  Forall (no_set_port 0) ex_both.
Proof.
  cbv zeta. split; [eexists; split; [vm_compute; reflexivity|repeat split]|]. split; [eexists; split; [vm_compute; reflexivity|repeat split]|].
  split; [eexists; split; [vm_compute; reflexivity|repeat split]|]. repeat constructor.
Qed.

(** ** C88.  Full statement: a host that is not running can be run (again), if no other host and no
    other program is at its port. *)
Definition C88_statement : Prop := forall U ev (P : process U) k o chosen, reachable ev P ->
  get_host P k = Some o -> ho_accepting o = false ->
  match ho_port o with
  | Some q => 0 <= q <= 65535 /\ ~ In q (p_others P) /\ forall j o', j <> k -> get_host P j = Some o' -> ho_server o' <> Some q
  | None => True
  end ->
  0 < chosen <= 65535 -> ~ someone P chosen -> fst (start P k o chosen) = Ok tt.
(** False of this code: run() leaves its socket listening when it returns, and calls bind with the
    port of the first run. *)
Theorem C88_restart_refuted : ~ C88_statement.
Proof.
  intros H. set (P := p_run ex_env (new_process 0) [Create 0 ex_ext None; Start 0 4000; Of 0 CancelAccept]).
  assert (G : exists o, get_host P 0 = Some o /\ ho_accepting o = false /\ ho_port o = Some 4000 /\ p_others P = [] /\
    (forall j o', j <> 0 -> get_host P j = Some o' -> False) /\ fst (start P 0 o 5000) = Raise EOS).
  { eexists. split; [vm_compute; reflexivity|]. split; [reflexivity|]. split; [reflexivity|]. split; [reflexivity|]. split; [|vm_compute; reflexivity].
    intros j o' N E. unfold get_host in E. change (dict_get Z.eqb j (p_hosts P)) with (if j =? 0 then dict_get Z.eqb 0 (p_hosts P) else None) in E.
    destruct (Z.eqb_spec j 0); [contradiction|discriminate]. }
  destruct G as (o & G & A & Pt & Ot & On & E). specialize (H Z ex_env P 0 o 5000 ltac:(eexists _, _; reflexivity) G A).
  rewrite Pt, Ot, E in H. discriminate H.
  - split; [lia|]. split; [intros []|]. intros j o' N G'. exfalso. exact (On j o' N G').
  - lia.
  - intros [X|(j & o' & G' & S)]; [rewrite Ot in X; exact X|]. destruct (Z.eq_dec j 0) as [->|N]; [|exact (On j o' N G')].
    assert (o' = o) by congruence. subst o'. revert S. assert (S0 : ho_server o = Some 4000); [|rewrite S0; discriminate].
    pose proof G as G2. vm_compute in G2. apply (f_equal (fun x => match x with Some y => ho_server y | None => None end)) in G2. symmetry. exact G2.
Qed.
Print Assumptions C88_restart_refuted.
(** What holds: exactly when run() gets a socket, and what is left if it does not: it raises, and
    nothing changes except that a termination under way is called off. *)
Theorem C88_start_partial : forall U ev (P : process U) k o chosen, reachable ev P -> get_host P k = Some o ->
  ho_accepting o = false -> 0 < chosen <= 65535 -> ~ someone P chosen ->
  let r := start P k o chosen in
  (fst r = Ok tt <-> (ho_port o = None \/ ho_port o = Some 0 \/ exists q, ho_port o = Some q /\ 0 < q <= 65535 /\ ~ someone P q)) /\
  (fst r = Ok tt -> exists o' p, get_host (snd r) k = Some o' /\ ho_accepting o' = true /\ ho_terminating o' = false /\
     ho_server o' = Some p /\ ho_port o' = Some p /\ (ho_port o = Some p \/ p = chosen) /\
     (* the socket of an earlier run is closed *)
     forall q, ho_server o = Some q -> q <> p -> ~ someone (snd r) q) /\
  (forall e, fst r = Raise e -> exists o', get_host (snd r) k = Some o' /\ ho_accepting o' = false /\ ho_terminating o' = false /\
     ho_server o' = ho_server o /\ ho_port o' = ho_port o /\ ho_conns o' = ho_conns o /\
     exists q, ho_port o = Some q /\
       (e = EOS /\ 0 < q <= 65535 /\ someone P q \/ e = EOverflow /\ (q < 0 \/ 65535 < q))) /\
  (* run() is what changes the state so *)
  p_step ev P (Start k chosen) = snd r.
Proof.
  intros U ev P k o ch R G A Hc Nc. cbv zeta. destruct (ports_reachable ev P R) as [N I].
  assert (Tc : taken P ch = false). { destruct (taken P ch) eqn:T; [|reflexivity]. apply (taken_iff P ch N) in T. contradiction. }
  assert (Step : p_step ev P (Start k ch) = snd (start P k o ch)).
  { cbn [p_step]. rewrite G, A, Tc. destruct (Z.leb_spec ch 0); [lia|]. destruct (Z.ltb_spec 65535 ch); [lia|]. reflexivity. }
  assert (Good : forall p o', ho_server o' = Some p -> forall q, ho_server o = Some q -> q <> p -> ~ someone (put_host P k o') q).
  { intros p o' Sp q Sq Ne [X|(j & x & Gj & Sx)].
    - destruct (I k o G) as [_ I2]. destruct (I2 q Sq) as (_ & S2 & _). exact (S2 X).
    - rewrite put_get in Gj. destruct (Z.eqb_spec k j) as [<-|D]; [assert (x = o') by congruence; congruence|].
      destruct (I k o G) as [_ I2]. destruct (I2 q Sq) as (_ & _ & S3). exact (S3 j x (not_eq_sym D) Gj Sx). }
  assert (Fails : forall e, listen P (ho_port o) ch = Raise e ->
     ~ (ho_port o = None \/ ho_port o = Some 0 \/ exists q, ho_port o = Some q /\ 0 < q <= 65535 /\ ~ someone P q)).
  { intros e L [X|[X|(q & X & Lq & Nq)]]; unfold listen in L; rewrite X in L; try discriminate.
    destruct (Z.eqb_spec q 0); [discriminate|]. destruct (Z.ltb_spec q 0); [lia|]. destruct (Z.ltb_spec 65535 q); [lia|]. cbn [orb] in L.
    destruct (taken P q) eqn:T; [|discriminate]. apply (taken_iff P q N) in T. contradiction. }
  assert (Works : forall p, listen P (ho_port o) ch = Ok p ->
     (ho_port o = None \/ ho_port o = Some 0 \/ exists q, ho_port o = Some q /\ 0 < q <= 65535 /\ ~ someone P q) /\ (ho_port o = Some p \/ p = ch)).
  { intros p L. unfold listen in L. destruct (ho_port o) as [q|]; [|apply Ok_inj in L; auto].
    destruct (Z.eqb_spec q 0) as [->|]; [apply Ok_inj in L; auto|]. destruct (Z.ltb_spec q 0); [discriminate|]. destruct (Z.ltb_spec 65535 q); [discriminate|].
    cbn [orb] in L. destruct (taken P q) eqn:T; [discriminate|]. apply Ok_inj in L. subst p. split; [|auto]. right; right. exists q.
    split; [reflexivity|]. split; [lia|]. intros S. apply (taken_iff P q N) in S. congruence. }
  unfold start in *. destruct (listen P (ho_port o) ch) as [p|e] eqn:L; cbn [fst snd] in *.
  - destruct (Works p eq_refl) as [W1 W2]. split; [split; [auto|reflexivity]|]. split; [intros _|split; [discriminate|exact Step]].
    eexists _, p. rewrite put_get, Z.eqb_refl. split; [reflexivity|]. do 4 (split; [reflexivity|]). split; [exact W2|]. apply Good. reflexivity.
  - split; [split; [discriminate|intros X; exfalso; exact (Fails e eq_refl X)]|]. split; [discriminate|]. split; [|exact Step].
    intros e' Ee. eexists. rewrite put_get, Z.eqb_refl. split; [reflexivity|]. split; [exact A|]. do 4 (split; [reflexivity|]).
    assert (Ee' : e' = e) by congruence. clear Ee. subst e'. unfold listen in L. destruct (ho_port o) as [q|]; [|discriminate].
    exists q. split; [reflexivity|]. destruct (Z.eqb_spec q 0); [discriminate|].
    destruct (Z.ltb_spec q 0); cbn [orb] in L; [right; split; [congruence|lia]|].
    destruct (Z.ltb_spec 65535 q); [right; split; [congruence|lia]|].
    destruct (taken P q) eqn:T; [|discriminate]. left. split; [congruence|]. split; [lia|]. apply (taken_iff P q N). exact T.
Qed.
Print Assumptions C88_start_partial.
(** So a host that ran and was not told another port cannot be run again as long as its socket
    is open; closing host.server is what it takes. *)
Theorem C88_second_run_partial : forall U ev (u : U) es k o p chosen, let P := p_run ev (new_process u) es in
  Forall (no_set_port k) es -> get_host P k = Some o -> ho_accepting o = false -> ho_server o = Some p ->
  0 < chosen <= 65535 -> ~ someone P chosen ->
  fst (start P k o chosen) = Raise EOS /\
  let P' := p_step ev P (CloseServer k) in
  exists o', get_host P' k = Some o' /\ fst (start P' k o' chosen) = Ok tt /\
    exists o'', get_host (p_step ev P' (Start k chosen)) k = Some o'' /\ ho_accepting o'' = true /\ ho_server o'' = Some p.
Proof.
  intros U ev u es k o p ch P F G A S Hc Nc. assert (R : reachable ev P) by (exists u, es; reflexivity).
  destruct (ports_reachable ev P R) as [N I]. destruct (I k o G) as [_ I2]. destruct (I2 p S) as (Lp & S2 & S3).
  assert (Pt : ho_port o = Some p).
  { revert o p G S A I2 Lp S2 S3. clear N R I Nc. subst P. intros o p G S _ _ _ _ _. revert o p G S.
    induction es as [|e es IH] using rev_ind; [discriminate|]. apply Forall_app in F as [F1 F2]. apply Forall_cons_iff in F2 as [F2 _].
    unfold p_run in *. rewrite fold_left_app. cbn [fold_left]. apply published_step; [exact F2|exact (IH F1)]. }
  assert (Np : (p =? 0) = false /\ ((p <? 0) || (65535 <? p)) = false).
  { destruct (Z.eqb_spec p 0); [lia|]. destruct (Z.ltb_spec p 0); [lia|]. destruct (Z.ltb_spec 65535 p); [lia|]. auto. }
  destruct Np as [Np1 Np2]. split.
  - unfold start, listen. rewrite Pt, Np1, Np2. assert (T : taken P p = true) by (apply (taken_iff P p N); right; eauto). rewrite T. reflexivity.
  - cbv zeta. assert (EP : p_step ev P (CloseServer k) = put_host P k (mkHobj (ho_ext o) (ho_pending o) (ho_init o) (ho_port o) None
        (ho_terminating o) (ho_accepting o) (ho_conns o) (ho_sent o))) by (cbn [p_step]; rewrite G, A; reflexivity).
    assert (R' : reachable ev (p_step ev P (CloseServer k))) by (exists u, (es ++ [CloseServer k]); unfold P, p_run; rewrite fold_left_app; reflexivity).
    rewrite EP in *. set (o' := mkHobj _ _ _ _ None _ _ _ _). fold o' in R', EP. assert (G' : get_host (put_host P k o') k = Some o') by (rewrite put_get, Z.eqb_refl; reflexivity).
    assert (Less : forall q, someone (put_host P k o') q -> someone P q /\ q <> p).
    { intros q [X|(j & x & Gj & Sx)]; [split; [left; exact X|intros ->; exact (S2 X)]|]. rewrite put_get in Gj.
      destruct (Z.eqb_spec k j) as [<-|D]; [assert (x = o') by congruence; subst x; discriminate|].
      split; [right; eauto|]. intros ->. exact (S3 j x (not_eq_sym D) Gj Sx). }
    destruct (C88_start_partial U ev (put_host P k o') k o' ch R' G' A Hc ltac:(intros X; apply Less in X as [X _]; contradiction)) as (E1 & E2 & _ & E4).
    assert (E : fst (start (put_host P k o') k o' ch) = Ok tt).
    { apply E1. right; right. exists p. split; [exact Pt|]. split; [exact Lp|]. intros X. apply Less in X as [_ X]. contradiction. }
    exists o'. split; [exact G'|]. split; [exact E|]. rewrite E4. unfold start, listen. change (ho_port o') with (ho_port o). rewrite Pt, Np1, Np2.
    destruct (taken (put_host P k o') p) eqn:T.
    + exfalso. apply (taken_iff _ p (proj1 (ports_reachable ev _ R'))) in T. apply Less in T as [_ T]. contradiction.
    + cbn [snd]. eexists. rewrite put_get, Z.eqb_refl. split; [reflexivity|]. split; reflexivity.
Qed.
Print Assumptions C88_second_run_partial.
Example C88_case : let es := [Create 0 ex_ext None; Start 0 4000; Of 0 (Accept 0); Of 0 CancelAccept] in
  let P := p_run ex_env (new_process 0) es in
  Forall (no_set_port 0) es /\ exists o, get_host P 0 = Some o /\ ho_accepting o = false /\ ho_server o = Some 4000 /\ ho_terminating o = true /\
    fst (start P 0 o 4001) = Raise EOS /\
    let P' := p_run ex_env P [CloseServer 0; Start 0 4001] in
    exists o', get_host P' 0 = Some o' /\ ho_accepting o' = true /\ ho_server o' = Some 4000.
Proof.
  cbv zeta. split; [repeat constructor|]. eexists. split; [vm_compute; reflexivity|]. split; [reflexivity|]. split; [reflexivity|]. split; [reflexivity|].
  split; [vm_compute; reflexivity|]. eexists. split; [vm_compute; reflexivity|]. split; reflexivity.
Qed.

(** ** C59 across hosts.  What a host of the process reads as its environment settings should be
    what was sent to it. *)
Definition C59_hosts_statement : Prop := forall U ev (P : process U) k o c raw uuid i p t d,
  reachable ev P -> get_host P k = Some o -> host_conn P k c = Some Receiving -> zlen raw <= 10240 ->
  response_in (e_so ev) raw false i p -> dict_get Z.eqb i (ho_pending o) = Some EnvRH ->
  read_settings (e_fuel ev) [] p = (Ok t, d) ->
  p_settings (p_step ev P (Of k (Recv c raw uuid))) = d.
(** False: all Settings() of the process share one dict.  Host 0 was sent k=v, host 1 nothing. *)
Definition ex_both_settings : list (pevent Z) :=
  ex_both ++ [Of 0 (Recv 0 (ex_answer 3 [x01]) []); Of 0 (SendDone 0 true); Of 0 (Recv 0 (ex_answer 2 ex_settings) []);
              Of 1 (Recv 0 (ex_answer 7 [x01]) []); Of 1 (SendDone 0 true)].
Theorem C59_across_hosts_refuted : ~ C59_hosts_statement.
Proof.
  intros H. set (P := p_run ex_env (new_process 0) ex_both_settings).
  assert (X : exists o, get_host P 1 = Some o /\ dict_get Z.eqb 6 (ho_pending o) = Some EnvRH) by (eexists; split; [vm_compute; reflexivity|reflexivity]).
  destruct X as (o & G & D).
  specialize (H Z ex_env P 1 o 0 (ex_answer 6 [x00]) [] 6 [x00] [] [] ltac:(eexists _, _; reflexivity) G).
  assert (E : p_settings (p_step ex_env P (Of 1 (Recv 0 (ex_answer 6 [x00]) []))) = [(py "k", VStr (py "v"))]) by (vm_compute; reflexivity).
  rewrite E in H. assert (X : [(py "k", VStr (py "v"))] = @nil (pystr * pyval)); [|discriminate X].
  apply H; [vm_compute; reflexivity|vm_compute; discriminate|response|exact D|vm_compute; reflexivity].
Qed.
Print Assumptions C59_across_hosts_refuted.
