(** * Properties C80, C81: how long the server accepts connections *)
From Coq Require Import String ZArith List Bool Lia.
From Coq Require Import Strings.Byte.
From Verif Require Import Py Stream Version Frame Proto Messages Rest Routes Settings Host PyFacts
  StreamFacts Spec HostSpec HostFacts PropsHost PropsHistory.
Import ListNotations.
Open Scope list_scope.
Open Scope Z_scope.

(** ** the listening side of one event *)
Lemma accepting_kept {U} ev (ext : extension U) w e : w_terminating w = false ->
  e <> CancelAccept -> e <> AcceptFail ->
  w_accepting (world_step ev ext w e) = w_accepting w /\ (e <> Terminate -> w_terminating (world_step ev ext w e) = false).
Proof.
  intros T N1 N2. destruct e as [a|a raw uuid|a ok|a|a| | |]; cbn [world_step]; try contradiction.
  - destruct (dict_get Z.eqb a (w_conns w)); [auto|]. destruct (w_accepting w) eqn:A; [|auto]. cbn. rewrite T. auto.
  - destruct (RECV_LIMIT <? zlen raw); [auto|]. destruct (dict_get Z.eqb a (w_conns w)) as [[|d|]|]; auto.
    destruct raw; [auto|]. destruct (on_input ev ext uuid _ (w_host w)) as [[[d|]|x] h]; [auto| |];
      unfold after_chunk; rewrite T; auto.
  - destruct (dict_get Z.eqb a (w_conns w)) as [[|d|]|]; auto. unfold after_chunk; rewrite T; auto.
  - destruct (dict_get Z.eqb a (w_conns w)) as [[|d|]|]; auto.
  - destruct (dict_get Z.eqb a (w_conns w)); auto.
  - split; [reflexivity|]. intros X. contradiction.
Qed.
Lemma keeps_accepting {U} ev (ext : extension U) es : forall w, w_terminating w = false ->
  ~ In Terminate es -> ~ In CancelAccept es -> ~ In AcceptFail es ->
  w_accepting (run_world ev ext w es) = w_accepting w /\ w_terminating (run_world ev ext w es) = false.
Proof.
  induction es as [|e es IH]; intros w T N1 N2 N3; [auto|].
  destruct (accepting_kept ev ext w e T) as [A B]; [intros ->; apply N2; left; reflexivity|intros ->; apply N3; left; reflexivity|].
  cbn [run_world fold_left]. specialize (IH (world_step ev ext w e) (B ltac:(intros ->; apply N1; left; reflexivity))).
  unfold run_world in IH. rewrite <- A. apply IH; intros X; [apply N1|apply N2|apply N3]; right; exact X.
Qed.
Lemma deaf_step {U} ev (ext : extension U) w e : w_accepting w = false ->
  w_accepting (world_step ev ext w e) = false /\ forall c, conn_of w c = None -> conn_of (world_step ev ext w e) c = None.
Proof.
  assert (K : forall c a s l, dict_get Z.eqb a l <> None -> dict_get Z.eqb c l = None -> dict_get Z.eqb c (set_conn a s l) = None).
  { intros c a s l S N. unfold set_conn. destruct (Z.eq_dec c a) as [->|D]; [contradiction|].
    rewrite dict_get_set_other; [exact N|exact Z.eqb_eq|]. congruence. }
  unfold conn_of. intros A. destruct e as [a|a raw uuid|a ok|a|a| | |]; cbn [world_step].
  - destruct (dict_get Z.eqb a (w_conns w)); [auto|]. rewrite A. auto.
  - destruct (RECV_LIMIT <? zlen raw); [auto|]. destruct (dict_get Z.eqb a (w_conns w)) as [[|d|]|] eqn:G; auto.
    assert (S : dict_get Z.eqb a (w_conns w) <> None) by (rewrite G; discriminate).
    destruct raw; [split; [exact A|intros c N; apply K; assumption]|].
    destruct (on_input ev ext uuid _ (w_host w)) as [[[d|]|x] h]; [split; [exact A|intros c N; apply K; assumption]| |];
      unfold after_chunk; destruct (w_terminating w); (split; [solve [reflexivity|exact A]|intros c N; apply K; assumption]).
  - destruct (dict_get Z.eqb a (w_conns w)) as [[|d|]|] eqn:G; auto.
    assert (S : dict_get Z.eqb a (w_conns w) <> None) by (rewrite G; discriminate).
    unfold after_chunk; destruct (w_terminating w); (split; [solve [reflexivity|exact A]|intros c N; apply K; assumption]).
  - destruct (dict_get Z.eqb a (w_conns w)) as [[|d|]|] eqn:G; auto.
    split; [exact A|intros c N; apply K; [rewrite G; discriminate|exact N]].
  - destruct (dict_get Z.eqb a (w_conns w)) as [s|] eqn:G; auto.
    split; [exact A|intros c N; apply K; [rewrite G; discriminate|exact N]].
  - auto.
  - rewrite A. auto.
  - rewrite A. auto.
Qed.
Lemma deaf_forever {U} ev (ext : extension U) es : forall w, w_accepting w = false ->
  w_accepting (run_world ev ext w es) = false /\ forall c, conn_of w c = None -> conn_of (run_world ev ext w es) c = None.
Proof.
  induction es as [|e es IH]; intros w A; [auto|]. destruct (deaf_step ev ext w e A) as [A' K].
  cbn [run_world fold_left]. destruct (IH _ A') as [IH1 IH2]. unfold run_world in *. split; [exact IH1|]. auto.
Qed.

(** ** C80.  [told es]: during [es] someone asked the server to stop. *)
Definition told (es : list event) : Prop := In Terminate es \/ In CancelAccept es.
(** Full statement: as long as nobody asks the server to stop, whatever else happens, a client
    that connects is served. *)
Definition C80_statement : Prop := forall U ev (ext : extension U) u es c, ~ told es ->
  let w := run_world ev ext (initial_world u) es in
  conn_of w c = None -> conn_of (world_step ev ext w (Accept c)) c = Some Receiving.
(** False of this code: an error in accept (too many open files, a client that gave up) is not
    caught and ends the server. *)
Theorem C80_accepting_refuted : ~ C80_statement.
Proof.
  intros H. specialize (H Z ex_env ex_ext 0 [AcceptFail] 7 ltac:(intros [[X|[]]|[X|[]]]; discriminate)). cbv zeta in H.
  specialize (H eq_refl). vm_compute in H. discriminate.
Qed.
Print Assumptions C80_accepting_refuted.
(** What holds: nothing that happens on a connection (garbage, handlers that raise, resets,
    failed sends, cancelled tasks) stops the server from accepting; after an error in accept it
    never accepts again.  The error itself touches no connection and not the state of the host
    (asyncio.run then cancels the tasks of the connections: events [Cancelled]). *)
Theorem C80_accepting_partial : forall U ev (ext : extension U) u es c,
  let w := run_world ev ext (initial_world u) es in
  (~ told es -> ~ In AcceptFail es -> conn_of w c = None ->
     conn_of (world_step ev ext w (Accept c)) c = Some Receiving) /\
  (In AcceptFail es \/ In CancelAccept es -> conn_of w c = None ->
     forall es', conn_of (run_world ev ext w es') c = None) /\
  (forall c', conn_of (world_step ev ext w AcceptFail) c' = conn_of w c' /\
     sent_on (world_step ev ext w AcceptFail) c' = sent_on w c') /\
  w_host (world_step ev ext w AcceptFail) = w_host w.
Proof.
  intros U ev ext u es c. cbv zeta. split; [|split; [|split]].
  - intros NT NF N. destruct (keeps_accepting ev ext es (initial_world u) eq_refl) as [A _];
      [intros X; apply NT; left; exact X|intros X; apply NT; right; exact X|exact NF|].
    change (w_accepting (initial_world u)) with true in A.
    unfold conn_of in *. cbn [world_step]. rewrite N, A. cbn [w_conns]. unfold set_conn.
    apply dict_get_set_same. exact Z.eqb_eq.
  - intros F N es'. apply deaf_forever; [|exact N].
    assert (X : exists e l1 l2, es = l1 ++ e :: l2 /\ (e = AcceptFail \/ e = CancelAccept)).
    { destruct F as [F|F]; apply in_split in F as (l1 & l2 & ->); eexists _, l1, l2; split; [reflexivity|left; reflexivity|reflexivity|right; reflexivity]. }
    destruct X as (e & l1 & l2 & -> & E). unfold run_world. rewrite fold_left_app. cbn [fold_left].
    apply (deaf_forever ev ext l2). set (w := fold_left _ l1 _). destruct E as [-> | ->]; cbn [world_step]; destruct (w_accepting w) eqn:A; solve [reflexivity|exact A].
  - intros c'. destruct (others_kept ev ext (run_world ev ext (initial_world u) es) AcceptFail c' ltac:(discriminate)) as (K & S & _). auto.
  - cbn [world_step]. destruct (w_accepting _); reflexivity.
Qed.
Print Assumptions C80_accepting_partial.
Example C80_case : let es := [Accept 0; Recv 0 (ex_raw ex_tcp) []; SendDone 0 false; Recv 0 [x00] []; RecvFail 0; Accept 1; Cancelled 1] in
  let w := run_world ex_env ex_ext (initial_world 0) es in
  conn_of w 2 = None /\ conn_of (world_step ex_env ex_ext w (Accept 2)) 2 = Some Receiving /\
  conn_of (run_world ex_env ex_ext w [AcceptFail; Accept 2]) 2 = None.
Proof. vm_compute. repeat split. Qed.

(** ** C81.  Full statement: once the server is asked to terminate it accepts no more connections. *)
Definition C81_statement : Prop := forall U ev (ext : extension U) u es c,
  let w := world_step ev ext (run_world ev ext (initial_world u) es) Terminate in
  conn_of w c = None -> conn_of (world_step ev ext w (Accept c)) c = None.
(** False of this code: it is waiting in accept and looks at the flag only after the next
    connection or the next message. *)
Theorem C81_termination_refuted : ~ C81_statement.
Proof. intros H. specialize (H Z ex_env ex_ext 0 [] 7 eq_refl). vm_compute in H. discriminate. Qed.
Print Assumptions C81_termination_refuted.
(** What holds: the server is over, for good, after the first of these: a connection accepted, a
    message handled without reply, a send completed or failed.  Nothing else that happens on a
    connection ends it: a terminating server with no further messages and clients goes on waiting. *)
Theorem C81_termination_partial : forall U ev (ext : extension U) w, w_terminating w = true ->
  (forall e,
     (exists c, e = Accept c /\ conn_of w c = None) \/
     (exists c raw uuid, e = Recv c raw uuid /\ conn_of w c = Some Receiving /\ raw <> [] /\ zlen raw <= 10240 /\
        forall out, fst (on_input ev ext uuid raw (w_host w)) <> Ok (Some out)) \/
     (exists c ok out, e = SendDone c ok /\ conn_of w c = Some (Sending out)) ->
     forall es c', conn_of (world_step ev ext w e) c' = None ->
       conn_of (run_world ev ext (world_step ev ext w e) es) c' = None) /\
  (forall es, w_accepting w = true ->
     (forall e, In e es -> (exists c, e = RecvFail c \/ e = Cancelled c) \/ (exists c uuid, e = Recv c [] uuid) \/ e = Terminate) ->
     forall c, conn_of (run_world ev ext w es) c = None ->
       conn_of (world_step ev ext (run_world ev ext w es) (Accept c)) c = Some Receiving).
Proof.
  intros U ev ext w T. split.
  - intros e E es c' N. refine (proj2 (deaf_forever ev ext es _ _) c' N).
    destruct E as [(c & -> & G)|[(c & raw & uuid & -> & G & R & L & O)|(c & ok & out & -> & G)]]; cbn [world_step]; unfold conn_of in G; rewrite G.
    + destruct (w_accepting w) eqn:A; [cbn; rewrite T; reflexivity|exact A].
    + change RECV_LIMIT with 10240. destruct (Z.ltb_spec 10240 (zlen raw)); [lia|]. destruct raw as [|b raw]; [contradiction|].
      destruct (on_input ev ext uuid (b :: raw) (w_host w)) as [[[d|]|x] h]; cbn [fst] in O; [exfalso; exact (O d eq_refl)| |];
        unfold after_chunk; rewrite T; reflexivity.
    + unfold after_chunk; rewrite T; reflexivity.
  - intros es A H c N.
    assert (K : w_accepting (run_world ev ext w es) = true).
    { clear N T. revert w A H. induction es as [|e es IH]; intros w A H; [exact A|]. cbn [run_world fold_left].
      apply IH; [|intros e' I; apply H; right; exact I].
      destruct (H e (or_introl eq_refl)) as [(a & [-> | ->])|[(a & uuid & ->)| ->]]; cbn [world_step].
      - destruct (dict_get Z.eqb a (w_conns w)) as [[|d|]|]; exact A.
      - destruct (dict_get Z.eqb a (w_conns w)); exact A.
      - change (RECV_LIMIT <? zlen (@nil byte)) with false. cbv iota. destruct (dict_get Z.eqb a (w_conns w)) as [[|d|]|]; exact A.
      - exact A. }
    unfold conn_of in *. cbn [world_step]. rewrite N, K. cbn [w_conns]. unfold set_conn. apply dict_get_set_same. exact Z.eqb_eq.
Qed.
Print Assumptions C81_termination_partial.
Example C81_case : let w := run_world ex_env ex_ext (initial_world 0) [Accept 0; Accept 1; Terminate] in
  w_terminating w = true /\ conn_of w 0 = Some Receiving /\
  conn_of (run_world ex_env ex_ext w [RecvFail 1; Accept 2]) 2 = Some Receiving /\
  conn_of (run_world ex_env ex_ext w [Recv 0 (ex_raw ex_tcp) []; SendDone 0 true; Accept 2]) 2 = None.
Proof. vm_compute. repeat split. Qed.
