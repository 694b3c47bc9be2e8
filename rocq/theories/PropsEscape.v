(** * Property C123: what a handler can do to the server *)
From Coq Require Import String ZArith List Bool Lia.
From Coq Require Import Strings.Byte.
From Verif Require Import Py Stream Version Frame Proto Messages Rest Routes Settings Host PyFacts
  Spec SpecFacts Wire HostSpec HostFacts PropsMessages PropsHost PropsHistory PropsLife PropsProcess WireFacts WireFacts4 Escape.
Import ListNotations.
Open Scope list_scope.
Open Scope Z_scope.

(** ** Two programs, one following the other *)
Definition hmap {U V} (f : U -> V) (h : host U) : host V :=
  mkHost (hs_next h) (hs_pending h) (hs_init h) (hs_settings h) (f (hs_user h)).
Definition sim {U V A} (f : U -> V) (m1 : hm U A) (m2 : hm V A) : Prop :=
  forall h, m2 (hmap f h) = (fst (m1 h), hmap f (snd (m1 h))).
Lemma sim_ret {U V A} (f : U -> V) (a : A) : sim f (hret a) (hret a).
Proof. intros h. reflexivity. Qed.
Lemma sim_lift {U V A} (f : U -> V) (a : res A) : sim f (hlift a) (hlift a).
Proof. intros h. reflexivity. Qed.
Lemma sim_bind {U V A B} (f : U -> V) (m1 : hm U A) m2 (k1 : A -> hm U B) k2 :
  sim f m1 m2 -> (forall a, sim f (k1 a) (k2 a)) -> sim f (hbind m1 k1) (hbind m2 k2).
Proof.
  intros S K h. unfold hbind. rewrite S. destruct (m1 h) as [[a|e] h']; cbn [fst snd]; [apply K|reflexivity].
Qed.
Lemma sim_ids {U V A} (f : U -> V) (m : idm A) : sim f (hids m) (hids m).
Proof. intros h. unfold hids. cbn [hs_next hmap]. destruct (m (hs_next h)) as [r n]. reflexivity. Qed.
Lemma sim_register {U V} (f : U -> V) id x : sim f (register_response id x) (register_response id x).
Proof. intros h. reflexivity. Qed.
Lemma sim_init {U V} (f : U -> V) o : sim f (hmod (fun h => set_init h o)) (hmod (fun h => set_init h o)).
Proof. intros h. reflexivity. Qed.
Lemma sim_send {U V} (f : U -> V) o : sim f (send o) (send o).
Proof. apply sim_bind; [apply sim_lift|intros b; apply sim_ret]. Qed.
Definition follows {U V} (f : U -> V) (e1 : extension U) (e2 : extension V) : Prop :=
  xt_name e2 = xt_name e1 /\ xt_interfaces e2 = xt_interfaces e1 /\ xt_registry e2 = xt_registry e1 /\
  forall n u q, xt_invoke e2 n (f u) q = (f (fst (xt_invoke e1 n u q)), snd (xt_invoke e1 n u q)).
Ltac sims := repeat first [apply sim_lift | apply sim_ids | apply sim_ret | apply sim_send | apply sim_register | apply sim_init
                          | apply sim_bind | intro].
Lemma sim_call {U V} (f : U -> V) e1 e2 n q : follows f e1 e2 -> sim f (call_user e1 n q) (call_user e2 n q).
Proof.
  intros (_ & _ & _ & H) h. unfold call_user. cbn [hs_user hmap]. rewrite H.
  destruct (xt_invoke e1 n (hs_user h) q) as [u a]. reflexivity.
Qed.
Lemma sim_env {U V} (f : U -> V) ev p : sim f (handle_env ev p) (handle_env ev p).
Proof.
  intros h. unfold handle_env. cbn [hs_settings hmap]. destruct (read_settings (e_fuel ev) (hs_settings h) p) as [r d].
  destruct r as [x|e]; [|reflexivity]. cbn [set_settings hs_init hmap].
  destruct (hs_init h) as [o|]; [|reflexivity]. apply (sim_send f o (set_settings h d)).
Qed.
Lemma sim_response {U V} (f : U -> V) ev id p : sim f (handle_response ev id p) (handle_response ev id p).
Proof.
  intros h. unfold handle_response. cbn [hs_pending hmap]. destruct (dict_get Z.eqb id (hs_pending h)) as [[o|]|]; [| |reflexivity].
  - apply (sim_bind f (hlift (read_ack p)) (hlift (read_ack p)) _ _ (sim_lift f _)
      (fun a => match fst a as b return sim f (if b then send o else hret None) (if b then send o else hret None) with
                | true => sim_send f o | false => sim_ret f None end) (set_pending h (dict_del Z.eqb id (hs_pending h)))).
  - apply (sim_env f ev p (set_pending h (dict_del Z.eqb id (hs_pending h)))).
Qed.
Lemma sim_input {U V} (f : U -> V) ev e1 e2 uuid raw : follows f e1 e2 ->
  sim f (on_input ev e1 uuid raw) (on_input ev e2 uuid raw).
Proof.
  intros F. assert (F' := F). destruct F' as (N & I & R & _). unfold on_input.
  apply sim_bind; [apply sim_ids|intros _]. apply sim_bind; [apply sim_lift|intros [hd rest]].
  destruct (is_request hd).
  - sims. unfold handle_request. cbv zeta.
    destruct (streqb _ A_DISCOVERY); [unfold handle_discovery; rewrite N, I, R; sims|].
    destruct (streqb _ A_REST); [unfold handle_rest; cbv zeta; rewrite R|].
    + repeat first [apply sim_lift | apply sim_ids | apply sim_send | apply sim_call; exact F | apply sim_bind | intro].
    + destruct (streqb _ A_TCP); [unfold handle_tcp_handshake; sims|].
      destruct (streqb _ A_TRANSPORT); [unfold handle_transport_handshake; sims|unfold handle_not_found; sims].
  - sims. destruct (is_error hd); [apply sim_ret|apply sim_response].
Qed.

(** what handlers keep, the host keeps *)
Definition keeps {U A} (P : U -> Prop) (m : hm U A) : Prop := forall h, P (hs_user h) -> P (hs_user (snd (m h))).
Lemma keeps_bind {U A B} (P : U -> Prop) (m : hm U A) (k : A -> hm U B) :
  keeps P m -> (forall a, keeps P (k a)) -> keeps P (hbind m k).
Proof.
  intros M K h H. unfold hbind. specialize (M h H). destruct (m h) as [[a|e] h']; cbn [snd] in *; [apply K|]; exact M.
Qed.
Lemma keeps_ids {U A} (P : U -> Prop) (m : idm A) : keeps P (hids m).
Proof. intros h H. unfold hids. destruct (m (hs_next h)). exact H. Qed.
Lemma keeps_lift {U A} (P : U -> Prop) (m : res A) : keeps P (hlift m).
Proof. intros h H. exact H. Qed.
Lemma keeps_send {U} (P : U -> Prop) o : keeps P (send o).
Proof. apply keeps_bind; [apply keeps_lift|intros b h H; exact H]. Qed.
Ltac keep := repeat first [apply keeps_lift | apply keeps_ids | apply keeps_send | apply keeps_bind
                          | intro; match goal with |- keeps _ _ => idtac end | (intros h H; exact H)].
Lemma keeps_input {U} (P : U -> Prop) ev (ext : extension U) uuid raw :
  (forall n u q, P u -> P (fst (xt_invoke ext n u q))) -> keeps P (on_input ev ext uuid raw).
Proof.
  intros F. unfold on_input.
  apply keeps_bind; [apply keeps_ids|intros _]. apply keeps_bind; [apply keeps_lift|intros [hd rest]].
  destruct (is_request hd).
  - apply keeps_bind; [apply keeps_ids|intros o]. apply keeps_bind; [apply keeps_lift|intros m].
    unfold handle_request. cbv zeta.
    destruct (streqb _ A_DISCOVERY); [unfold handle_discovery; keep|].
    destruct (streqb _ A_REST); [unfold handle_rest; cbv zeta|].
    + apply keeps_bind; [apply keeps_lift|intros r]. apply keeps_bind; [apply keeps_lift|intros n].
      apply keeps_bind; [apply keeps_lift|intros k]. apply keeps_bind; [|intros a; keep].
      intros h H. unfold call_user. specialize (F k (hs_user h) (fst r) H).
      destruct (xt_invoke ext k (hs_user h) (fst r)) as [u x]. exact F.
    + destruct (streqb _ A_TCP); [unfold handle_tcp_handshake; keep|].
      destruct (streqb _ A_TRANSPORT); [unfold handle_transport_handshake; keep|unfold handle_not_found; keep].
  - apply keeps_bind; [apply keeps_ids|intros o]. apply keeps_bind; [apply keeps_lift|intros m].
    destruct (is_error hd); [intros h H; exact H|]. intros h H. unfold handle_response.
    destruct (dict_get Z.eqb (h_id hd) (hs_pending h)) as [[x|]|]; [| |exact H].
    + unfold handle_register. unfold hbind, hlift. destruct (read_ack (snd m)) as [a|e]; [|exact H].
      destruct (fst a); [|exact H]. apply keeps_send. exact H.
    + unfold handle_env. cbn [set_pending hs_settings]. destruct (read_settings _ _ _) as [r d]. destruct r; [|exact H].
      cbn [set_settings set_pending hs_init]. destruct (hs_init h); [apply keeps_send|]; exact H.
Qed.
Lemma user_step {U} (P : U -> Prop) ev (ext : extension U) w e :
  (forall n u q, P u -> P (fst (xt_invoke ext n u q))) -> P (hs_user (w_host w)) -> P (hs_user (w_host (world_step ev ext w e))).
Proof.
  intros F H. assert (A : forall h c s, P (hs_user h) -> P (hs_user (w_host (after_chunk h w c s)))).
  { intros h c s X. unfold after_chunk. destruct (w_terminating w); exact X. }
  destruct e as [c|c raw uuid|c ok|c|c| | |]; cbn [world_step].
  - destruct (dict_get _ _ _); [exact H|]. destruct (w_accepting w); exact H.
  - destruct (_ <? _); [exact H|]. destruct (dict_get _ _ _) as [[|d|]|]; try exact H. destruct raw; [exact H|].
    pose proof (keeps_input P ev ext uuid (b :: raw) F (w_host w) H) as K.
    destruct (on_input _ _ _ _ _) as [[[d|]|x] h]; cbn [snd] in K; [exact K|apply A; exact K..].
  - destruct (dict_get _ _ _) as [[|d|]|]; try exact H. apply A. exact H.
  - destruct (dict_get _ _ _) as [[|d|]|]; exact H.
  - destruct (dict_get _ _ _); exact H.
  - exact H.
  - destruct (w_accepting w); exact H.
  - destruct (w_accepting w); exact H.
Qed.

(** ** Facts about runs with escapes *)
Definition settled {U} (w : world (U * mark)) : Prop := snd (hs_user (w_host w)) = Fine.
Lemma settled_step {U} ev (pg : program U) w e : settled w -> settled (escape_step ev pg w e).
Proof.
  intros H. unfold escape_step. cbv zeta. destruct e as [c|c raw uuid|c ok|c|c| | |]; unfold settled in *;
    [| |cbn [world_step]..].
  - cbn [world_step]. destruct (dict_get _ _ _); [exact H|]. destruct (w_accepting w); exact H.
  - destruct (snd (hs_user (w_host (world_step _ _ _ _)))) eqn:E; [exact E|reflexivity|reflexivity].
  - destruct (dict_get _ _ _) as [[|d|]|]; try exact H. unfold after_chunk. destruct (w_terminating w); exact H.
  - destruct (dict_get _ _ _) as [[|d|]|]; exact H.
  - destruct (dict_get _ _ _); exact H.
  - exact H.
  - destruct (w_accepting w); exact H.
  - destruct (w_accepting w); exact H.
Qed.
Lemma settled_run {U} ev (pg : program U) es : forall w, settled w -> settled (escape_run ev pg w es).
Proof. induction es as [|e es IH]; intros w H; [exact H|]. apply IH, settled_step, H. Qed.
Lemma conns_closed l c : dict_get Z.eqb c (map (fun x : Z * conn => (fst x, Closed)) l) =
  match dict_get Z.eqb c l with Some _ => Some Closed | None => None end.
Proof. induction l as [|[k v] l IH]; [reflexivity|]. cbn [map fst dict_get]. destruct (Z.eqb c k); [reflexivity|exact IH]. Qed.
Lemma told_not e es : ~ told (e :: es) -> ~ told es /\ e <> Terminate /\ e <> CancelAccept.
Proof.
  unfold told. intros H. split; [|split].
  - intros [X|X]; apply H; [left|right]; right; exact X.
  - intros ->. apply H. left. left. reflexivity.
  - intros ->. apply H. right. left. reflexivity.
Qed.
Lemma escape_term {U} ev (pg : program U) w e : w_terminating w = false -> e <> Terminate -> e <> CancelAccept ->
  w_terminating (escape_step ev pg w e) = false.
Proof.
  intros T N1 N2. assert (X : w_terminating (world_step ev (as_ext pg) w e) = false).
  { destruct e; try contradiction; try (apply (accepting_kept ev (as_ext pg) w _ T); discriminate).
    cbn [world_step]. destruct (w_accepting w); exact T. }
  unfold escape_step. cbv zeta. destruct e; try exact X. destruct (snd _); [exact X|exact T..].
Qed.
Lemma escape_run_term {U} ev (pg : program U) es : forall w, w_terminating w = false -> ~ told es ->
  w_terminating (escape_run ev pg w es) = false.
Proof.
  induction es as [|e es IH]; intros w T N; [exact T|]. apply told_not in N as (N & N1 & N2).
  apply IH; [apply escape_term; assumption|exact N].
Qed.

(** a server that is over: nothing is accepted, no connection is open *)
Definition quiet {U} (u : U) (w : world (U * mark)) : Prop :=
  w_accepting w = false /\ (forall c s, conn_of w c = Some s -> s = Closed) /\ hs_user (w_host w) = (u, Fine).
Lemma quiet_step {U} ev (pg : program U) u w e : quiet u w ->
  quiet u (escape_step ev pg w e) /\ w_sent (escape_step ev pg w e) = w_sent w /\
  (forall c, conn_of (escape_step ev pg w e) c = conn_of w c) /\ w_host (escape_step ev pg w e) = w_host w.
Proof.
  intros (A & B & C).
  assert (K : forall c w', w_accepting w' = false -> w_sent w' = w_sent w -> w_host w' = w_host w -> conn_of w c = Some Closed ->
     w_conns w' = set_conn c Closed (w_conns w) ->
     quiet u w' /\ w_sent w' = w_sent w /\ (forall c, conn_of w' c = conn_of w c) /\ w_host w' = w_host w).
  { intros c w' A' S' H' G K. assert (Q : forall c', conn_of w' c' = conn_of w c').
    { intros c'. unfold conn_of in *. rewrite K. unfold set_conn. destruct (Z.eq_dec c c') as [->|N].
      - rewrite (dict_get_set_same _ Z.eqb_eq). congruence.
      - apply dict_get_set_other; [exact Z.eqb_eq|congruence]. }
    split; [|auto]. split; [exact A'|]. split; [|rewrite H'; exact C]. intros c' s. rewrite Q. apply B. }
  assert (Z0 : forall w', w_accepting w' = false -> w_sent w' = w_sent w -> w_host w' = w_host w -> w_conns w' = w_conns w ->
     quiet u w' /\ w_sent w' = w_sent w /\ (forall c, conn_of w' c = conn_of w c) /\ w_host w' = w_host w).
  { intros w' A' S' H' K'. unfold quiet, conn_of. rewrite K', H'. auto. }
  assert (R : forall c raw uuid, world_step ev (as_ext pg) w (Recv c raw uuid) = w).
  { intros c raw uuid. cbn [world_step]. destruct (_ <? _); [reflexivity|].
    destruct (dict_get Z.eqb c (w_conns w)) as [s|] eqn:G; [|reflexivity]. rewrite (B c s G). reflexivity. }
  destruct e as [c|c raw uuid|c ok|c|c| | |]; unfold escape_step; cbv zeta; [| |cbn [world_step]..].
  - cbn [world_step]. rewrite A. destruct (dict_get _ _ _); apply Z0; auto.
  - rewrite R, C. apply Z0; auto.
  - destruct (dict_get Z.eqb c (w_conns w)) as [s|] eqn:G; [|apply Z0; auto]. rewrite (B c s G). apply Z0; auto.
  - destruct (dict_get Z.eqb c (w_conns w)) as [s|] eqn:G; [|apply Z0; auto]. rewrite (B c s G). apply Z0; auto.
  - destruct (dict_get Z.eqb c (w_conns w)) as [s|] eqn:G; [|apply Z0; auto].
    apply (K c); auto. unfold conn_of. rewrite G. f_equal. exact (B c s G).
  - apply Z0; auto.
  - rewrite A. apply Z0; auto.
  - rewrite A. apply Z0; auto.
Qed.
Lemma quiet_run {U} ev (pg : program U) u es : forall w, quiet u w ->
  w_sent (escape_run ev pg w es) = w_sent w /\ (forall c, conn_of (escape_run ev pg w es) c = conn_of w c) /\
  hs_user (w_host (escape_run ev pg w es)) = (u, Fine).
Proof.
  induction es as [|e es IH]; intros w Q; [split; [reflexivity|]; split; [reflexivity|apply Q]|].
  destruct (quiet_step ev pg u w e Q) as (Q' & S & K & _). destruct (IH _ Q') as (A & B & C).
  unfold escape_run in *. cbn [fold_left]. split; [congruence|]. split; [|exact C]. intros c. rewrite B. apply K.
Qed.

(** ** C123.  Full statement: as long as nobody asks the server to stop, whatever the handlers do,
    a message received on one connection touches no other connection, the server goes on accepting
    if it was, and the connection is not closed because of the message. *)
Definition goes_on {U} (w w' : world U) (c : Z) (raw : bytes) : Prop :=
  w_accepting w' = w_accepting w /\ (forall c', c' <> c -> conn_of w' c' = conn_of w c') /\
  (raw <> [] -> conn_of w c = Some Receiving -> conn_of w' c <> Some Closed).
Definition C123_statement : Prop := forall U ev (pg : program U) u es c raw uuid, ~ told es ->
  let w := escape_run ev pg (escape_start u) es in
  goes_on w (escape_step ev pg w (Recv c raw uuid)) c raw.
(** one handler, on GET /hello/{name} *)
Definition ex_program : program Z :=
  mkProgram (xt_name ex_ext) (xt_interfaces ex_ext) (xt_registry ex_ext)
    (fun n u q => (u + 1, if streqb (rq_path q) (py "/hello/x") then Throws EGeneric
                          else if streqb (rq_path q) (py "/hello/leave") then Leaves
                          else if streqb (rq_path q) (py "/hello/exit") then Exits else Gives ex_response)).
(** False of this code: sys.exit() in a handler ends the server, *)
Theorem C123_exit_refuted : ~ C123_statement.
Proof.
  intros H. destruct (H Z ex_env ex_program 0 [Accept 0; Accept 1] 0 (ex_raw (ex_rest_msg (py "/hello/exit"))) [])
    as (A & _); [intros [[X|[X|[]]]|[X|[X|[]]]]; discriminate|]. vm_compute in A. discriminate.
Qed.
Print Assumptions C123_exit_refuted.
(** and another exception that is not an Exception, or an Exception that cannot be printed, closes
    the connection. *)
Theorem C123_leave_refuted : ~ C123_statement.
Proof.
  intros H. destruct (H Z ex_env ex_program 0 [Accept 0; Accept 1] 0 (ex_raw (ex_rest_msg (py "/hello/leave"))) [])
    as (_ & _ & A); [intros [[X|[X|[]]]|[X|[X|[]]]]; discriminate|]. vm_compute in A. apply A; [discriminate|reflexivity|reflexivity].
Qed.
Print Assumptions C123_leave_refuted.
(** What holds: if handlers only return and raise Exceptions, all of it; if none exits, all but the
    last. *)
Lemma plain_goes_on {U} ev (ext : extension U) w c raw uuid : w_terminating w = false ->
  goes_on w (world_step ev ext w (Recv c raw uuid)) c raw.
Proof.
  intros T. split; [apply accepting_kept; [exact T|discriminate..]|].
  split; [intros c' N; apply others_kept; cbn [event_conn]; congruence|].
  intros R G. cbn [world_step]. unfold conn_of in G. rewrite G. destruct (RECV_LIMIT <? zlen raw).
  { unfold conn_of. rewrite G. discriminate. }
  destruct raw as [|b raw]; [contradiction|].
  destruct (on_input _ _ _ _ _) as [[[d|]|x] h]; [rewrite conn_set|rewrite after_conn, T..]; rewrite Z.eqb_refl; discriminate.
Qed.
Theorem C123_exceptions_partial : forall U ev (pg : program U) u es c raw uuid, ~ told es ->
  let w := escape_run ev pg (escape_start u) es in
  let w' := escape_step ev pg w (Recv c raw uuid) in
  ((forall n v q, snd (pg_handler pg n v q) <> Leaves /\ snd (pg_handler pg n v q) <> Exits) -> goes_on w w' c raw) /\
  ((forall n v q, snd (pg_handler pg n v q) <> Exits) ->
     w_accepting w' = w_accepting w /\ forall c', c' <> c -> conn_of w' c' = conn_of w c').
Proof.
  intros U ev pg u es c raw uuid N. cbv zeta.
  assert (T := escape_run_term ev pg es (escape_start u) eq_refl N).
  assert (S := settled_run ev pg es (escape_start u) eq_refl).
  set (w := escape_run ev pg (escape_start u) es) in *. clearbody w.
  assert (G := plain_goes_on ev (as_ext pg) w c raw uuid T). split.
  - intros H. unfold escape_step. cbv zeta.
    assert (S' : snd (hs_user (w_host (world_step ev (as_ext pg) w (Recv c raw uuid)))) = Fine).
    { apply (user_step (fun v => snd v = Fine)); [|exact S]. intros n v q Sv. cbn [as_ext xt_invoke].
      specialize (H n (fst v) q). destruct (pg_handler pg n (fst v) q) as [u' [a|e| |]]; cbn [snd fst] in *;
        [exact Sv|exact Sv|destruct H; congruence|destruct H; congruence]. }
    rewrite S'. exact G.
  - intros H. unfold escape_step. cbv zeta.
    assert (S' : snd (hs_user (w_host (world_step ev (as_ext pg) w (Recv c raw uuid)))) <> Exited).
    { apply (user_step (fun v => snd v <> Exited)); [|rewrite S; discriminate]. intros n v q Sv. cbn [as_ext xt_invoke].
      specialize (H n (fst v) q). destruct (pg_handler pg n (fst v) q) as [u' [a|e| |]]; cbn [snd fst] in *;
        [exact Sv|exact Sv|discriminate|congruence]. }
    destruct (snd _); [split; apply G| |contradiction S'; reflexivity].
    split; [reflexivity|]. intros c' Nc. rewrite conn_set. destruct (Z.eqb_spec c c'); [congruence|reflexivity].
Qed.
Print Assumptions C123_exceptions_partial.
(** Programs whose handlers only return and raise Exceptions run as Host.v has it, so that all other
    properties are about them. *)
Definition wmap {U V} (f : U -> V) (w : world U) : world V :=
  mkWorld (hmap f (w_host w)) (w_terminating w) (w_accepting w) (w_conns w) (w_sent w).
Lemma sim_step {U V} (f : U -> V) ev e1 e2 w e : follows f e1 e2 ->
  world_step ev e2 (wmap f w) e = wmap f (world_step ev e1 w e).
Proof.
  intros F. assert (A : forall h c s, after_chunk (hmap f h) (wmap f w) c s = wmap f (after_chunk h w c s)).
  { intros h c s. unfold after_chunk. cbn [w_terminating wmap]. destruct (w_terminating w); reflexivity. }
  destruct e as [c|c raw uuid|c ok|c|c| | |]; cbn [world_step w_conns w_accepting w_sent w_host wmap].
  - destruct (dict_get _ _ _); [reflexivity|]. destruct (w_accepting w); reflexivity.
  - destruct (_ <? _); [reflexivity|]. destruct (dict_get _ _ _) as [[|d|]|]; try reflexivity. destruct raw as [|b raw]; [reflexivity|].
    rewrite (sim_input f ev e1 e2 uuid (b :: raw) F (w_host w)).
    destruct (on_input ev e1 uuid (b :: raw) (w_host w)) as [[[d|]|x] h]; cbn [fst snd]; [reflexivity|apply A..].
  - destruct (dict_get _ _ _) as [[|d|]|]; try reflexivity. apply A.
  - destruct (dict_get _ _ _) as [[|d|]|]; reflexivity.
  - destruct (dict_get _ _ _); reflexivity.
  - reflexivity.
  - destruct (w_accepting w); reflexivity.
  - destruct (w_accepting w); reflexivity.
Qed.
Theorem C123_same_partial : forall U ev (pg : program U) (inv : nat -> U -> rest_request -> U * res rest_response) u es,
  (forall n v q, pg_handler pg n v q = (fst (inv n v q), match snd (inv n v q) with Ok a => Gives a | Raise e => Throws e end)) ->
  let ext := mkExtn U (pg_name pg) (pg_interfaces pg) (pg_registry pg) inv in
  let w := escape_run ev pg (escape_start u) es in let v := run_world ev ext (initial_world u) es in
  w_conns w = w_conns v /\ w_sent w = w_sent v /\ w_accepting w = w_accepting v /\ w_terminating w = w_terminating v /\
  fst (hs_user (w_host w)) = hs_user (w_host v).
Proof.
  intros U ev pg inv u es H ext.
  assert (F : follows (fun v => (v, Fine)) ext (as_ext pg)).
  { split; [reflexivity|]. split; [reflexivity|]. split; [reflexivity|]. intros n v q. cbn [as_ext xt_invoke fst snd ext].
    rewrite H. destruct (inv n v q) as [v' [a|e]]; reflexivity. }
  assert (K : forall es v, escape_run ev pg (wmap (fun v => (v, Fine)) v) es = wmap (fun v => (v, Fine)) (run_world ev ext v es)).
  { clear es. induction es as [|e es IH]; intros v; [reflexivity|]. unfold escape_run, run_world in *. cbn [fold_left].
    rewrite <- IH. f_equal. unfold escape_step. cbv zeta. rewrite (sim_step _ ev ext (as_ext pg) v e F).
    destruct e; try reflexivity. }
  cbv zeta. change (escape_start u) with (wmap (fun v => (v, Fine)) (initial_world u)). rewrite K. repeat split.
Qed.
Print Assumptions C123_same_partial.
(** What an escape does, exactly.  [m] is a REST request frame for handler [n], received on the open
    connection [c] of a server that has been running for a while. *)
Theorem C123_escapes_partial : forall U ev (pg : program U) u0 es strict m raw q z n q' uuid c u o,
  set_order_ok (e_so ev) -> frame_of m raw ->
  m_action m = py "internal:extensions/restexecuteonextensiontaction" ->
  w_rest_request strict q (m_payload m) -> rq_method q = Some z ->
  find_handler (e_cls ev) (rg_map (pg_registry pg)) (mname z ++ [32] ++ rq_path q) = Ok n ->
  received_request q q' -> zlen raw <= 10240 ->
  let w := escape_run ev pg (escape_start u0) es in
  let w' := escape_step ev pg w (Recv c raw uuid) in
  conn_of w c = Some Receiving -> pg_handler pg n (fst (hs_user (w_host w))) q' = (u, o) ->
  (* leaving closes this connection, without a reply, and nothing else *)
  (o = Leaves ->
     (forall c', conn_of w' c' = if c =? c' then Some Closed else conn_of w c') /\ w_sent w' = w_sent w /\
     w_accepting w' = w_accepting w /\ w_terminating w' = w_terminating w /\ hs_user (w_host w') = (u, Fine) /\
     hs_pending (w_host w') = hs_pending (w_host w) /\ hs_init (w_host w') = hs_init (w_host w) /\
     hs_settings (w_host w') = hs_settings (w_host w)) /\
  (* exiting closes every connection, also those in the middle of a reply, and nothing is accepted,
     received or sent any more *)
  (o = Exits ->
     (forall c', conn_of w c' <> None -> conn_of w' c' = Some Closed) /\
     forall es', let w'' := escape_run ev pg w' es' in
       w_sent w'' = w_sent w /\ (forall c', conn_of w'' c' = conn_of w' c') /\ fst (hs_user (w_host w'')) = u).
Proof.
  intros U ev pg u0 es strict m raw q z n q' uuid c u o Hso Hf Ha Wq Hz Hn Hr Hl w w' Hc Ho.
  assert (S := settled_run ev pg es (escape_start u0) eq_refl). fold w in S. 
  subst w'. clearbody w.
  assert (NE : raw <> []).
  { destruct (read_as_frame (e_so ev) m raw Hso Hf) as (c' & _ & Rm). specialize (Rm []). rewrite app_nil_r in Rm.
    apply (read_not_empty _ _ _ Rm). exact (frame_id m raw Hf). }
  assert (X : o = Leaves \/ o = Exits ->
    exists h', on_input ev (as_ext pg) uuid raw (w_host w) = (Raise EGeneric, h') /\
      hs_user h' = (u, match o with Leaves => Left | _ => Exited end) /\ hs_pending h' = hs_pending (w_host w) /\
      hs_init h' = hs_init (w_host w) /\ hs_settings h' = hs_settings (w_host w)).
  { intros Oo. rewrite <- (app_nil_r raw). apply (C42_handler_raises (U * mark) ev (as_ext pg) strict m raw q z n q'); try assumption.
    cbn [as_ext xt_invoke]. rewrite Ho. destruct Oo as [-> | ->]; reflexivity. }
  assert (Y : o = Leaves \/ o = Exits -> exists h', w_host (world_step ev (as_ext pg) w (Recv c raw uuid)) = h' /\
      hs_user h' = (u, match o with Leaves => Left | _ => Exited end) /\ hs_pending h' = hs_pending (w_host w) /\
      hs_init h' = hs_init (w_host w) /\ hs_settings h' = hs_settings (w_host w)).
  { intros Oo. destruct (X Oo) as (h' & E & R). exists h'. split; [|exact R]. cbn [world_step]. change RECV_LIMIT with 10240.
    destruct (Z.ltb_spec 10240 (zlen raw)); [lia|]. unfold conn_of in Hc. rewrite Hc. destruct raw as [|b raw]; [contradiction|].
    rewrite E. unfold after_chunk. destruct (w_terminating w); reflexivity. }
  clear X. split.
  - intros ->. destruct (Y (or_introl eq_refl)) as (h' & E & Eu & E1 & E2 & E3). unfold escape_step. cbv zeta. rewrite E, Eu. cbn [snd].
    split; [intros c'; apply conn_set|]. split; [reflexivity|]. split; [reflexivity|]. split; [reflexivity|].
    cbn [w_host unmark set_user hs_user hs_pending hs_init hs_settings]. rewrite Eu. auto.
  - intros ->. destruct (Y (or_intror eq_refl)) as (h' & E & Eu & E1 & E2 & E3). assert (W : escape_step ev pg w (Recv c raw uuid) = mkWorld (unmark h') (w_terminating w) false (map (fun x => (fst x, Closed)) (w_conns w)) (w_sent w)).
    { unfold escape_step. cbv zeta. rewrite E, Eu. reflexivity. }
    rewrite W. clear W. set (w1 := mkWorld (unmark h') _ _ _ _).
    assert (Q : quiet u w1).
    { split; [reflexivity|]. split; [|cbn [w_host w1 unmark set_user hs_user]; rewrite Eu; reflexivity].
      intros c' s. unfold conn_of. cbn [w_conns w1]. rewrite conns_closed. destruct (dict_get Z.eqb c' _); [congruence|discriminate]. }
    split.
    + intros c' G. unfold conn_of in *. cbn [w_conns w1]. rewrite conns_closed. destruct (dict_get Z.eqb c' _); [reflexivity|contradiction].
    + intros es'. destruct (quiet_run ev pg u es' w1 Q) as (A & B & C). split; [exact A|]. split; [exact B|].
      rewrite C. reflexivity.
Qed.
Print Assumptions C123_escapes_partial.
(** a request for each outcome, with one connection open, another one sending *)
Example C123_case :
  let es := [Accept 0; Accept 1; Recv 1 (ex_raw ex_tcp) []] in let w := escape_run ex_env ex_program (escape_start 0) es in
  let to p := ex_raw (ex_rest_msg (py p)) in let after p := escape_step ex_env ex_program w (Recv 0 (to p) []) in
  ~ told es /\ conn_of w 0 = Some Receiving /\ conn_of w 1 <> Some Receiving /\
  frame_of (ex_rest_msg (py "/hello/exit")) (to "/hello/exit"%string) /\ zlen (to "/hello/exit"%string) <= 10240 /\
  w_rest_request true (ex_rest (py "/hello/exit")) (m_payload (ex_rest_msg (py "/hello/exit"))) /\
  find_handler (e_cls ex_env) (rg_map (pg_registry ex_program)) (mname 0 ++ [32] ++ py "/hello/exit") = Ok 0%nat /\
  conn_of (after "/hello/x"%string) 0 = Some Receiving /\ conn_of (after "/hello/x"%string) 1 = conn_of w 1 /\
  conn_of (after "/hello/leave"%string) 0 = Some Closed /\ conn_of (after "/hello/leave"%string) 1 = conn_of w 1 /\
  conn_of (after "/hello/exit"%string) 0 = Some Closed /\ conn_of (after "/hello/exit"%string) 1 = Some Closed.
Proof.
  cbv zeta. split; [intros [[X|[X|[X|[]]]]|[X|[X|[X|[]]]]]; discriminate|]. split; [vm_compute; reflexivity|].
  split; [vm_compute; discriminate|].
  split; [apply ex_frame; [text|discriminate|vm_compute; discriminate]|]. split; [vm_compute; discriminate|].
  split; [apply (by_writer _ _ _ _ _ _ (rest_request_writes true)); [apply ex_rest_ok; text|reflexivity]|].
  vm_compute. repeat split.
Qed.
