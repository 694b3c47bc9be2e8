(** * Property C124: what peers receive are whole replies *)
From Coq Require Import String ZArith List Bool Lia.
From Coq Require Import Strings.Byte.
From Verif Require Import Py Stream Version Frame Proto Messages Rest Routes Settings Host PyFacts
  Spec HostSpec HostFacts PropsHost PropsHistory Peer.
Import ListNotations.
Open Scope list_scope.
Open Scope Z_scope.

(** ** Specification *)
(** the parts handed over on [c], and the bytes its peer gets *)
Definition parts {U} (n : net U) (c : Z) : list bytes := map snd (filter (fun x => fst x =? c) (snd n)).
Definition received {U} (n : net U) (c : Z) : bytes := concat (parts n c).
(** what the host had to send for the chunks received on [c], in order (HostSpec.v: log) *)
Definition replies {U} (ev : env) (ext : extension U) (u : U) (xs : list (nat * event)) (c : Z) : list bytes :=
  somes (map hd_reply (log_of c (log ev ext (initial_world u) (map snd xs)))).
Definition begins (p r : bytes) : Prop := exists t, p ++ t = r.

(** ** Facts *)
Lemma net_snoc {U} ev (ext : extension U) n xs x : net_run ev ext n (xs ++ [x]) = net_step ev ext (net_run ev ext n xs) x.
Proof. unfold net_run. rewrite fold_left_app. reflexivity. Qed.
Lemma net_world {U} ev (ext : extension U) xs : forall n, fst (net_run ev ext n xs) = run_world ev ext (fst n) (map snd xs).
Proof. induction xs as [|x xs IH]; intros n; [reflexivity|]. unfold net_run, run_world in *. cbn [fold_left map]. rewrite IH. reflexivity. Qed.
Lemma parts_step {U} ev (ext : extension U) n x c :
  parts (net_step ev ext n x) c = parts n c ++ map snd (filter (fun y => fst y =? c) (delivers (fst n) (fst x) (snd x))).
Proof. unfold parts, net_step. cbn [snd]. rewrite filter_app, map_app. reflexivity. Qed.
Lemma net_effect {U} ev (ext : extension U) w k e c :
  let w' := world_step ev ext w e in
  let new := somes (map hd_reply (log_of c (handles ev ext w e))) in
  let p := map snd (filter (fun y => fst y =? c) (delivers w k e)) in
  (p = [] /\ (in_flight w' c = in_flight w c /\ new = [] \/ in_flight w c = [] /\ in_flight w' c = new)) \/
  (e = SendDone c true /\ new = [] /\ in_flight w' c = [] /\ p = in_flight w c) \/
  ((e = SendDone c false \/ e = Cancelled c) /\ new = [] /\ in_flight w' c = [] /\
   (e = Cancelled c -> conn_of w' c = Some Closed) /\ exists d, in_flight w c = [d] /\ p = [firstn k d]).
Proof.
  cbv zeta. destruct (event_conn_dec e c) as [D|D].
  2:{ left. destruct (others_kept ev ext w e c D) as (K & S & L). rewrite L. split.
      - destruct e as [a|a raw uuid|a ok|a|a| | |]; cbn [delivers event_conn] in *; try reflexivity;
          (destruct (dict_get Z.eqb a (w_conns w)) as [[|d|]|]; try reflexivity; cbn [filter fst];
           destruct (Z.eqb_spec a c); [congruence|reflexivity]).
      - left. unfold in_flight. rewrite K. auto. }
  assert (T : forall t : bool, match Some (if t then Closed else Receiving) with Some (Sending d) => [d] | _ => [] end = []) by (intros []; reflexivity).
  destruct e as [a|a raw uuid|a ok|a|a| | |]; cbn [event_conn] in D; try discriminate;
    (assert (a = c) by congruence; subst a); clear D; cbn [world_step handles log_of filter map somes flat_map delivers];
    change (dict_get Z.eqb c (w_conns w)) with (conn_of w c); change RECV_LIMIT with 10240.
  - left. split; [reflexivity|]. left. destruct (conn_of w c) eqn:G; [auto|].
    destruct (w_accepting w); [|auto]. split; [|reflexivity]. unfold in_flight. rewrite conn_set, Z.eqb_refl, G. reflexivity.
  - left. split; [reflexivity|]. destruct (10240 <? zlen raw); [left; auto|].
    destruct (conn_of w c) as [[|d|]|] eqn:G; try (left; auto; fail).
    assert (F0 : in_flight w c = []) by (unfold in_flight; rewrite G; reflexivity).
    destruct raw as [|b raw].
    + left. split; [|reflexivity]. rewrite F0. unfold in_flight. rewrite close_conn_of, Z.eqb_refl. reflexivity.
    + right. split; [exact F0|]. destruct (on_input ev ext uuid (b :: raw) (w_host w)) as [r h] eqn:E. cbn [fst].
      cbn [log_of filter hd_conn]. rewrite Z.eqb_refl. cbn [map hd_reply somes flat_map].
      destruct r as [[d|]|e]; unfold in_flight; [rewrite conn_set|rewrite after_conn..]; rewrite Z.eqb_refl; [reflexivity|apply T..].
  - destruct (conn_of w c) as [[|d|]|] eqn:G; try (left; auto; fail). right.
    assert (F : in_flight w c = [d]) by (unfold in_flight; rewrite G; reflexivity).
    assert (F' : forall s, in_flight (after_chunk (w_host w) w c s) c = []) by (intros s; unfold in_flight; rewrite after_conn, Z.eqb_refl; apply T).
    cbn [filter fst map]. rewrite Z.eqb_refl. cbn [map snd]. destruct ok.
    + left. split; [reflexivity|]. split; [reflexivity|]. split; [apply F'|]. rewrite F. reflexivity.
    + right. split; [left; reflexivity|]. split; [reflexivity|]. split; [apply F'|]. split; [discriminate|]. exists d. auto.
  - left. split; [reflexivity|]. left. destruct (conn_of w c) as [[|d|]|] eqn:G; auto. split; [|reflexivity].
    unfold in_flight. rewrite close_conn_of, Z.eqb_refl, G. reflexivity.
  - destruct (conn_of w c) as [s|] eqn:G; [|left; auto]. destruct s as [|d|].
    + left. split; [reflexivity|]. left. unfold in_flight. rewrite close_conn_of, Z.eqb_refl, G. auto.
    + right. right. split; [right; reflexivity|]. split; [reflexivity|].
      split; [unfold in_flight; rewrite close_conn_of, Z.eqb_refl; reflexivity|].
      split; [intros _; rewrite close_conn_of, Z.eqb_refl; reflexivity|]. exists d. cbn [filter fst]. rewrite Z.eqb_refl.
      unfold in_flight. rewrite G. auto.
    + left. split; [reflexivity|]. left. unfold in_flight. rewrite close_conn_of, Z.eqb_refl, G. auto.
Qed.
Lemma replies_snoc {U} ev (ext : extension U) u xs x c :
  replies ev ext u (xs ++ [x]) c = replies ev ext u xs c ++
    somes (map hd_reply (log_of c (handles ev ext (fst (net_run ev ext (initial_net u) xs)) (snd x)))).
Proof. unfold replies. rewrite map_app. cbn [map]. rewrite log_snoc, log_of_app, map_app, somes_app, net_world. reflexivity. Qed.

(** ** C124.  Full statement: what a peer has received at any time is a beginning of the replies to
    its messages, one after the other. *)
Definition C124_statement : Prop := forall U ev (ext : extension U) u xs c,
  begins (received (net_run ev ext (initial_net u) xs) c) (concat (replies ev ext u xs c)).
(** False of this code, as far as the operating system allows it: after a send that failed half-way
    the connection is kept and the next reply is sent behind the half one. *)
Theorem C124_half_refuted : ~ C124_statement.
Proof.
  intros H. specialize (H Z ex_env ex_ext 0 [(0%nat, Accept 0); (0%nat, Recv 0 (ex_raw ex_tcp) []); (3%nat, SendDone 0 false);
    (0%nat, Recv 0 (ex_raw ex_tcp) []); (0%nat, SendDone 0 true)] 0).
  destruct H as (t & H). apply (f_equal (firstn 6)) in H. vm_compute in H. discriminate.
Qed.
Print Assumptions C124_half_refuted.
(** What holds: in any case the peer receives a part of every reply, from its beginning, in order
    ([in_flight]: the reply being sent, if any). *)
Theorem C124_parts_partial : forall U ev (ext : extension U) u xs c,
  let n := net_run ev ext (initial_net u) xs in
  Forall2 begins (parts n c ++ in_flight (fst n) c) (replies ev ext u xs c).
Proof.
  intros U ev ext u xs c. cbv zeta.
  assert (R : forall l : list bytes, Forall2 begins l l).
  { induction l; constructor; [exists []; apply app_nil_r|assumption]. }
  induction xs as [|x xs IH] using rev_ind; [constructor|].
  rewrite net_snoc, replies_snoc, parts_step. cbn [net_step fst].
  set (n := net_run ev ext (initial_net u) xs) in *.
  destruct (net_effect ev ext (fst n) (fst x) (snd x) c) as [(P & [(F & N)|(F & N)])|[(E & N & F & P)|(E & N & F & _ & d & D & P)]];
    rewrite P, ?N, ?F, ?app_nil_r.
  - exact IH.
  - rewrite F, app_nil_r in IH. rewrite <- N. apply Forall2_app; [exact IH|apply R].
  - exact IH.
  - rewrite D in IH. apply Forall2_app_inv_l in IH as (l1 & l2 & H1 & H2 & ->). apply Forall2_app; [exact H1|].
    inversion H2 as [|a b la lb (t & Hd) Hn]; subst. inversion Hn; subst. constructor; [|constructor].
    exists (skipn (fst x) d ++ t). rewrite app_assoc, firstn_skipn. reflexivity.
Qed.
Print Assumptions C124_parts_partial.
(** and if after a failed send on its connection nothing more can be delivered on it (as with a
    connection that is reset), or no send fails, it has received a beginning of the replies;
    everything but the reply being sent if no send fails or is cancelled. *)
Definition stays_broken (xs : list (nat * event)) (c : Z) : Prop := forall xs1 k xs2, xs = xs1 ++ (k, SendDone c false) :: xs2 ->
  forall j e, In (j, e) xs2 -> e <> SendDone c true /\ (e = SendDone c false \/ e = Cancelled c -> j = 0%nat).
Lemma broken_snoc xs x c : stays_broken (xs ++ [x]) c -> stays_broken xs c.
Proof.
  intros B xs1 k xs2 E j e I. apply (B xs1 k (xs2 ++ [x])); [rewrite E, <- app_assoc; reflexivity|]. apply in_or_app. auto.
Qed.
Theorem C124_whole_partial : forall U ev (ext : extension U) u xs c,
  let n := net_run ev ext (initial_net u) xs in
  (stays_broken xs c -> begins (received n c) (concat (replies ev ext u xs c))) /\
  (~ In (SendDone c false) (map snd xs) -> begins (received n c) (concat (replies ev ext u xs c))) /\
  (~ In (SendDone c false) (map snd xs) -> ~ In (Cancelled c) (map snd xs) ->
     received n c ++ concat (in_flight (fst n) c) = concat (replies ev ext u xs c)).
Proof.
  intros U ev ext u xs c. cbv zeta.
  assert (K : stays_broken xs c -> let n := net_run ev ext (initial_net u) xs in
    (received n c ++ concat (in_flight (fst n) c) = concat (replies ev ext u xs c)) \/
    ((In (SendDone c false) (map snd xs) \/ In (Cancelled c) (map snd xs) /\ conn_of (fst n) c = Some Closed) /\
     begins (received n c) (concat (replies ev ext u xs c)))).
  { cbv zeta. induction xs as [|x xs IH] using rev_ind; intros B; [left; reflexivity|].
    specialize (IH (broken_snoc _ _ _ B)). rewrite net_snoc, replies_snoc. unfold received. rewrite parts_step. cbn [net_step fst].
    set (n := net_run ev ext (initial_net u) xs) in *. fold (received n c) in *. rewrite map_app. cbn [map]. rewrite !concat_app.
    fold (received n c).
    assert (Lost : forall new p, p = [] -> begins (received n c) (concat (replies ev ext u xs c)) ->
      begins (received n c ++ p) (concat (replies ev ext u xs c) ++ new)).
    { intros new p -> (t & <-). exists (t ++ new). rewrite app_nil_r, app_assoc. reflexivity. }
    destruct IH as [IH|(L & IH)].
    - destruct (net_effect ev ext (fst n) (fst x) (snd x) c) as [(P & [(F & N)|(F & N)])|[(E & N & F & P)|(E & N & F & Cl & d & D & P)]];
        rewrite P.
      + left. rewrite F, N. cbn [concat]. rewrite !app_nil_r. exact IH.
      + left. rewrite F in IH. cbn [concat] in *. rewrite app_nil_r in IH. rewrite N, IH. cbn [concat]. rewrite app_nil_r. reflexivity.
      + left. rewrite N, F. cbn [concat]. rewrite !app_nil_r. exact IH.
      + right. split.
        * destruct E as [E|E]; [left|right; split; [|exact (Cl E)]]; apply in_or_app; right; left; exact E.
        * rewrite N. cbn [concat]. rewrite !app_nil_r. rewrite <- IH, D. cbn [concat]. rewrite app_nil_r.
          exists (skipn (fst x) d). rewrite <- app_assoc, firstn_skipn. reflexivity.
    - right. split.
      + destruct L as [L|[L C]]; [left; apply in_or_app; auto|right; split; [apply in_or_app; auto|]].
        exact (proj1 (closed_step ev ext (fst n) (snd x) c C)).
      + apply Lost; [|exact IH]. destruct L as [L|[_ C]].
        * apply in_map_iff in L as ((k & e) & Ee & I). cbn [snd] in Ee. subst e. apply in_split in I as (l1 & l2 & ->).
          assert (Bx := B l1 k (l2 ++ [x]) ltac:(rewrite <- app_assoc; reflexivity) (fst x) (snd x)).
          destruct Bx as [B1 B2]; [apply in_or_app; right; left; apply surjective_pairing|].
          destruct (net_effect ev ext (fst n) (fst x) (snd x) c) as [(P & _)|[(E & _)|(E & N & F & _ & d & D & P)]];
            [rewrite P; reflexivity|contradiction|]. rewrite P, (B2 E). reflexivity.
        * destruct (snd x) as [a|a raw uuid|a ok|a|a| | |]; cbn [delivers]; try reflexivity;
            (destruct (dict_get Z.eqb a (w_conns (fst n))) as [[|d|]|] eqn:G; try reflexivity; cbn [filter fst];
             destruct (Z.eqb_spec a c) as [->|]; [unfold conn_of in C; congruence|reflexivity]). }
  assert (Bg : forall a b r : bytes, a ++ b = r -> begins a r) by (intros a b r H; exists b; exact H).
  assert (NB : ~ In (SendDone c false) (map snd xs) -> stays_broken xs c).
  { intros N xs1 k xs2 E. exfalso. apply N. rewrite E, map_app. apply in_or_app. right. left. reflexivity. }
  split; [|split].
  - intros B. destruct (K B) as [E|[_ E]]; [exact (Bg _ _ _ E)|exact E].
  - intros N. destruct (K (NB N)) as [E|[_ E]]; [exact (Bg _ _ _ E)|exact E].
  - intros N N2. destruct (K (NB N)) as [E|[[E|[E _]] _]]; [exact E|contradiction..].
Qed.
Print Assumptions C124_whole_partial.
(** two replies, the second cut by a reset; then a handshake whose reply cannot be delivered *)
Example C124_case : let xs := [(0%nat, Accept 0); (0%nat, Recv 0 (ex_raw ex_tcp) []); (0%nat, SendDone 0 true);
    (0%nat, Recv 0 (ex_raw ex_tcp) []); (5%nat, SendDone 0 false); (0%nat, Recv 0 (ex_raw ex_tcp) []); (0%nat, SendDone 0 false)] in
  let n := net_run ex_env ex_ext (initial_net 0) xs in
  stays_broken xs 0 /\ length (replies ex_env ex_ext 0 xs 0) = 3%nat /\ map (@length byte) (parts n 0) = [52; 5; 0]%nat.
Proof.
  cbv zeta. split; [|split; vm_compute; reflexivity].
  intros xs1 k xs2 E.
  Local Ltac nxt xs1 E := destruct xs1 as [|? xs1]; [cbn [app] in E; apply (f_equal (fun l => (hd_error l, tl l))) in E;
    cbn [hd_error tl] in E; apply pair_equal_spec in E as [E1 E2]|cbn [app] in E; apply (f_equal (@tl _)) in E; cbn [tl] in E].
  do 4 (nxt xs1 E; [discriminate E1|]). nxt xs1 E.
  { subst xs2. intros j e [X|[X|[]]]; apply pair_equal_spec in X as [<- <-]; (split; [discriminate|]); [intros [X|X]; discriminate|reflexivity]. }
  nxt xs1 E; [discriminate E1|]. nxt xs1 E; [subst xs2; intros j e []|]. destruct xs1; discriminate E.
Qed.
