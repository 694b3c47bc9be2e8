(** * Property C128: a read that fails leaves the object as it was *)
From Coq Require Import String ZArith List Bool Lia.
From Coq Require Import Strings.Byte.
From Verif Require Import Py PyFacts Stream StreamFacts StreamFacts2 Version Frame Proto Messages Rest
  Spec SpecFacts FrameFacts Wire WireFacts WireFacts2 WireFacts3 WireFacts4 HostSpec PropsMessages PropsRest PropsHost Reuse PropsReuse Half.
Import ListNotations.
Open Scope list_scope.
Open Scope Z_scope.

(** ** Specification *)
(** what is unread after [r], or what it raises *)
Definition rest {A} (r : reader A) (s : bytes) : res bytes := rmap snd (r s).
(** the first [k] attributes of [new], the others of [old] *)
Definition mix_node (k : nat) (new old : node) : node :=
  let at' {A} (i : nat) (get : node -> A) := if Nat.ltb i k then get new else get old in
  mkNode (at' 0%nat n_name) (at' 1%nat n_id) (at' 2%nat n_eph) (at' 3%nat n_host) (at' 4%nat n_hostaddr)
         (at' 5%nat n_addr) (at' 6%nat n_attrs) (at' 7%nat n_roles) (at' 8%nat n_version).
Definition mix_rest (k : nat) (new old : rest_request) : rest_request :=
  let at' {A} (i : nat) (get : rest_request -> A) := if Nat.ltb i k then get new else get old in
  mkReq (at' 0%nat rq_task) (at' 1%nat rq_method) (at' 2%nat rq_uri) (at' 3%nat rq_path) (at' 4%nat rq_params)
        (at' 5%nat rq_headers) (at' 6%nat rq_media) (at' 7%nat rq_content) (at' 8%nat rq_token) (at' 9%nat rq_http)
        (rq_consumed old) (rq_content_consumed old).
Definition mix_exec (k : nat) (new old : exec_response) : exec_response :=
  let at' {A} (i : nat) (get : exec_response -> A) := if Nat.ltb i k then get new else get old in
  mkExec (at' 0%nat ex_status) (at' 1%nat ex_ctype) (at' 2%nat ex_content) (at' 3%nat ex_headers) (at' 4%nat ex_consumed)
         (at' 5%nat ex_content_consumed).
Definition mix_addr (k : nat) (new old : taddr) : taddr :=
  let at' {A} (i : nat) (get : taddr -> A) := if Nat.ltb i k then get new else get old in
  mkAddr (at' 0%nat a_addr) (at' 1%nat a_host) (at' 2%nat a_port).
Definition mix_init (k : nat) (new old : init_request) : init_request :=
  let at' {A} (i : nat) (get : init_request -> A) := if Nat.ltb i k then get new else get old in
  mkInitReq (at' 0%nat ir_task) (at' 1%nat ir_source) (at' 2%nat ir_ext).

(** the object is as it was if the read raises *)
Definition kept {O} (half : stm O) : Prop := forall old s e o, half old s = (Raise e, o) -> o = old.
(** C128 *)
Definition C128_statement : Prop :=
  kept half_addr /\ kept half_node /\ kept half_ext_node /\ kept half_init_request /\ kept half_rest_request /\
  kept half_exec_response /\ forall so req h, kept (half_outbound so req h).

(** ** What is returned or raised is what the readers say, and of a read that returns so is the object *)
Definition returns {O} (half : stm O) (read : O -> reader O) : Prop := forall old s,
  match read old s with
  | Ok (o, t) => half old s = (Ok t, o)
  | Raise e => exists o, half old s = (Raise e, o)
  end.
Lemma then_take {O A} (r : reader A) (f : O -> A -> O) g o s :
  (take r f >>> g) o s = match r s with Ok (a, t) => g (f o a) t | Raise e => (Raise e, o) end.
Proof. unfold andthen, take. destruct (r s) as [[a t]|e]; reflexivity. Qed.
Lemma take_at {O A} (r : reader A) (f : O -> A -> O) o s :
  take r f o s = match r s with Ok (a, t) => (Ok t, f o a) | Raise e => (Raise e, o) end.
Proof. reflexivity. Qed.
Lemma then_inside {O P} (get : O -> P) set (f : stm P) g o s :
  (inside get set f >>> g) o s = match f (get o) s with (Ok t, p) => g (set o p) t | (Raise e, p) => (Raise e, set o p) end.
Proof. unfold andthen, inside. destruct (f (get o) s) as [[t|e] p]; reflexivity. Qed.
Lemma then_raise {O} (f g : stm O) o s : (f >>> g) o s = match f o s with (Ok t, o') => g o' t | (Raise e, o') => (Raise e, o') end.
Proof. reflexivity. Qed.
Lemma times_read {O A} (r : reader A) (f : O -> A -> O) k : forall o s,
  match read_n r k s with
  | Ok (l, t) => times k (take r f) o s = (Ok t, fold_left f l o)
  | Raise e => exists o', times k (take r f) o s = (Raise e, o')
  end.
Proof.
  induction k as [|k IH]; intros o s; [reflexivity|]. cbn [read_n times]. rewrite then_take. unfold rbind at 1.
  destruct (r s) as [[a t]|e]; [|eauto]. specialize (IH (f o a) t). unfold rbind at 1.
  destruct (read_n r k t) as [[l t']|e]; exact IH.
Qed.
(** one attribute after the other *)
Ltac one := rewrite ?then_take; unfold rbind at 1;
  match goal with |- context [match ?r ?x with Ok _ => _ | Raise _ => _ end] =>
    destruct (r x) as [[? ?]|?]; [|eexists; reflexivity] end.
Lemma addr_returns : returns half_addr (fun _ => read_addr).
Proof.
  intros old s. unfold half_addr, read_addr. rewrite then_take. unfold rbind.
  destruct (read_byte s) as [[n t]|e]; [|eexists; reflexivity]. destruct (negb (n =? 4)); [eexists; reflexivity|].
  destruct (read_int t) as [[i t']|e]; [|eexists; reflexivity]. destruct (i <? 0); [eexists; reflexivity|]. cbn [rret].
  rewrite then_take. destruct (read_string t') as [[h t2]|e]; [|eexists; reflexivity]. unfold take.
  destruct (read_int t2) as [[p t3]|e]; [reflexivity|eexists; reflexivity].
Qed.
Lemma roles_returns n s : match (k <~ read_v_int ;; read_n read_role (Z.to_nat k)) s with
  | Ok (l, t) => half_roles n s = (Ok t, set_roles n (fold_left role_add l []))
  | Raise e => exists o, half_roles n s = (Raise e, o)
  end.
Proof.
  unfold half_roles, rbind. destruct (read_v_int s) as [[k t]|e]; [|eauto].
  pose proof (times_read read_role (fun n r => set_roles n (role_add (n_roles n) r)) (Z.to_nat k) (set_roles n []) t) as T.
  destruct (read_n read_role (Z.to_nat k) t) as [[l t']|e]; [|exact T]. rewrite T. do 2 f_equal. clear.
  change (set_roles n (fold_left role_add l [])) with (set_roles n (fold_left role_add l (n_roles (set_roles n [])))).
  assert (G : forall m, n_roles m = n_roles m) by reflexivity. clear G. generalize (@nil role). induction l as [|r l IH]; intros s; [reflexivity|].
  cbn [fold_left]. apply (IH (role_add s r)).
Qed.
Lemma node_returns : returns half_node (fun _ => read_node).
Proof.
  intros old s. unfold half_node, read_node. do 7 one. rewrite then_raise.
  match goal with |- context [half_roles ?n ?x] => pose proof (roles_returns n x) as R end. unfold rbind in *.
  match goal with |- context [read_v_int ?x] => destruct (read_v_int x) as [[k t']|e] end; [|destruct R as (o & ->); eauto].
  destruct (read_n read_role (Z.to_nat k) t') as [[l t'']|e]; [|destruct R as (o & ->); eauto]. rewrite R. unfold take.
  destruct (read_version t'') as [[v t2]|e]; [reflexivity|eexists; reflexivity].
Qed.
Lemma deps_fold n v l : forall ds, fold_left (fun x d => set_deps x (x_deps x ++ [d])) l (mkExtNode n v ds) = mkExtNode n v (ds ++ l).
Proof.
  induction l as [|d l IH]; intros ds; [cbn; rewrite app_nil_r; reflexivity|]. cbn [fold_left].
  etransitivity; [apply (IH (ds ++ [d]))|]. rewrite <- app_assoc. reflexivity.
Qed.
Lemma ext_node_returns : returns half_ext_node (fun _ => read_ext_node).
Proof.
  intros old s. unfold half_ext_node, read_ext_node. rewrite then_inside. unfold rbind at 1.
  pose proof (node_returns (x_node old) s) as N. cbv beta in N. destruct (read_node s) as [[n t]|e]; [|destruct N as (o & ->); eauto]. rewrite N.
  one. cbn [x_node x_min x_deps]. unfold half_deps, rbind. destruct (read_v_int b) as [[k t']|e]; [|eauto].
  pose proof (times_read read_dep (fun x d => set_deps x (x_deps x ++ [d])) (Z.to_nat k) (mkExtNode n v []) t') as T.
  change (set_deps _ []) with (mkExtNode n v []).
  destruct (read_n read_dep (Z.to_nat k) t') as [[l t2]|e]; [|exact T]. rewrite T. unfold rret.
  rewrite deps_fold. reflexivity.
Qed.
Lemma init_returns : returns half_init_request (fun _ => read_init_request).
Proof.
  intros old s. unfold half_init_request, read_init_request. do 2 one. unfold take, rbind.
  match goal with |- context [read_ext_node ?x] => destruct (read_ext_node x) as [[? ?]|?] end; [reflexivity|eexists; reflexivity].
Qed.
Lemma rest_returns : returns half_rest_request read_rest_request_into.
Proof.
  intros [q1 q2 q3 q4 q5 q6 q7 q8 q9 q10 q11 q12] s. unfold half_rest_request, read_rest_request_into. cbn [rq_media rq_consumed rq_content_consumed].
  do 6 (one; cbn [rq_task rq_method rq_uri rq_path rq_params rq_headers rq_media rq_content rq_token rq_http rq_consumed rq_content_consumed]).
  rewrite then_raise. unfold half_media. unfold rbind at 1.
  match goal with |- context [read_boolean ?x] => destruct (read_boolean x) as [[pr tr]|e] end; [|eexists; reflexivity].
  match goal with |- context [if pr then take read_string set_media ?q ?x else _] => set (q0 := q); set (t2 := x) end.
  assert (M : match (if pr then read_string else rret q7) t2 with
    | Ok (m, t') => (if pr then take read_string set_media q0 t2 else (Ok t2, q0)) = (Ok t', set_media q0 m)
    | Raise e => (if pr then take read_string set_media q0 t2 else (Ok t2, q0)) = (Raise e, q0) end).
  { destruct pr; [unfold take; destruct (read_string t2) as [[m tx]|e]; reflexivity|]. reflexivity. }
  unfold rbind at 1. destruct ((if pr then read_string else rret q7) t2) as [[m t3]|e]; rewrite M; [|eexists; reflexivity].
  subst q0. unfold set_media. cbn [rq_task rq_method rq_uri rq_path rq_params rq_headers rq_media rq_content rq_token rq_http rq_consumed rq_content_consumed].
  rewrite then_take. unfold rbind. destruct (read_array_size t3) as [[n t4]|e]; [|eexists; reflexivity].
  destruct (read_bytes n t4) as [[c t5]|e]; [|eexists; reflexivity].
  cbn [rq_task rq_method rq_uri rq_path rq_params rq_headers rq_media rq_content rq_token rq_http rq_consumed rq_content_consumed].
  rewrite then_take. destruct (read_string t5) as [[tok t6]|e]; [|eexists; reflexivity]. unfold take.
  destruct (read_enum N_HTTP t6) as [[hv t7]|e]; [reflexivity|eexists; reflexivity].
Qed.
Lemma exec_returns : returns half_exec_response (fun _ => read_exec_response).
Proof.
  intros old s. unfold half_exec_response, read_exec_response. do 2 one.
  rewrite then_take. unfold rbind. destruct (read_array_size b0) as [[n t2]|e]; [|eexists; reflexivity].
  destruct (read_bytes n t2) as [[c t3]|e]; [|eexists; reflexivity]. rewrite then_take.
  destruct (read_string_to_string_array_dict t3) as [[h t4]|e]; [|eexists; reflexivity]. rewrite then_take.
  destruct (read_string_array t4) as [[ps t5]|e]; [|eexists; reflexivity]. unfold take.
  destruct (read_boolean t5) as [[cc t6]|e]; [reflexivity|eexists; reflexivity].
Qed.
Lemma outbound_returns so req h : returns (half_outbound so req h) (fun old => read_outbound so req old h).
Proof.
  intros old s. unfold half_outbound, read_outbound. rewrite then_inside. unfold half_ctx, read_ctx. rewrite then_take. unfold rbind at 1 2.
  destruct (read_string_to_string_dict s) as [[a t]|e]; [|eexists; reflexivity]. unfold take, rbind at 1.
  destruct (read_string_to_string_set_dict so t) as [[b t']|e]; [|eexists; reflexivity]. cbn [rret c_req c_res].
  unfold half_variable. cbn [with_hdr o_hdr o_ctx o_var o_msg o_features o_action]. destruct (0 <? h_vhs h); [|reflexivity].
  unfold rbind, rlift. destruct (ctx_size (mkCtx a b)) as [sz|e]; cbn [rmap]; [|eexists; reflexivity].
  destruct (read_bytes (h_vhs h - sz) t') as [[vb t2]|e]; [|eexists; reflexivity]. destruct req; [|reflexivity].
  unfold read_variable, half_features. rewrite then_take. unfold rbind.
  destruct (read_string_array vb) as [[f t3]|e]; [|eexists; reflexivity]. unfold take.
  destruct (read_string t3) as [[ac t4]|e]; [reflexivity|eexists; reflexivity].
Qed.
(** In particular what a read that failed has left makes no difference to one that succeeds afterwards - but
    for the media type of a REST request and for envelopes, see C106. *)
Theorem C128_returns : returns half_addr (fun _ => read_addr) /\ returns half_node (fun _ => read_node) /\
  returns half_ext_node (fun _ => read_ext_node) /\ returns half_init_request (fun _ => read_init_request) /\
  returns half_rest_request read_rest_request_into /\ returns half_exec_response (fun _ => read_exec_response) /\
  forall so req h, returns (half_outbound so req h) (fun old => read_outbound so req old h).
Proof.
  exact (conj addr_returns (conj node_returns (conj ext_node_returns (conj init_returns (conj rest_returns (conj exec_returns outbound_returns)))))).
Qed.
Print Assumptions C128_returns.

(** ** What is left *)
(** For all bytes: there is a number of attributes, which depends on the bytes only, that were read and assigned;
    what is in them does not depend on what was there; the others are as they were. *)
Definition leaves {O} (n : nat) (mix : nat -> O -> O -> O) (half : stm O) : Prop := forall s old e o, half old s = (Raise e, o) ->
  exists k, (k <= n)%nat /\ forall other, half other s = (Raise e, mix k o other).
Ltac flat := cbn [rq_task rq_method rq_uri rq_path rq_params rq_headers rq_media rq_content rq_token rq_http rq_consumed rq_content_consumed
  set_name set_id set_eph set_host set_hostaddr set_addr set_attrs set_roles set_version
  n_name n_id n_eph n_host n_hostaddr n_addr n_attrs n_roles n_version ex_status ex_ctype ex_content ex_headers ex_consumed
  ex_content_consumed a_addr a_host a_port ir_task ir_source ir_ext] in *.
Lemma raised {O A} e e' (x o : O) : (@Raise A e, x) = (@Raise A e', o) -> e = e' /\ x = o. Proof. intros H. inversion H. auto. Qed.
(** the statement that raised is number [i] *)
Ltac here i := match goal with H : (Raise _, _) = (Raise _, _) |- _ => apply raised in H as [<- <-] end;
  exists i; split; [lia|]; intros other;
  repeat first [rewrite then_take | match goal with E : ?r = _ |- context [?r] => rewrite E end; flat | rewrite take_at]; destruct other; reflexivity.
Ltac next i := match goal with H : (take _ _ >>> _) _ _ = _ |- _ => rewrite then_take in H
    | H : take _ _ _ _ = _ |- _ => unfold take in H end;
  match goal with H : match ?r ?x with Ok _ => _ | Raise _ => _ end = _ |- _ =>
    destruct (r x) as [[? ?]|?] eqn:?; [flat|here i] end.
Lemma addr_leaves : leaves 2 mix_addr half_addr.
Proof. intros s [a h p] e o H. unfold half_addr in *. next 0%nat. next 1%nat. next 2%nat. discriminate. Qed.
Lemma exec_leaves : leaves 5 mix_exec half_exec_response.
Proof.
  intros s [a b c d e' f] e o H. unfold half_exec_response in *. next 0%nat. next 1%nat. next 2%nat. next 3%nat. next 4%nat. next 5%nat.
  discriminate.
Qed.
Lemma init_leaves : leaves 2 mix_init half_init_request.
Proof. intros s [a h p] e o H. unfold half_init_request in *. next 0%nat. next 1%nat. next 2%nat. discriminate. Qed.
Lemma times_uniform {O A} (r : reader A) (f : O -> A -> O) k : forall s,
  exists x l, forall o, times k (take r f) o s = (x, fold_left f l o).
Proof.
  induction k as [|k IH]; intros s; [exists (Ok s), []; reflexivity|]. cbn [times].
  destruct (r s) as [[a t]|e] eqn:E.
  - destruct (IH t) as (x & l & H). exists x, (a :: l). intros o. rewrite then_take, E. apply H.
  - exists (Raise e), []. intros o. rewrite then_take, E. reflexivity.
Qed.
Lemma roles_fold l : forall n, fold_left (fun n r => set_roles n (role_add (n_roles n) r)) l n = set_roles n (fold_left role_add l (n_roles n)).
Proof.
  induction l as [|r l IH]; intros n; [destruct n; reflexivity|]. cbn [fold_left].
  etransitivity; [apply IH|]. reflexivity.
Qed.
Lemma roles_uniform s : exists x l, forall n, half_roles n s = (x, set_roles n l).
Proof.
  unfold half_roles. destruct (read_v_int s) as [[k t]|e]; [|exists (Raise e), []; reflexivity].
  destruct (times_uniform read_role (fun n r => set_roles n (role_add (n_roles n) r)) (Z.to_nat k) t) as (x & l & H).
  exists x, (fold_left role_add l []). intros n. etransitivity; [apply H|]. rewrite roles_fold. reflexivity.
Qed.
Lemma deps_uniform s : exists x l, forall n, half_deps n s = (x, set_deps n l).
Proof.
  unfold half_deps. destruct (read_v_int s) as [[k t]|e]; [|exists (Raise e), []; reflexivity].
  destruct (times_uniform read_dep (fun x d => set_deps x (x_deps x ++ [d])) (Z.to_nat k) t) as (x & l & H).
  exists x, l. intros [n v ds]. etransitivity; [apply H|]. change (set_deps (mkExtNode n v ds) []) with (mkExtNode n v []).
  rewrite deps_fold. reflexivity.
Qed.
Ltac shown := repeat first [rewrite then_take | match goal with E : ?r = _ |- context [?r] => rewrite E end; flat | rewrite take_at].
Ltac there i := match goal with H : (Raise _, _) = (Raise _, _) |- _ => apply raised in H as [<- <-] end;
  exists i; split; [lia|]; intros other; shown; rewrite then_raise; match goal with R : forall n, _ = _ |- _ => rewrite R end; flat.
Lemma node_leaves : leaves 8 mix_node half_node.
Proof.
  intros s [a b c d f g h i j] e o H. unfold half_node in *.
  next 0%nat. next 1%nat. next 2%nat. next 3%nat. next 4%nat. next 5%nat. next 6%nat.
  rewrite then_raise in H. match type of H with context [half_roles _ ?x] => destruct (roles_uniform x) as (x' & l & R) end.
  rewrite R in H. destruct x' as [t'|e']; [|there 8%nat; destruct other; reflexivity].
  unfold take in H. flat. destruct (read_version t') as [[v t2]|e'] eqn:V; [discriminate|].
  there 8%nat. unfold take. rewrite V. destruct other; reflexivity.
Qed.
(** a DiscoveryExtensionNode: nine attributes of the node, the minimum version and the dependencies *)
Definition mix_ext (k : nat) (new old : ext_node) : ext_node :=
  mkExtNode (mix_node k (x_node new) (x_node old)) (if Nat.ltb 9 k then x_min new else x_min old)
            (if Nat.ltb 10 k then x_deps new else x_deps old).
Lemma ext_leaves : leaves 11 mix_ext half_ext_node.
Proof.
  intros s [n m ds] e o H. unfold half_ext_node in *. rewrite then_inside in H. cbn [x_node x_min x_deps] in H.
  pose proof (node_returns n s) as N. cbv beta in N. destruct (read_node s) as [[n' t]|e'] eqn:E.
  - assert (A : forall other, half_node other s = (Ok t, n')) by (intros other; pose proof (node_returns other s) as M; cbv beta in M; rewrite E in M; exact M).
    rewrite N in H. cbn [x_node x_min x_deps] in H. rewrite then_take in H. destruct (read_version t) as [[v t']|e'] eqn:V.
    + cbn [x_node x_min x_deps] in H. destruct (deps_uniform t') as (x & l & D). rewrite D in H. destruct x as [t2|e']; [discriminate|].
      apply raised in H as [<- <-]. exists 11%nat. split; [lia|]. intros [n2 m2 d2]. rewrite then_inside. cbn [x_node]. rewrite A.
      rewrite then_take, V, D. destruct n'; reflexivity.
    + apply raised in H as [<- <-]. exists 9%nat. split; [lia|]. intros [n2 m2 d2]. rewrite then_inside. cbn [x_node]. rewrite A.
      rewrite then_take, V. destruct n'; reflexivity.
  - destruct N as (o' & N). rewrite N in H. apply raised in H as [<- <-]. destruct (node_leaves _ _ _ _ N) as (k & K & L).
    exists k. split; [lia|]. intros [n2 m2 d2]. rewrite then_inside. cbn [x_node]. rewrite L. unfold mix_ext. cbn [x_node x_min x_deps].
    destruct (Nat.ltb_spec 9 k); [lia|]. destruct (Nat.ltb_spec 10 k); [lia|]. reflexivity.
Qed.
(** of a REST request with no media type the old one is kept *)
Definition mix_media (k : nat) (given : bool) (new old : rest_request) : rest_request :=
  mix_rest k (if given then new else set_media new (rq_media old)) old.
Lemma media_cases s : (exists m t, forall q, half_media q s = (Ok t, set_media q m)) \/
  (exists t, forall q, half_media q s = (Ok t, q)) \/ exists e, forall q, half_media q s = (Raise e, q).
Proof.
  unfold half_media, take. destruct (read_boolean s) as [[[|] t]|e]; eauto. destruct (read_string t) as [[m t']|e]; eauto.
Qed.
Lemma rest_leaves s old e o : half_rest_request old s = (Raise e, o) ->
  exists k given, (k <= 9)%nat /\ forall other, half_rest_request other s = (Raise e, mix_media k given o other).
Proof.
  destruct old as [q1 q2 q3 q4 q5 q6 q7 q8 q9 q10 q11 q12]. intros H. unfold half_rest_request in *.
  (** the statement that raised is number [i]; [g]: a media type was given *)
  Ltac heres i g := match goal with H : (Raise _, _) = (Raise _, _) |- _ => apply raised in H as [<- <-] end;
    exists i, g; split; [lia|]; intros other; shown.
  Ltac nexts i g := match goal with H : (take _ _ >>> _) _ _ = _ |- _ => rewrite then_take in H
      | H : take _ _ _ _ = _ |- _ => unfold take in H end;
    match goal with H : match ?r ?x with Ok _ => _ | Raise _ => _ end = _ |- _ =>
      destruct (r x) as [[? ?]|?] eqn:?; [flat|heres i g] end.
  nexts 0%nat true. 2:{ destruct other; reflexivity. }
  nexts 1%nat true. 2:{ destruct other; reflexivity. }
  nexts 2%nat true. 2:{ destruct other; reflexivity. }
  nexts 3%nat true. 2:{ destruct other; reflexivity. }
  nexts 4%nat true. 2:{ destruct other; reflexivity. }
  nexts 5%nat true. 2:{ destruct other; reflexivity. }
  rewrite then_raise in H. match type of H with context [half_media ?q ?x] => destruct (media_cases x) as [(m & tm & M)|[(tm & M)|(em & M)]] end;
    rewrite M in H; unfold set_media in H; flat.
  - nexts 7%nat true. 2:{ rewrite then_raise, M. unfold set_media. shown. destruct other; reflexivity. }
    nexts 8%nat true. 2:{ rewrite then_raise, M. unfold set_media. shown. destruct other; reflexivity. }
    nexts 9%nat true. 2:{ rewrite then_raise, M. unfold set_media. shown. destruct other; reflexivity. }
    discriminate.
  - nexts 7%nat false. 2:{ rewrite then_raise, M. shown. destruct other; reflexivity. }
    nexts 8%nat false. 2:{ rewrite then_raise, M. shown. destruct other; reflexivity. }
    nexts 9%nat false. 2:{ rewrite then_raise, M. shown. destruct other; reflexivity. }
    discriminate.
  - heres 6%nat true. rewrite then_raise, M. destruct other; reflexivity.
Qed.
Theorem C128_leaves_partial : leaves 2 mix_addr half_addr /\ leaves 8 mix_node half_node /\ leaves 11 mix_ext half_ext_node /\
  leaves 2 mix_init half_init_request /\ leaves 5 mix_exec half_exec_response /\
  (forall s old e o, half_rest_request old s = (Raise e, o) -> exists k given, (k <= 9)%nat /\
     forall other, half_rest_request other s = (Raise e, mix_media k given o other)).
Proof. exact (conj addr_leaves (conj node_leaves (conj ext_leaves (conj init_leaves (conj exec_leaves rest_leaves))))). Qed.
Print Assumptions C128_leaves_partial.
(** An envelope: the header is always the new one and the message always the old one; of the rest what came
    before the statement that raised. *)
Theorem C128_envelope_partial : forall so req h old s e o, half_outbound so req h old s = (Raise e, o) ->
  o_hdr o = h /\ o_msg o = o_msg old /\
  ((rest read_string_to_string_dict s = Raise e /\
      o_ctx o = o_ctx old /\ o_var o = o_var old /\ o_features o = o_features old /\ o_action o = o_action old) \/
   (exists a t, read_string_to_string_dict s = Ok (a, t) /\ rest (read_string_to_string_set_dict so) t = Raise e /\
      o_ctx o = mkCtx a (c_res (o_ctx old)) /\ o_var o = o_var old /\ o_features o = o_features old /\ o_action o = o_action old) \/
   (exists c t, read_ctx so s = Ok (c, t) /\ 0 < h_vhs h /\ o_ctx o = c /\
      ((o_var o = o_var old /\ o_features o = o_features old /\ o_action o = o_action old) \/
       (req = true /\ exists n vb t', ctx_size c = Ok n /\ read_bytes (h_vhs h - n) t = Ok (vb, t') /\ o_var o = Some vb /\
          ((rest read_string_array vb = Raise e /\ o_features o = o_features old /\ o_action o = o_action old) \/
           (exists f t2, read_string_array vb = Ok (f, t2) /\ rest read_string t2 = Raise e /\
              o_features o = f /\ o_action o = o_action old)))))).
Proof.
  intros so req h old s e o H. unfold half_outbound in H. rewrite then_inside in H. unfold half_ctx in H. rewrite then_take in H.
  unfold read_ctx, rest, rbind. destruct (read_string_to_string_dict s) as [[a t]|e1].
  2:{ apply raised in H as [<- <-]. cbn [with_hdr o_hdr o_ctx o_var o_msg o_features o_action c_req c_res]. auto 10. }
  rewrite take_at in H. destruct (read_string_to_string_set_dict so t) as [[b t']|e1] eqn:B.
  2:{ apply raised in H as [<- <-]. cbn [with_hdr o_hdr o_ctx o_var o_msg o_features o_action c_req c_res]. split; [reflexivity|]. split; [reflexivity|]. right. left. exists a, t. rewrite B. auto 10. }
  cbn [rret]. unfold half_variable in H. cbn [with_hdr o_hdr o_ctx o_var o_msg o_features o_action c_req c_res] in H.
  destruct (Z.ltb_spec 0 (h_vhs h)); [|discriminate].
  destruct (ctx_size (mkCtx a b)) as [n|e1] eqn:N.
  2:{ apply raised in H as [<- <-]. cbn [with_hdr o_hdr o_ctx o_var o_msg o_features o_action c_req c_res]. split; [reflexivity|]. split; [reflexivity|]. right. right. exists (mkCtx a b), t'. auto 10. }
  destruct (read_bytes (h_vhs h - n) t') as [[vb t2]|e1] eqn:R.
  2:{ apply raised in H as [<- <-]. cbn [with_hdr o_hdr o_ctx o_var o_msg o_features o_action c_req c_res]. split; [reflexivity|]. split; [reflexivity|]. right. right. exists (mkCtx a b), t'. auto 10. }
  destruct req; [|discriminate]. unfold half_features in H. rewrite then_take in H.
  destruct (read_string_array vb) as [[f t3]|e1] eqn:F.
  - rewrite take_at in H. destruct (read_string t3) as [[ac t4]|e1] eqn:A; [discriminate|].
    apply raised in H as [<- <-]. cbn [with_hdr o_hdr o_ctx o_var o_msg o_features o_action c_req c_res]. split; [reflexivity|]. split; [reflexivity|]. right. right. exists (mkCtx a b), t'.
    split; [reflexivity|]. split; [assumption|]. split; [reflexivity|]. right. split; [reflexivity|]. exists n, vb, t2.
    rewrite N, R, F. do 3 (split; [reflexivity|]). right. exists f, t3. rewrite A. auto.
  - apply raised in H as [<- <-]. cbn [with_hdr o_hdr o_ctx o_var o_msg o_features o_action c_req c_res]. split; [reflexivity|]. split; [reflexivity|]. right. right. exists (mkCtx a b), t'.
    split; [reflexivity|]. split; [assumption|]. split; [reflexivity|]. right. split; [reflexivity|]. exists n, vb, t2.
    rewrite N, R, F. do 3 (split; [reflexivity|]). left. auto.
Qed.
Print Assumptions C128_envelope_partial.

(** ** The same in terms of the wire format: a message that is well-formed up to some attribute *)
(** the attributes of a node and how each is read (of the roles, their number) *)
Definition node_attributes (strict : bool) (v : node) : list (bytes -> Prop) :=
  [w_string strict (n_name v); w_string strict (n_id v); w_string strict (n_eph v); w_string strict (n_host v);
   w_string strict (n_hostaddr v); w_addr strict (n_addr v); w_dict strict (w_string strict) (n_attrs v);
   w_roles strict (n_roles v); w_version strict (n_version v)].
Definition node_readers : list (bytes -> res bytes) :=
  [rest read_string; rest read_string; rest read_string; rest read_string; rest read_string; rest read_addr;
   rest read_string_to_string_dict; rest read_v_int; rest read_version].
Lemma node_attributes_all strict v : w_node strict v = parts (node_attributes strict v). Proof. reflexivity. Qed.
Lemma rest_raise {A} (r : reader A) s e : rest r s = Raise e -> r s = Raise e.
Proof. unfold rest. destruct (r s) as [[a t]|e']; cbn; [discriminate|]. intros H. inversion H. reflexivity. Qed.
Ltac rdt := match goal with
  | P : w_string ?st _ ?a |- context [read_string (?a ++ ?s)] => rewrite (string_reads st _ _ s I P)
  | L : low _, P : w_addr ?st _ ?a |- context [read_addr (?a ++ ?s)] => rewrite (addr_reads st _ _ s L P)
  | P : w_dict ?st (w_string _) _ ?a |- context [read_string_to_string_dict (?a ++ ?s)] => rewrite (string_dict_reads st _ _ s I P)
  | P : w_dict ?st (w_strings _) _ ?a |- context [read_string_to_string_array_dict (?a ++ ?s)] => rewrite (strings_dict_reads st _ _ s I P)
  | P : w_strings ?st _ ?a |- context [read_string_array (?a ++ ?s)] => rewrite (strings_reads st _ _ s I P)
  | P : w_bool ?st _ ?a |- context [read_boolean (?a ++ ?s)] => rewrite (bool_reads st _ _ s I P)
  | P : w_enum ?st ?n _ ?a |- context [read_enum _ (?a ++ ?s)] => rewrite (enum_reads st n _ _ s I P)
  | P : w_task ?st _ ?a |- context [read_task (?a ++ ?s)] => rewrite (task_reads st _ _ s I P)
  | P : w_bytes ?st _ ?a |- context [(n <~ read_array_size ;; read_bytes n) (?a ++ ?s)] => rewrite (sized_reads st _ _ s I P)
  end.
Theorem C128_node_partial : forall strict old v k a r e, low_node v ->
  parts (firstn k (node_attributes strict v)) a -> nth k node_readers (fun _ => Ok []) r = Raise e ->
  half_node old (a ++ r) = (Raise e, if Nat.eqb k 7 then set_roles (mix_node 7 v old) [] else mix_node k v old).
Proof.
  intros strict old v k a r e L H E. unfold low_node in L.
  destruct k as [|[|[|[|[|[|[|[|[|k]]]]]]]]]. 10:{ destruct k; discriminate. }
  all: cbn [nth firstn node_readers node_attributes] in *; apply rest_raise in E; unfold half_node; opened H.
  all: repeat (rewrite then_take; first [rdt | rewrite E]; flat). all: try (destruct old; reflexivity).
  - rewrite then_raise. unfold half_roles. rewrite E. destruct old; reflexivity.
  - rewrite then_raise. match goal with |- context [half_roles ?n ?x] => pose proof (roles_returns n x) as R end.
    match goal with P : w_roles _ _ ?a |- _ => destruct P as (l & Hd & _ & HL) end. apply deduped_roles in Hd.
    pose proof (list_reads strict _ _ _ _ (role_reads strict) l _ r ltac:(apply Forall_forall; auto) HL) as Rl.
    rewrite Rl in R. rewrite R, take_at, E, Hd. destruct old; reflexivity.
Qed.
Print Assumptions C128_node_partial.
(** some of the roles: [n] of them are announced, those of [l] are there, the next cannot be read *)
Theorem C128_roles_partial : forall strict old v a n c l s b r e, low_node v ->
  parts (firstn 7 (node_attributes strict v)) a -> w_vint strict n c -> deduped l s -> zlen l < n ->
  parts (map (w_role strict) l) b -> rest read_role r = Raise e ->
  half_node old (a ++ c ++ b ++ r) = (Raise e, mix_node 8 (set_roles v s) old).
Proof.
  intros strict old v a n c l s b r e L H C D Hn B E. unfold low_node in L. apply rest_raise in E. apply deduped_roles in D.
  assert (T : forall k n b, parts (map (w_role strict) l) b -> (List.length l < k)%nat ->
    times k (take read_role (fun n r => set_roles n (role_add (n_roles n) r))) n (b ++ r) = (Raise e, set_roles n (fold_left role_add l (n_roles n)))).
  { clear - E. induction l as [|x l IH]; intros k n b B Hk; destruct k as [|k]; try (cbn in Hk; lia).
    - apply parts_nil_inv in B. subst b. cbn [app times]. rewrite then_take, E. destruct n; reflexivity.
    - cbn [map] in B. apply parts_cons_inv in B as (b1 & b2 & -> & P & B). rewrite <- app_assoc. cbn [times]. rewrite then_take.
      rewrite (role_reads strict _ _ (b2 ++ r) I P). rewrite IH; [reflexivity|exact B|cbn in Hk; lia]. }
  cbn [firstn node_attributes] in H. unfold half_node. opened H. repeat (rewrite then_take; first [rdt | rewrite E]; flat).
  rewrite then_raise. unfold half_roles. rewrite (v_int_reads strict _ _ (b ++ r) I C).
  rewrite T; [|exact B|unfold zlen in Hn; lia]. flat. destruct old; reflexivity.
Qed.
Print Assumptions C128_roles_partial.
Definition rest_attributes (strict : bool) (q : rest_request) (m h : Z) (o : option pystr) : list (bytes -> Prop) :=
  [w_task strict (rq_task q); w_enum strict 9 m; w_string strict (rq_uri q); w_string strict (rq_path q);
   w_dict strict (w_string strict) (rq_params q); w_dict strict (w_strings strict) (rq_headers q);
   w_optional (w_string strict) o; w_bytes strict (rq_content q); w_string strict (rq_token q); w_enum strict 2 h].
Definition rest_readers : list (bytes -> res bytes) :=
  [rest read_task; rest (read_enum 9); rest read_string; rest read_string; rest read_string_to_string_dict;
   rest read_string_to_string_array_dict; rest (p <~ read_boolean ;; if p then read_string else rret []);
   rest (n <~ read_array_size ;; read_bytes n); rest read_string; rest (read_enum 2)].
Lemma rest_attributes_all strict q bs : w_rest_request strict q bs <-> exists m h o, rq_method q = Some m /\ rq_http q = Some h /\
  rq_media q = match o with Some x => x | None => [] end /\ canonical strict (o <> Some []) /\ parts (rest_attributes strict q m h o) bs.
Proof. reflexivity. Qed.
Lemma media_half strict o a s q : w_optional (w_string strict) o a ->
  half_media q (a ++ s) = (Ok s, set_media q (match o with Some x => x | None => rq_media q end)).
Proof.
  intros P. destruct (media_reads strict o a s P) as (pp & tt' & R1 & R2). unfold half_media. rewrite R1. destruct o as [x|]; cbn [w_optional] in P.
  - opened P. rewrite <- app_assoc in R1. match goal with Q : w_bool true ?b |- _ => rewrite (bool_reads _ _ _ I Q) in R1 end.
    apply Ok_inj, pair_equal_spec in R1 as [<- <-]. rewrite take_at, R2. reflexivity.
  - rewrite (bool_reads _ _ _ I P) in R1. apply Ok_inj, pair_equal_spec in R1 as [<- <-]. destruct q; reflexivity.
Qed.
(** a media type that was given, and that of a request without one, which is the old one *)
Theorem C128_rest_partial : forall strict old q m h o k a r e, rq_method q = Some m -> rq_http q = Some h ->
  rq_media q = match o with Some x => x | None => rq_media old end ->
  parts (firstn k (rest_attributes strict q m h o)) a -> nth k rest_readers (fun _ => Ok []) r = Raise e ->
  half_rest_request old (a ++ r) = (Raise e, mix_rest k q old).
Proof.
  intros strict old q m h o k a r e Em Eh Eo H E. destruct old, q. flat. subst.
  destruct k as [|[|[|[|[|[|[|[|[|[|k]]]]]]]]]]. 11:{ destruct k; discriminate. }
  all: cbn [nth firstn rest_readers rest_attributes] in *; apply rest_raise in E; flat; unfold half_rest_request, read_transport_request, N_METHODS, N_HTTP; opened H.
  all: repeat (rewrite then_take; first [rdt | rewrite E]; flat). all: try reflexivity.
  1: { rewrite then_raise. unfold half_media. unfold rbind in E. destruct (read_boolean r) as [[[|] t]|e'].
       - rewrite take_at, E. reflexivity.
       - discriminate.
       - injection E as ->. reflexivity. }
  all: rewrite then_raise; match goal with P : w_optional _ _ ?a |- context [half_media _ (?a ++ ?s)] => rewrite (media_half strict _ _ s _ P) end; unfold set_media; flat.
  all: repeat (rewrite then_take; first [rdt | rewrite E]; flat). all: try reflexivity.
  all: rewrite take_at, E; reflexivity.
Qed.
Print Assumptions C128_rest_partial.
Definition exec_attributes (strict : bool) (v : exec_response) (st : Z) : list (bytes -> Prop) :=
  [w_enum strict 47 st; w_string strict (ex_ctype v); w_bytes strict (ex_content v);
   w_dict strict (w_strings strict) (ex_headers v); w_strings strict (ex_consumed v); w_bool (ex_content_consumed v)].
Definition exec_readers : list (bytes -> res bytes) :=
  [rest (read_enum 47); rest read_string; rest (n <~ read_array_size ;; read_bytes n); rest read_string_to_string_array_dict;
   rest read_string_array; rest read_boolean].
Theorem C128_exec_partial : forall strict old v st k a r e, ex_status v = Some st ->
  parts (firstn k (exec_attributes strict v st)) a -> nth k exec_readers (fun _ => Ok []) r = Raise e ->
  half_exec_response old (a ++ r) = (Raise e, mix_exec k v old).
Proof.
  intros strict old v st k a r e Es H E. destruct old, v. flat. subst.
  destruct k as [|[|[|[|[|[|k]]]]]]. 7:{ destruct k; discriminate. }
  all: cbn [nth firstn exec_readers exec_attributes] in *; apply rest_raise in E; flat; unfold half_exec_response, N_STATUS; opened H.
  all: repeat (rewrite then_take; first [rdt | rewrite E]; flat). all: try reflexivity.
  all: rewrite take_at, E; reflexivity.
Qed.
Print Assumptions C128_exec_partial.

(** an address: bytes that begin otherwise than with 4 change nothing; the address is there if the host name cannot be read
    (reading the port never raises, whatever is left) *)
Theorem C128_addr_partial : forall old r e,
  (forall b, b <> x04 -> exists e', half_addr old (b :: r) = (Raise e', old)) /\
  (forall v a, low v -> parts [exactly [x04]; w_unsigned 4 (a_addr v)] a -> rest read_string r = Raise e ->
     half_addr old (a ++ r) = (Raise e, mix_addr 1 v old)).
Proof.
  intros old r e.
  assert (A : forall v a, low v -> parts [exactly [x04]; w_unsigned 4 (a_addr v)] a -> forall s,
    (n <~ read_byte ;; if negb (n =? 4) then rfail EGeneric else
     i <~ read_int ;; if i <? 0 then rfail EValue else rret i) (a ++ s) = Ok (a_addr v, s)).
  { intros v a L H s. unfold low in L. parts_in H. unfold exactly in P. subst. rewrite app_nil_r, <- !app_assoc. cbn [app].
    assert (0 <= a_addr v) by (match goal with P : w_unsigned 4 _ _ |- _ => destruct P as [_ <-] end; rewrite be_from; apply from_bytes_unsigned_range).
    match goal with P : w_unsigned 4 _ _ |- _ => pose proof (unsigned_low _ _ P L) end.
    rewrite (rbind_step _ _ _ _ _ _ _ (read_byte_cons _ _)). change (sbyte x04) with 4. cbn [Z.eqb Pos.eqb negb].
    rd. destruct (Z.ltb_spec (a_addr v) 0); [lia|]. reflexivity. }
  split.
  - intros b B. unfold half_addr. rewrite then_take, (rbind_step _ _ _ _ _ _ _ (read_byte_cons _ _)).
    destruct (Z.eqb_spec (sbyte b) 4) as [E|E]; [|eexists; reflexivity].
    contradiction B. apply sbyte_inj. rewrite E. reflexivity.
  - intros v a L H E. apply rest_raise in E. unfold half_addr. rewrite then_take, (A v a L H), then_take, E. destruct old; reflexivity.
Qed.
Print Assumptions C128_addr_partial.
(** an extension node is a node in place; then come the version, and the dependencies one by one *)
Theorem C128_ext_partial : forall strict n m d s e,
  (forall n', half_node n s = (Raise e, n') -> half_ext_node (mkExtNode n m d) s = (Raise e, mkExtNode n' m d)) /\
  (forall v a, low_node v -> w_node strict v a -> rest read_version s = Raise e ->
     half_ext_node (mkExtNode n m d) (a ++ s) = (Raise e, mkExtNode v m d)) /\
  (forall v w a, low_node v -> parts [w_node strict v; w_version strict w] a -> rest read_v_int s = Raise e ->
     half_ext_node (mkExtNode n m d) (a ++ s) = (Raise e, mkExtNode v w [])) /\
  (forall v w k l a, low_node v -> parts (w_node strict v :: w_version strict w :: w_vint strict k :: map (w_dependency strict) l) a ->
     zlen l < k -> rest read_dep s = Raise e ->
     half_ext_node (mkExtNode n m d) (a ++ s) = (Raise e, mkExtNode v w l)).
Proof.
  intros strict n m d s e.
  assert (N : forall v a t, low_node v -> w_node strict v a -> half_node n (a ++ t) = (Ok t, v)).
  { intros v a t L W. pose proof (node_returns n (a ++ t)) as R. cbv beta in R. rewrite (node_reads strict _ _ t L W) in R. exact R. }
  split; [|split; [|split]].
  - intros n' H. unfold half_ext_node. rewrite then_inside. cbn [x_node]. rewrite H. reflexivity.
  - intros v a L W E. apply rest_raise in E. unfold half_ext_node. rewrite then_inside. cbn [x_node]. rewrite (N v a s L W), then_take, E. reflexivity.
  - intros v w a L H E. apply rest_raise in E. opened H. unfold half_ext_node. rewrite then_inside. cbn [x_node].
    match goal with P : w_node _ _ _ |- _ => rewrite (N v _ _ L P) end. rewrite then_take.
    match goal with P : w_version _ _ ?a |- _ => rewrite (version_reads strict _ _ s I P) end. unfold half_deps. rewrite E. reflexivity.
  - intros v w k l a L H Hk E. apply rest_raise in E.
    apply parts_cons_inv in H as (a1 & b1 & -> & P1 & H). apply parts_cons_inv in H as (a2 & b2 & -> & P2 & H).
    apply parts_cons_inv in H as (a3 & b3 & -> & P3 & H). rewrite <- !app_assoc. unfold half_ext_node. rewrite then_inside. cbn [x_node].
    rewrite (N v _ _ L P1), then_take, (version_reads strict _ _ _ I P2). cbn [x_node x_min x_deps]. unfold half_deps.
    rewrite (v_int_reads strict _ _ _ I P3).
    assert (T : forall l ds k b, parts (map (w_dependency strict) l) b -> (List.length l < k)%nat ->
      times k (take read_dep (fun x d => set_deps x (x_deps x ++ [d]))) (mkExtNode v w ds) (b ++ s) = (Raise e, mkExtNode v w (ds ++ l))).
    { clear - E. induction l as [|x l IH]; intros ds k b B Hk; destruct k as [|k]; try (cbn in Hk; lia).
      - apply parts_nil_inv in B. subst b. cbn [app times]. rewrite then_take, E, app_nil_r. reflexivity.
      - cbn [map] in B. apply parts_cons_inv in B as (b1 & b2 & -> & P & B). rewrite <- app_assoc. cbn [times]. rewrite then_take.
        rewrite (dep_reads strict _ _ (b2 ++ s) I P). etransitivity; [apply (IH (ds ++ [x]) k b2 B); cbn in Hk; lia|].
        rewrite <- app_assoc. reflexivity. }
    apply (T l [] (Z.to_nat k) b3 H). unfold zlen in Hk. lia.
Qed.
Print Assumptions C128_ext_partial.
(** an initialization request: the nodes are read aside and assigned *)
Theorem C128_init_partial : forall strict old s e,
  (rest read_task s = Raise e -> half_init_request old s = (Raise e, old)) /\
  (forall t a, w_task strict t a -> rest read_node s = Raise e ->
     half_init_request old (a ++ s) = (Raise e, mkInitReq t (ir_source old) (ir_ext old))) /\
  (forall t v a, low_node v -> parts [w_task strict t; w_node strict v] a -> rest read_ext_node s = Raise e ->
     half_init_request old (a ++ s) = (Raise e, mkInitReq t v (ir_ext old))).
Proof.
  intros strict old s e. split; [|split].
  - intros E. apply rest_raise in E. unfold half_init_request, read_transport_request. rewrite then_take, E. reflexivity.
  - intros t a W E. apply rest_raise in E. unfold half_init_request, read_transport_request.
    rewrite then_take, (task_reads strict _ _ s I W), then_take, E. reflexivity.
  - intros t v a L H E. apply rest_raise in E. opened H. unfold half_init_request, read_transport_request. rewrite then_take.
    match goal with P : w_task _ _ ?b |- context [read_task (?b ++ ?x)] => rewrite (task_reads strict _ _ x I P) end. rewrite then_take.
    match goal with P : w_node _ _ ?b |- context [read_node (?b ++ ?x)] => rewrite (node_reads strict _ _ x L P) end. rewrite take_at, E. reflexivity.
Qed.
Print Assumptions C128_init_partial.

(** ** Refuted *)
(** a node is read from a name and an id that is no UTF-8: it has the name *)
Definition ex_bad_id : bytes := [x01; x62; x01; xff].
Theorem C128_refuted : ~ C128_statement /\ exists e, half_node example_node ex_bad_id = (Raise e, set_name example_node (py "b")).
Proof.
  assert (A : exists e, half_node example_node ex_bad_id = (Raise e, set_name example_node (py "b"))) by (eexists; vm_compute; reflexivity).
  split; [|exact A]. intros (_ & S & _). destruct A as (e & A). apply S in A. apply (f_equal n_name) in A. vm_compute in A. discriminate.
Qed.
Print Assumptions C128_refuted.
(** a request of JSON whose HTTP version does not exist is refused; the object is used again for a request without
    a media type, which then counts as JSON *)
Definition ex_bad_http : bytes := removelast (written ex_first) ++ [x05].
Theorem C128_media_refuted : exists e q q', half_rest_request new_rest_request ex_bad_http = (Raise e, q) /\
  half_rest_request q (written ex_second) = (Ok [], q') /\ read_rest_request (written ex_second) = Ok (ex_second, []) /\
  rq_media ex_second = [] /\ rq_media q' = py "application/json".
Proof. eexists _, _, _. split; [vm_compute; reflexivity|]. split; [vm_compute; reflexivity|]. split; [vm_compute; reflexivity|]. split; vm_compute; reflexivity. Qed.
Print Assumptions C128_media_refuted.
(** two requests are made with one context; a frame that is read into the first turns out malformed after its
    context; the second, as written, has that context, and a wrong length field *)
Definition ex_bad_features : bytes := match write_ctx ex_ctx with Ok b => b ++ [x01; x01; xff] | Raise _ => [] end.
Theorem C128_others_refuted : exists hd t e st' a' b b', read_header (ex_raw ex_new) = Ok (hd, t) /\
  half_held (fun l => l) true [ex_short] (ex_pair 7) hd ex_bad_features = (Raise e, (st', a')) /\
  write_held [ex_short] (ex_pair 8) = Ok b /\ write_held st' (ex_pair 8) = Ok b' /\
  h_size (o_hdr (hd_out (ex_pair 8))) = zlen b - 6 /\ h_size (o_hdr (hd_out (ex_pair 8))) <> zlen b' - 6 /\
  h_id (o_hdr (hd_out a')) = 9 /\ o_action (hd_out a') = py "a".
Proof.
  eexists _, _, _, _, _, _, _. split; [vm_compute; reflexivity|]. split; [vm_compute; reflexivity|]. split; [vm_compute; reflexivity|].
  split; [vm_compute; reflexivity|]. split; [vm_compute; reflexivity|]. split; [vm_compute; discriminate|]. split; vm_compute; reflexivity.
Qed.
Print Assumptions C128_others_refuted.
(** the hypotheses of the theorems above are met: by any well-formed message, cut after any attribute *)
Lemma parts_cut l : forall k bs, parts l bs -> exists a b, bs = a ++ b /\ parts (firstn k l) a.
Proof.
  induction l as [|P l IH]; intros [|k] bs H; try (exists [], bs; split; [reflexivity|constructor]; fail).
  apply parts_cons_inv in H as (a & b & -> & Pa & H). destruct (IH k b H) as (a' & b' & -> & F).
  exists (a ++ a'), b'. split; [rewrite app_assoc; reflexivity|]. cbn [firstn]. constructor; assumption.
Qed.
Example C128_case :
  (exists e, parts (firstn 1 (node_attributes true (set_name example_node (py "b")))) [x01; x62] /\
     nth 1 node_readers (fun _ => Ok []) [x01; xff] = Raise e) /\
  (forall k, exists o a b, (rq_media ex_first = match o with Some x => x | None => [] end) /\
     written ex_first = a ++ b /\ parts (firstn k (rest_attributes true ex_first 1 1 o)) a) /\
  (exists e, nth 9 rest_readers (fun _ => Ok []) [x05] = Raise e) /\
  (exists e, nth 1 exec_readers (fun _ => Ok []) [x01; xff] = Raise e) /\ (exists e, rest read_role [x01; xff] = Raise e) /\
  (exists e, rest read_dep [x01; xff] = Raise e) /\ (exists e, rest read_node [x01; xff] = Raise e) /\
  (exists e, rest read_task [x01; xff] = Raise e) /\ (exists e, rest read_v_int (repeat xff 5) = Raise e) /\
  (exists e, rest read_version (repeat xff 5) = Raise e) /\ low_node example_node /\ exists bs, w_node true example_node bs.
Proof.
  split; [|split; [|repeat (split; [eexists; vm_compute; reflexivity|])]].
  3:{ destruct (node_writes true example_node example_node_ok) as (bs & _ & W). exists bs. exact W. }
  - eexists. split; [|vm_compute; reflexivity].
    assert (W : w_string true (py "b") [x01; x62]) by (apply (by_writer _ _ _ _ _ _ (string_writes true)); [text|reflexivity]).
    change [x01; x62] with ([x01; x62] ++ []). constructor; [exact W|constructor].
  - intros k. destruct C106_case as (_ & _ & W & _). apply rest_attributes_all in W as (m & h & o & Em & Eh & Eo & Ec & H).
    change (rq_method ex_first) with (Some 1) in Em. change (rq_http ex_first) with (Some 1) in Eh.
    assert (m = 1) as -> by congruence. assert (h = 1) as -> by congruence.
    destruct (parts_cut _ k _ H) as (a & b & E & F). exists o, a, b. auto.
Qed.
