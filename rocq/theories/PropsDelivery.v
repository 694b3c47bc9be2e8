(** * Properties C35 and C42, from the routes handlers declare to the requests they get *)
From Coq Require Import String ZArith List Bool Lia.
From Coq Require Import Strings.Byte.
From Verif Require Import Py Stream Version Frame Proto Messages Rest Routes Settings Host PyFacts Spec SpecFacts
  RouteFacts RestFacts Wire HostSpec HostFacts PropsMessages PropsRoutes PropsHost PropsSamples.
Import ListNotations.
Open Scope list_scope.
Open Scope Z_scope.

(** ** Specification *)
(** the methods of OpenSearch's REST layer, with their numbers on the wire *)
Definition rest_methods : list (Z * pystr) :=
  [(0, py "GET"); (1, py "POST"); (2, py "PUT"); (3, py "DELETE"); (4, py "OPTIONS");
   (5, py "HEAD"); (6, py "PATCH"); (7, py "TRACE"); (8, py "CONNECT")].
(** a route as a handler declares it: method number, path with placeholders, unique name *)
Record declared := mkDecl { d_method : Z; d_path : list piece; d_name : pystr }.
Definition declared_ok (r : declared) : Prop := In (d_method r) (map fst rest_methods) /\ Forall piece_ok (d_path r).
Definition to_route (r : declared) : named_route := mkRoute (d_method r) (template (d_path r)) (d_name r).
(** the routes of the handlers number 0, 1, ... in order, with the number of the handler *)
Definition table (hs : list (list declared)) : list (nat * declared) :=
  flat_map (fun x => map (fun r => (fst x, r)) (snd x)) (combine (seq 0 (length hs)) hs).
(** the path a client writes to name the route literally: a star for every placeholder *)
Definition starred (l : list piece) : pystr := flat_map (fun e => match e with Text x => x | Hole _ => [42] end) l.
Definition names (z : Z) (path : pystr) (r : declared) : Prop := d_method r = z /\ starred (d_path r) = path.
(** the request is the route with its placeholders filled in by any texts *)
Definition serves (z : Z) (path : pystr) (r : declared) : Prop := d_method r = z /\ fills (fun _ => True) (d_path r) path.
(** the handler a request is for: of the route it names literally, else of the first one that
    serves it *)
Definition meant_for (t : list (nat * declared)) (z : Z) (path : pystr) (n : nat) : Prop :=
  (exists r, In (n, r) t /\ names z path r) \/
  ((forall x, In x t -> ~ names z path (snd x)) /\
   exists t1 r t2, t = t1 ++ (n, r) :: t2 /\ serves z path r /\ forall x, In x t1 -> ~ serves z path (snd x)).

(** ** Facts *)
Lemma method_range z : In z (map fst rest_methods) <-> 0 <= z < 9.
Proof.
  split.
  - cbn [map fst rest_methods In]. intros H. repeat (destruct H as [<-|H]; [lia|]). destruct H.
  - intros H. assert (C : z = 0 \/ z = 1 \/ z = 2 \/ z = 3 \/ z = 4 \/ z = 5 \/ z = 6 \/ z = 7 \/ z = 8) by lia.
    cbn [map fst rest_methods In]. intuition.
Qed.
Lemma method_in z : 0 <= z < 9 -> In (z, mname z) rest_methods.
Proof.
  intros H. assert (C : z = 0 \/ z = 1 \/ z = 2 \/ z = 3 \/ z = 4 \/ z = 5 \/ z = 6 \/ z = 7 \/ z = 8) by lia.
  clear H. repeat (destruct C as [->|C]); try subst z; vm_compute; tauto.
Qed.
Lemma table_routes hs : flat_map (fun x => map (fun r => (fst x, r)) (snd x))
    (combine (seq 0 (length (map (map to_route) hs))) (map (map to_route) hs)) =
  map (fun x => (fst x, to_route (snd x))) (table hs).
Proof.
  unfold table. rewrite map_length. generalize 0%nat. induction hs as [|rs hs IH]; intros i; [reflexivity|].
  cbn [length seq map combine flat_map fst snd]. rewrite map_app, IH. f_equal. rewrite !map_map. reflexivity.
Qed.
Lemma table_in hs i r : In (i, r) (table hs) -> exists rs, In rs hs /\ In r rs.
Proof.
  intros H. apply in_flat_map in H as ((j & rs) & H & K). apply in_map_iff in K as (r' & E & K).
  apply pair_equal_spec in E as [_ <-]. apply in_combine_r in H. eauto.
Qed.
Definition dkey (r : declared) : pystr := pattern (method_piece (d_method r) :: d_path r).
Lemma dkey_form r : dkey r = mname (d_method r) ++ [32] ++ starred (d_path r).
Proof. unfold dkey, pattern, method_piece. cbn [flat_map]. rewrite <- app_assoc. reflexivity. Qed.
Lemma built hs g : Forall (Forall declared_ok) hs -> new_action_extension (map (map to_route) hs) = Ok g ->
  rg_map g = map (fun x => (dkey (snd x), fst x)) (table hs) /\ NoDup (map fst (rg_map g)) /\
  rg_named g = map (fun x => route_str (to_route (snd x))) (table hs).
Proof.
  intros Hok H. destruct (C35_action_extension (map (map to_route) hs)) as [A _].
  destruct (A g H) as (es & R & F). destruct (C35_registration _ _ _ R F) as (M & N & T). cbv zeta in M, T.
  rewrite table_routes in M, T. rewrite map_map in M, T. cbn [fst snd] in M, T.
  split; [|split; [exact N|exact T]]. rewrite M. apply map_ext_in. intros [i r] Hi. cbn [fst snd].
  unfold to_route, dkey. rewrite template_route, template_key; [reflexivity|].
  apply table_in in Hi as (rs & Hrs & Hr). constructor; [apply method_piece_ok|].
  rewrite Forall_forall in Hok. specialize (Hok rs Hrs). rewrite Forall_forall in Hok. apply (Hok r Hr).
Qed.
Lemma key_names z path r : 0 <= z < 9 -> declared_ok r -> (dkey r = mname z ++ [32] ++ path <-> names z path r).
Proof.
  intros Hz (Hm & _). apply method_range in Hm. rewrite dkey_form. unfold names. split.
  - intros E. apply (method_path (d_method r) z) in E; assumption.
  - intros (-> & ->). reflexivity.
Qed.
Lemma key_serves P z path r : 0 <= z < 9 -> declared_ok r -> (glob P (dkey r) (mname z ++ [32] ++ path) <-> serves z path r).
Proof.
  intros Hz (Hm & Hl). apply method_range in Hm. unfold dkey, serves.
  rewrite glob_pattern by (constructor; [apply method_piece_ok|exact Hl]). split.
  - intros F. unfold method_piece in F. inversion F as [|x l s F' E1 E2|]; subst. rewrite <- app_assoc in E2.
    apply (method_path (d_method r) z) in E2 as [E2 ->]; [|assumption..]. auto.
  - intros (-> & F). unfold method_piece. rewrite app_assoc. constructor. exact F.
Qed.
Lemma find_meant cls hs g z path : Forall (Forall declared_ok) hs -> new_action_extension (map (map to_route) hs) = Ok g ->
  0 <= z < 9 ->
  (forall n, meant_for (table hs) z path n -> find_handler cls (rg_map g) (mname z ++ [32] ++ path) = Ok n) /\
  ((forall x, In x (table hs) -> ~ serves z path (snd x)) -> find_handler cls (rg_map g) (mname z ++ [32] ++ path) = Raise EGeneric).
Proof.
  intros Hok H Hz. destruct (built hs g Hok H) as (M & N & _).
  assert (D : forall x, In x (table hs) -> declared_ok (snd x)).
  { intros [i r] Hi. apply table_in in Hi as (rs & Hrs & Hr). rewrite Forall_forall in Hok. specialize (Hok rs Hrs).
    rewrite Forall_forall in Hok. exact (Hok r Hr). }
  set (route := mname z ++ [32] ++ path) in *.
  destruct (C38_dispatch cls (rg_map g) route N) as [E1 E2].
  assert (T : forall k h, In (k, h) (rg_map g) -> exists b, fnmatch cls route k = Ok b).
  { intros k h I. apply C38_fnmatch. rewrite M in I. apply in_map_iff in I as (x & I & Ix). apply pair_equal_spec in I as [<- _].
    apply pattern_no_class. constructor; [apply method_piece_ok|apply (D x Ix)]. }
  split.
  - intros n [(r & I & Nm)|(NN & t1 & r & t2 & Et & Sv & Bf)].
    + apply E1. rewrite M. apply in_map_iff. exists (n, r). split; [|exact I]. cbn [fst snd]. f_equal.
      apply (key_names z path r Hz (D _ I)). exact Nm.
    + assert (NI : ~ In route (map fst (rg_map g))).
      { rewrite M, map_map. cbn [fst]. intros I. apply in_map_iff in I as (x & E & I).
        apply (NN x I). apply (key_names z path (snd x) Hz (D x I)). exact E. }
      destruct (E2 NI T) as [G _]. rewrite Et in M. rewrite map_app in M. cbn [map fst snd] in M.
      apply (G _ _ _ _ M).
      * intros k' h' I. apply in_map_iff in I as (x & E & I). apply pair_equal_spec in E as [<- _].
        assert (Ix : In x (table hs)) by (rewrite Et; apply in_or_app; auto).
        unfold route. rewrite (key_serves _ z path (snd x) Hz (D x Ix)). exact (Bf x I).
      * apply (key_serves _ z path r Hz); [|exact Sv]. apply (D (n, r)). rewrite Et. apply in_or_app. right. left. reflexivity.
  - intros NS.
    assert (NI : ~ In route (map fst (rg_map g))).
    { rewrite M, map_map. cbn [fst]. intros I. apply in_map_iff in I as (x & E & I).
      apply (key_names z path (snd x) Hz (D x I)) in E as [E1' E2']. apply (NS x I). split; [exact E1'|].
      rewrite <- E2'. apply fills_pattern. }
    apply (E2 NI T). intros k h I. rewrite M in I. apply in_map_iff in I as (x & E & I). apply pair_equal_spec in E as [<- _].
    unfold route. rewrite (key_serves _ z path (snd x) Hz (D x I)). exact (NS x I).
Qed.

(** ** Theorems *)
(** C35: an extension announces "method path name" for every route, in order *)
Theorem C35_announced : forall hs g, Forall (Forall declared_ok) hs ->
  new_action_extension (map (map to_route) hs) = Ok g ->
  Forall2 (fun x text => exists nm, In (d_method (snd x), nm) rest_methods /\
    text = nm ++ [32] ++ template (d_path (snd x)) ++ [32] ++ d_name (snd x)) (table hs) (rg_named g).
Proof.
  intros hs g Hok H. destruct (built hs g Hok H) as (_ & _ & ->).
  assert (D : forall x, In x (table hs) -> declared_ok (snd x)).
  { intros [i r] Hi. apply table_in in Hi as (rs & Hrs & Hr). rewrite Forall_forall in Hok. specialize (Hok rs Hrs).
    rewrite Forall_forall in Hok. exact (Hok r Hr). }
  revert D. induction (table hs) as [|x t IH]; intros D; [constructor|]. cbn [map].
  constructor; [|apply IH; intros y Hy; apply D; right; exact Hy].
  exists (mname (d_method (snd x))). split; [|reflexivity]. apply method_in, method_range. apply (D x). left. reflexivity.
Qed.
Print Assumptions C35_announced.
(** C35: and it can be built exactly if no two routes have the same method and the same path up to
    the names of the placeholders *)
Theorem C35_buildable : forall hs, Forall (Forall declared_ok) hs ->
  ((exists g, new_action_extension (map (map to_route) hs) = Ok g) <->
   NoDup (map (fun x => (d_method (snd x), starred (d_path (snd x)))) (table hs))).
Proof.
  intros hs Hok. destruct (C35_action_extension (map (map to_route) hs)) as [_ B]. rewrite <- B.
  assert (D : forall r, In r (concat hs) -> declared_ok r).
  { intros r Hr. apply in_concat in Hr as (rs & Hrs & Hr). rewrite Forall_forall in Hok. specialize (Hok rs Hrs).
    rewrite Forall_forall in Hok. exact (Hok r Hr). }
  assert (E : map (fun r => wildcard_key (route_key r)) (concat (map (map to_route) hs)) = map dkey (concat hs)).
  { rewrite concat_map, map_map. rewrite concat_map. f_equal.
    apply map_ext_in. intros rs Hrs. rewrite map_map. apply map_ext_in. intros r Hr.
    unfold to_route, dkey. rewrite template_route, template_key; [reflexivity|]. constructor; [apply method_piece_ok|].
    apply D. apply in_concat. eauto. }
  rewrite E.
  assert (E2 : map (fun x => (d_method (snd x), starred (d_path (snd x)))) (table hs) =
               map (fun r => (d_method r, starred (d_path r))) (concat hs)).
  { unfold table. clear. generalize 0%nat. induction hs as [|rs hs IH]; intros i; [reflexivity|].
    cbn [length seq combine flat_map concat fst snd]. rewrite !map_app, IH, map_map. reflexivity. }
  rewrite E2. clear E E2 B Hok. revert D. induction (concat hs) as [|r l IH]; intros D; [split; intros; constructor|].
  cbn [map]. rewrite !NoDup_cons_iff, IH by (intros y Hy; apply D; right; exact Hy).
  assert (X : In (dkey r) (map dkey l) <-> In (d_method r, starred (d_path r)) (map (fun r => (d_method r, starred (d_path r))) l)).
  { rewrite !in_map_iff. split; intros (y & Ey & Hy); exists y; (split; [|exact Hy]).
    - rewrite (dkey_form r) in Ey. apply (key_names _ _ y) in Ey as [<- <-]; [reflexivity|apply method_range, D; left; reflexivity|apply D; right; exact Hy].
    - apply pair_equal_spec in Ey as [Em Es]. rewrite !dkey_form, Em, Es. reflexivity. }
  rewrite X. reflexivity.
Qed.
Print Assumptions C35_buildable.
(** C42: every REST request frame goes to the handler it is meant for, with the request that was
    sent, and that handler's answer comes back; if it raises, there is no reply; a request no
    route serves reaches no handler and changes nothing but the id counter. *)
Theorem C42_delivered : forall U ev (ext : extension U) hs strict m raw q z,
  Forall (Forall declared_ok) hs -> new_action_extension (map (map to_route) hs) = Ok (xt_registry ext) ->
  set_order_ok (e_so ev) -> frame_of m raw ->
  m_action m = py "internal:extensions/restexecuteonextensiontaction" ->
  w_rest_request strict q (m_payload m) -> rq_method q = Some z ->
  (forall n q' a, meant_for (table hs) z (rq_path q) n -> received_request q q' ->
     (rest_response_ok a -> exists p,
        w_exec_response true (mkExec (rp_status a) (rp_ctype a) (rp_content a) (rp_headers a) (rp_consumed a) (rp_content_consumed a)) p /\
        (zlen raw + zlen p < 2 ^ 31 -> exists out, answers m p out /\
           forall uuid s h u, xt_invoke ext n (hs_user h) q' = (u, Ok a) ->
           exists h', on_input ev ext uuid (raw ++ s) h = (Ok (Some out), h') /\ hs_user h' = u /\
             hs_pending h' = hs_pending h /\ hs_init h' = hs_init h /\ hs_settings h' = hs_settings h)) /\
     (forall uuid s h u e, xt_invoke ext n (hs_user h) q' = (u, Raise e) ->
        exists h', on_input ev ext uuid (raw ++ s) h = (Raise e, h') /\ hs_user h' = u /\
          hs_pending h' = hs_pending h /\ hs_init h' = hs_init h /\ hs_settings h' = hs_settings h)) /\
  ((forall x, In x (table hs) -> ~ serves z (rq_path q) (snd x)) ->
   forall uuid s h, exists h', on_input ev ext uuid (raw ++ s) h = (Raise EGeneric, h') /\ only_ids h h').
Proof.
  intros U ev ext hs strict m raw q z Hok Hg Hso Hf Ha Wq Hz.
  destruct (request_facts strict q _ Wq) as (_ & _ & z' & Hz' & Rz).
  assert (z' = z) as -> by congruence. clear Hz'.
  destruct (find_meant (e_cls ev) hs _ z (rq_path q) Hok Hg Rz) as [F1 F2]. split.
  - intros n q' a Hn Hr. apply F1 in Hn. split.
    + intros Ra. destruct (rest_reply ev ext strict m raw q z n q' a Hso Hf Ha Wq Hz Hn Hr (response_exec a Ra)) as (p & _ & Wp & X).
      exists p. split; [exact Wp|]. intros Hl. destruct (X Hl) as (out & A & B). exists out. split; [exact A|].
      intros uuid s h u Hu. eexists. split; [exact (B uuid s h u Hu)|]. destruct h; repeat split.
    + intros uuid s h u e Hu. exact (C42_handler_raises U ev ext strict m raw q z n q' uuid s h u e Hso Hf Ha Wq Hz Hn Hr Hu).
  - intros NS. exact (rest_unrouted ev ext strict m raw q z Hso Hf Ha Wq Hz (F2 NS)).
Qed.
Print Assumptions C42_delivered.
(** every request is meant for exactly one handler, or served by no route *)
Theorem C42_one_handler : forall hs z path, Forall (Forall declared_ok) hs ->
  NoDup (map (fun x => (d_method (snd x), starred (d_path (snd x)))) (table hs)) ->
  (forall n n', meant_for (table hs) z path n -> meant_for (table hs) z path n' -> n = n') /\
  ((exists n, meant_for (table hs) z path n) \/ (forall x, In x (table hs) -> ~ serves z path (snd x))).
Proof.
  intros hs z path Hok Nd.
  assert (SN : forall r, names z path r -> serves z path r).
  { intros r (A & <-). split; [exact A|apply fills_pattern]. }
  assert (Dn : forall r, names z path r \/ ~ names z path r).
  { intros r. unfold names. destruct (Z.eq_dec (d_method r) z) as [E|E]; [|right; tauto].
    destruct (list_eq_dec Z.eq_dec (starred (d_path r)) path); [left|right]; tauto. }
  assert (D : forall x, In x (table hs) -> declared_ok (snd x)).
  { intros [i r] Hi. apply table_in in Hi as (rs & Hrs & Hr). rewrite Forall_forall in Hok. specialize (Hok rs Hrs).
    rewrite Forall_forall in Hok. exact (Hok r Hr). }
  assert (Ds : forall x, In x (table hs) -> serves z path (snd x) \/ ~ serves z path (snd x)).
  { intros x Hx. destruct (Z.eq_dec (d_method (snd x)) z) as [E|E]; [|right; unfold serves; tauto].
    assert (Rz : 0 <= z < 9) by (apply method_range; rewrite <- E; apply (D x Hx)).
    rewrite <- (key_serves (in_class (fun _ => None)) z path (snd x) Rz (D x Hx)). apply glob_dec. }
  split.
  - intros n n' [(r & I & N1)|(N1 & t1 & r & t2 & E & S1 & B1)] [(r' & I' & N2)|(N2 & t1' & r' & t2' & E' & S2 & B2)].
    + assert (X : forall t, NoDup (map (fun x : nat * declared => (d_method (snd x), starred (d_path (snd x)))) t) ->
        In (n, r) t -> In (n', r') t -> n = n').
      { clear - N1 N2. destruct N1 as [A1 A2], N2 as [B1 B2]. induction t as [|x t IH]; intros Nd I I'; [destruct I|].
        cbn [map] in Nd. apply NoDup_cons_iff in Nd as [Nx Nd].
        destruct I as [->|I], I' as [I'|I'].
        - apply pair_equal_spec in I' as [I' _]. exact I'.
        - exfalso. apply Nx. apply in_map_iff. exists (n', r'). cbn [snd]. split; [congruence|exact I'].
        - subst x. exfalso. apply Nx. apply in_map_iff. exists (n, r). cbn [snd]. split; [congruence|exact I].
        - exact (IH Nd I I'). }
      exact (X _ Nd I I').
    + destruct (N2 _ I N1).
    + destruct (N1 _ I' N2).
    + rewrite E in E'. clear Nd D Ds Hok E N1 N2.
      revert t1' E' B1 B2. induction t1 as [|x t1 IH]; intros [|y t1'] E' B1 B2.
      * apply (f_equal (@hd_error _)) in E'. cbn in E'. congruence.
      * exfalso. apply (f_equal (@hd_error _)) in E'. cbn in E'. apply (B2 (n, r)); [left; congruence|exact S1].
      * exfalso. apply (f_equal (@hd_error _)) in E'. cbn in E'. apply (B1 (n', r')); [left; congruence|exact S2].
      * cbn [app] in E'. assert (E2 : t1 ++ (n, r) :: t2 = t1' ++ (n', r') :: t2') by (apply (f_equal (@tl _)) in E'; exact E').
        apply (IH _ E2); [intros w Hw; apply B1|intros w Hw; apply B2]; right; exact Hw.
  - assert (X : (exists x, In x (table hs) /\ names z path (snd x)) \/ forall x, In x (table hs) -> ~ names z path (snd x)).
    { clear - Dn. induction (table hs) as [|x t IH]; [right; intros ? []|].
      destruct (Dn (snd x)) as [H|H]; [left; exists x; split; [left; reflexivity|exact H]|].
      destruct IH as [(y & A & B)|A]; [left; exists y; split; [right; exact A|exact B]|].
      right. intros y [<-|Hy]; auto. }
    destruct X as [([n r] & A & B)|NN]; [left; exists n; left; exists r; auto|].
    assert (Y : (exists t1 x t2, table hs = t1 ++ x :: t2 /\ serves z path (snd x) /\ forall y, In y t1 -> ~ serves z path (snd y)) \/
      forall x, In x (table hs) -> ~ serves z path (snd x)).
    { clear - Ds. induction (table hs) as [|x t IH]; [right; intros ? []|].
      destruct (Ds x (or_introl eq_refl)) as [H|H]; [left; exists [], x, t; split; [reflexivity|]; split; [exact H|intros ? []]|].
      destruct IH as [(t1 & y & t2 & -> & A & B)|A]; [intros y Hy; apply Ds; right; exact Hy| |].
      - left. exists (x :: t1), y, t2. split; [reflexivity|]. split; [exact A|]. intros w [<-|Hw]; auto.
      - right. intros y [<-|Hy]; auto. }
    destruct Y as [(t1 & [n r] & t2 & E & A & B)|NS]; [|right; exact NS].
    left. exists n. right. split; [exact NN|]. exists t1, r, t2. auto.
Qed.
Print Assumptions C42_one_handler.
Definition ex_decl : list (list declared) :=
  [[mkDecl 0 [Text (py "/a/"); Hole (py "x")] (py "ax")]; [mkDecl 0 [Text (py "/a/b")] (py "ab"); mkDecl 1 [Text (py "/a/"); Hole (py "y")] (py "pay")]].
(** a path with a placeholder, one named literally, one with the wrong method *)
Example C42_delivered_case : Forall (Forall declared_ok) ex_decl /\
  (exists g, new_action_extension (map (map to_route) ex_decl) = Ok g) /\
  meant_for (table ex_decl) 0 (py "/a/b") 1 /\ meant_for (table ex_decl) 0 (py "/a/b/c") 0 /\
  meant_for (table ex_decl) 1 (py "/a/b") 1 /\
  (forall x, In x (table ex_decl) -> ~ serves 2 (py "/a/b") (snd x)).
Proof.
  assert (T : forall x, forallb (fun c => negb ((c =? 42) || (c =? 63) || (c =? 91) || (c =? 123))) x = true -> piece_ok (Text x)).
  { intros x H c Hc. rewrite forallb_forall in H. specialize (H c Hc).
    apply negb_true_iff in H. rewrite !orb_false_iff, !Z.eqb_neq in H. tauto. }
  assert (W : forall x, x <> [] -> forallb (fun c => negb ((c =? 10) || (c =? 125))) x = true -> piece_ok (Hole x)).
  { intros x N H. rewrite forallb_forall in H. split; [exact N|]. split; intros X; specialize (H _ X); discriminate. }
  assert (M : forall z, 0 <= z < 9 -> In z (map fst rest_methods)) by (intros z; apply method_range).
  split; [|split; [eexists; vm_compute; reflexivity|]].
  { assert (K : forall z l nm, 0 <= z < 9 -> Forall piece_ok l -> declared_ok (mkDecl z l nm)).
    { intros z l nm R F. split; [apply M, R|exact F]. }
    constructor; [|constructor; [|constructor]].
    - constructor; [|constructor]. apply K; [lia|]. constructor; [apply T; reflexivity|].
      constructor; [apply W; [discriminate|reflexivity]|constructor].
    - constructor; [|constructor; [|constructor]]; (apply K; [lia|]); (constructor; [apply T; reflexivity|]); [constructor|].
      constructor; [apply W; [discriminate|reflexivity]|constructor]. }
  split; [left; eexists; split; [right; left; reflexivity|split; reflexivity]|].
  split; [right; split; [|exists [], (mkDecl 0 [Text (py "/a/"); Hole (py "x")] (py "ax")); eexists; split; [reflexivity|]; split; [|intros ? []]]|].
  - intros x [<-|[<-|[<-|[]]]] [A B]; vm_compute in A, B; discriminate.
  - split; [reflexivity|]. cbn [d_path]. exact (fill_text _ (py "/a/") _ _ (fill_hole _ _ (py "b/c") _ _ I (fill_end _))).
  - split; [|intros x [<-|[<-|[<-|[]]]] [A _]; vm_compute in A; discriminate].
    right. split; [intros x [<-|[<-|[<-|[]]]] [A B]; vm_compute in A, B; discriminate|].
    exists [(0%nat, mkDecl 0 [Text (py "/a/"); Hole (py "x")] (py "ax")); (1%nat, mkDecl 0 [Text (py "/a/b")] (py "ab"))].
    eexists _, _. split; [reflexivity|]. split; [split; [reflexivity|]|intros x [<-|[<-|[]]] [A _]; vm_compute in A; discriminate].
    cbn [d_path]. exact (fill_text _ (py "/a/") _ _ (fill_hole _ _ (py "b") _ _ I (fill_end _))).
Qed.
