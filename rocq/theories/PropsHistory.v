(** * Properties C44-C50, C68: histories of the extension host, runs of the server *)
From Coq Require Import String ZArith List Bool Lia ZifyBool Permutation.
From Coq Require Import Strings.Byte.
From Verif Require Import Py Stream Version Frame Proto Messages Rest Routes Settings Host PyFacts
  Spec SpecFacts MsgFacts SettingsFacts PropsMessages Wire WireFacts WireFacts2 WireFacts3 WireFacts4 HostSpec HostFacts PropsHost.
Import ListNotations.
Open Scope list_scope.
Open Scope Z_scope.
Ltac Zify.zify_post_hook ::= idtac.

(** ** Concrete frames for the examples *)
Definition ex_init_request : init_request := mkInitReq default_task example_node
  (mkExtNode example_node (version_of_id 2110399) [mkDep (py "d") (version_of_id 2000099)]).
Definition ex_init (id : Z) : message := ex_msg (py "internal:discovery/extensions") id false
  (match write_init_request ex_init_request with Ok b => b | Raise _ => [] end).
(** what OpenSearch answers to the request [id] of the extension *)
Definition ex_answer (id : Z) (p : bytes) : bytes :=
  match new_response (Some ex_ctx) [] (Some (Ok p)) (HVer (version_of_id 2110399)) (Some id) false false 0 with
  | (Ok o, _) => match write_outbound o with Ok b => b | Raise _ => [] end
  | _ => []
  end.
(** the same marked as an error: status byte (offset 14) with the error bit *)
Definition ex_error (id : Z) : bytes :=
  let b := ex_answer id [] in firstn 14 b ++ [z2b 3] ++ skipn 15 b.
(** one setting: the name "k", the string "v" *)
Definition ex_settings : bytes := [x01; x01; x6b; x00; x01; x76].
Lemma ex_init_wire id : w_init_request true ex_init_request (m_payload (ex_init id)).
Proof.
  apply (by_writer _ _ _ _ _ _ (init_request_writes true)); [|reflexivity]. split; [apply C30_case|].
  split; vm_compute; reflexivity.
Qed.
Ltac response := eexists _, _, 0, _, _, _; split; [vm_compute; reflexivity|]; split; [vm_compute; reflexivity|];
  split; [vm_compute; reflexivity|]; split; [vm_compute; reflexivity|]; split; [reflexivity|]; vm_compute; reflexivity.
Lemma ex_init_frame id : id <> 0 -> ex_raw (ex_init id) <> [] -> frame_of (ex_init id) (ex_raw (ex_init id)).
Proof. intros N R. apply ex_frame; [text|exact N|exact R]. Qed.
Lemma ex_answer_in so id p k : k = ex_answer id p -> (id = 2 /\ p = [x01] \/ id = 3 /\ p = [x01]) ->
  so = (fun l => l) -> response_in so k false id p.
Proof. intros -> [(-> & ->)|(-> & ->)] ->; response. Qed.

(** C44.  The whole exchange: the init request [m] reaches a running host in any state; [k] and
    [k + 1] are the ids of the requests the host makes.  Traffic in between is anything but
    another initialization or an (early) answer to one of those. *)
Theorem C44_initialization : forall U ev (ext : extension U) strict m raw q,
  set_order_ok (e_so ev) -> frame_of m raw -> is_init m ->
  w_init_request strict q (m_payload m) ->
  a_addr (n_addr (ir_source q)) < 2 ^ 31 -> a_addr (n_addr (x_node (ir_ext q))) < 2 ^ 31 ->
  text_ok (xt_name ext) -> texts_ok (xt_interfaces ext) -> Forall text_ok (rg_named (xt_registry ext)) ->
  exists pe pr pi,
    (* the environment settings request, the registration, the response *)
    w_ext_transport_request (mkTask [] None) [] 4 pe /\
    (zlen pr < 2 ^ 35 -> w_register_request (mkTask [] None) (xt_name ext) (rg_named (xt_registry ext)) [] pr) /\
    w_init_response true (mkInitResp (xt_name ext) (xt_interfaces ext)) pi /\
    (zlen raw <= 2 ^ 30 -> zlen pr < 2 ^ 29 -> zlen pi < 2 ^ 29 ->
     forall h, running ev ext h -> hs_next h + 4 < 2 ^ 63 ->
     exists k register env_settings response,
       carries false (request_for m (k + 1) (py "internal:discovery/registerrestactions") pr) register /\
       carries false (request_for m k (py "internal:discovery/enviornmentsettings") pe) env_settings /\
       answers m pi response /\
       forall uuid s, exists h1, on_input ev ext uuid (raw ++ s) h = (Ok (Some register), h1) /\
       forall l1, Forall (fun x => unrelated (e_so ev) [k; k + 1] (snd x)) l1 ->
       let h2 := feed ev ext h1 l1 in
       forall uuid2 raw2,
         (forall k' p, response_in (e_so ev) raw2 true k' p ->
            exists h3, on_input ev ext uuid2 raw2 h2 = (Ok None, h3) /\ only_ids h2 h3) /\
         (forall p t, response_in (e_so ev) raw2 false (k + 1) p -> read_ack p = Ok (false, t) ->
            exists h3, on_input ev ext uuid2 raw2 h2 = (Ok None, h3) /\
            forall l2, ~ In (k + 1) (pending_ids (feed ev ext h3 l2))) /\
         (forall p t, response_in (e_so ev) raw2 false (k + 1) p -> read_ack p = Ok (true, t) ->
            exists h3, on_input ev ext uuid2 raw2 h2 = (Ok (Some env_settings), h3) /\
            forall l2, Forall (fun x => unrelated (e_so ev) [k] (snd x)) l2 ->
            let h4 := feed ev ext h3 l2 in
            forall uuid4 raw4 p4 t4 d, response_in (e_so ev) raw4 false k p4 ->
              read_settings (e_fuel ev) (hs_settings h4) p4 = (Ok t4, d) ->
              exists h5, on_input ev ext uuid4 raw4 h4 = (Ok (Some response), h5) /\ hs_settings h5 = d)).
Proof.
  intros U ev ext strict m raw q Hso Hf Hi Wq L1 L2 T1 T2 T3.
  destruct (init_started ev ext strict m raw q Hso Hf Hi L1 L2 Wq T1 T2 T3) as (pe & pr & pi & R1 & R2 & R3 & X).
  exists pe, pr, pi. split; [exact R1|]. split; [exact R2|]. split; [exact R3|]. intros B1 B2 B3 h Hr Hn.
  pose proof (running_inv ev ext h Hso Hr) as Hv.
  destruct (X B1 B2 B3 h ltac:(destruct Hv; lia) Hn) as (out1 & sr & out2 & resp & out3 & C1 & C2 & C3 & W2 & W3 & E).
  set (k := hs_next h + 2) in *. exists k, out1, out2, out3.
  replace (k + 1) with (hs_next h + 3) by (subst k; lia).
  split; [exact C1|]. split; [exact C2|]. split; [exact C3|]. intros uuid s. eexists. split; [apply E|].
  set (h1 := mkHost _ _ _ _ _). intros l1 Hl1. cbv zeta.
  assert (V1 : inv h1). { apply (step_inv ev ext uuid (raw ++ s) h (Ok (Some out1)) h1 Hso Hv). apply E. }
  assert (NE : hs_next h + 3 <> k) by (subst k; lia).
  assert (G1 : dict_get Z.eqb (hs_next h + 3) (hs_pending h1) = Some (RegisterRH sr)).
  { subst h1. cbn [hs_pending]. apply (dict_get_set_same _ Z.eqb_eq). }
  assert (G2 : dict_get Z.eqb k (hs_pending h1) = Some EnvRH).
  { subst h1. cbn [hs_pending]. rewrite (dict_get_set_other _ Z.eqb_eq) by exact NE. apply (dict_get_set_same _ Z.eqb_eq). }
  destruct (feed_unrelated ev ext [k; hs_next h + 3] l1 Hso Hl1 h1 V1) as (V2 & I2 & P2).
  set (h2 := feed ev ext h1 l1) in *.
  assert (G3 : dict_get Z.eqb (hs_next h + 3) (hs_pending h2) = Some (RegisterRH sr)) by (rewrite P2; [exact G1|right; left; reflexivity]).
  assert (G4 : dict_get Z.eqb k (hs_pending h2) = Some EnvRH) by (rewrite P2; [exact G2|left; reflexivity]).
  intros uuid2 raw2. split; [|split].
  - intros k' p Rp. rewrite (on_response ev ext raw2 true k' p Rp uuid2 h2). eexists. split; [reflexivity|]. destruct h2; repeat split.
  - intros p t Rp Ra. pose proof (acked ev ext uuid2 raw2 _ p t sr out2 false h2 Rp G3 W2 Ra) as E3. rewrite E3. eexists. split; [reflexivity|].
    destruct (step_inv ev ext uuid2 raw2 h2 _ _ Hso V2 E3) as (V3 & N3 & _).
    intros l2 J. destruct (feed_inv ev ext l2 Hso _ V3) as (_ & _ & B). apply B in J.
    assert (Lk : hs_next h + 3 < hs_next h2).
    { destruct V2 as (_ & _ & V2). apply V2. apply (dict_get_In _ Z.eqb_eq) in G3. apply in_map_iff. eexists. split; [|exact G3]. reflexivity. }
    destruct J as [J|J]; [|cbv iota in N3, J; lia]. revert J. clear B V3 N3 E3.
    unfold pending_ids. replace (hs_pending _) with (dict_del Z.eqb (hs_next h + 3) (hs_pending h2)) by (destruct h2; reflexivity).
    intros Z0. assert (N := dict_del_get _ Z.eqb_eq (hs_next h + 3) (hs_next h + 3) (hs_pending h2)). rewrite Z.eqb_refl in N.
    destruct V2 as (_ & V2 & _). specialize (N V2). apply (dict_get_None _ Z.eqb_eq) in N. contradiction.
  - intros p t Rp Ra. rewrite (acked ev ext uuid2 raw2 _ p t sr out2 true h2 Rp G3 W2 Ra). eexists. split; [reflexivity|].
    set (h3 := set_pending _ _). intros l2 Hl2. cbv zeta.
    assert (V3 : inv h3).
    { apply (step_inv ev ext uuid2 raw2 h2 (Ok (Some out2)) h3 Hso V2).
      rewrite (acked ev ext uuid2 raw2 _ p t sr out2 true h2 Rp G3 W2 Ra). reflexivity. }
    destruct (feed_unrelated ev ext [k] l2 Hso Hl2 h3 V3) as (V4 & I4 & P4). set (h4 := feed ev ext h3 l2) in *.
    assert (G5 : dict_get Z.eqb k (hs_pending h4) = Some EnvRH).
    { rewrite P4 by (left; reflexivity).
      replace (hs_pending h3) with (dict_del Z.eqb (hs_next h + 3) (hs_pending h2)) by (subst h3; destruct h2; reflexivity).
      rewrite (dict_del_get _ Z.eqb_eq) by apply V2. destruct (Z.eqb_spec (hs_next h + 3) k); [lia|]. exact G4. }
    assert (I5 : hs_init h4 = Some resp) by (rewrite I4; transitivity (hs_init h2); [subst h3; destruct h2; reflexivity|rewrite I2; reflexivity]).
    intros uuid4 raw4 p4 t4 d Re Rs. rewrite (env_answered ev ext uuid4 raw4 k p4 t4 d resp out3 h4 Re G5 I5 W3 Rs).
    eexists. split; [reflexivity|]. destruct h4; reflexivity.
Qed.
Print Assumptions C44_initialization.
Lemma unrelated_error so ks raw k : response_in so raw true k [] -> unrelated so ks raw.
Proof.
  intros R. split.
  - intros m Hm. exfalso. eapply request_or_response; eassumption.
  - intros k' p _ (hd & t & n & o0 & n' & o & E & _ & F & _). destruct R as (hd' & t' & n1 & o1 & n1' & o' & E' & _ & F' & _).
    rewrite E in E'. apply Ok_inj, pair_equal_spec in E' as [-> _]. congruence.
Qed.
Example C44_case :
  frame_of (ex_init 77) (ex_raw (ex_init 77)) /\ is_init (ex_init 77) /\
  w_init_request true ex_init_request (m_payload (ex_init 77)) /\
  Forall text_ok (rg_named (xt_registry ex_ext)) /\
  response_in (e_so ex_env) (ex_answer 3 [x01]) false 3 [x01] /\
  unrelated (e_so ex_env) [2; 3] (ex_error 3) /\
  response_in (e_so ex_env) (ex_answer 2 ex_settings) false 2 ex_settings /\
  (* the exchange on a fresh host: id 2 and 3 are the host's, 77 comes back at the end *)
  let l := [([], ex_raw (ex_init 77)); ([], ex_error 3); ([], ex_answer 3 [x01])] in
  let h := feed ex_env ex_ext (initial_host 0) l in
  pending_ids h = [2] /\
  exists out h' hd t, on_input ex_env ex_ext [] (ex_answer 2 ex_settings) h = (Ok (Some out), h') /\
    hs_settings h' = [(py "k", VStr (py "v"))] /\ read_header out = Ok (hd, t) /\ h_id hd = 77 /\ is_response hd = true.
Proof.
  split; [apply ex_init_frame; [discriminate|vm_compute; discriminate]|]. split; [reflexivity|]. split; [apply ex_init_wire|].
  split; [constructor; [text|constructor]|]. split; [response|].
  split; [apply (unrelated_error _ _ _ 3); response|]. split; [response|].
  cbv zeta. split; [vm_compute; reflexivity|]. eexists _, _, _, _. split; [vm_compute; reflexivity|]. split; [vm_compute; reflexivity|].
  split; [vm_compute; reflexivity|]. split; vm_compute; reflexivity.
Qed.

(** what the host returned for each chunk of a history *)
Fixpoint outputs {U} (ev : env) (ext : extension U) (h : host U) (l : list (bytes * bytes)) : list (res (option bytes)) :=
  match l with
  | [] => []
  | x :: t => fst (on_input ev ext (fst x) (snd x) h) :: outputs ev ext (snd (on_input ev ext (fst x) (snd x) h)) t
  end.
(** C45, full statement: false.  Every chunk made the host send something, no response is
    awaited any more, and yet an initialization is never answered. *)
Definition C45_statement : Prop := forall U ev (ext : extension U) u l m raw,
  set_order_ok (e_so ev) -> frame_of m raw -> is_init m -> In raw (map snd l) ->
  Forall (fun r => exists out, r = Ok (Some out)) (outputs ev ext (initial_host u) l) ->
  pending_ids (feed ev ext (initial_host u) l) = [] ->
  exists out p, In (Ok (Some out)) (outputs ev ext (initial_host u) l) /\ answers m p out.
Definition ex_two_inits : list (bytes * bytes) :=
  [([], ex_raw (ex_init 77)); ([], ex_raw (ex_init 78)); ([], ex_answer 3 [x01]); ([], ex_answer 7 [x01]);
   ([], ex_answer 2 ex_settings); ([], ex_answer 6 ex_settings)].
Theorem C45_two_inits_refuted : ~ C45_statement.
Proof.
  intros S. destruct (S Z ex_env ex_ext 0 ex_two_inits (ex_init 77) (ex_raw (ex_init 77)) ex_env_ok) as (out & p & I & A).
  - apply ex_init_frame; [discriminate|vm_compute; discriminate].
  - reflexivity.
  - left. reflexivity.
  - let o := eval vm_compute in (outputs ex_env ex_ext (initial_host 0) ex_two_inits) in
      replace (outputs ex_env ex_ext (initial_host 0) ex_two_inits) with o by (vm_compute; reflexivity).
    repeat (constructor; [eexists; reflexivity|]). constructor.
  - vm_compute. reflexivity.
  - destruct (proj2 A (fun l => l) [] ex_env_ok) as (h & t & E & R & _ & K & _). rewrite app_nil_r in E.
    cbn [response_to m_id ex_init ex_msg] in K.
    assert (B : match read_header out with Ok (h, _) => negb (is_request h) && (h_id h =? 77) | _ => false end = true).
    { rewrite E, K. unfold is_request. rewrite R. reflexivity. }
    clear - I B. let o := eval vm_compute in (outputs ex_env ex_ext (initial_host 0) ex_two_inits) in
      replace (outputs ex_env ex_ext (initial_host 0) ex_two_inits) with o in I by (vm_compute; reflexivity).
    repeat (destruct I as [I|I]; [apply Ok_inj in I; assert (X := f_equal (fun o => match o with Some b => b | None => [] end) I);
      cbv beta iota in X; rewrite <- X in B; vm_compute in B; discriminate|]). exact I.
Qed.
Print Assumptions C45_two_inits_refuted.
(** C45, what holds: whatever the host sends on receiving a response is either an
    environment-settings request for some initialization it received (after a positive
    acknowledgement of the registration with the next id), or the answer to the latest
    initialization (with its own id).  So an exchange is answered if no other initialization
    is received before its last step (C44).  Missing: the earlier ones. *)
Theorem C45_latest_init_partial : forall U ev (ext : extension U) u l uuid raw k p out h',
  set_order_ok (e_so ev) -> text_ok (xt_name ext) -> texts_ok (xt_interfaces ext) ->
  response_in (e_so ev) raw false k p ->
  on_input ev ext uuid raw (feed ev ext (initial_host u) l) = (Ok (Some out), h') ->
  (exists m pe, received_init (e_so ev) l m /\ (exists t, read_ack p = Ok (true, t)) /\
     w_ext_transport_request (mkTask [] None) [] 4 pe /\
     carries false (request_for m (k - 1) (py "internal:discovery/enviornmentsettings") pe) out) \/
  (exists m pi, latest_init ev ext (initial_host u) l m /\
     w_init_response true (mkInitResp (xt_name ext) (xt_interfaces ext)) pi /\
     (m_id m <> 0 -> answers m pi out)).
Proof. intros U ev ext u l uuid raw k p out h'. apply response_output. Qed.
Print Assumptions C45_latest_init_partial.
Example C45_case : response_in (e_so ex_env) (ex_answer 2 ex_settings) false 2 ex_settings /\
  exists out h', on_input ex_env ex_ext [] (ex_answer 2 ex_settings) (feed ex_env ex_ext (initial_host 0) (firstn 4 ex_two_inits)) = (Ok (Some out), h').
Proof. split; [response|]. eexists _, _. vm_compute. reflexivity. Qed.

(** C46 *)
Theorem C46_not_awaited : forall U ev (ext : extension U) uuid raw err k p h,
  response_in (e_so ev) raw err k p -> err = true \/ ~ In k (pending_ids h) ->
  exists h', on_input ev ext uuid raw h = (Ok None, h') /\ only_ids h h'.
Proof.
  intros U ev ext uuid raw err k p h R D. rewrite (on_response ev ext raw err k p R uuid h).
  destruct err; [eexists; split; [reflexivity|destruct h; repeat split]|]. destruct D as [D|D]; [discriminate|].
  unfold handle_response. replace (hs_pending (set_next h (hs_next h + 2))) with (hs_pending h) by (destruct h; reflexivity).
  replace (dict_get Z.eqb k (hs_pending h)) with (@None rh) by (symmetry; apply (dict_get_None _ Z.eqb_eq); exact D).
  eexists; split; [reflexivity|destruct h; repeat split].
Qed.
Print Assumptions C46_not_awaited.
(** an id never issued, and a second response, whatever happens in between *)
Theorem C46_once : forall U ev (ext : extension U) h, set_order_ok (e_so ev) -> running ev ext h ->
  (forall k, k < 0 \/ hs_next h <= k -> ~ In k (pending_ids h)) /\
  (forall uuid raw k p l, response_in (e_so ev) raw false k p -> In k (pending_ids h) ->
     ~ In k (pending_ids (feed ev ext (snd (on_input ev ext uuid raw h)) l))).
Proof.
  intros U ev ext h Hso Hr. pose proof (running_inv ev ext h Hso Hr) as V. split.
  - intros k D I. destruct V as (_ & _ & V). apply V in I. lia.
  - intros uuid raw k p l R I J. destruct (on_input ev ext uuid raw h) as [r h1] eqn:E. cbn [snd] in J.
    destruct (step_inv ev ext uuid raw h r h1 Hso V E) as (V1 & N1 & _ & K1).
    destruct (feed_inv ev ext l Hso h1 V1) as (_ & _ & B). apply B in J.
    assert (k < hs_next h) by (destruct V as (_ & _ & V); apply V in I; lia).
    destruct J as [J|J]; [|lia].
    assert (G : ~ In k (pending_ids h1)).
    { rewrite (on_response ev ext raw false k p R uuid h) in E. unfold handle_response in E.
      replace (hs_pending (set_next h (hs_next h + 2))) with (hs_pending h) in E by (destruct h; reflexivity).
      destruct (dict_get Z.eqb k (hs_pending h)) as [x|] eqn:G; [|apply (dict_get_None _ Z.eqb_eq) in G; contradiction].
      assert (P : hs_pending h1 = dict_del Z.eqb k (hs_pending h)).
      { destruct x as [o|].
        - apply register_effect in E. subst h1. destruct h; reflexivity.
        - apply env_effect in E. destruct E as (E & _). rewrite E. destruct h; reflexivity. }
      unfold pending_ids. rewrite P. apply (dict_get_None _ Z.eqb_eq). rewrite (dict_del_get _ Z.eqb_eq) by apply V.
      rewrite Z.eqb_refl. reflexivity. }
    contradiction.
Qed.
Print Assumptions C46_once.
Example C46_case : let h := feed ex_env ex_ext (initial_host 0) [([], ex_raw (ex_init 77))] in
  running ex_env ex_ext h /\ pending_ids h = [2; 3] /\
  response_in (e_so ex_env) (ex_answer 3 [x01]) false 3 [x01] /\
  response_in (e_so ex_env) (ex_error 3) true 3 [] /\
  pending_ids (snd (on_input ex_env ex_ext [] (ex_answer 3 [x01]) h)) = [2].
Proof.
  cbv zeta. split; [eexists _, _; reflexivity|]. split; [vm_compute; reflexivity|]. split; [response|]. split; [response|].
  vm_compute. reflexivity.
Qed.

(** C47.  Every id below [hs_next] has been issued, no other. *)
Theorem C47_no_collision : forall U ev (ext : extension U) h, set_order_ok (e_so ev) -> running ev ext h ->
  NoDup (pending_ids h) /\ (forall k, In k (pending_ids h) -> 0 <= k < hs_next h) /\
  forall uuid raw r h', on_input ev ext uuid raw h = (r, h') ->
    hs_next h <= hs_next h' /\
    (forall k, In k (pending_ids h') -> ~ In k (pending_ids h) -> hs_next h <= k < hs_next h') /\
    (forall k x, In (k, x) (hs_pending h) -> In (k, x) (hs_pending h') \/
       (exists p, response_in (e_so ev) raw false k p) /\ ~ In k (pending_ids h')).
Proof.
  intros U ev ext h Hso Hr. pose proof (running_inv ev ext h Hso Hr) as V. split; [apply V|]. split; [apply V|].
  intros uuid raw r h' E. destruct (step_inv ev ext uuid raw h r h' Hso V E) as (V' & N & K & X). split; [exact N|]. split.
  - intros k I J. destruct (K k I) as [C|C]; [contradiction|]. destruct V' as (_ & _ & V'). apply V' in I. lia.
  - intros k x I. apply (dict_In_get _ Z.eqb_eq) in I; [|apply V]. destruct (X k x I) as [C|C]; [left|right; exact C].
    apply (dict_get_In _ Z.eqb_eq), C.
Qed.
Print Assumptions C47_no_collision.
Example C47_case : let h := feed ex_env ex_ext (initial_host 0) (firstn 2 ex_two_inits) in
  running ex_env ex_ext h /\ pending_ids h = [2; 3; 6; 7] /\ hs_next h = 8.
Proof. cbv zeta. split; [eexists _, _; reflexivity|]. split; vm_compute; reflexivity. Qed.

(** C48.  [run] is any run of the server: any chunks on any connections, in any order. *)
Theorem C48_stateless_replies : forall U ev (ext : extension U) uuid raw m h h',
  set_order_ok (e_so ev) -> read_as (e_so ev) raw m -> m_id m <> 0 -> ~ is_init m ->
  (m_action m = py "internal:extensions/restexecuteonextensiontaction" -> pure_handlers ext) ->
  fst (on_input ev ext uuid raw h) = fst (on_input ev ext uuid raw h').
Proof. intros U ev ext uuid raw m h h'. apply stateless. Qed.
Print Assumptions C48_stateless_replies.
Theorem C48_any_interleaving : forall U ev (ext : extension U) u u' es c raw uuid m,
  set_order_ok (e_so ev) -> read_as (e_so ev) raw m -> m_id m <> 0 -> ~ is_init m ->
  (m_action m = py "internal:extensions/restexecuteonextensiontaction" -> pure_handlers ext) ->
  zlen raw <= 10240 ->
  let w := run_world ev ext (initial_world u) es in
  conn_of w c = Some Receiving ->
  in_flight (world_step ev ext w (Recv c raw uuid)) c =
    match fst (on_input ev ext uuid raw (initial_host u')) with Ok (Some out) => [out] | _ => [] end.
Proof.
  intros U ev ext u u' es c raw uuid m Hso Hm Hi Hn Hp Hl w Hc. cbn [world_step]. change RECV_LIMIT with 10240.
  destruct (Z.ltb_spec 10240 (zlen raw)); [lia|]. change (dict_get Z.eqb c (w_conns w)) with (conn_of w c). rewrite Hc.
  destruct raw as [|b raw].
  { exfalso. destruct Hm as (hd & t & n & o0 & n' & o & E & Hm). do 7 (destruct Hm as [_ Hm]). destruct Hm as [Hm _]. apply Hi. rewrite Hm.
    assert (X : match read_header [] with Ok (h, _) => h_id h | _ => 1 end = 0) by (vm_compute; reflexivity). rewrite E in X. exact X. }
  rewrite <- (stateless ev ext uuid (b :: raw) m (w_host w) (initial_host u') Hso Hm Hi Hn Hp).
  destruct (on_input ev ext uuid (b :: raw) (w_host w)) as [[[d|]|e] h]; cbn [fst]; unfold in_flight;
    [rewrite conn_set, Z.eqb_refl; reflexivity|rewrite after_conn, Z.eqb_refl; destruct (w_terminating w); reflexivity..].
Qed.
Print Assumptions C48_any_interleaving.
(** an exception sends nothing and does not end the connection; other connections never notice *)
Theorem C48_exceptions : forall U ev (ext : extension U) w c raw uuid e,
  conn_of w c = Some Receiving -> w_terminating w = false -> raw <> [] -> zlen raw <= 10240 ->
  fst (on_input ev ext uuid raw (w_host w)) = Raise e ->
  let w' := world_step ev ext w (Recv c raw uuid) in
  conn_of w' c = Some Receiving /\ w_sent w' = w_sent w /\ w_terminating w' = false /\ w_accepting w' = w_accepting w /\
  forall c', c' <> c -> conn_of w' c' = conn_of w c'.
Proof.
  intros U ev ext w c raw uuid e Hc Ht Hr Hl He. cbv zeta. cbn [world_step]. change RECV_LIMIT with 10240.
  destruct (Z.ltb_spec 10240 (zlen raw)); [lia|]. change (dict_get Z.eqb c (w_conns w)) with (conn_of w c). rewrite Hc.
  destruct raw as [|b raw]; [contradiction|].
  destruct (on_input ev ext uuid (b :: raw) (w_host w)) as [[[d|]|e'] h]; cbn [fst] in He; try discriminate.
  rewrite after_conn, Z.eqb_refl, Ht. split; [reflexivity|]. split; [apply after_sent|]. split; [rewrite after_term; exact Ht|].
  split; [unfold after_chunk; rewrite Ht; reflexivity|].
  intros c' N. rewrite after_conn. destruct (Z.eqb_spec c c'); [congruence|reflexivity].
Qed.
Print Assumptions C48_exceptions.
Theorem C48_other_connections : forall U ev (ext : extension U) w e c, event_conn e <> Some c ->
  conn_of (world_step ev ext w e) c = conn_of w c /\ sent_on (world_step ev ext w e) c = sent_on w c.
Proof. intros U ev ext w e c H. destruct (others_kept ev ext w e c H) as (A & B & _). auto. Qed.
Print Assumptions C48_other_connections.
(** a zero header, then one context entry whose name is no UTF-8 *)
Definition ex_garbage : bytes := map z2b (repeat 0 23 ++ [1; 1; 255]).
(** garbage, an initialization and an error on connection 1, a handshake on connection 0 *)
Example C48_case : let es := [Accept 0; Accept 1; Recv 1 [x00; x01] []; Recv 1 (ex_raw (ex_init 77)) []; Recv 0 ex_garbage []] in
  let w := run_world ex_env ex_ext (initial_world 0) es in
  conn_of w 0 = Some Receiving /\ w_terminating w = false /\ zlen (ex_raw ex_tcp) <= 10240 /\
  read_as (e_so ex_env) (ex_raw ex_tcp) ex_tcp /\ ~ is_init ex_tcp /\
  (exists e, fst (on_input ex_env ex_ext [] ex_garbage (w_host w)) = Raise e) /\
  length (in_flight (world_step ex_env ex_ext w (Recv 0 (ex_raw ex_tcp) [])) 0) = 1%nat.
Proof.
  cbv zeta. split; [vm_compute; reflexivity|]. split; [vm_compute; reflexivity|]. split; [vm_compute; discriminate|].
  split.
  { eexists _, _, 0, _, _, _. split; [vm_compute; reflexivity|]. split; [vm_compute; reflexivity|]. split; [reflexivity|].
    split; [vm_compute; reflexivity|]. vm_compute. repeat split. }
  split; [intros H; vm_compute in H; discriminate|]. split; [eexists; vm_compute; reflexivity|]. vm_compute. reflexivity.
Qed.

(** C68, full statement: false.  The first two bytes are never looked at, and what is missing at
    the end of a chunk reads as zeros, so almost anything is a request for the action "". *)
Definition C68_statement : Prop := forall U ev (ext : extension U) uuid raw h,
  (forall s, raw <> [x45; x53] ++ s) \/ zlen raw < 23 ->
  forall out, fst (on_input ev ext uuid raw h) <> Ok (Some out).
Theorem C68_not_a_frame_refuted : ~ C68_statement.
Proof.
  intros S. eapply (S Z ex_env ex_ext [] [x00] (initial_host 0)).
  - left. intros s E. discriminate.
  - vm_compute. reflexivity.
Qed.
Print Assumptions C68_not_a_frame_refuted.
(** the reply even carries an id of the extension's own, and answers nothing that was asked *)
Theorem C68_stray_reply_refuted : exists out h' hd t,
  on_input ex_env ex_ext [] (firstn 10 (ex_raw ex_tcp)) (feed ex_env ex_ext (initial_host 0) [([], ex_raw (ex_init 77))]) = (Ok (Some out), h') /\
  read_header out = Ok (hd, t) /\ is_response hd = true /\ h_id hd = 6.
Proof.
  eexists _, _, _, _. split; [vm_compute; reflexivity|]. split; [vm_compute; reflexivity|]. split; vm_compute; reflexivity.
Qed.
Print Assumptions C68_stray_reply_refuted.
(** C68, what holds: bytes that cannot be read as a message make the host raise and change
    nothing but the id counter.  Missing: bytes that read as a message by accident. *)
Theorem C68_unreadable_partial : forall U ev (ext : extension U) uuid raw h,
  (forall m, ~ read_as (e_so ev) raw m) -> (forall err k p, ~ response_in (e_so ev) raw err k p) ->
  exists e h', on_input ev ext uuid raw h = (Raise e, h') /\ only_ids h h'.
Proof.
  intros U ev ext uuid raw h A B. destruct (input_cases ev ext raw) as [[m M]|[(err & k & p & R)|X]].
  - destruct (A m M).
  - destruct (B err k p R).
  - destruct (X uuid h) as (e & n & E & _). exists e. eexists. split; [exact E|]. destruct h; repeat split.
Qed.
Print Assumptions C68_unreadable_partial.
Example C68_case : (forall m, ~ read_as (fun l => l) ex_garbage m) /\
  (forall err k p, ~ response_in (fun l => l) ex_garbage err k p).
Proof.
  assert (X : match read_header ex_garbage with Ok (hd, t) => is_request hd = true /\
    forall n, match read_outbound (fun l => l) true (blank_request n) hd t with Ok _ => False | Raise _ => True end | _ => False end).
  { vm_compute. split; reflexivity. }
  destruct (read_header ex_garbage) as [[hd t]|] eqn:E; [|contradiction]. destruct X as [X1 X2]. split.
  - intros m (hd' & t' & n & o0 & n' & o & E' & _ & N & R & _). rewrite E in E'. apply Ok_inj, pair_equal_spec in E' as [<- <-].
    rewrite new_blank_request in N. apply pair_equal_spec in N as [N _]. apply Ok_inj in N. subst o0. specialize (X2 n). rewrite R in X2. exact X2.
  - intros err k p (hd' & t' & n & o0 & n' & o & E' & Q & _). rewrite E in E'. apply Ok_inj, pair_equal_spec in E' as [<- <-]. congruence.
Qed.

(** C49, full statement: false. *)
Definition C49_statement : Prop := forall U ev (ext : extension U) u a b,
  Forall (fun x => 0 < zlen (snd x) <= 10240) a -> Forall (fun x => 0 < zlen (snd x) <= 10240) b ->
  concat (map snd a) = concat (map snd b) ->
  w_sent (run_world ev ext (initial_world u) (serve a)) = w_sent (run_world ev ext (initial_world u) (serve b)).
Theorem C49_split_frame_refuted : ~ C49_statement.
Proof.
  intros S. specialize (S Z ex_env ex_ext 0 [([], ex_raw ex_tcp)] [([], firstn 10 (ex_raw ex_tcp)); ([], skipn 10 (ex_raw ex_tcp))]).
  match type of S with ?A -> ?B -> ?C -> ?D => assert (X : A /\ B /\ C) end.
  { split; [constructor; [vm_compute; split; [reflexivity|discriminate]|constructor]|].
    split; [constructor; [vm_compute; split; [reflexivity|discriminate]|constructor; [vm_compute; split; [reflexivity|discriminate]|constructor]]|].
    cbn [map snd concat]. rewrite !app_nil_r, firstn_skipn. reflexivity. }
  destruct X as (X1 & X2 & X3). specialize (S X1 X2 X3). vm_compute in S. discriminate.
Qed.
Print Assumptions C49_split_frame_refuted.
(** two frames in one chunk: the second is lost *)
Theorem C49_joined_frames_refuted : ~ C49_statement.
Proof.
  intros S. specialize (S Z ex_env ex_ext 0 [([], ex_raw ex_tcp ++ ex_raw ex_tcp)] [([], ex_raw ex_tcp); ([], ex_raw ex_tcp)]).
  match type of S with ?A -> ?B -> ?C -> ?D => assert (X : A /\ B /\ C) end.
  { split; [constructor; [vm_compute; split; [reflexivity|discriminate]|constructor]|].
    split; [constructor; [vm_compute; split; [reflexivity|discriminate]|constructor; [vm_compute; split; [reflexivity|discriminate]|constructor]]|].
    cbn [map snd concat]. rewrite !app_nil_r. reflexivity. }
  destruct X as (X1 & X2 & X3). specialize (S X1 X2 X3). vm_compute in S. discriminate.
Qed.
Print Assumptions C49_joined_frames_refuted.
(** C49, what holds: a whole frame at the start of a chunk is handled the same whatever
    follows it in the chunk (which is then ignored).  Missing: frames that span chunks, and
    frames after the first in a chunk. *)
Theorem C49_trailing_bytes_partial : forall U ev (ext : extension U) m raw uuid s h,
  set_order_ok (e_so ev) -> (forall l, Permutation l (e_roles ev l)) -> length uuid = 16%nat ->
  frame_of m raw -> zlen raw <= 2 ^ 29 -> answerable ev ext h m ->
  on_input ev ext uuid (raw ++ s) h = on_input ev ext uuid raw h.
Proof.
  intros U ev ext m raw uuid s h Hso Hp Hu Hf Hl A.
  rewrite <- (app_nil_r raw) at 2. revert s. generalize (@nil byte) as t.
  destruct A as [A|[(A & strict & r & R3)|[(A & strict & t & R2)|(A & strict & q & z & n & q' & a & u & p & Q2 & Q3 & Q4 & Q5 & Q6 & Q7 & Q8 & Q9)]]]; intros t0 s.
  - destruct (not_found_reply ev ext m raw Hso Hf Hl A) as (out & p & e & X1 & _ & _ & X4). rewrite !X4. reflexivity.
  - destruct (tcp_reply ev ext strict m raw r Hso Hf ltac:(lia) A R3) as (out & p & X & _ & Y). rewrite !Y. reflexivity.
  - destruct (transport_reply ev ext strict m raw t uuid Hso Hf (Hp _) Hu ltac:(lia) A R2) as (out & p & X & _ & Y). rewrite !Y. reflexivity.
  - destruct (rest_reply ev ext strict m raw q z n q' a Hso Hf A Q2 Q3 Q4 Q5 (response_exec a Q7)) as (p' & W & _ & X).
    rewrite Q8 in W. apply Ok_inj in W. subst p'. destruct X as (out & X & Y); [lia|]. rewrite !(Y uuid _ h u Q6). reflexivity.
Qed.
Print Assumptions C49_trailing_bytes_partial.
(** ... and the same for whole well-formed initialization requests *)
Theorem C49_init_trailing_bytes_partial : forall U ev (ext : extension U) strict m raw q uuid s h,
  set_order_ok (e_so ev) -> frame_of m raw -> is_init m -> w_init_request strict q (m_payload m) ->
  a_addr (n_addr (ir_source q)) < 2 ^ 31 -> a_addr (n_addr (x_node (ir_ext q))) < 2 ^ 31 ->
  on_input ev ext uuid (raw ++ s) h = on_input ev ext uuid raw h.
Proof.
  intros U ev ext strict m raw q uuid s h Hso Hf Hi Wq L1 L2.
  destruct (on_frame ev ext m raw Hso Hf) as (c & o & Sc & N & S & R). rewrite R. rewrite <- (app_nil_r raw), R.
  rewrite !dispatch_init by (rewrite (seen_action _ _ S); exact Hi).
  pose proof (fun s => init_request_reads strict q _ s (conj L1 L2) Wq) as Rd.
  unfold handle_discovery. rewrite !Rd, !hbind_hlift. reflexivity.
Qed.
Print Assumptions C49_init_trailing_bytes_partial.
Example C49_case : frame_of ex_tcp (ex_raw ex_tcp) /\ answerable ex_env ex_ext (initial_host 0) ex_tcp /\
  frame_of (ex_init 77) (ex_raw (ex_init 77)) /\ w_init_request true ex_init_request (m_payload (ex_init 77)).
Proof. split; [apply C67_case|]. split; [apply C43_case|]. split; apply C44_case. Qed.

(** C50.  For any run and any connection: [log] is what was received on it and what the host had
    to send for each chunk.  The completed sends, then the one going on, are those replies in
    order; some may be missing only if a send failed or the task was cancelled. *)
Theorem C50_replies_in_order : forall U ev (ext : extension U) u es c,
  let w := run_world ev ext (initial_world u) es in
  let chunks := log_of c (log ev ext (initial_world u) es) in
  let replies := somes (map hd_reply chunks) in
  (length replies <= length chunks)%nat /\
  subsequence (sent_on w c ++ in_flight w c) replies /\
  (~ In (SendDone c false) es -> ~ In (Cancelled c) es -> sent_on w c ++ in_flight w c = replies).
Proof.
  intros U ev ext u es c. cbv zeta. split; [|apply replies_sent].
  set (l := log_of c _). clearbody l. induction l as [|x l IH]; [apply le_n|]. cbn [map somes flat_map length].
  fold (somes (map hd_reply l)). rewrite app_length. destruct (hd_reply x); cbn [length]; lia.
Qed.
Print Assumptions C50_replies_in_order.
(** end of input, or a failed or cancelled receive, closes; after a chunk the connection is closed
    exactly if termination was requested; closed is forever *)
Theorem C50_closing : forall U ev (ext : extension U) w c,
  (conn_of w c = Some Receiving -> forall uuid, conn_of (world_step ev ext w (Recv c [] uuid)) c = Some Closed) /\
  (conn_of w c = Some Receiving -> conn_of (world_step ev ext w (RecvFail c)) c = Some Closed) /\
  (conn_of w c <> None -> conn_of (world_step ev ext w (Cancelled c)) c = Some Closed) /\
  (forall uuid raw, conn_of w c = Some Receiving -> raw <> [] -> zlen raw <= 10240 ->
     match fst (on_input ev ext uuid raw (w_host w)) with
     | Ok (Some out) => conn_of (world_step ev ext w (Recv c raw uuid)) c = Some (Sending out)
     | _ => conn_of (world_step ev ext w (Recv c raw uuid)) c = Some (if w_terminating w then Closed else Receiving)
     end) /\
  (forall out ok, conn_of w c = Some (Sending out) ->
     conn_of (world_step ev ext w (SendDone c ok)) c = Some (if w_terminating w then Closed else Receiving)) /\
  (conn_of w c = Some Closed -> forall es, conn_of (run_world ev ext w es) c = Some Closed /\
     sent_on (run_world ev ext w es) c = sent_on w c /\ log_of c (log ev ext w es) = []).
Proof.
  intros U ev ext w c. cbn [world_step]. change (dict_get Z.eqb c (w_conns w)) with (conn_of w c). change RECV_LIMIT with 10240.
  split; [intros -> uuid; change (10240 <? zlen (@nil byte)) with false; cbv iota; rewrite close_conn_of, Z.eqb_refl; reflexivity|].
  split; [intros ->; rewrite close_conn_of, Z.eqb_refl; reflexivity|].
  split; [destruct (conn_of w c) eqn:E; [intros _; rewrite close_conn_of, Z.eqb_refl; reflexivity|intros X; contradiction]|].
  split; [|split].
  - intros uuid raw -> N L. destruct (Z.ltb_spec 10240 (zlen raw)); [lia|]. destruct raw as [|b raw]; [contradiction|].
    destruct (on_input ev ext uuid (b :: raw) (w_host w)) as [[[d|]|e'] h]; cbn [fst];
      [rewrite conn_set, Z.eqb_refl; reflexivity|rewrite after_conn, Z.eqb_refl; reflexivity..].
  - intros out ok ->. rewrite after_conn, Z.eqb_refl. reflexivity.
  - intros H es. apply closed_forever, H.
Qed.
Print Assumptions C50_closing.
(** once termination was requested: at most one more chunk is handled on each connection, none on
    one that is sending, and at most one more connection is accepted *)
Theorem C50_termination : forall U ev (ext : extension U) w es, w_terminating w = true ->
  (forall c, length (log_of c (log ev ext w es)) <= 1)%nat /\
  (forall c out, conn_of w c = Some (Sending out) -> log_of c (log ev ext w es) = []) /\
  (length (w_conns (run_world ev ext w es)) <= length (w_conns w) + (if w_accepting w then 1 else 0))%nat.
Proof.
  intros U ev ext w es T. split; [|split].
  - intros c. eapply Nat.le_trans; [apply terminated_log, T|]. destruct (conn_of w c) as [[|d|]|]; lia.
  - intros c out H. pose proof (terminated_log ev ext es c w T) as L. rewrite H in L. destruct (log_of c _); [reflexivity|cbn in L; lia].
  - apply terminated_conns, T.
Qed.
Print Assumptions C50_termination.
Example C50_case : let es := [Accept 0; Accept 1; Recv 1 (ex_raw ex_tcp) []; Recv 0 (ex_raw ex_tcp) []; SendDone 0 true; Terminate;
    Recv 0 (ex_raw ex_tcp) []; SendDone 0 true; Recv 0 (ex_raw ex_tcp) []] in
  let w := run_world ex_env ex_ext (initial_world 0) es in
  conn_of w 0 = Some Closed /\ length (sent_on w 0) = 2%nat /\ length (in_flight w 1) = 1%nat /\
  length (log_of 0 (log ex_env ex_ext (initial_world 0) es)) = 2%nat.
Proof. vm_compute. repeat split. Qed.
