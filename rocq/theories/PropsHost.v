(** * Properties C40-C43, C67: the extension host *)
From Coq Require Import String ZArith List Bool Lia ZifyBool Permutation.
From Coq Require Import Strings.Byte.
From Verif Require Import Py Stream Version Frame Proto Messages Rest Routes Settings Host PyFacts
  Spec SpecFacts MsgFacts SettingsFacts PropsMessages Wire WireFacts WireFacts2 WireFacts3 WireFacts4 HostSpec HostFacts.
Import ListNotations.
Open Scope list_scope.
Open Scope Z_scope.
Ltac Zify.zify_post_hook ::= idtac.

(** ** A concrete extension and concrete messages, for the examples *)
Definition ex_env : env := mkEnv (fun l => l) (fun l => l) 10 (fun _ => None).
Definition ex_response : rest_response :=
  mkResp (Some 2) (map z2b (py "Hello!")) (py "text/plain") [(py "h", [py "1"; py "2"])] [py "p"] true.
(** one handler, on GET /hello/{name}, which counts its calls and fails on the path /hello/x *)
Definition ex_ext : extension Z :=
  mkExtn Z (py "hello") [py "Extension"; py "ActionExtension"]
    (match new_action_extension [[mkRoute 0 (py "/hello/{name}") (py "greet")]] with Ok g => g | Raise _ => empty_registry end)
    (fun n u q => (u + 1, if streqb (rq_path q) (py "/hello/x") then Raise EGeneric else Ok ex_response)).
Definition ex_ctx : ctx := mkCtx [(py "tenant", py "t1")] [(py "Warning", [py "a"; py "b"])].
Definition ex_msg (action : pystr) (id : Z) (hs : bool) (p : bytes) : message :=
  mkMsg ex_ctx [py "feature"] (version_of_id 2110399) action id hs false p.
(** the bytes of the frame *)
Definition ex_raw (m : message) : bytes :=
  match new_request (Some (m_ctx m)) (m_features m) (Some (Ok (m_payload m))) (HVer (m_version m))
      (m_action m) (Some (m_id m)) (m_hs m) (m_cp m) 0 with
  | (Ok o, _) => match write_outbound o with Ok b => b | Raise _ => [] end
  | _ => []
  end.
Lemma ex_frame action id hs p : text_ok action -> id <> 0 -> ex_raw (ex_msg action id hs p) <> [] ->
  frame_of (ex_msg action id hs p) (ex_raw (ex_msg action id hs p)).
Proof.
  intros Ta Hi Hr. right. unfold written_frame, ex_raw in *. cbn [ex_msg m_ctx m_features m_payload m_version m_action m_id m_hs m_cp] in *.
  split; [|split; [|split; [exact Ta|split; [exact Hi|]]]].
  - split; cbn [c_req c_res ex_ctx]; (split; [vm_compute; reflexivity|]); (split; [constructor; [intros []|constructor]|]);
      (constructor; [|constructor]); cbn [fst snd].
    + split; text.
    + split; [text|]. split; [split; [vm_compute; discriminate|constructor; [text|constructor; [text|constructor]]]|].
      constructor; [intros [H|[]]; vm_compute in H; discriminate|constructor; [intros []|constructor]].
  - split; [vm_compute; discriminate|constructor; [text|constructor]].
  - match goal with |- context [new_request ?a ?b ?c ?d ?e ?f ?g ?h] => destruct (new_request a b c d e f g h 0) as [[o|e0] n'] eqn:E end;
      [|contradiction Hr; reflexivity].
    exists 0, o, n'. split; [exact E|]. destruct (write_outbound o) eqn:W; [reflexivity|]. contradiction Hr; reflexivity.
Qed.
Lemma by_writer A (w : A -> res bytes) (F : fmt A) (P : A -> Prop) a bs : writes w F P -> P a -> w a = Ok bs -> F a bs.
Proof. intros W H E. destruct (W a H) as (b & E' & Hb). rewrite E in E'. apply Ok_inj in E'. subst b. exact Hb. Qed.
Lemma ex_env_ok : set_order_ok (e_so ex_env). Proof. intros l. apply Permutation_refl. Qed.

(** C40.  Whatever request the host answers at once, the reply [answers] it (HostSpec.v):
    any reader finds a response, without error bit, with the request's id, handshake and
    compress bits and context, version MIN_COMPAT, and the size the length minus 6. *)
Theorem C40_replies_echo : forall U ev (ext : extension U) uuid raw m h out h',
  set_order_ok (e_so ev) -> read_as (e_so ev) raw m -> m_id m <> 0 -> ~ is_init m ->
  on_input ev ext uuid raw h = (Ok (Some out), h') -> exists p, answers m p out.
Proof. intros U ev ext uuid raw m h out h'. apply immediate_reply. Qed.
Print Assumptions C40_replies_echo.
(** every well-formed frame reads as its message (the context's sets in any order), whatever
    follows it *)
Theorem C40_frames_read : forall so m raw, set_order_ok so -> frame_of m raw ->
  exists c, same_ctx (m_ctx m) c /\ forall s,
    read_as so (raw ++ s) (mkMsg c (m_features m) (m_version m) (m_action m) (m_id m) (m_hs m) (m_cp m) (m_payload m ++ s)).
Proof. exact read_as_frame. Qed.
Print Assumptions C40_frames_read.
Example C40_case : let m := ex_msg (py "internal:no/such") 7 true (map z2b (py "xyz")) in
  frame_of m (ex_raw m) /\ ~ is_init m /\
  exists out, fst (on_input ex_env ex_ext [] (ex_raw m) (initial_host 0)) = Ok (Some out).
Proof.
  split; [|split].
  - apply ex_frame; [text|discriminate|vm_compute; discriminate].
  - intros H. vm_compute in H. discriminate.
  - eexists. vm_compute. reflexivity.
Qed.

(** C41 *)
Theorem C41_unknown_action : forall U ev (ext : extension U) m raw,
  set_order_ok (e_so ev) -> frame_of m raw -> zlen raw <= 2 ^ 29 -> ~ In (m_action m) known_actions ->
  exists out p e, answers m p out /\
    is_utf8 (py "{""error"": ""No handler found for " ++ m_action m ++ py """}") e /\
    w_exec_response true (mkExec (Some 21) (py "application/json; charset=UTF-8") e [] [] false) p /\
    forall uuid s h, exists h', on_input ev ext uuid (raw ++ s) h = (Ok (Some out), h') /\ only_ids h h'.
Proof.
  intros U ev ext m raw Hso Hf Hl Ha. destruct (not_found_reply ev ext m raw Hso Hf Hl Ha) as (out & p & e & X1 & X2 & X3 & X4).
  exists out, p, e. split; [exact X1|]. split; [exact X2|]. split; [exact X3|].
  intros uuid s h. eexists. split; [apply X4|]. destruct h; repeat split.
Qed.
Print Assumptions C41_unknown_action.
Example C41_case : let m := ex_msg (py "internal:no/such") 7 true (map z2b (py "xyz")) in
  frame_of m (ex_raw m) /\ zlen (ex_raw m) <= 2 ^ 29 /\ ~ In (m_action m) known_actions.
Proof.
  split; [apply ex_frame; [text|discriminate|vm_compute; discriminate]|].
  split; [vm_compute; discriminate|]. intros H. vm_compute in H. repeat (destruct H as [H|H]; [discriminate|]). exact H.
Qed.

Lemma response_exec a : rest_response_ok a -> exec_response_ok (exec_of a).
Proof.
  intros (S1 & S2 & S3 & S4 & S5). split; [exact S1|]. split; [exact S3|]. split; [exact S2|]. split; [exact S4|apply S5].
Qed.
(** C42.  [q] is the REST request sent, [q'] what the user's handler gets: the same with
    nothing consumed.  The reply fits a frame. *)
Theorem C42_rest : forall U ev (ext : extension U) strict m raw q z n q' a,
  set_order_ok (e_so ev) -> frame_of m raw ->
  m_action m = py "internal:extensions/restexecuteonextensiontaction" ->
  w_rest_request strict q (m_payload m) -> rq_method q = Some z ->
  find_handler (e_cls ev) (rg_map (xt_registry ext)) (mname z ++ [32] ++ rq_path q) = Ok n ->
  received_request q q' ->
  rest_response_ok a ->
  exists p r, w_exec_response true r p /\
    ex_status r = rp_status a /\ ex_content r = rp_content a /\ ex_ctype r = rp_ctype a /\
    ex_headers r = rp_headers a /\ ex_consumed r = rp_consumed a /\ ex_content_consumed r = rp_content_consumed a /\
    (zlen raw + zlen p < 2 ^ 31 -> exists out, answers m p out /\
     forall uuid s h u, xt_invoke ext n (hs_user h) q' = (u, Ok a) ->
       exists h', on_input ev ext uuid (raw ++ s) h = (Ok (Some out), h') /\
         hs_user h' = u /\ hs_pending h' = hs_pending h /\ hs_init h' = hs_init h /\ hs_settings h' = hs_settings h).
Proof.
  intros U ev ext strict m raw q z n q' a Hso Hf Ha Wq Hz Hn Hr (S1 & S2 & S3 & S4 & S5).
  destruct (rest_reply ev ext strict m raw q z n q' a Hso Hf Ha Wq Hz Hn Hr) as (p & Wp & Rp & X).
  { apply response_exec. exact (conj S1 (conj S2 (conj S3 (conj S4 S5)))). }
  exists p, (exec_of a). split; [exact Rp|]. do 6 (split; [reflexivity|]). intros Hl.
  destruct (X Hl) as (out & A & B). exists out. split; [exact A|]. intros uuid s h u Hu.
  eexists. split; [exact (B uuid s h u Hu)|]. destruct h; repeat split.
Qed.
Print Assumptions C42_rest.
(** ... and the handler is called with nothing else, also when it raises: then nothing is
    sent, only the user's state changes *)
Theorem C42_handler_raises : forall U ev (ext : extension U) strict m raw q z n q' uuid s h u e,
  set_order_ok (e_so ev) -> frame_of m raw ->
  m_action m = py "internal:extensions/restexecuteonextensiontaction" ->
  w_rest_request strict q (m_payload m) -> rq_method q = Some z ->
  find_handler (e_cls ev) (rg_map (xt_registry ext)) (mname z ++ [32] ++ rq_path q) = Ok n ->
  received_request q q' -> xt_invoke ext n (hs_user h) q' = (u, Raise e) ->
  exists h', on_input ev ext uuid (raw ++ s) h = (Raise e, h') /\
    hs_user h' = u /\ hs_pending h' = hs_pending h /\ hs_init h' = hs_init h /\ hs_settings h' = hs_settings h.
Proof.
  intros U ev ext strict m raw q z n q' uuid s h u e Hso Hf Ha Wq Hz Hn Hr Hu.
  destruct (on_frame ev ext m raw Hso Hf) as (c & o & Sc & N & S & R).
  rewrite R, dispatch_rest by (rewrite (seen_action _ _ S); exact Ha).
  rewrite (rest_call ev ext strict o q z n q' _ _ _ Wq Hz Hn Hr).
  replace (hs_user (set_next h (hs_next h + 2))) with (hs_user h) by (destruct h; reflexivity). rewrite Hu.
  eexists. split; [reflexivity|]. destruct h; repeat split.
Qed.
Print Assumptions C42_handler_raises.
Definition ex_rest (path : pystr) : rest_request :=
  mkReq (mkTask (py "node") (Some 5)) (Some 0) (path ++ py "?a=1") path [(py "a", py "1")] [(py "Accept", [py "*/*"])]
    (py "application/json") (map z2b (py "{}")) (py "token") (Some 1) [py "a"] true.
Definition ex_rest_msg (path : pystr) : message :=
  ex_msg (py "internal:extensions/restexecuteonextensiontaction") 9 false
    (match write_rest_request (ex_rest path) with Ok b => b | Raise _ => [] end).
Lemma ex_rest_ok path : text_ok path -> text_ok (path ++ py "?a=1") -> rest_request_ok (ex_rest path).
Proof.
  intros T T'. split; [right; split; [discriminate|]; split; [text|]; exists 5; split; [reflexivity|vm_compute; split; [discriminate|reflexivity]]|].
  split; [exists 0; split; [reflexivity|vm_compute; split; [discriminate|reflexivity]]|].
  split; [constructor; [exact T'|]; constructor; [exact T|]; repeat (constructor; [text|]); constructor|].
  split; [split; [reflexivity|]; split; [constructor; [intros []|constructor]|constructor; [split; text|constructor]]|].
  split; [split; [reflexivity|]; split; [constructor; [intros []|constructor]|constructor; [split; [text|split; [vm_compute; discriminate|constructor; [text|constructor]]]|constructor]]|].
  split; [vm_compute; discriminate|]. exists 1; split; [reflexivity|vm_compute; split; [discriminate|reflexivity]].
Qed.
Example C42_case : let q := ex_rest (py "/hello/you") in let m := ex_rest_msg (py "/hello/you") in
  frame_of m (ex_raw m) /\ w_rest_request true q (m_payload m) /\
  find_handler (e_cls ex_env) (rg_map (xt_registry ex_ext)) (mname 0 ++ [32] ++ rq_path q) = Ok 0%nat /\
  rest_response_ok ex_response /\
  exists out, on_input ex_env ex_ext [] (ex_raw m) (initial_host 0) = (Ok (Some out), mkHost 2 [] None [] 1).
Proof.
  cbv zeta. split; [apply ex_frame; [text|discriminate|vm_compute; discriminate]|].
  split; [apply (by_writer _ _ _ _ _ _ (rest_request_writes true)); [apply ex_rest_ok; text|reflexivity]|].
  split; [vm_compute; reflexivity|]. split.
  { split; [exists 2; split; [reflexivity|vm_compute; split; [discriminate|reflexivity]]|].
    split; [vm_compute; discriminate|]. split; [text|].
    split; [split; [reflexivity|]; split; [constructor; [intros []|constructor]|constructor; [split; [text|split; [vm_compute; discriminate|constructor; [text|constructor; [text|constructor]]]]|constructor]]|].
    split; [split; [vm_compute; discriminate|constructor; [text|constructor]]|constructor; [intros []|constructor]]. }
  eexists. vm_compute. reflexivity.
Qed.

(** C67: what the handshakes answer.  [e_roles] is the iteration order of the set of roles,
    [uuid] 16 random bytes. *)
Theorem C67_tcp_handshake : forall U ev (ext : extension U) strict m raw r,
  set_order_ok (e_so ev) -> frame_of m raw -> zlen raw <= 2 ^ 30 -> m_action m = py "internal:tcp/handshake" ->
  w_tcp_handshake_request strict r (m_payload m) ->
  exists out p, answers m p out /\ w_version true (version_of_id 3000099) p /\
    forall uuid s h, exists h', on_input ev ext uuid (raw ++ s) h = (Ok (Some out), h') /\ only_ids h h'.
Proof.
  intros U ev ext strict m raw r Hso Hf Hl Ha H3. destruct (tcp_reply ev ext strict m raw r Hso Hf Hl Ha H3) as (out & p & A & B & C).
  exists out, p. split; [exact A|]. split; [exact B|]. intros uuid s h. eexists. split; [apply C|]. destruct h; repeat split.
Qed.
Print Assumptions C67_tcp_handshake.
Theorem C67_transport_handshake : forall U ev (ext : extension U) strict m raw t uuid,
  set_order_ok (e_so ev) -> (forall l, Permutation l (e_roles ev l)) -> length uuid = 16%nat ->
  frame_of m raw -> zlen raw <= 2 ^ 30 -> m_action m = py "internal:transport/handshake" ->
  w_task strict t (m_payload m) ->
  exists out p roles, answers m p out /\
    Permutation roles [(py "cluster_manager", py "m", false); (py "data", py "d", true);
                       (py "ingest", py "i", false); (py "remote_cluster_client", py "r", false)] /\
    w_handshake_response true (mkHsResp (Some (
      mkNode (py "hello-world") (py "hello-world") (new_ephemeral_id uuid) (py "127.0.0.1") (py "127.0.0.1")
        (mkAddr (127 * 2 ^ 24 + 1) (py "127.0.0.1") 1234) [] roles (version_of_id 3000099)))
      [] (version_of_id 3000099)) p /\
    forall s h, exists h', on_input ev ext uuid (raw ++ s) h = (Ok (Some out), h') /\ only_ids h h'.
Proof.
  intros U ev ext strict m raw t uuid Hso Hp Hu Hf Hl Ha Wt.
  destruct (transport_reply ev ext strict m raw t uuid Hso Hf (Hp _) Hu Hl Ha Wt) as (out & p & A & B & C).
  exists out, p, (e_roles ev own_roles). split; [exact A|]. split; [apply Permutation_sym, Hp|].
  split; [|intros s h; eexists; split; [apply C|]; destruct h; repeat split].
  rewrite own_hello in B. unfold hello_node in B. exact B.
Qed.
Print Assumptions C67_transport_handshake.
Definition ex_tcp : message := ex_msg (py "internal:tcp/handshake") 3 true
  (match write_tcp_handshake_request (mkTcpReq (mkTask [] None) (Some (version_of_id 2110399))) with Ok b => b | Raise _ => [] end).
Definition ex_transport : message := ex_msg (py "internal:transport/handshake") 4 false
  (match write_transport_request (mkTask (py "n") (Some 1)) with Ok b => b | Raise _ => [] end).
Example C67_case :
  frame_of ex_tcp (ex_raw ex_tcp) /\ w_tcp_handshake_request true (mkTcpReq (mkTask [] None) (Some (version_of_id 2110399))) (m_payload ex_tcp) /\
  frame_of ex_transport (ex_raw ex_transport) /\ w_task true (mkTask (py "n") (Some 1)) (m_payload ex_transport) /\
  (exists out, fst (on_input ex_env ex_ext [] (ex_raw ex_tcp) (initial_host 0)) = Ok (Some out)) /\
  (exists out, fst (on_input ex_env ex_ext (repeat x07 16) (ex_raw ex_transport) (initial_host 0)) = Ok (Some out)).
Proof.
  split; [apply ex_frame; [text|discriminate|vm_compute; discriminate]|].
  split.
  { apply (by_writer _ _ _ _ _ _ (tcp_request_writes true)); [|reflexivity].
    split; [split; [left; split; reflexivity|]; intros v Hv; cbn in Hv; assert (v = version_of_id 2110399) by congruence; subst v; vm_compute; split; [discriminate|reflexivity]|].
    eexists. split; [reflexivity|vm_compute; reflexivity]. }
  split; [apply ex_frame; [text|discriminate|vm_compute; discriminate]|].
  split.
  { apply (by_writer _ _ _ _ _ _ (task_writes true)); [|reflexivity].
    right; split; [discriminate|]; split; [text|]; exists 1; split; [reflexivity|vm_compute; split; [discriminate|reflexivity]]. }
  split; eexists; vm_compute; reflexivity.
Qed.

(** C43, full statement (here for REST requests): false. *)
Definition C43_statement : Prop := forall U ev (ext : extension U) m raw q uuid h,
  set_order_ok (e_so ev) -> frame_of m raw ->
  m_action m = py "internal:extensions/restexecuteonextensiontaction" ->
  w_rest_request true q (m_payload m) ->
  exists out h', on_input ev ext uuid raw h = (Ok (Some out), h').
(** no route matches GET /nope *)
Theorem C43_no_route_refuted : ~ C43_statement.
Proof.
  intros S. destruct (S Z ex_env ex_ext (ex_rest_msg (py "/nope")) (ex_raw (ex_rest_msg (py "/nope"))) (ex_rest (py "/nope")) [] (initial_host 0)
    ex_env_ok) as (out & h' & E).
  - apply ex_frame; [text|discriminate|vm_compute; discriminate].
  - reflexivity.
  - apply (by_writer _ _ _ _ _ _ (rest_request_writes true)); [apply ex_rest_ok; text|reflexivity].
  - assert (F : fst (on_input ex_env ex_ext [] (ex_raw (ex_rest_msg (py "/nope"))) (initial_host 0)) = Raise EGeneric) by (vm_compute; reflexivity).
    rewrite E in F. discriminate.
Qed.
Print Assumptions C43_no_route_refuted.
(** the handler raises on /hello/x *)
Theorem C43_handler_raises_refuted : ~ C43_statement.
Proof.
  intros S. destruct (S Z ex_env ex_ext (ex_rest_msg (py "/hello/x")) (ex_raw (ex_rest_msg (py "/hello/x"))) (ex_rest (py "/hello/x")) [] (initial_host 0)
    ex_env_ok) as (out & h' & E).
  - apply ex_frame; [text|discriminate|vm_compute; discriminate].
  - reflexivity.
  - apply (by_writer _ _ _ _ _ _ (rest_request_writes true)); [apply ex_rest_ok; text|reflexivity].
  - assert (F : fst (on_input ex_env ex_ext [] (ex_raw (ex_rest_msg (py "/hello/x"))) (initial_host 0)) = Raise EGeneric) by (vm_compute; reflexivity).
    rewrite E in F. discriminate.
Qed.
Print Assumptions C43_handler_raises_refuted.
(** Requests the host does answer at once *)
Definition answerable {U} (ev : env) (ext : extension U) (h : host U) (m : message) : Prop :=
  ~ In (m_action m) known_actions \/
  (m_action m = py "internal:tcp/handshake" /\ exists strict r, w_tcp_handshake_request strict r (m_payload m)) \/
  (m_action m = py "internal:transport/handshake" /\ exists strict t, w_task strict t (m_payload m)) \/
  (m_action m = py "internal:extensions/restexecuteonextensiontaction" /\
   exists strict q z n q' a u p, w_rest_request strict q (m_payload m) /\ rq_method q = Some z /\
     find_handler (e_cls ev) (rg_map (xt_registry ext)) (mname z ++ [32] ++ rq_path q) = Ok n /\
     received_request q q' /\ xt_invoke ext n (hs_user h) q' = (u, Ok a) /\ rest_response_ok a /\
     write_exec_response (exec_of a) = Ok p /\ zlen p < 2 ^ 30).
(** C43, what holds: those, and the initialization (C44), are answered, whatever else is in the
    chunk; any other request that is not an initialization leaves registrations, settings and
    the pending initialization as they were. *)
Theorem C43_answered_partial : forall U ev (ext : extension U) m raw uuid h,
  set_order_ok (e_so ev) -> (forall l, Permutation l (e_roles ev l)) -> length uuid = 16%nat ->
  frame_of m raw -> zlen raw <= 2 ^ 29 -> answerable ev ext h m ->
  exists out p, answers m p out /\ forall s, exists h', on_input ev ext uuid (raw ++ s) h = (Ok (Some out), h').
Proof.
  intros U ev ext m raw uuid h Hso Hp Hu Hf Hl [A|[(A & strict & r & R3)|[(A & strict & t & R2)|(A & strict & q & z & n & q' & a & u & p & Q2 & Q3 & Q4 & Q5 & Q6 & Q7 & Q8 & Q9)]]].
  - destruct (not_found_reply ev ext m raw Hso Hf Hl A) as (out & p & e & X1 & _ & _ & X4). exists out, p. split; [exact X1|]. intros s; eauto.
  - destruct (tcp_reply ev ext strict m raw r Hso Hf ltac:(lia) A R3) as (out & p & X & _ & Y). exists out, p. split; [exact X|]. intros s; eauto.
  - destruct (transport_reply ev ext strict m raw t uuid Hso Hf (Hp _) Hu ltac:(lia) A R2) as (out & p & X & _ & Y). exists out, p. split; [exact X|]. intros s; eauto.
  - destruct (rest_reply ev ext strict m raw q z n q' a Hso Hf A Q2 Q3 Q4 Q5 (response_exec a Q7)) as (p' & W & _ & X).
    rewrite Q8 in W. apply Ok_inj in W. subst p'. destruct X as (out & X & Y); [lia|]. exists out, p. split; [exact X|]. intros s; eauto.
Qed.
Print Assumptions C43_answered_partial.
Theorem C43_silence_is_harmless_partial : forall U ev (ext : extension U) m raw uuid h r h',
  set_order_ok (e_so ev) -> read_as (e_so ev) raw m -> ~ is_init m -> on_input ev ext uuid raw h = (r, h') ->
  hs_pending h' = hs_pending h /\ hs_init h' = hs_init h /\ hs_settings h' = hs_settings h.
Proof.
  intros U ev ext m raw uuid h r h' Hso Hm Hn H. destruct (on_request ev ext raw m Hso Hm) as (o & S & _ & E). rewrite E in H.
  apply quiet_not_init in H; [|rewrite (seen_action _ _ S); exact Hn]. destruct H as (P & I & T & _). auto.
Qed.
Print Assumptions C43_silence_is_harmless_partial.
Example C43_case : answerable ex_env ex_ext (initial_host 0) (ex_rest_msg (py "/hello/you")) /\
  answerable ex_env ex_ext (initial_host 0) ex_tcp /\ answerable ex_env ex_ext (initial_host 0) ex_transport.
Proof.
  split; [|split].
  - right; right; right. split; [reflexivity|].
    exists true, (ex_rest (py "/hello/you")), 0, 0%nat.
    eexists (mkReq _ _ _ _ _ _ _ _ _ _ [] false), ex_response, 1, _.
    split; [apply C42_case|]. split; [reflexivity|]. split; [vm_compute; reflexivity|].
    split; [repeat split|]. split; [reflexivity|]. split; [apply C42_case|split; [reflexivity|vm_compute; reflexivity]].
  - right; left. split; [reflexivity|]. exists true. eexists. apply C67_case.
  - right; right; left. split; [reflexivity|]. exists true. eexists. apply C67_case.
Qed.
