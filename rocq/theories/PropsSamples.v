(** * Properties C75, C76: the sample extensions, end to end *)
From Coq Require Import String ZArith List Bool Lia Permutation.
From Coq Require Import Strings.Byte.
From Verif Require Import Py Stream Version Frame Proto Messages Rest Routes Settings Host Samples PyFacts
  Spec SpecFacts MsgFacts RouteFacts SettingsFacts PropsMessages Wire WireFacts WireFacts2 WireFacts3 WireFacts4
  HostSpec HostFacts PropsHost.
Import ListNotations.
Open Scope list_scope.
Open Scope Z_scope.

(** ** Routing tables of literal text *)
Lemma gmatch_text cls x p : forall s, gmatch cls (map GLit x ++ p) s = true <-> exists t, s = x ++ t /\ gmatch cls p t = true.
Proof.
  induction x as [|c x IH]; intros s.
  - cbn. split; [intros H; exists s; auto|intros (t & -> & H); exact H].
  - cbn [map app gmatch]. destruct s as [|d s].
    + split; [discriminate|]. intros (t & E & _). discriminate E.
    + rewrite andb_true_iff, Z.eqb_eq, IH. split.
      * intros (-> & t & -> & H). exists t. auto.
      * intros (t & E & H). cbn in E. injection E as -> ->. split; [reflexivity|]. exists t. auto.
Qed.

Definition hello_map : sdict nat := [(py "GET /hello", 0%nat); (py "GET /hello/*", 0%nat)].
Definition to_hello (route : pystr) : Prop :=
  route = py "GET /hello" \/ exists rest, route = py "GET /hello/" ++ rest.
Lemma hello_find cls route : (to_hello route -> find_handler cls hello_map route = Ok 0%nat) /\
  (~ to_hello route -> find_handler cls hello_map route = Raise EGeneric).
Proof.
  unfold find_handler, hello_map. cbn [dict_get].
  destruct (streqb route (py "GET /hello")) eqn:E1.
  { split; [reflexivity|]. intros N. contradiction N. left. apply streqb_eq, E1. }
  destruct (streqb route (py "GET /hello/*")) eqn:E2.
  { split; [reflexivity|]. intros N. contradiction N. right. exists [42]. apply streqb_eq, E2. }
  cbn [first_glob]. unfold fnmatch.
  change (gtoks 0 (py "GET /hello")) with (map GLit (py "GET /hello") ++ []).
  change (gtoks 0 (py "GET /hello/*")) with (map GLit (py "GET /hello/") ++ [GStar]).
  change (classes_ok cls (map GLit (py "GET /hello") ++ [])) with true.
  change (classes_ok cls (map GLit (py "GET /hello/") ++ [GStar])) with true. cbn [bind].
  destruct (gmatch cls (map GLit (py "GET /hello") ++ []) route) eqn:G1.
  { apply gmatch_text in G1 as (t & -> & G1). destruct t; [|discriminate]. split; [reflexivity|].
    intros N. contradiction N. left. apply app_nil_r. }
  destruct (gmatch cls (map GLit (py "GET /hello/") ++ [GStar]) route) eqn:G2.
  { apply gmatch_text in G2 as (t & -> & _). split; [reflexivity|]. intros N. contradiction N. right. exists t. reflexivity. }
  split; [|reflexivity]. intros [->|(r & ->)].
  - rewrite streqb_refl in E1. discriminate.
  - exfalso. assert (X : gmatch cls (map GLit (py "GET /hello/") ++ [GStar]) (py "GET /hello/" ++ r) = true).
    { apply gmatch_text. exists r. split; [reflexivity|]. apply gmatch_star. exists r, []. split; [symmetry; apply app_nil_r|reflexivity]. }
    congruence.
Qed.
(** ** A REST request that finds no handler *)
Lemma rest_unrouted {U} ev (ext : extension U) strict m raw q z : set_order_ok (e_so ev) -> frame_of m raw ->
  m_action m = py "internal:extensions/restexecuteonextensiontaction" -> w_rest_request strict q (m_payload m) ->
  rq_method q = Some z -> find_handler (e_cls ev) (rg_map (xt_registry ext)) (mname z ++ [32] ++ rq_path q) = Raise EGeneric ->
  forall uuid s h, exists h', on_input ev ext uuid (raw ++ s) h = (Raise EGeneric, h') /\ only_ids h h'.
Proof.
  intros Hso Hf Ha Wq Hz Hn uuid s h. destruct (on_frame ev ext m raw Hso Hf) as (c & o & Sc & N & S & R).
  rewrite R, dispatch_rest by (rewrite (seen_action _ _ S); exact Ha).
  rewrite (rest_no_route ev ext strict o q z _ _ _ Wq Hz _ Hn). eexists. split; [reflexivity|]. destruct h; repeat split.
Qed.

(** ** Facts about received requests *)
Lemma dict_from_in V (l d : sdict V) x : dict_from l d -> In x d -> In x l.
Proof.
  intros H. induction H; intros Hx; rewrite ?in_app_iff in *; cbn [In] in *; intuition.
Qed.
Lemma parts_each A (F : A -> bytes -> Prop) l : forall bs, parts (map F l) bs -> forall x, In x l -> exists b, F x b.
Proof.
  induction l as [|y l IH]; intros bs H x Hx; [destruct Hx|]. cbn [map] in H. apply parts_cons_inv in H as (a & b & -> & P & H). destruct Hx as [->|Hx]; [eauto|eapply IH; eassumption].
Qed.
Lemma utf8_app a b e f : is_utf8 a e -> is_utf8 b f -> is_utf8 (a ++ b) (e ++ f).
Proof.
  unfold is_utf8. rewrite map_app. intros H K. induction H; [exact K|]. rewrite <- !app_assoc. cbn [app]. constructor; assumption.
Qed.

Lemma request_facts strict q bs : w_rest_request strict q bs -> NoDup (map fst (rq_params q)) /\
  (forall k v, In (k, v) (rq_params q) -> exists e, is_utf8 v e) /\ exists z, rq_method q = Some z /\ 0 <= z < 9.
Proof.
  intros (z & hv & o & Ez & _ & _ & _ & H). apply parts_cons_inv in H as (b0 & r0 & _ & _ & H).
  apply parts_cons_inv in H as (b1 & r1 & _ & Hz & H). apply parts_cons_inv in H as (b2 & r2 & _ & _ & H).
  apply parts_cons_inv in H as (b3 & r3 & _ & _ & H). apply parts_cons_inv in H as (b4 & r4 & _ & (l & D & _ & Hd) & _).
  split; [apply (dict_from_nodup _ _ _ D)|]. split.
  - intros k v Hv. apply (dict_from_in _ _ _ _ D) in Hv. unfold w_list in Hd. apply parts_cons_inv in Hd as (b5 & r5 & _ & _ & Hd).
    destruct (parts_each _ _ _ _ Hd _ Hv) as (b6 & P). cbn [fst snd] in P.
    apply parts_cons_inv in P as (b7 & r7 & _ & _ & P). apply parts_cons_inv in P as (b8 & r8 & _ & (e & He & _) & _). eauto.
  - exists z. split; [exact Ez|]. apply Hz.
Qed.
Lemma received_of q : received_request q (with_consumed q [] false).
Proof. repeat split. Qed.

(** method and path can be told apart *)
Lemma method_path z z0 a b : 0 <= z < 9 -> 0 <= z0 < 9 -> mname z ++ [32] ++ a = mname z0 ++ [32] ++ b -> z = z0 /\ a = b.
Proof.
  intros R R0 H. assert (C : z = 0 \/ z = 1 \/ z = 2 \/ z = 3 \/ z = 4 \/ z = 5 \/ z = 6 \/ z = 7 \/ z = 8) by lia.
  assert (C0 : z0 = 0 \/ z0 = 1 \/ z0 = 2 \/ z0 = 3 \/ z0 = 4 \/ z0 = 5 \/ z0 = 6 \/ z0 = 7 \/ z0 = 8) by lia.
  clear R R0. repeat (destruct C as [->|C]); try subst z; repeat (destruct C0 as [->|C0]); try subst z0; vm_compute in H;
    try discriminate H; (split; [reflexivity|]); injection H as H; exact H.
Qed.

(** the text of the greeting, from the parameters of the request; 0x1F44B is the waving hand *)
Definition greeting (params : list (pystr * pystr)) (text : pystr) : Prop :=
  (exists v, In (py "name", v) params /\ text = py "Hello " ++ v ++ py "! " ++ [0x1F44B; 10]) \/
  (~ In (py "name") (map fst params) /\ text = py "Hello from Python! " ++ [0x1F44B; 10]).

(** C75: the hello sample.  Method 0 is GET, status 2 is 200 OK. *)
Theorem C75_hello : exists ext, hello_extension = Ok ext /\
  xt_name ext = py "hello-world-py" /\ xt_interfaces ext = [py "Extension"; py "ActionExtension"] /\
  rg_named (xt_registry ext) = [py "GET /hello greeting"; py "GET /hello/{name} personal_greeting"] /\
  forall ev strict m raw q, set_order_ok (e_so ev) -> frame_of m raw ->
  m_action m = py "internal:extensions/restexecuteonextensiontaction" -> w_rest_request strict q (m_payload m) ->
  let served := rq_method q = Some 0 /\ (rq_path q = py "/hello" \/ exists rest, rq_path q = py "/hello/" ++ rest) in
  (served -> exists text e, greeting (rq_params q) text /\ is_utf8 text e /\
     (zlen e <= 2 ^ 31 -> exists p,
        w_exec_response true (mkExec (Some 2) (py "text/plain; charset=UTF-8") e [] [py "name"] false) p /\
        (zlen raw + zlen p < 2 ^ 31 -> exists out, answers m p out /\
         forall uuid s h, exists h', on_input ev ext uuid (raw ++ s) h = (Ok (Some out), h') /\ only_ids h h'))) /\
  (~ served -> forall uuid s h, exists h', on_input ev ext uuid (raw ++ s) h = (Raise EGeneric, h') /\ only_ids h h').
Proof.
  eexists. split; [reflexivity|]. split; [reflexivity|]. split; [reflexivity|]. split; [reflexivity|].
  set (ext := mkExtn _ _ _ _ _). intros ev strict m raw q Hso Hf Ha Wq served.
  destruct (request_facts strict q _ Wq) as (Nd & Hu & z & Hz & Rz).
  destruct (hello_find (e_cls ev) (mname z ++ [32] ++ rq_path q)) as [F1 F2].
  assert (Sv : served <-> to_hello (mname z ++ [32] ++ rq_path q)).
  { unfold served. rewrite Hz. split.
    - intros (E & [->|(r & ->)]); apply (f_equal (fun o => match o with Some x => x | None => 0 end)) in E; subst z; [left; reflexivity|right; exists r; reflexivity].
    - intros [X|(r & X)].
      + apply (method_path z 0 _ (py "/hello") Rz ltac:(lia)) in X as [-> E]. auto.
      + apply (method_path z 0 _ (py "/hello/" ++ r) Rz ltac:(lia)) in X as [-> E]. split; [reflexivity|]. right. exists r. exact E. }
  change (rg_map (xt_registry ext)) with hello_map in *.
  split.
  - intros Hs. apply Sv in Hs. specialize (F1 Hs). clear F2.
    assert (G : exists text e, greeting (rq_params q) text /\ is_utf8 text e /\
      hello_handle (with_consumed q [] false) = Ok (mkResp (Some 2) e TEXT_CONTENT_TYPE [] [py "name"] false)).
    { unfold hello_handle. cbn [do_call with_consumed rq_params rq_consumed].
      destruct (dict_get streqb (py "name") (rq_params q)) as [v|] eqn:Dg.
      - apply (dict_get_In _ streqb_eq) in Dg. destruct (Hu _ _ Dg) as (e & He).
        assert (Ha1 : is_utf8 (py "Hello ") (map z2b (py "Hello "))) by (apply is_utf8_encode; reflexivity).
        assert (Ha2 : is_utf8 (py "! " ++ [0x1F44B; 10]) (map z2b [33; 32; 240; 159; 145; 139; 10])) by (apply is_utf8_encode; reflexivity).
        pose proof (utf8_app _ _ _ _ Ha1 (utf8_app _ _ _ _ He Ha2)) as Ht.
        eexists _, _. split; [left; exists v; split; [exact Dg|reflexivity]|]. split; [exact Ht|].
        apply is_utf8_encode in Ht. rewrite Ht. reflexivity.
      - apply (dict_get_None _ streqb_eq) in Dg. eexists _, _. split; [right; split; [exact Dg|reflexivity]|].
        split; [apply is_utf8_encode; reflexivity|reflexivity]. }
    destruct G as (text & e & G & Ue & Hh). exists text, e. split; [exact G|]. split; [exact Ue|]. intros Le.
    set (a := mkResp (Some 2) e TEXT_CONTENT_TYPE [] [py "name"] false) in *.
    assert (Ok' : rest_response_ok a).
    { split; [exists 2; split; [reflexivity|lia]|]. split; [exact Le|]. split; [text|]. split; [|split].
      - split; [reflexivity|]. split; constructor.
      - split; [vm_compute; discriminate|]. constructor; [text|constructor].
      - constructor; [intros []|constructor]. }
    destruct (rest_reply ev ext strict m raw q z 0%nat (with_consumed q [] false) a Hso Hf Ha Wq Hz F1 (received_of q)
      (response_exec _ Ok')) as (p & _ & W & X).
    exists p. split; [exact W|]. intros Lp. destruct (X Lp) as (out & A & R). exists out. split; [exact A|].
    intros uuid s h. eexists. split; [apply R; cbn [xt_invoke ext]; rewrite Hh; reflexivity|]. destruct h; repeat split.
  - intros Ns. assert (N : ~ to_hello (mname z ++ [32] ++ rq_path q)) by (rewrite <- Sv; exact Ns).
    apply (rest_unrouted ev ext strict m raw q z Hso Hf Ha Wq Hz (F2 N)).
Qed.
Print Assumptions C75_hello.
Definition ex_hello : rest_request :=
  mkReq (mkTask (py "node") (Some 5)) (Some 0) (py "/hello/Tester") (py "/hello/Tester") [(py "name", py "Tester")]
    [(py "Accept", [py "*/*"])] [] [] (py "token") (Some 1) [] false.
Definition rest_action : pystr := py "internal:extensions/restexecuteonextensiontaction".
Definition ex_sent (q : rest_request) : message :=
  ex_msg rest_action 9 false (match write_rest_request q with Ok b => b | Raise _ => [] end).
Lemma ex_sent_wire q : rest_request_ok q -> w_rest_request true q (m_payload (ex_sent q)).
Proof.
  intros H. destruct (rest_request_writes true q H) as (b & W & F). unfold ex_sent. cbn [ex_msg m_payload].
  rewrite W. exact F.
Qed.
(** what a fresh host with the extension sends when it receives [raw] *)
Definition sent_by {U} (ext : res (extension U)) (u : U) (raw : bytes) : bytes :=
  match ext with
  | Ok ext => match fst (on_input ex_env ext [] raw (initial_host u)) with Ok (Some out) => out | _ => [] end
  | Raise _ => []
  end.
(** the frame of GET /hello/Tester; the greeting in the reply *)
Example C75_case : frame_of (ex_sent ex_hello) (ex_raw (ex_sent ex_hello)) /\
  w_rest_request true ex_hello (m_payload (ex_sent ex_hello)) /\
  firstn 19 (skipn 76 (sent_by hello_extension tt (ex_raw (ex_sent ex_hello)))) =
  map z2b (py "Hello Tester! ") ++ [xf0; x9f; x91; x8b; x0a].
Proof.
  split; [apply ex_frame; [text|vm_compute; discriminate|vm_compute; discriminate]|]. split.
  - apply ex_sent_wire. split; [right; split; [discriminate|]; split; [text|]; exists 5; split; [reflexivity|vm_compute; split; [discriminate|reflexivity]]|].
    split; [exists 0; split; [reflexivity|lia]|]. split; [repeat (constructor; [text|]); constructor|].
    split; [split; [reflexivity|]; split; [constructor; [intros []|constructor]|constructor; [split; text|constructor]]|].
    split; [split; [reflexivity|]; split; [constructor; [intros []|constructor]|constructor; [split; [text|split; [vm_compute; discriminate|constructor; [text|constructor]]]|constructor]]|].
    split; [vm_compute; discriminate|]. exists 1; split; [reflexivity|lia].
  - vm_compute. reflexivity.
Qed.

(** ** The crud sample *)
Definition crud_map : sdict nat :=
  [(py "POST /crud", 0%nat); (py "GET /crud", 0%nat); (py "PUT /crud", 0%nat); (py "DELETE /crud", 0%nat)].
Definition to_crud (route : pystr) : Prop :=
  In route [py "POST /crud"; py "GET /crud"; py "PUT /crud"; py "DELETE /crud"].
Lemma first_glob_text cls route m : Forall (fun kv => gtoks 0 (fst kv) = map GLit (fst kv)) m ->
  ~ In route (map fst m) -> first_glob cls route m = Raise EGeneric.
Proof.
  induction 1 as [|[k h] m Hk F IH]; intros Hn; [reflexivity|]. cbn [map fst In] in *. cbn [first_glob]. unfold fnmatch.
  rewrite Hk. replace (classes_ok cls (map GLit k)) with true by (clear; induction k; [reflexivity|exact IHk]). cbn [bind].
  destruct (gmatch cls (map GLit k) route) eqn:G; [|apply IH; tauto]. exfalso. apply Hn. left.
  rewrite <- (app_nil_r (map GLit k)) in G. apply gmatch_text in G as (t & -> & G). destruct t; [|discriminate]. symmetry. apply app_nil_r.
Qed.
Lemma crud_find cls route : (to_crud route -> find_handler cls crud_map route = Ok 0%nat) /\
  (~ to_crud route -> find_handler cls crud_map route = Raise EGeneric).
Proof.
  unfold find_handler. split.
  - intros [<-|[<-|[<-|[<-|[]]]]]; reflexivity.
  - intros N. assert (D : dict_get streqb route crud_map = None) by (apply (dict_get_None _ streqb_eq); exact N).
    rewrite D. apply first_glob_text; [repeat constructor|exact N].
Qed.

(** the value of a parameter *)
Definition value_of (params : list (pystr * pystr)) (k : pystr) (o : option pystr) : Prop :=
  (exists v, o = Some v /\ In (k, v) params) \/ (o = None /\ ~ In k (map fst params)).
(** What the sample asks of the client for a request, and what of the request it has then
    used: the parameters, the content.  Methods: 0 GET, 1 POST, 2 PUT, 3 DELETE. *)
Inductive crud_call (q : rest_request) : client_call -> list pystr -> bool -> Prop :=
| crud_post : rq_method q = Some 1 -> crud_call q (ClientIndex (py "test-index") (rq_content q) None) [] true
| crud_get o : rq_method q = Some 0 -> value_of (rq_params q) (py "q") o ->
    crud_call q (ClientSearch (py "test-index") o) [py "q"] false
| crud_put o : rq_method q = Some 2 -> value_of (rq_params q) (py "id") o ->
    crud_call q (ClientIndex (py "test-index") (rq_content q) o) [py "id"] true
| crud_delete o : rq_method q = Some 3 -> value_of (rq_params q) (py "id") o ->
    crud_call q (ClientDelete (py "test-index") o) [py "id"] false.
(** nothing but the id counter and the user's state has changed, the latter to [u] *)
Definition only_user {U} (h h' : host U) (u : U) : Prop :=
  hs_user h' = u /\ hs_pending h' = hs_pending h /\ hs_init h' = hs_init h /\ hs_settings h' = hs_settings h.

(** C76: the crud sample, for any client.  [j] is the JSON text of the client's answer. *)
Theorem C76_crud : forall U (cl : client U), exists ext, crud_extension cl = Ok ext /\
  xt_name ext = py "crud-py" /\ xt_interfaces ext = [py "Extension"; py "ActionExtension"] /\
  rg_named (xt_registry ext) =
    [py "POST /crud crud_post"; py "GET /crud crud_get"; py "PUT /crud crud_put"; py "DELETE /crud crud_delete"] /\
  forall ev strict m raw q, set_order_ok (e_so ev) -> frame_of m raw ->
  m_action m = py "internal:extensions/restexecuteonextensiontaction" -> w_rest_request strict q (m_payload m) ->
  let served := rq_path q = py "/crud" /\ exists z, rq_method q = Some z /\ 0 <= z <= 3 in
  (served -> exists c ps cc, crud_call q c ps cc /\
     (forall j e, is_utf8 j e -> zlen e <= 2 ^ 31 -> exists p,
        w_exec_response true (mkExec (Some 2) (py "application/json; charset=UTF-8") e [] ps cc) p /\
        (zlen raw + zlen p < 2 ^ 31 -> exists out, answers m p out /\
         forall uuid s h u, cl c (hs_user h) = (u, Ok j) ->
           exists h', on_input ev ext uuid (raw ++ s) h = (Ok (Some out), h') /\ only_user h h' u)) /\
     (forall uuid s h u x, cl c (hs_user h) = (u, Raise x) ->
        exists h', on_input ev ext uuid (raw ++ s) h = (Raise x, h') /\ only_user h h' u)) /\
  (~ served -> forall uuid s h, exists h', on_input ev ext uuid (raw ++ s) h = (Raise EGeneric, h') /\ only_ids h h').
Proof.
  intros U cl. eexists. split; [reflexivity|]. split; [reflexivity|]. split; [reflexivity|]. split; [reflexivity|].
  set (ext := mkExtn _ _ _ _ _). intros ev strict m raw q Hso Hf Ha Wq served.
  destruct (request_facts strict q _ Wq) as (Nd & Hu & z & Hz & Rz).
  destruct (crud_find (e_cls ev) (mname z ++ [32] ++ rq_path q)) as [F1 F2].
  assert (Sv : served <-> to_crud (mname z ++ [32] ++ rq_path q)).
  { unfold served. rewrite Hz. split.
    - intros (-> & z' & E & R). apply (f_equal (fun o => match o with Some x => x | None => 0 end)) in E. subst z'.
      assert (C : z = 0 \/ z = 1 \/ z = 2 \/ z = 3) by lia.
      destruct C as [->|[->|[->| ->]]]; [right; left|left|right; right; left|right; right; right; left]; reflexivity.
    - intros [X|[X|[X|[X|[]]]]]; symmetry in X;
        [apply (method_path z 1 _ (py "/crud") Rz ltac:(lia)) in X as [-> E]
        |apply (method_path z 0 _ (py "/crud") Rz ltac:(lia)) in X as [-> E]
        |apply (method_path z 2 _ (py "/crud") Rz ltac:(lia)) in X as [-> E]
        |apply (method_path z 3 _ (py "/crud") Rz ltac:(lia)) in X as [-> E]]; (split; [exact E|]); eexists; (split; [reflexivity|lia]). }
  change (rg_map (xt_registry ext)) with crud_map in *.
  split.
  - intros Hs. pose proof Hs as (_ & z' & Ez & R). rewrite Hz in Ez.
    apply (f_equal (fun o => match o with Some x => x | None => 0 end)) in Ez. subst z'.
    apply Sv in Hs. specialize (F1 Hs). clear F2.
    assert (V : forall k, value_of (rq_params q) k (dict_get streqb k (rq_params q))).
    { intros k. destruct (dict_get streqb k (rq_params q)) as [v|] eqn:Dg.
      - left. exists v. split; [reflexivity|]. apply (dict_get_In _ streqb_eq), Dg.
      - right. split; [reflexivity|]. apply (dict_get_None _ streqb_eq), Dg. }
    set (q' := with_consumed q [] false).
    assert (G : exists c ps cc, crud_call q c ps cc /\ set_ok ps /\
      forall u, crud_handle cl u q' = (fst (cl c u), crud_answer (with_consumed q ps cc) (snd (cl c u)))).
    { assert (T : forall k, In k [py "q"; py "id"] -> set_ok [k]).
      { intros k Hk. split; [split; [vm_compute; discriminate|constructor; [|constructor]]|constructor; [intros []|constructor]].
        destruct Hk as [<-|[<-|[]]]; text. }
      assert (C : z = 0 \/ z = 1 \/ z = 2 \/ z = 3) by lia. unfold crud_handle, q'. cbn [with_consumed rq_method]. rewrite Hz.
      destruct C as [->|[->|[->| ->]]]; eexists _, _, _.
      - split; [apply crud_get; [exact Hz|apply V]|]. split; [apply T; left; reflexivity|]. intros u.
        cbn [do_call with_consumed rq_params rq_consumed rq_content_consumed]. change TEST_INDEX with (py "test-index").
        destruct (cl _ u); reflexivity.
      - split; [apply crud_post; exact Hz|]. split; [split; [split; [vm_compute; discriminate|constructor]|constructor]|]. intros u.
        cbn [do_call with_consumed rq_content rq_consumed rq_content_consumed]. change TEST_INDEX with (py "test-index").
        destruct (cl _ u); reflexivity.
      - split; [apply crud_put; [exact Hz|apply V]|]. split; [apply T; right; left; reflexivity|]. intros u.
        cbn [do_call with_consumed rq_params rq_content rq_consumed rq_content_consumed]. change TEST_INDEX with (py "test-index").
        destruct (cl _ u); reflexivity.
      - split; [apply crud_delete; [exact Hz|apply V]|]. split; [apply T; right; left; reflexivity|]. intros u.
        cbn [do_call with_consumed rq_params rq_consumed rq_content_consumed]. change TEST_INDEX with (py "test-index").
        destruct (cl _ u); reflexivity. }
    destruct G as (c & ps & cc & Hc & Hps & Hh). exists c, ps, cc. split; [exact Hc|]. split.
    + intros j e Ue Le. set (a := mkResp (Some 2) e JSON_CONTENT_TYPE [] ps cc).
      assert (Ok' : rest_response_ok a).
      { split; [exists 2; split; [reflexivity|lia]|]. split; [exact Le|]. split; [text|]. split; [|exact Hps].
        split; [reflexivity|]. split; constructor. }
      destruct (rest_reply ev ext strict m raw q z 0%nat q' a Hso Hf Ha Wq Hz F1 (received_of q)
        (response_exec _ Ok')) as (p & _ & W & X).
      exists p. split; [exact W|]. intros Lp. destruct (X Lp) as (out & A & Rr). exists out. split; [exact A|].
      intros uuid s h u Hcl. eexists. split.
      * apply Rr. cbn [xt_invoke ext]. rewrite Hh, Hcl. cbn [fst snd]. unfold crud_answer. cbn [bind].
        apply is_utf8_encode in Ue. rewrite Ue. reflexivity.
      * destruct h; repeat split.
    + intros uuid s h u x Hcl.
      apply (C42_handler_raises U ev ext strict m raw q z 0%nat q' uuid s h u x Hso Hf Ha Wq Hz F1 (received_of q)).
      cbn [xt_invoke ext]. rewrite Hh, Hcl. reflexivity.
  - intros Ns. assert (N : ~ to_crud (mname z ++ [32] ++ rq_path q)) by (rewrite <- Sv; exact Ns).
    apply (rest_unrouted ev ext strict m raw q z Hso Hf Ha Wq Hz (F2 N)).
Qed.
Print Assumptions C76_crud.
(** PUT /crud?id=7 with a document; a client that stores the calls and answers {} *)
Definition ex_put : rest_request :=
  mkReq (mkTask (py "node") (Some 5)) (Some 2) (py "/crud?id=7") (py "/crud") [(py "id", py "7")]
    [(py "Accept", [py "*/*"])] (py "application/json") (map z2b (py "{}")) (py "token") (Some 1) [] false.
Definition ex_client : client (list client_call) := fun c l => (c :: l, Ok (py "{}")).
Example C76_case : frame_of (ex_sent ex_put) (ex_raw (ex_sent ex_put)) /\
  w_rest_request true ex_put (m_payload (ex_sent ex_put)) /\
  match crud_extension ex_client with
  | Ok ext => hs_user (snd (on_input ex_env ext [] (ex_raw (ex_sent ex_put)) (initial_host [])))
  | Raise _ => []
  end = [ClientIndex (py "test-index") (map z2b (py "{}")) (Some (py "7"))] /\
  firstn 2 (skipn 82 (sent_by (crud_extension ex_client) [] (ex_raw (ex_sent ex_put)))) = map z2b (py "{}").
Proof.
  split; [apply ex_frame; [text|vm_compute; discriminate|vm_compute; discriminate]|]. split; [|split].
  - apply ex_sent_wire. split; [right; split; [discriminate|]; split; [text|]; exists 5; split; [reflexivity|vm_compute; split; [discriminate|reflexivity]]|].
    split; [exists 2; split; [reflexivity|lia]|]. split; [repeat (constructor; [text|]); constructor|].
    split; [split; [reflexivity|]; split; [constructor; [intros []|constructor]|constructor; [split; text|constructor]]|].
    split; [split; [reflexivity|]; split; [constructor; [intros []|constructor]|constructor; [split; [text|split; [vm_compute; discriminate|constructor; [text|constructor]]]|constructor]]|].
    split; [vm_compute; discriminate|]. exists 1; split; [reflexivity|lia].
  - vm_compute. reflexivity.
  - vm_compute. reflexivity.
Qed.
