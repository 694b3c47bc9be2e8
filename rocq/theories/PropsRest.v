(** * Properties C32-C34: REST messages *)
From Coq Require Import String ZArith List Bool Permutation.
From Coq Require Import Strings.Byte.
From Verif Require Import Py Stream Version Frame Proto Messages Rest Spec SpecFacts MsgFacts RestFacts PropsMessages.
Import ListNotations.
Open Scope list_scope.
Open Scope Z_scope.

(** C32 (Spec.v: [rest_request_ok] etc. say that the fields fit; [received_request],
    [same_response] are field-by-field equality).  What was consumed of a request is not sent. *)
Theorem C32_rest_messages :
  survives_upto received_request write_rest_request read_rest_request rest_request_ok /\
  (forall so, set_order_ok so ->
     survives_upto same_response write_rest_response (read_rest_response so) rest_response_ok) /\
  survives write_exec_response read_exec_response exec_response_ok.
Proof. exact (conj rest_request_survives (conj rest_response_survives exec_response_survives)). Qed.
Print Assumptions C32_rest_messages.
Definition example_request : rest_request :=
  mkReq default_task (Some 1) (py "/hello?a=b") (py "/hello") [(py "a", py "b")]
    [(py "Accept", [py "*/*"; py "text/plain"])] (py "application/json") [x7b; x7d] (py "tok") (Some 1) [py "a"] true.
Example C32_case : rest_request_ok example_request /\
  rest_response_ok (mkResp (Some 2) [x68; x69] TEXT_CONTENT_TYPE [(py "h", [py "v"])] [py "b"; py "a"] true) /\
  exec_response_ok (mkExec (Some 21) TEXT_CONTENT_TYPE [] [] [py "a"; py "a"] false).
Proof.
  split; [|split].
  - split; [left; split; reflexivity|]. split; [eexists; split; [reflexivity|split; [discriminate|reflexivity]]|].
    split; [repeat (constructor; [text|]); constructor|].
    split; [split; [reflexivity|]; split; [constructor; [intros []|constructor]|constructor; [split; text|constructor]]|].
    split; [split; [reflexivity|]; split; [constructor; [intros []|constructor]|]|].
    + constructor; [|constructor]. split; [text|]. split; [discriminate|]. repeat (constructor; [text|]). constructor.
    + split; [discriminate|]. eexists; split; [reflexivity|split; [discriminate|reflexivity]].
  - split; [eexists; split; [reflexivity|split; [discriminate|reflexivity]]|].
    split; [discriminate|]. split; [text|]. split; [split; [reflexivity|]; split; [constructor; [intros []|constructor]|]|].
    + constructor; [|constructor]. split; [text|]. split; [discriminate|]. constructor; [text|constructor].
    + split; [split; [discriminate|]; repeat (constructor; [text|]); constructor|].
      constructor; [intros [H|[]]; vm_compute in H; discriminate|constructor; [intros []|constructor]].
  - split; [eexists; split; [reflexivity|split; [discriminate|reflexivity]]|].
    split; [text|]. split; [discriminate|]. split; [split; [reflexivity|]; split; constructor|].
    split; [discriminate|]. repeat (constructor; [text|]). constructor.
Qed.

(** C33: [p] and [p'] list the same set in two orders *)
Theorem C33_response_bytes : forall st c ct h p p' cc, Permutation p p' ->
  write_rest_response (mkResp st c ct h p cc) = write_rest_response (mkResp st c ct h p' cc).
Proof. exact response_order. Qed.
Print Assumptions C33_response_bytes.
Example C33_case : Permutation [py "b"; py "a"] [py "a"; py "b"] /\
  write_rest_response (mkResp (Some 2) [x68] (py "t") [] [py "b"; py "a"] true)
  = Ok [x02; x01; x68; x01; x74; x00; x02; x01; x61; x01; x62; x01].
Proof. split; [constructor|vm_compute; reflexivity]. Qed.

(** C34: [r] is a request as received; [cs] any sequence of calls *)
Theorem C34_consumption : forall r cs, rq_consumed r = [] -> rq_content_consumed r = false ->
  let r' := do_calls r cs in
  (forall k, In k (rq_consumed r') <-> In (CParam k) cs) /\ NoDup (rq_consumed r') /\
  (rq_content_consumed r' = true <-> In (CContent true) cs).
Proof.
  intros r cs H1 H2 r'. split; [|split].
  - intros k. unfold r'. rewrite do_calls_consumed, H1. cbn. tauto.
  - apply do_calls_nodup. rewrite H1. constructor.
  - unfold r'. rewrite do_calls_content, H2. intuition congruence.
Qed.
Print Assumptions C34_consumption.
(** the answers do not depend on the history *)
Theorem C34_answers : forall r cs, NoDup (map fst (rq_params r)) -> let r' := do_calls r cs in
  (forall k v, In (k, v) (rq_params r) ->
     fst (do_call r' (CParam k)) = AStr (Some v) /\ fst (do_call r' (CHasParam k)) = ABool true) /\
  (forall k, ~ In k (map fst (rq_params r)) ->
     fst (do_call r' (CParam k)) = AStr None /\ fst (do_call r' (CHasParam k)) = ABool false) /\
  (forall b, fst (do_call r' (CContent b)) = ABytes (rq_content r)) /\
  (fst (do_call r' CHasContent) = ABool true <-> rq_content r <> []).
Proof.
  intros r cs H r'. unfold r'. repeat setoid_rewrite do_calls_answers. repeat split.
  - intros. apply (proj1 (param_answer r k H) v). assumption.
  - intros. apply (proj1 (param_answer r k H) v). assumption.
  - intros. apply (proj2 (param_answer r k H)). assumption.
  - intros. apply (proj2 (param_answer r k H)). assumption.
  - cbn. destruct (rq_content r); [discriminate|congruence].
  - cbn. destruct (rq_content r); [congruence|reflexivity].
Qed.
Print Assumptions C34_answers.
(** A response constructed after the calls [cs1] and sent after the further calls [cs2]
    reports all the parameters, and the content if consumed before the construction. *)
Theorem C34_response : forall r cs1 cs2 st c ct h, rq_consumed r = [] -> rq_content_consumed r = false ->
  let p := new_rest_response (Some (do_calls r cs1)) (Some (do_calls r (cs1 ++ cs2))) st c ct h in
  (forall k, In k (rp_consumed p) <-> In (CParam k) (cs1 ++ cs2)) /\ NoDup (rp_consumed p) /\
  (rp_content_consumed p = true <-> In (CContent true) cs1) /\
  rp_status p = st /\ rp_content p = c /\ rp_ctype p = ct /\ rp_headers p = h.
Proof.
  intros r cs1 cs2 st c ct h H1 H2. cbn [new_rest_response rp_consumed rp_content_consumed rp_status rp_content rp_ctype rp_headers].
  destruct (C34_consumption r (cs1 ++ cs2) H1 H2) as (A & B & _).
  destruct (C34_consumption r cs1 H1 H2) as (_ & _ & C). auto 8.
Qed.
Print Assumptions C34_response.
Example C34_case :
  let r := do_calls (mkReq default_task (Some 0) [] [] [(py "a", py "1")] [] [] [] [] (Some 1) [] false)
    [CHasParam (py "b"); CParam (py "a"); CContent false; CParam (py "z"); CParam (py "a")] in
  rq_consumed r = [py "a"; py "z"] /\ rq_content_consumed r = false /\
  fst (do_call r (CParam (py "a"))) = AStr (Some (py "1")).
Proof. vm_compute. repeat split. Qed.
