(** * Property C125: after a crash *)
From Coq Require Import String ZArith List Bool Lia.
From Coq Require Import Strings.Byte.
From Verif Require Import Py Stream Version Frame Proto Messages Rest Routes Settings Host PyFacts
  Spec SpecFacts Wire HostSpec HostFacts PropsHost PropsHistory PropsMemory.
Import ListNotations.
Open Scope list_scope.
Open Scope Z_scope.

(** C125.  A process of the extension has received the chunks [l1] and dies, at any point; another
    one is started in its place and receives the chunks [l2].  [k] is the id of a request the first
    one made and awaited the response of.  Full statement: that response, arriving late, is ignored
    by the second process. *)
Definition C125_statement : Prop := forall U ev (ext : extension U) u u' l1 l2 uuid raw k p,
  set_order_ok (e_so ev) -> In k (pending_ids (feed ev ext (initial_host u) l1)) -> response_in (e_so ev) raw false k p ->
  exists h', on_input ev ext uuid raw (feed ev ext (initial_host u') l2) = (Ok None, h') /\
    only_ids (feed ev ext (initial_host u') l2) h'.
(** False of this code: ids start from 0 in every process, so that the second process awaits the
    same ids.  Here it takes the acknowledgement of the first process's registration for that of its
    own, which OpenSearch may not have received. *)
Theorem C125_stale_refuted : ~ C125_statement.
Proof.
  intros H. destruct (H Z ex_env ex_ext 0 0 [([], ex_raw (ex_init 77))] [([], ex_raw (ex_init 78))] [] (ex_answer 3 [x01]) 3 [x01] ex_env_ok)
    as (h' & E & _); [vm_compute; tauto|response|]. apply (f_equal fst) in E. vm_compute in E. discriminate.
Qed.
Print Assumptions C125_stale_refuted.
(** What holds: a late response is ignored unless the second process itself has made a request with
    the same id and awaits its response; in particular as long as it has not received an
    initialization request, and if the first process was so much busier that the id is beyond the
    five per chunk the second can have used. *)
Theorem C125_restart_partial : forall U ev (ext : extension U) u' l2 uuid raw err k p,
  set_order_ok (e_so ev) -> response_in (e_so ev) raw err k p ->
  let h := feed ev ext (initial_host u') l2 in
  err = true \/ ~ In k (pending_ids h) \/ 5 * zlen l2 <= k \/
    (forall x m, In x l2 -> read_as (e_so ev) (snd x) m -> ~ is_init m) ->
  exists h', on_input ev ext uuid raw h = (Ok None, h') /\ only_ids h h'.
Proof.
  intros U ev ext u' l2 uuid raw err k p Hso R h D. apply (C46_not_awaited U ev ext uuid raw err k p h R).
  destruct (C79_memory U ev ext u' l2 Hso) as [(inits & Sub & F & L) B]. fold h in L, B.
  destruct D as [D|[D|[D|D]]]; [left; exact D|right; exact D|right; intros I; apply B in I; lia|].
  right. assert (inits = []) as ->.
  { destruct inits as [|x inits]; [reflexivity|]. exfalso. inversion F as [|? ? (m & Hm & Hi)]; subst.
    assert (I : In x (map snd l2)).
    { assert (Q : forall A (a b : list A) x, subsequence a b -> In x a -> In x b).
      { clear. intros A a b x S. induction S; intros I; [exact I|destruct I as [->|I]; [left; reflexivity|right; auto]|right; auto]. }
      apply (Q _ _ _ _ Sub). left. reflexivity. }
    apply in_map_iff in I as (y & <- & I). exact (D y m I Hm Hi). }
  cbn [length] in L. destruct (pending_ids h); [intros []|cbn in L; lia].
Qed.
Print Assumptions C125_restart_partial.
(** handshakes only: the response awaited by the first process is ignored *)
Example C125_case : let l1 := [([], ex_raw (ex_init 77))] in let l2 := [([], ex_raw ex_tcp)] in
  In 3 (pending_ids (feed ex_env ex_ext (initial_host 0) l1)) /\ response_in (e_so ex_env) (ex_answer 3 [x01]) false 3 [x01] /\
  ~ In 3 (pending_ids (feed ex_env ex_ext (initial_host 0) l2)) /\
  exists h', on_input ex_env ex_ext [] (ex_answer 3 [x01]) (feed ex_env ex_ext (initial_host 0) l2) = (Ok None, h').
Proof.
  cbv zeta. split; [vm_compute; tauto|]. split; [response|]. split; [vm_compute; tauto|]. eexists. vm_compute. reflexivity.
Qed.
