(** * Properties C27-C31, C61: transport messages *)
From Coq Require Import String ZArith List Bool.
From Coq Require Import Strings.Byte.
From Verif Require Import Py Stream Version Frame Proto Messages Spec SpecFacts MsgFacts.
Import ListNotations.
Open Scope list_scope.
Open Scope Z_scope.

(** A concrete node used in the examples: 127.0.0.1, one attribute, two roles. *)
Definition example_node : node :=
  mkNode (py "node") (py "id") (py "eph") (py "h") (py "127.0.0.1")
    (mkAddr 2130706433 (py "h") 9300) [(py "k", py "v")]
    [(py "data", py "d", true); (py "ingest", py "i", false)] (version_of_id 2110399).
Lemma ascii_text_ok x : forallb (fun c => (0 <=? c) && (c <? 128)) x = true -> zlen x <= 2 ^ 31 -> text_ok x.
Proof.
  intros H L. exists (map z2b x). split.
  - unfold is_utf8. clear L. induction x as [|c x IH]; [constructor|]. cbn [forallb] in H.
    apply andb_prop in H as [Hc H]. apply andb_prop in Hc as [H1 H2].
    apply Z.leb_le in H1. apply Z.ltb_lt in H2. cbn [map].
    rewrite PyFacts.b2z_z2b_small by (split; [assumption|]; apply (Z.lt_trans _ 128); [assumption|reflexivity]).
    change (c :: map b2z (map z2b x)) with ([c] ++ map b2z (map z2b x)). constructor; [constructor; split; assumption|auto].
  - unfold zlen in *. rewrite map_length. exact L.
Qed.
Ltac text := apply ascii_text_ok; [vm_compute; reflexivity|vm_compute; discriminate].
Lemma example_node_ok : node_ok example_node /\ low_node example_node.
Proof.
  split; [|vm_compute; reflexivity].
  split; [repeat (constructor; [text|]); constructor|].
  split; [split; [split; [discriminate|reflexivity]|split; [text|split; [discriminate|reflexivity]]]|].
  split; [split; [reflexivity|]; split; [constructor; [intros []|constructor]|
          constructor; [split; text|constructor]]|].
  split; [reflexivity|].
  split; [constructor; [intros [H|[]]; vm_compute in H; discriminate|constructor; [intros []|constructor]]|].
  split; [constructor; [split; text|]; constructor; [split; text|constructor]|].
  split; [discriminate|reflexivity].
Qed.

(** C27 ([task_ok], Spec.v) *)
Theorem C27_task_ids :
  survives write_task read_task task_ok /\
  survives write_transport_request read_transport_request task_ok /\
  (forall t, t_node t <> [] -> t_id t = None -> exists e, write_task t = Raise e).
Proof. exact (conj task_survives (conj task_survives task_without_id)). Qed.
Print Assumptions C27_task_ids.
Example C27_case : task_ok (mkTask (py "n") (Some (-5))) /\ task_ok default_task /\
  write_task (mkTask (py "n") (Some (-5))) = Ok [x01; x6e; xff; xff; xff; xff; xff; xff; xff; xfb].
Proof.
  split; [|split; [left; split; reflexivity|vm_compute; reflexivity]].
  right. split; [discriminate|]. split; [text|]. eexists. split; [reflexivity|split; [discriminate|reflexivity]].
Qed.

(** C28, full statement: false from 128.0.0.0 on. *)
Definition C28_statement : Prop := survives write_addr read_addr addr_ok.
Theorem C28_addresses_refuted : ~ C28_statement.
Proof. exact addr_refuted. Qed.
Print Assumptions C28_addresses_refuted.
(** C28, what holds: addresses below 128.0.0.0 survive, all others are refused by write_to. *)
Theorem C28_addresses_partial :
  survives write_addr read_addr (fun a => addr_ok a /\ a_addr a < 2 ^ 31) /\
  (forall a, 2 ^ 31 <= a_addr a -> exists e, write_addr a = Raise e).
Proof.
  split; [exact addr_survives|]. intros a H. apply high_addr_raises.
  intros L. apply (Z.lt_irrefl (2 ^ 31)). exact (Z.le_lt_trans _ _ _ H L).
Qed.
Print Assumptions C28_addresses_partial.
Example C28_case : let a := mkAddr 2130706433 (py "h") 9300 in
  write_addr a = Ok [x04; x7f; x00; x00; x01; x01; x68; x00; x00; x24; x54] /\
  read_addr [x04; x7f; x00; x00; x01; x01; x68; x00; x00; x24; x54] = Ok (a, []).
Proof. vm_compute. split; reflexivity. Qed.

(** C29, full statement: false for nodes at 128.0.0.0 or above. *)
Definition C29_statement : Prop :=
  survives write_node read_node node_ok /\ survives write_ext_node read_ext_node ext_node_ok.
Theorem C29_nodes_refuted : ~ C29_statement.
Proof. intros [H _]. exact (node_refuted H). Qed.
Print Assumptions C29_nodes_refuted.
(** C29, what holds: all nodes with lower addresses survive; the others are refused. *)
Theorem C29_nodes_partial :
  survives write_node read_node (fun n => node_ok n /\ a_addr (n_addr n) < 2 ^ 31) /\
  survives write_ext_node read_ext_node (fun x => ext_node_ok x /\ a_addr (n_addr (x_node x)) < 2 ^ 31) /\
  survives write_dep read_dep dep_ok /\
  (forall n, ~ a_addr (n_addr n) < 2 ^ 31 -> exists e, write_node n = Raise e) /\
  (forall x, ~ a_addr (n_addr (x_node x)) < 2 ^ 31 -> exists e, write_ext_node x = Raise e).
Proof.
  exact (conj node_survives (conj ext_node_survives (conj dep_survives
          (conj high_node_raises high_ext_node_raises)))).
Qed.
Print Assumptions C29_nodes_partial.
Example C29_case : node_ok example_node /\ a_addr (n_addr example_node) < 2 ^ 31 /\
  exists bs, write_node example_node = Ok bs /\ zlen bs = 63 /\ read_node bs = Ok (example_node, []).
Proof.
  split; [apply example_node_ok|]. split; [reflexivity|].
  eexists. split; [vm_compute; reflexivity|]. split; vm_compute; reflexivity.
Qed.

(** C30, full statement: false for a tcp handshake request without a version (and, as in C29,
    for nodes at 128.0.0.0 or above). *)
Definition C30_statement : Prop :=
  survives write_transport_request read_transport_request task_ok /\
  survives write_handshake_response read_handshake_response handshake_response_ok /\
  survives write_tcp_handshake_request read_tcp_handshake_request tcp_handshake_request_ok /\
  survives write_tcp_handshake_response read_tcp_handshake_response
    (fun o => exists v, o = Some v /\ version_ok v) /\
  survives write_init_request read_init_request init_request_ok /\
  survives write_init_response read_init_response init_response_ok /\
  survives write_ack read_ack (fun _ => True).
Theorem C30_handshakes_refuted : ~ C30_statement.
Proof. intros (_ & _ & H & _). exact (tcp_refuted H). Qed.
Print Assumptions C30_handshakes_refuted.
(** C30, what holds: all of it for nodes below 128.0.0.0 and requests with a version. *)
Theorem C30_handshakes_partial :
  survives write_transport_request read_transport_request task_ok /\
  survives write_handshake_response read_handshake_response
    (fun r => handshake_response_ok r /\ forall n, hr_node r = Some n -> a_addr (n_addr n) < 2 ^ 31) /\
  survives write_tcp_handshake_request read_tcp_handshake_request
    (fun r => tcp_handshake_request_ok r /\ tr_version r <> None) /\
  survives write_tcp_handshake_response read_tcp_handshake_response
    (fun o => exists v, o = Some v /\ version_ok v) /\
  survives write_init_request read_init_request
    (fun r => init_request_ok r /\ a_addr (n_addr (ir_source r)) < 2 ^ 31 /\
              a_addr (n_addr (x_node (ir_ext r))) < 2 ^ 31) /\
  survives write_init_response read_init_response init_response_ok /\
  survives write_ack read_ack (fun _ => True).
Proof.
  exact (conj task_survives (conj handshake_response_survives (conj tcp_handshake_request_survives
    (conj tcp_handshake_response_survives (conj init_request_survives
    (conj init_response_survives ack_survives)))))).
Qed.
Print Assumptions C30_handshakes_partial.
Example C30_case :
  handshake_response_ok (mkHsResp (Some example_node) (py "c") (version_of_id 2110399)) /\
  tcp_handshake_request_ok (mkTcpReq default_task (Some (version_of_id 2110399))) /\
  init_request_ok (mkInitReq default_task example_node
     (mkExtNode example_node (version_of_id 2110399) [mkDep (py "d") (version_of_id 2000099)])) /\
  init_response_ok (mkInitResp (py "hello") [py "Extension"; py "ActionExtension"]).
Proof.
  assert (V : forall i, 0 <= i < 2 ^ 34 -> version_ok (mkVersion i)).
  { intros i [H1 H2]. split; [exact H1|]. cbn [vid]. apply (Z.lt_trans _ _ _ H2). reflexivity. }
  split; [split; [intros n [= <-]; apply example_node_ok|split; [text|apply V; vm_compute; split; [discriminate|reflexivity]]]|].
  split; [split; [left; split; reflexivity|intros v [= <-]; apply V; vm_compute; split; [discriminate|reflexivity]]|].
  split.
  - split; [left; split; reflexivity|]. split; [apply example_node_ok|].
    split; [apply example_node_ok|]. split; [apply V; vm_compute; split; [discriminate|reflexivity]|].
    split; [reflexivity|]. constructor; [|constructor]. split; [text|apply V; vm_compute; split; [discriminate|reflexivity]].
  - split; [text|]. split; [discriminate|]. constructor; [text|]. constructor; [text|constructor].
Qed.

(** C31: [rt] ranges over all 32-bit numbers, more than the enum members *)
Theorem C31_protobuf_requests :
  (forall rt uid, - 2 ^ 31 <= rt < 2 ^ 31 -> text_ok uid ->
     exists r, new_ext_transport_request rt uid = Ok r /\
     er_type (etr_er r) = rt /\ er_identity (etr_er r) = Some uid /\
     exists bs, write_ext_transport_request r = Ok bs /\
       (zlen bs < 2 ^ 31 -> forall s, read_ext_transport_request (bs ++ s) = Ok (r, s))) /\
  (forall uid acts dep, text_ok uid -> Forall text_ok acts -> Forall text_ok dep ->
     exists r, new_register_request uid acts dep = Ok r /\
     rra_identity (rrr_rra r) = Some uid /\ rra_actions (rrr_rra r) = acts /\
     rra_deprecated (rrr_rra r) = dep /\
     exists bs, write_register_request r = Ok bs /\
       (zlen bs < 2 ^ 31 -> forall s, read_register_request (bs ++ s) = Ok (r, s))).
Proof.
  split.
  - intros rt uid Hrt Hu. destruct (new_etr_total rt uid Hu) as [r H]. exists r. split; [exact H|].
    destruct (new_etr_survives rt uid r Hrt H) as (E & bs & W & R). rewrite E. eauto.
  - intros uid acts dep Hu Ha Hd. destruct (new_rrr_total uid acts dep Hu Ha Hd) as [r H].
    exists r. split; [exact H|].
    destruct (new_rrr_survives uid acts dep r H) as (E & bs & W & R). rewrite E. eauto 6.
Qed.
Print Assumptions C31_protobuf_requests.
Example C31_case :
  (r <- new_register_request (py "hello") [py "GET /hello h"] [] ;; write_register_request r)
  = Ok ([x00; x17; x0a; x07; x0a; x05; x68; x65; x6c; x6c; x6f; x12; x0c]
        ++ map z2b (py "GET /hello h")).
Proof. vm_compute. reflexivity. Qed.

(** C61: the digits of the 16 bytes in base 64, as a number of 132 bits, the last four zero
    ([base64url], [number], Spec.v) *)
Theorem C61_ephemeral_ids :
  (forall u, length u = 16%nat ->
     exists ds, length ds = 22%nat /\ Forall (fun d => 0 <= d < 64) ds /\ number 64 ds = number 256 (map b2z u) * 16 /\
       new_ephemeral_id u = map (fun d => nth (Z.to_nat d) base64url 0) ds) /\
  (forall u v, length u = 16%nat -> length v = 16%nat ->
     new_ephemeral_id u = new_ephemeral_id v -> u = v) /\
  (forall u nm id ho ha ad at' ro v, n_eph (new_node u nm id None ho ha ad at' ro v) = new_ephemeral_id u).
Proof. exact (conj ephemeral_shape (conj ephemeral_inj (fun _ _ _ _ _ _ _ _ _ => eq_refl))). Qed.
Print Assumptions C61_ephemeral_ids.
Example C61_case : new_ephemeral_id (map z2b [0; 16; 131; 16; 81; 135; 32; 146; 139; 48; 211; 143; 65; 20; 147; 255])
  = py "ABCDEFGHIJKLMNOPQRST_w".
Proof. vm_compute. reflexivity. Qed.
