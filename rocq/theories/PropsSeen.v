(** * Properties C110, C111: the log describes what is received *)
From Coq Require Import String ZArith List Bool Lia.
From Coq Require Import Strings.Byte.
From Verif Require Import Py PyFacts Stream Version Frame Messages Rest Routes Settings Host
  Spec SpecFacts FrameFacts Wire WireFacts WireFacts2 WireFacts3 WireFacts4 WireFacts5 HostSpec HostFacts
  PropsMessages PropsHost PropsHistory PropsDelivery PropsSession PropsWire Log PropsLog.
Import ListNotations.
Open Scope list_scope.
Open Scope Z_scope.

(** ** Specification *)
(** "label=text, label=text, ..." *)
Definition fields (l : list (string * pystr)) : pystr := commas (map (fun x => py (fst x) ++ py "=" ++ snd x) l).
(** the words for what kind of message it is *)
Definition kind (resp err cp hs : bool) : list string :=
  [(if resp then "response" else "request")%string] ++ (if err then ["error"%string] else [])
  ++ (if cp then ["compressed"%string] else []) ++ (if hs then ["handshake"%string] else []).
Definition bytes_text (n : Z) : pystr := str_int n ++ py " byte(s)".
Definition quoted (x : string) : pystr := py "'" ++ py x ++ py "'".
(** what is said of a frame of [size] + 6 bytes carrying [m] *)
Definition frame_fields (resp err : bool) (m : message) (size : Z) : list (string * pystr) :=
  [("prefix", py "b'ES'"); ("version", v_str (m_version m)); ("type", repr_list (map quoted (kind resp err (m_cp m) (m_hs m))));
   ("message", bytes_text size); ("id", str_int (m_id m))]%string.
(** ... and of its context *)
Definition strings_text (ds : display) (d : sdict pystr) : pystr := repr_dict ds (repr_str ds) d.
Definition sets_text (ds : display) (d : sdict (list pystr)) : pystr := repr_dict ds (fun l => repr_set (map (repr_str ds) l)) d.
Definition list_text (ds : display) (l : list pystr) : pystr := repr_list (map (repr_str ds) l).
Definition context_fields (ds : display) (c : ctx) : list (string * pystr) :=
  [("ctx=req", strings_text ds (c_req c)); ("res", sets_text ds (c_res c))]%string.
(** a node; its roles are triples *)
Definition node_fields (ds : display) (roles : pystr) (n : node) : list (string * pystr) :=
  [("id", n_id n); ("version", v_str (n_version n)); ("name", n_name n); ("host", n_host n); ("addr", n_hostaddr n);
   ("attr", strings_text ds (n_attrs n)); ("roles", roles)]%string.
Definition role_text (ds : display) (r : role) : pystr :=
  py "(" ++ repr_str ds (fst (fst r)) ++ py ", " ++ repr_str ds (snd (fst r)) ++ (if snd r then py ", True)" else py ", False)").
Definition roles_text (ds : display) (n : node) : pystr := py "OrderedSet(" ++ repr_list (map (role_text ds) (n_roles n)) ++ py ")".

(** ** Proofs *)
Lemma quoted_str ds (x : string) : In x ["request"; "response"; "error"; "compressed"; "handshake"]%string ->
  repr_str ds (py x) = quoted x.
Proof. intros H. cbn [In] in H. repeat (destruct H as [<-|H]; [vm_compute; reflexivity|]). contradiction. Qed.
Lemma statuses_kind p sz i resp err cp hs v vhs :
  statuses (mkHeader p sz i (status_of resp err cp hs) v vhs) = map py (kind resp err cp hs).
Proof. destruct resp, err, cp, hs; vm_compute; reflexivity. Qed.
Lemma kind_quoted ds resp err cp hs : map (repr_str ds) (map py (kind resp err cp hs)) = map quoted (kind resp err cp hs).
Proof.
  rewrite map_map. apply map_ext_in. intros x I. apply quoted_str.
  unfold kind in I. destruct resp, err, cp, hs; cbn [app In] in *; intuition.
Qed.
Lemma header_text ds m size resp err vhs :
  str_header ds (mkHeader [x45; x53] size (m_id m) (status_of resp err (m_cp m) (m_hs m)) (HVer (m_version m)) vhs)
  = fields (frame_fields resp err m size).
Proof.
  unfold str_header. rewrite statuses_kind. cbn [h_prefix h_size h_id h_version str_hver].
  rewrite kind_quoted.
  unfold fields, frame_fields, bytes_text. cbn [map fst snd commas]. rewrite <- !app_assoc. reflexivity.
Qed.
Lemma context_text ds c : py "ctx=" ++ str_ctx ds c = fields (context_fields ds c).
Proof. unfold str_ctx, fields, context_fields. cbn [map fst snd commas]. rewrite <- !app_assoc. reflexivity. Qed.
Lemma node_text ds roles n : str_node_with ds roles n = fields (node_fields ds roles n).
Proof. unfold str_node_with, fields, node_fields. cbn [map fst snd commas]. rewrite <- !app_assoc. reflexivity. Qed.
Lemma commas_cons x y t : commas (x :: y :: t) = x ++ py ", " ++ commas (y :: t). Proof. reflexivity. Qed.
Lemma commas_app a b : a <> [] -> b <> [] -> commas (a ++ b) = commas a ++ py ", " ++ commas b.
Proof.
  intros A B. induction a as [|x a IH]; [contradiction|]. destruct a as [|y a].
  - destruct b as [|z b]; [contradiction|]. reflexivity.
  - change ((x :: y :: a) ++ b) with (x :: y :: (a ++ b)). rewrite !commas_cons, <- !app_assoc. f_equal. f_equal.
    change (y :: (a ++ b)) with ((y :: a) ++ b). apply IH. discriminate.
Qed.
Lemma fields_app a b : a <> [] -> b <> [] -> fields (a ++ b) = fields a ++ py ", " ++ fields b.
Proof. intros A B. unfold fields. rewrite map_app. apply commas_app; [destruct a|destruct b]; cbn [map]; congruence. Qed.
Lemma frame_header resp err m f s : w_message resp err m f -> exists vhs t,
  read_header (f ++ s) = Ok (mkHeader [x45; x53] (zlen f - 6) (m_id m) (status_of resp err (m_cp m) (m_hs m)) (HVer (m_version m)) vhs, t).
Proof.
  intros (cb & vb & _ & _ & Hf). unfold w_frame_with in Hf. apply parts_cons_inv in Hf as (hb & r & E & Hh & Hr).
  eexists _, _. rewrite E at 1. rewrite <- app_assoc. apply (header_reads [x45; x53]); [reflexivity|exact Hh].
Qed.

Lemma read_request_log U ev ds m f s err (h : host U) : set_order_ok (e_so ev) -> w_message false err m f ->
  Forall length_prefix_ok (ctx_strings (m_ctx m)) ->
  exists c o, same_ctx (m_ctx m) c /\ o_action o = m_action m /\
  log_chunk ev ds (f ++ s) h =
    [(INFO, repr_bytes (f ++ s)); (DEBUG, py "< #" ++ repr_bytes (f ++ s) ++ py ", size=" ++ bytes_text (zlen (f ++ s)));
     (DEBUG, py "< " ++ fields (frame_fields false err m (zlen f - 6)));
     (INFO, py "< " ++ fields (frame_fields false err m (zlen f - 6) ++ context_fields ds c) ++ py ", None, "
              ++ fields [("features", list_text ds (m_features m)); ("action", m_action m)]%string)]
    ++ log_handler ds o (m_payload m ++ s).
Proof.
  intros So F P. destruct (frame_header _ _ _ _ s F) as (vhs & t & Rh).
  destruct (frame_reads _ _ _ _ _ s F P So) as (hd & t' & Rh' & Eq & _ & _ & _ & _ & _ & _ & R).
  rewrite Rh in Rh'. apply Ok_inj, pair_equal_spec in Rh' as [<- <-].
  destruct (R (blank_request (hs_next h + 1))) as (o & Ro & Eh & Sc & Ef). destruct (Ef eq_refl) as [Ef' Ea]. cbn [negb] in Ro.
  exists (o_ctx o), o. split; [exact Sc|]. split; [exact Ea|]. unfold log_chunk, log_input. rewrite Rh.
  unfold is_request. rewrite new_blank_request. cbn [fst]. rewrite Eq. cbn [negb]. rewrite Ro.
  rewrite header_text. unfold str_request, str_envelope. rewrite Eh, header_text, Ef', Ea.
  rewrite fields_app by discriminate. rewrite <- (context_text ds (o_ctx o)).
  unfold bytes_text, fields at 3, no_message. cbn [map fst snd commas app]. rewrite <- !app_assoc. reflexivity.
Qed.
Definition node_id_text (i : option Z) : pystr := match i with Some i => str_int i | None => py "None" end.

(** C110 for requests.  [f] is the frame of [m], [s] whatever follows it in the chunk; [c] is the
    context of [m] with its sets in the order Python iterates them. *)
Theorem C110_requests : forall U ev ds m f s err (h : host U), set_order_ok (e_so ev) -> w_message false err m f ->
  Forall length_prefix_ok (ctx_strings (m_ctx m)) ->
  exists c about, same_ctx (m_ctx m) c /\
  log_chunk ev ds (f ++ s) h =
    [(INFO, repr_bytes (f ++ s)); (DEBUG, py "< #" ++ repr_bytes (f ++ s) ++ py ", size=" ++ bytes_text (zlen (f ++ s)));
     (DEBUG, py "< " ++ fields (frame_fields false err m (zlen f - 6)));
     (INFO, py "< " ++ fields (frame_fields false err m (zlen f - 6) ++ context_fields ds c) ++ py ", None, "
              ++ fields [("features", list_text ds (m_features m)); ("action", m_action m)]%string)]
    ++ about /\
  (* the handshakes *)
  (forall strict r, m_action m = py "internal:tcp/handshake" -> w_tcp_handshake_request strict r (m_payload m) ->
     exists v, tr_version r = Some v /\ about = [(DEBUG, py "< " ++ fields [("version", v_str v)]%string)]) /\
  (forall strict t, m_action m = py "internal:transport/handshake" -> w_task strict t (m_payload m) ->
     about = [(DEBUG, py "< " ++ fields [("node", t_node t); ("id", node_id_text (t_id t))]%string)]) /\
  (* the initialization: the two nodes *)
  (forall strict q, m_action m = py "internal:discovery/extensions" -> w_init_request strict q (m_payload m) ->
     a_addr (n_addr (ir_source q)) < 2 ^ 31 -> a_addr (n_addr (x_node (ir_ext q))) < 2 ^ 31 ->
     let n := ir_source q in let x := ir_ext q in
     about = [(DEBUG, py "< " ++ fields (node_fields ds (roles_text ds n) n ++ node_fields ds (roles_text ds (x_node x)) (x_node x)
       ++ [("compatible>", v_str (x_min x)); ("deps", repr_list (map (ds_object ds) (seq 0 (List.length (x_deps x)))))]%string))]) /\
  (* an action the extension does not know *)
  (~ In (m_action m) known_actions -> about = []).
Proof.
  intros U ev ds m f s err h So F P. destruct (read_request_log U ev ds m f s err h So F P) as (c & o & Sc & Ea & L).
  exists c, (log_handler ds o (m_payload m ++ s)). split; [exact Sc|]. split; [exact L|]. clear L.
  unfold log_handler. rewrite Ea. repeat split.
  - intros strict r -> W. change (streqb _ A_DISCOVERY) with false. change (streqb _ A_REST) with false.
    change (streqb _ A_TCP) with true. cbv iota. rewrite (tcp_request_reads strict _ _ _ I W).
    destruct W as (v & _ & _ & E & _). exists v. split; [exact E|]. unfold log_read, str_tcp_handshake_request. rewrite E.
    unfold fields. cbn [map commas fst snd]. reflexivity.
  - intros strict t -> W. change (streqb _ A_DISCOVERY) with false. change (streqb _ A_REST) with false.
    change (streqb _ A_TCP) with false. change (streqb _ A_TRANSPORT) with true. cbv iota.
    unfold read_transport_request. rewrite (task_reads strict _ _ _ I W).
    unfold log_read, str_task, fields. cbn [map commas fst snd]. rewrite <- !app_assoc. destruct (t_id t); reflexivity.
  - intros strict q -> W L1 L2. change (streqb _ A_DISCOVERY) with true. cbv iota zeta.
    rewrite (init_request_reads strict q _ _ (conj L1 L2) W).
    unfold log_read, str_init_request, str_ext_node, str_node. rewrite !node_text.
    rewrite !fields_app by (try discriminate; intros N; apply app_eq_nil in N as [_ N]; discriminate).
    assert (R : forall n, py "OrderedSet(" ++ repr_list (map (repr_role ds) (n_roles n)) ++ py ")" = roles_text ds n).
    { intros n. unfold roles_text. f_equal. f_equal. f_equal. apply map_ext. intros [[a b] x]. unfold repr_role, role_text.
      cbn [commas fst snd]. rewrite <- !app_assoc. destruct x; reflexivity. }
    rewrite !R. unfold fields at 5. cbn [map commas fst snd]. rewrite <- !app_assoc. reflexivity.
  - intros N. cbn [known_actions map In] in N.
    repeat match goal with |- context [if streqb ?a ?b then _ else _] => let E := fresh in destruct (streqb a b) eqn:E; [apply streqb_eq in E; exfalso; apply N; rewrite E; auto|] end.
    reflexivity.
Qed.
Print Assumptions C110_requests.

(** the host waits, with the handler [x], for the response [k] *)
Definition waits_for {U} (h : host U) (k : Z) (x : rh) : Prop := dict_get Z.eqb k (hs_pending h) = Some x.

(** C110 for responses: an error is told, and any other response with what it is the answer to *)
Theorem C110_responses : forall U ev ds m f s err (h : host U), set_order_ok (e_so ev) -> w_message true err m f ->
  Forall length_prefix_ok (ctx_strings (m_ctx m)) ->
  exists c about, same_ctx (m_ctx m) c /\
  log_chunk ev ds (f ++ s) h =
    [(INFO, repr_bytes (f ++ s)); (DEBUG, py "< #" ++ repr_bytes (f ++ s) ++ py ", size=" ++ bytes_text (zlen (f ++ s)));
     (DEBUG, py "< " ++ fields (frame_fields true err m (zlen f - 6)))] ++ about /\
  (err = true -> about = [(WARNING, py "< error " ++ fields (frame_fields true err m (zlen f - 6)))]) /\
  (err = false -> exists rest,
     about = (INFO, py "< response " ++ fields (frame_fields true err m (zlen f - 6) ++ context_fields ds c) ++ py ", None, features=[]") :: rest /\
     let unexpected := (WARNING, py "< response id " ++ str_int (m_id m) ++ py " not registered") in
     (~ In (m_id m) (pending_ids h) -> rest = [unexpected]) /\
     (forall o b, waits_for h (m_id m) (RegisterRH o) -> w_bool b (m_payload m) ->
        rest = (DEBUG, py "< status=" ++ (if b then py "True" else py "False")) :: (if b then [] else [unexpected])) /\
     (forall strict n d, waits_for h (m_id m) EnvRH -> (n < e_fuel ev)%nat ->
        w_dict strict (fun v b => w_generic strict v b /\ nested v n) d (m_payload m) ->
        rest = [(DEBUG, py "< " ++ ds_object ds 0)])).
Proof.
  intros U ev ds m f s err h So F P. destruct (frame_header _ _ _ _ s F) as (vhs & t & Rh).
  destruct (frame_reads _ _ _ _ _ s F P So) as (hd & t' & Rh' & Eq & Ee & Ei & _ & _ & _ & _ & R).
  rewrite Rh in Rh'. apply Ok_inj, pair_equal_spec in Rh' as [<- <-].
  destruct (R (blank_response (hs_next h + 1))) as (o & Ro & Eh & Sc & _). cbn [negb] in Ro.
  assert (Ef : o_features o = []).
  { unfold read_outbound in Ro. apply rbind_ok in Ro as (c & s1 & _ & Ro). destruct (0 <? h_vhs _).
    - apply rbind_ok in Ro as (z & s2 & _ & Ro). apply rbind_ok in Ro as (vb & s3 & _ & Ro).
      apply Ok_inj, pair_equal_spec in Ro as [<- _]. reflexivity.
    - apply Ok_inj, pair_equal_spec in Ro as [<- _]. reflexivity. }
  exists (o_ctx o). eexists. split; [exact Sc|]. unfold log_chunk, log_input. rewrite Rh. unfold is_request. rewrite Eq. cbn [negb].
  rewrite new_blank_response. cbn [fst]. rewrite Ro, Ee, header_text.
  split; [unfold bytes_text; cbn [app]; reflexivity|]. split; [intros ->; reflexivity|]. intros ->. eexists. split.
  { cbn [app]. f_equal. f_equal. unfold str_response, str_envelope. rewrite Eh, header_text, Ef. rewrite fields_app by discriminate.
    rewrite <- (context_text ds (o_ctx o)). unfold no_message. cbn [map repr_list commas]. rewrite <- !app_assoc. reflexivity. }
  cbv zeta. unfold log_response. cbn [h_id]. unfold pending_ids. repeat split.
  - intros N. apply (dict_get_None _ Z.eqb_eq) in N. rewrite N. reflexivity.
  - intros o' b G W. unfold waits_for in G. rewrite G. 
    assert (Ra : read_ack (m_payload m ++ s) = Ok (b, s)) by (unfold read_ack; exact (bool_reads _ _ _ I W)).
    rewrite Ra. unfold log_read, str_ack, str_bool. destruct b; reflexivity.
  - intros strict n d G L W. unfold waits_for in G. rewrite G.
    destruct (settings_into strict n (e_fuel ev) d _ s (hs_settings h) L W) as (d' & E & _). rewrite E. reflexivity.
Qed.
Print Assumptions C110_responses.

(** C110 for what is no message: the bytes are told, and the header if there is one *)
Theorem C110_others : forall U ev ds raw (h : host U),
  let dumps := [(INFO, repr_bytes raw); (DEBUG, py "< #" ++ repr_bytes raw ++ py ", size=" ++ bytes_text (zlen raw))] in
  (forall e, read_header raw = Raise e -> log_chunk ev ds raw h = dumps) /\
  (forall p z i resp err cp hs v vhs b s e, zlen p = 2 -> w_header p z i (status_of resp err cp hs) v vhs b -> raw = b ++ s ->
     (forall o, read_outbound (e_so ev) (negb resp) o (mkHeader p z i (status_of resp err cp hs) (HVer v) vhs) s = Raise e) ->
     log_chunk ev ds raw h = dumps ++
       [(DEBUG, py "< " ++ fields [("prefix", repr_bytes p); ("version", v_str v); ("type", repr_list (map quoted (kind resp err cp hs)));
                                   ("message", bytes_text z); ("id", str_int i)]%string)]).
Proof.
  intros U ev ds raw h dumps. unfold log_chunk, log_input. split; [intros e ->; reflexivity|].
  intros p z i resp err cp hs v vhs b s e Lp W -> R. rewrite (header_reads p z i _ v vhs b s Lp W).
  assert (Ht : str_header ds (mkHeader p z i (status_of resp err cp hs) (HVer v) vhs) = fields
    [("prefix", repr_bytes p); ("version", v_str v); ("type", repr_list (map quoted (kind resp err cp hs)));
     ("message", bytes_text z); ("id", str_int i)]%string).
  { unfold str_header. rewrite statuses_kind, kind_quoted. cbn [h_prefix h_size h_id h_version str_hver].
    unfold fields, bytes_text. cbn [map fst snd commas]. rewrite <- !app_assoc. reflexivity. }
  rewrite Ht. assert (Q : is_response (mkHeader p z i (status_of resp err cp hs) (HVer v) vhs) = resp)
    by (destruct resp, err, cp, hs; reflexivity).
  unfold is_request. rewrite Q. rewrite new_blank_request, new_blank_response. cbn [fst]. destruct resp; cbn [negb] in *; rewrite R; reflexivity.
Qed.
Print Assumptions C110_others.

(** ** C111 *)
Definition contains (y x : pystr) : Prop := exists a b, x = a ++ y ++ b.
(** C111: the log tells of every REST request its headers, media type and the length of its content *)
Definition C111_statement : Prop := forall U ev ds m f s (h : host U) strict q,
  set_order_ok (e_so ev) -> display_ok ds -> w_message false false m f -> Forall length_prefix_ok (ctx_strings (m_ctx m)) ->
  m_action m = py "internal:extensions/restexecuteonextensiontaction" -> w_rest_request strict q (m_payload m) ->
  exists x, In (DEBUG, x) (log_input ev ds (f ++ s) h) /\
    contains (py "headers=" ++ repr_dict ds (list_text ds) (rq_headers q)) x /\
    contains (py "media type=" ++ rq_media q) x /\
    contains (py "content=" ++ bytes_text (zlen (rq_content q))) x.

(** the names of the HTTP versions *)
Definition http_versions : list (Z * pystr) := [(0, py "HTTP_1_0"); (1, py "HTTP_1_1")].
Lemma method_shown z mn : In (z, mn) rest_methods -> str_method (Some z) = py "RestMethod." ++ mn.
Proof.
  intros H. cbn [rest_methods In] in H.
  repeat (destruct H as [H|H]; [apply pair_equal_spec in H as [<- <-]; reflexivity|]). contradiction.
Qed.
Lemma http_shown z vn : In (z, vn) http_versions -> str_http (Some z) = py "HttpVersion." ++ vn.
Proof.
  intros H. cbn [http_versions In] in H.
  repeat (destruct H as [H|H]; [apply pair_equal_spec in H as [<- <-]; reflexivity|]). contradiction.
Qed.
(** C111, what holds: the HTTP version, the method, the uri, the path and the parameters are told;
    of the rest the same words are said of every request. *)
Theorem C111_rest_partial : forall U ev ds m f s err (h : host U) strict q z mn v vn, set_order_ok (e_so ev) -> w_message false err m f ->
  Forall length_prefix_ok (ctx_strings (m_ctx m)) ->
  m_action m = py "internal:extensions/restexecuteonextensiontaction" -> w_rest_request strict q (m_payload m) ->
  rq_method q = Some z -> In (z, mn) rest_methods -> rq_http q = Some v -> In (v, vn) http_versions ->
  exists about, log_chunk ev ds (f ++ s) h = about ++
    [(DEBUG, py "< " ++ fields [("http version", (py "HttpVersion." ++ vn)%list); ("method", (py "RestMethod." ++ mn)%list);
        ("uri", rq_uri q); ("path", rq_path q); ("params", strings_text ds (rq_params q))]%string
      ++ py ", headers={self.headers}, media type={self.media_type}, content={len(self.content)} byte(s), pit={self.principal_identifier_token}")] /\
    List.length about = 4%nat.
Proof.
  intros U ev ds m f s err h strict q z mn v vn So F P A W Em Im Ev Iv.
  destruct (read_request_log U ev ds m f s err h So F P) as (c & o & Sc & Ea & L). eexists. split; [rewrite L; f_equal|reflexivity].
  unfold log_handler. rewrite Ea, A. change (streqb _ A_DISCOVERY) with false. change (streqb _ A_REST) with true. cbv iota.
  destruct (rest_request_reads strict q _ s I W) as (q' & R & (_ & E2 & E3 & E4 & E5 & _ & _ & _ & _ & E10 & _)). rewrite R.
  unfold log_read, str_rest_request. rewrite E2, E3, E4, E5, E10, Em, Ev, (method_shown _ _ Im), (http_shown _ _ Iv).
  unfold fields, strings_text. cbn [map commas fst snd]. rewrite <- !app_assoc. reflexivity.
Qed.
Print Assumptions C111_rest_partial.
Fixpoint starts (y x : pystr) : bool :=
  match y, x with [], _ => true | _, [] => false | a :: y, b :: x => (a =? b) && starts y x end.
Fixpoint containsb (y x : pystr) : bool := starts y x || match x with [] => false | _ :: x => containsb y x end.
Lemma containsb_ok y x : contains y x -> containsb y x = true.
Proof.
  intros (a & b & ->). induction a as [|c a IH].
  - assert (H : starts y ([] ++ y ++ b) = true).
    { cbn [app]. induction y as [|d y IH]; [destruct b; reflexivity|]. cbn [app starts]. rewrite Z.eqb_refl. exact IH. }
    destruct ([] ++ y ++ b); cbn [containsb]; rewrite H; reflexivity.
  - cbn [app containsb]. rewrite IH. apply orb_true_r.
Qed.
(** Refuted: a GET request of nine bytes, as it is described *)
Definition ex_asked : rest_request :=
  mkReq (mkTask (py "node") (Some 5)) (Some 0) (py "/hello/you?a=b") (py "/hello/you") [(py "a", py "b")] [(py "h", [py "1"; py "2"])] (py "text/plain") (list_byte_of_string "some body") (py "token") (Some 1) [] true.
Definition ex_asked_msg : message :=
  ex_msg (py "internal:extensions/restexecuteonextensiontaction") 9 false
    (match write_rest_request ex_asked with Ok b => b | Raise _ => [] end).
Lemma ex_asked_wire : w_message false false ex_asked_msg (ex_raw ex_asked_msg) /\ Forall length_prefix_ok (ctx_strings (m_ctx ex_asked_msg)) /\
  w_rest_request true ex_asked (m_payload ex_asked_msg).
Proof.
  split; [apply ex_wire; [text|discriminate|vm_compute; discriminate]|]. split; [exact ex_prefix|].
  apply (by_writer _ _ _ _ _ _ (rest_request_writes true)); [|reflexivity].
  split; [right; split; [discriminate|]; split; [text|]; exists 5; split; [reflexivity|vm_compute; split; [discriminate|reflexivity]]|].
  split; [exists 0; split; [reflexivity|vm_compute; split; [discriminate|reflexivity]]|].
  split; [repeat (constructor; [text|]); constructor|].
  assert (N1 : NoDup [py "a"]) by (constructor; [intros []|constructor]).
  assert (N2 : NoDup [py "h"]) by (constructor; [intros []|constructor]).
  split; [split; [reflexivity|]; split; [exact N1|]; constructor; [split; text|constructor]|].
  split; [split; [reflexivity|]; split; [exact N2|]; constructor; [split; [text|]; split; [vm_compute; discriminate|]; repeat (constructor; [text|]); constructor|constructor]|].
  split; [vm_compute; discriminate|]. exists 1; split; [reflexivity|vm_compute; split; [discriminate|reflexivity]].
Qed.
Theorem C111_rest_refuted : ~ C111_statement.
Proof.
  intros S. destruct ex_asked_wire as (F & P & W).
  destruct (S Z ex_env ex_ds ex_asked_msg (ex_raw ex_asked_msg) [] (initial_host 0) true ex_asked ex_env_ok ex_ds_ok F P eq_refl W) as (x & I & _ & _ & C).
  apply containsb_ok in C. revert I C.
  assert (A : forallb (fun r => negb (containsb (py "content=" ++ bytes_text (zlen (rq_content ex_asked))) (snd r)))
    (log_input ex_env ex_ds (ex_raw ex_asked_msg ++ []) (initial_host 0)) = true) by (vm_compute; reflexivity).
  rewrite forallb_forall in A. intros I C. specialize (A _ I). cbn [snd] in A. rewrite C in A. discriminate.
Qed.
Print Assumptions C111_rest_refuted.
Example C111_case : In (DEBUG, py "< http version=HttpVersion.HTTP_1_1, method=RestMethod.GET, uri=/hello/you?a=b, path=/hello/you, params={'a': 'b'}, headers={self.headers}, media type={self.media_type}, content={len(self.content)} byte(s), pit={self.principal_identifier_token}")
  (log_chunk ex_env ex_ds (ex_raw ex_asked_msg) (initial_host 0)).
Proof.
  destruct ex_asked_wire as (F & P & W).
  destruct (C111_rest_partial Z ex_env ex_ds ex_asked_msg (ex_raw ex_asked_msg) [] false (initial_host 0) true ex_asked 0 (py "GET") 1 (py "HTTP_1_1")
    ex_env_ok F P eq_refl W eq_refl (or_introl eq_refl) eq_refl (or_intror (or_introl eq_refl))) as (about & E & _).
  rewrite app_nil_r in E. rewrite E. apply in_or_app. right. left. f_equal.
Qed.

(** ** C110: the quotes.  Texts are quoted in such a way that they can be told from the log, and
    plain texts are shown as they are. *)
Fixpoint unhexs (n : nat) (acc : Z) (l : pystr) : option (Z * pystr) :=
  match n with
  | O => Some (acc, l)
  | S m => match l with d :: t => unhexs m (16 * acc + unhex d) t | [] => None end
  end.
Lemma unhex_digit d : 0 <= d < 16 -> unhex (hex_digit d) = d.
Proof. intros H. unfold unhex, hex_digit. destruct (Z.ltb_spec d 10); [destruct (Z.ltb_spec (48 + d) 58)|destruct (Z.ltb_spec (87 + d) 58)]; lia. Qed.
Lemma unhexs_digits n : forall k acc c t, unhexs (n + k) acc (hex_digits n c ++ t) = unhexs k (acc * 16 ^ Z.of_nat n + c mod 16 ^ Z.of_nat n) t.
Proof.
  induction n as [|m IH]; intros k acc c t.
  - cbn [hex_digits app Nat.add]. f_equal. change (16 ^ Z.of_nat 0) with 1. rewrite Z.mod_1_r. lia.
  - cbn [hex_digits]. rewrite <- app_assoc. cbn [app]. rewrite Nat.add_succ_comm, IH. cbn [unhexs].
    rewrite unhex_digit by (apply Z.mod_pos_bound; lia). f_equal. rewrite Nat2Z.inj_succ, Z.pow_succ_r by lia.
    rewrite (Z.rem_mul_r c 16) by (pose proof (Z.pow_pos_nonneg 16 (Z.of_nat m)); lia). lia.
Qed.
Lemma unhexs_ok n c t : 0 <= c < 16 ^ Z.of_nat n -> unhexs n 0 (hex_digits n c ++ t) = Some (c, t).
Proof.
  intros H. pose proof (unhexs_digits n 0 0 c t) as E. rewrite Nat.add_0_r in E. rewrite E. cbn [unhexs].
  rewrite Z.mod_small by lia. f_equal.
Qed.
Definition undo (q : Z) (l : pystr) : option (Z * pystr) :=
  match l with
  | [] => None
  | c :: l1 =>
      if c =? q then None else if c =? 92 then
        match l1 with
        | [] => None
        | e :: t =>
            if e =? 120 then unhexs 2 0 t else if e =? 117 then unhexs 4 0 t else if e =? 85 then unhexs 8 0 t
            else if e =? 116 then Some (9, t) else if e =? 110 then Some (10, t) else if e =? 114 then Some (13, t) else Some (e, t)
        end
      else Some (c, l1)
  end.
Lemma undo_hex q n x c t : q = 39 \/ q = 34 -> (n, x) = (2%nat, 120) \/ (n, x) = (4%nat, 117) \/ (n, x) = (8%nat, 85) ->
  0 <= c < 16 ^ Z.of_nat n -> undo q (92 :: x :: hex_digits n c ++ t) = Some (c, t).
Proof.
  intros Q N C. pose proof (unhexs_ok n c t C) as U. unfold undo.
  replace (92 =? q) with false by (destruct Q as [-> | ->]; reflexivity). change (92 =? 92) with true. cbv iota.
  destruct N as [N|[N|N]]; apply pair_equal_spec in N as [-> ->]; exact U.
Qed.
Lemma undo_char ds q c t : q = 39 \/ q = 34 -> 0 <= c < 2 ^ 32 -> undo q (repr_char ds q c ++ t) = Some (c, t).
Proof.
  intros Q C.
  assert (Plain : forall d u, d <> q -> d <> 92 -> undo q (d :: u) = Some (d, u)).
  { intros d u A B. unfold undo. rewrite (proj2 (Z.eqb_neq d q) A), (proj2 (Z.eqb_neq d 92) B). reflexivity. }
  unfold repr_char. destruct (Z.ltb_spec c 128) as [L|L].
  - unfold repr_ascii. destruct ((c =? q) || (c =? 92)) eqn:E1.
    { apply orb_true_iff in E1. assert (c = 39 \/ c = 34 \/ c = 92) as D by (destruct E1, Q; lia). clear E1.
      destruct Q as [-> | ->]; destruct D as [->|[-> | ->]]; reflexivity. }
    apply orb_false_iff in E1 as [N1 N2]. apply Z.eqb_neq in N1, N2.
    destruct (Z.eqb_spec c 9) as [->|]; [destruct Q as [-> | ->]; reflexivity|].
    destruct (Z.eqb_spec c 10) as [->|]; [destruct Q as [-> | ->]; reflexivity|].
    destruct (Z.eqb_spec c 13) as [->|]; [destruct Q as [-> | ->]; reflexivity|].
    destruct ((c <? 32) || (c =? 127)).
    + apply (undo_hex q 2 120); [exact Q|auto|]. change (16 ^ Z.of_nat 2) with 256. lia.
    + apply Plain; assumption.
  - destruct (ds_printable ds c); [apply Plain; lia|].
    destruct (Z.ltb_spec c 256); [|destruct (Z.ltb_spec c 65536)].
    + apply (undo_hex q 2 120); [exact Q|auto|]. change (16 ^ Z.of_nat 2) with 256. lia.
    + apply (undo_hex q 4 117); [exact Q|auto|]. change (16 ^ Z.of_nat 4) with 65536. lia.
    + apply (undo_hex q 8 85); [exact Q|auto|]. change (16 ^ Z.of_nat 8) with (2 ^ 32). lia.
Qed.
Lemma undo_end q t : undo q (q :: t) = None.
Proof. unfold undo. rewrite Z.eqb_refl. reflexivity. Qed.
Lemma repr_chars_inj ds q x : q = 39 \/ q = 34 -> forall y s t, Forall (fun c => 0 <= c < 2 ^ 32) x -> Forall (fun c => 0 <= c < 2 ^ 32) y ->
  flat_map (repr_char ds q) x ++ q :: s = flat_map (repr_char ds q) y ++ q :: t -> x = y /\ s = t.
Proof.
  intros Q. induction x as [|c x IH]; intros [|d y] s t X Y E; cbn [flat_map] in E; rewrite <- ?app_assoc in E.
  - split; [reflexivity|]. cbn [app] in E. congruence.
  - apply Forall_cons_iff in Y as [D Y]. apply (f_equal (undo q)) in E. rewrite undo_char in E by assumption. cbn [app] in E. rewrite undo_end in E. discriminate.
  - apply Forall_cons_iff in X as [C X]. apply (f_equal (undo q)) in E. rewrite undo_char in E by assumption. cbn [app] in E. rewrite undo_end in E. discriminate.
  - apply Forall_cons_iff in X as [C X]. apply Forall_cons_iff in Y as [D Y]. apply (f_equal (undo q)) in E. rewrite !undo_char in E by assumption.
    assert (E1 : c = d) by congruence. assert (E2 : flat_map (repr_char ds q) x ++ q :: s = flat_map (repr_char ds q) y ++ q :: t) by congruence.
    destruct (IH y s t X Y E2) as [-> ->]. subst d. auto.
Qed.
Theorem C110_quotes : forall ds,
  (forall x y s t, Forall (fun c => 0 <= c <= 1114111) x -> Forall (fun c => 0 <= c <= 1114111) y ->
     repr_str ds x ++ s = repr_str ds y ++ t -> x = y /\ s = t) /\
  (forall x, Forall (fun c => 32 <= c < 127 /\ c <> 39 /\ c <> 92) x -> repr_str ds x = py "'" ++ x ++ py "'").
Proof.
  intros ds. split.
  - intros x y s t X Y E. unfold repr_str in E. cbv zeta in E. cbn [app] in E.
    assert (Q : quote_of x = quote_of y) by congruence. assert (E' := f_equal (@tl Z) E). cbn [tl] in E'. rewrite <- Q, <- !app_assoc in E'. cbn [app] in E'.
    apply repr_chars_inj in E'; [exact E'|apply quote_two| |]; eapply Forall_impl; [|exact X| |exact Y]; cbv beta; intros c; lia.
  - intros x X. unfold repr_str. assert (Q : quote_of x = 39).
    { unfold quote_of. replace (existsb (Z.eqb 39) x) with false; [reflexivity|]. symmetry. apply not_true_is_false. intros H. apply existsb_exists in H as (c & I & E).
      rewrite Forall_forall in X. specialize (X c I). apply Z.eqb_eq in E. lia. }
    rewrite Q. cbv zeta. change (py "'") with [39]. cbn [app]. f_equal. f_equal. clear Q.
    induction x as [|c x IH]; [reflexivity|]. apply Forall_cons_iff in X as [C X]. cbn [flat_map]. rewrite (IH X).
    unfold repr_char, repr_ascii. destruct (Z.ltb_spec c 128); [|lia].
    replace ((c =? 39) || (c =? 92)) with false by lia.
    replace (c =? 9) with false by lia. replace (c =? 10) with false by lia. replace (c =? 13) with false by lia.
    replace ((c <? 32) || (c =? 127)) with false by lia. reflexivity.
Qed.
Print Assumptions C110_quotes.
(** a frame with an initialization, a handshake and an acknowledgement *)
Example C110_case :
  w_message false false (ex_init 77) (ex_raw (ex_init 77)) /\ Forall length_prefix_ok (ctx_strings (m_ctx (ex_init 77))) /\
  w_init_request true ex_init_request (m_payload (ex_init 77)) /\
  fields (frame_fields false false (ex_init 77) (zlen (ex_raw (ex_init 77)) - 6) ++ context_fields ex_ds (m_ctx (ex_init 77)))
    = py "prefix=b'ES', version=2.11.3.99, type=['request'], message=219 byte(s), id=77, ctx=req={'tenant': 't1'}, res={'Warning': {'a', 'b'}}" /\
  fields (node_fields ex_ds (roles_text ex_ds (ir_source ex_init_request)) (ir_source ex_init_request))
    = py "id=id, version=2.11.3.99, name=node, host=h, addr=127.0.0.1, attr={'k': 'v'}, roles=OrderedSet([('data', 'd', True), ('ingest', 'i', False)])" /\
  w_message true false (ex_reply 3 [x01]) (ex_answer 3 [x01]) /\ w_bool true (m_payload (ex_reply 3 [x01])) /\
  repr_str ex_ds (py "it's") = py """it's""" /\ repr_str ex_ds [233; 8364] = py "'\xe9\u20ac'".
Proof.
  split; [apply ex_wire; [text|discriminate|vm_compute; discriminate]|]. split; [exact ex_prefix|].
  split; [apply ex_init_wire|]. split; [vm_compute; reflexivity|].
  split; [vm_compute; reflexivity|]. split; [apply ex_reply_message; [discriminate|vm_compute; discriminate]|]. split; [reflexivity|].
  split; vm_compute; reflexivity.
Qed.
