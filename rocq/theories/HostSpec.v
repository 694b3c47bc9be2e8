(** * Small specifications used in the statements about the host (C40-C50).
    They describe what is on the wire and what the outside sees, not how the host works. *)
From Coq Require Import String ZArith List Bool Permutation.
From Coq Require Import Strings.Byte.
From Verif Require Import Py Stream Version Frame Proto Messages Rest Routes Settings Host Spec Wire.
Import ListNotations.
Open Scope list_scope.
Open Scope Z_scope.

(** [raw] was made from the request [m] by OutboundMessageRequest, from values that fit the
    wire, with a non-zero id, and written *)
Definition written_frame (m : message) (raw : bytes) : Prop :=
  ctx_ok (m_ctx m) /\ texts_ok (m_features m) /\ text_ok (m_action m) /\ m_id m <> 0 /\
  exists n o n',
    new_request (Some (m_ctx m)) (m_features m) (Some (Ok (m_payload m))) (HVer (m_version m))
      (m_action m) (Some (m_id m)) (m_hs m) (m_cp m) n = (Ok o, n') /\
    write_outbound o = Ok raw.
(** [raw] is a frame of the request [m], non-zero id: in the wire format (Wire.v; contexts
    affected by C22 excepted, see C73), or written by this SDK *)
Definition frame_of (m : message) (raw : bytes) : Prop :=
  (m_id m <> 0 /\ Forall length_prefix_ok (ctx_strings (m_ctx m)) /\ w_frame false m raw) \/
  written_frame m raw.

(** [raw] (any bytes) reads as the request [m]: header and envelope are accepted, into a
    fresh OutboundMessageRequest() *)
Definition read_as (so : set_order) (raw : bytes) (m : message) : Prop :=
  exists hd t n o0 n' o,
    read_header raw = Ok (hd, t) /\ is_request hd = true /\
    new_request None [] None HNone [] None false false n = (Ok o0, n') /\
    read_outbound so true o0 hd t = Ok (o, m_payload m) /\
    m_ctx m = o_ctx o /\ m_features m = o_features o /\ HVer (m_version m) = h_version hd /\
    m_action m = o_action o /\ m_id m = h_id hd /\ m_hs m = is_handshake hd /\
    m_cp m = is_compress hd.

(** [raw] (any bytes) reads as a response with the id [k], marked as error or not, carrying
    [payload] *)
Definition response_in (so : set_order) (raw : bytes) (err : bool) (k : Z) (payload : bytes) : Prop :=
  exists hd t n o0 n' o,
    read_header raw = Ok (hd, t) /\ is_request hd = false /\ is_error hd = err /\ h_id hd = k /\
    new_response None [] None HNone None false false n = (Ok o0, n') /\
    read_outbound so false o0 hd t = Ok (o, payload).

(** Whoever reads [out] (whatever follows it, in whatever order their sets iterate) finds the
    request ([resp = false]) or response ([resp = true]) [m], not marked as an error; and unless
    the strings of the context are affected by C22, [out] is the frame of [m] (Wire.v). *)
Definition carries (resp : bool) (m : message) (out : bytes) : Prop :=
  (Forall length_prefix_ok (ctx_strings (m_ctx m)) -> w_frame resp m out) /\
  forall so s, set_order_ok so -> exists h t,
    read_header (out ++ s) = Ok (h, t) /\
    is_response h = resp /\ is_error h = false /\ h_id h = m_id m /\ h_version h = HVer (m_version m) /\
    is_handshake h = m_hs m /\ is_compress h = m_cp m /\
    (Forall length_prefix_ok (ctx_strings (m_ctx m)) -> h_size h = zlen out - 6) /\
    forall o0, exists o', read_outbound so (negb resp) o0 h t = Ok (o', m_payload m ++ s) /\
      o_hdr o' = h /\ same_ctx (m_ctx m) (o_ctx o') /\
      (resp = false -> o_features o' = m_features m /\ o_action o' = m_action m).

(** Version(Version.MIN_COMPAT) *)
Definition min_compat : version := version_of_id 7099999.

(** the response to the request [m] with payload [p] *)
Definition response_to (m : message) (p : bytes) : message :=
  mkMsg (m_ctx m) (m_features m) min_compat [] (m_id m) (m_hs m) (m_cp m) p.
(** [out] answers [m] with payload [p] *)
Definition answers (m : message) (p : bytes) (out : bytes) : Prop := carries true (response_to m p) out.

(** a request the host sends on its own account while initializing, with id [k], in the
    context of the request [m] *)
Definition request_for (m : message) (k : Z) (action : pystr) (p : bytes) : message :=
  mkMsg (m_ctx m) (m_features m) min_compat action k false false p.

(** The four actions with a handler *)
Definition known_actions : list pystr :=
  map py ["internal:discovery/extensions"; "internal:extensions/restexecuteonextensiontaction";
          "internal:tcp/handshake"; "internal:transport/handshake"]%string.
Definition is_init (m : message) : Prop := m_action m = py "internal:discovery/extensions".

(** Everything but the id counter is as before *)
Definition only_ids {U} (h h' : host U) : Prop :=
  hs_pending h' = hs_pending h /\ hs_init h' = hs_init h /\ hs_settings h' = hs_settings h /\
  hs_user h' = hs_user h.

(** ** Histories of received chunks: (uuid drawn if one is needed, bytes) *)
Definition feed {U} (ev : env) (ext : extension U) (h : host U) (l : list (bytes * bytes)) : host U :=
  fold_left (fun h x => snd (on_input ev ext (fst x) (snd x) h)) l h.
(** a host that has been running for a while *)
Definition running {U} (ev : env) (ext : extension U) (h : host U) : Prop :=
  exists u l, h = feed ev ext (initial_host u) l.
(** ids with a response handler waiting *)
Definition pending_ids {U} (h : host U) : list Z := map fst (hs_pending h).
(** a chunk that has nothing to do with an exchange waiting for the responses [ks]: not an
    initialization request, not a (non-error) response to one of [ks] *)
Definition unrelated (so : set_order) (ks : list Z) (raw : bytes) : Prop :=
  (forall m, read_as so raw m -> ~ is_init m) /\
  (forall k p, In k ks -> ~ response_in so raw false k p).

(** [m] is an initialization request received in the history [l] of a host that started as
    [h0]; the latest if every later one made the host raise *)
Definition received_init (so : set_order) (l : list (bytes * bytes)) (m : message) : Prop :=
  is_init m /\ exists x, In x l /\ read_as so (snd x) m.
Definition latest_init {U} (ev : env) (ext : extension U) (h0 : host U) (l : list (bytes * bytes))
  (m : message) : Prop :=
  is_init m /\ exists l1 x l2, l = l1 ++ x :: l2 /\ read_as (e_so ev) (snd x) m /\
    forall l3 y l4 m', l2 = l3 ++ y :: l4 -> read_as (e_so ev) (snd y) m' -> is_init m' ->
      exists e, fst (on_input ev ext (fst y) (snd y) (feed ev ext h0 (l1 ++ x :: l3))) = Raise e.

(** ** Runs of the server: what a connection received and what was sent on it *)
Definition conn_of {U} (w : world U) (c : Z) : option conn := dict_get Z.eqb c (w_conns w).
(** completed sends on [c], oldest first *)
Definition sent_on {U} (w : world U) (c : Z) : list bytes :=
  map snd (filter (fun x => fst x =? c) (w_sent w)).
(** the chunks received (on any connection) in a run, oldest first: connection, uuid, bytes,
    and what the host had to send for it *)
Record handled := mkHandled { hd_conn : Z; hd_uuid : bytes; hd_raw : bytes; hd_reply : option bytes }.
Definition handles {U} (ev : env) (ext : extension U) (w : world U) (e : event) : list handled :=
  match e with
  | Recv c raw uuid =>
      if 10240 <? zlen raw then [] else
      match conn_of w c, raw with
      | Some Receiving, _ :: _ =>
          [mkHandled c uuid raw
             (match fst (on_input ev ext uuid raw (w_host w)) with Ok r => r | Raise _ => None end)]
      | _, _ => []
      end
  | _ => []
  end.
Fixpoint log {U} (ev : env) (ext : extension U) (w : world U) (es : list event) : list handled :=
  match es with
  | [] => []
  | e :: t => handles ev ext w e ++ log ev ext (world_step ev ext w e) t
  end.
Definition log_of (c : Z) (l : list handled) : list handled := filter (fun x => hd_conn x =? c) l.
Definition somes {A} (l : list (option A)) : list A :=
  flat_map (fun o => match o with Some a => [a] | None => [] end) l.
(** [subsequence a b]: [a] is [b] with some elements left out *)
Inductive subsequence {A} : list A -> list A -> Prop :=
| sub_nil : subsequence [] []
| sub_keep x a b : subsequence a b -> subsequence (x :: a) (x :: b)
| sub_skip x a b : subsequence a b -> subsequence a (x :: b).
(** the reply still being sent on [c] *)
Definition in_flight {U} (w : world U) (c : Z) : list bytes :=
  match conn_of w c with Some (Sending d) => [d] | _ => [] end.

(** the connection an event is about *)
Definition event_conn (e : event) : option Z :=
  match e with
  | Accept c | Recv c _ _ | SendDone c _ | RecvFail c | Cancelled c => Some c
  | Terminate | CancelAccept | AcceptFail => None
  end.

(** one connection, chunk after chunk, every send completing *)
Definition serve (chunks : list (bytes * bytes)) : list event :=
  Accept 0 :: flat_map (fun x => [Recv 0 (snd x) (fst x); SendDone 0 true]) chunks.
