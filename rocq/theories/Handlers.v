(** * Handlers the program adds, and extensions of other kinds (actions/request_handlers.py,
    actions/response_handlers.py, actions/request_handler.py, server/async_extension_host.py,
    extension.py, api/action_extension.py) *)
From Coq Require Import ZArith List Bool String.
From Coq Require Import Strings.Byte.
From Verif Require Import Py Stream Version Frame Proto Messages Rest Routes Settings Host.
Import ListNotations.
Open Scope Z_scope.

(** request_handler.py:22-38: a RequestHandler object.  The four of the SDK, or one of the
    program's own, by number. *)
Inductive handler := HDiscovery | HRest | HTcp | HTransport | HUser (n : nat).
(** request_handlers.py:18: RequestHandlers is a dict from actions to handlers *)
Definition handlers := list (pystr * handler).
(** request_handlers.py:22-23 register; [a] is the attribute [action] of the handler *)
Definition register (hs : handlers) (a : pystr) (x : handler) : handlers := dict_set streqb a x hs.
(** async_extension_host.py:36-41 __init_request_handlers *)
Definition served : handlers :=
  register (register (register (register [] A_DISCOVERY HDiscovery) A_REST HRest) A_TCP HTcp)
    A_TRANSPORT HTransport.

(** The classes of a program: name and direct bases, in order (Python's __bases__). *)
Inductive pyclass := Cls (name : pystr) (bases : list pyclass).
(** __name__ *)
Definition cls_name (c : pyclass) : pystr := match c with Cls n _ => n end.
(** __bases__ *)
Definition cls_bases (c : pyclass) : list pyclass := match c with Cls _ b => b end.
(** extension.py:19-24 implemented_interfaces of an instance of [c] *)
Definition implemented_interfaces (c : pyclass) : list pystr := map cls_name (cls_bases c).

(** ** The host with its table of handlers, and an extension for which
    ActionExtension.__init__ ran ([acts]) or not: it is no ActionExtension, or its __init__ does
    not call that one.  Without it there is no attribute [extension_rest_handlers]
    (action_extension.py:26-36), and without ActionExtension there are no attributes
    [named_routes] and [handle]: AttributeError either way. *)

(** discovery_extensions_request_handler.py:34-70 for such an extension: up to
    [self.extension.named_routes] *)
Definition discovery_plain {U} (ext : extension U) (req : outbound) (input : bytes)
  : hm U (option bytes) :=
  _r <== hlift (read_init_request input) ;;
  resp <== hids (reply_to req (write_init_response
                  (mkInitResp (xt_name ext) (xt_interfaces ext)))) ;;
  _a <== hmod (fun h => set_init h resp) ;;
  env_msg <== hlift (new_ext_transport_request REQUEST_EXTENSION_ENVIRONMENT_SETTINGS []) ;;
  settings_request <== hids (new_request (Some (o_ctx req)) (o_features req)
                              (Some (write_ext_transport_request env_msg)) V_MIN_COMPAT
                              ENV_ACTION None false false) ;;
  _b <== register_response (h_id (o_hdr settings_request)) EnvRH ;;
  hlift (Raise EAttr).
(** extension_rest_request_handler.py:27-32 for such an extension: up to
    [self.extension.handle] *)
Definition rest_plain {U} (req : outbound) (input : bytes) : hm U (option bytes) :=
  r <== hlift (read_rest_request input) ;;
  _m <== hlift (method_name (rq_method (fst r))) ;;
  hlift (Raise EAttr).

(** The code of the program's handlers: number of the handler, what uuid4() returns, request
    and unread input; it may register handlers.  ([handle] of request_handler.py:28-30) *)
Definition code (U : Type) :=
  nat -> bytes -> outbound -> bytes -> host U * handlers -> res (option bytes) * (host U * handlers).

(** a computation that does not touch the table *)
Definition keep {U A} (m : hm U A) (st : host U * handlers) : res A * (host U * handlers) :=
  match m (fst st) with (r, h) => (r, (h, snd st)) end.
(** handler.handle(request, input) *)
Definition run_handler {U} (ev : env) (acts : bool) (ext : extension U) (cd : code U) (uuid : bytes)
  (x : handler) (req : outbound) (input : bytes) (st : host U * handlers)
  : res (option bytes) * (host U * handlers) :=
  match x with
  | HDiscovery => keep (if acts then handle_discovery ext req input else discovery_plain ext req input) st
  | HRest => keep (if acts then handle_rest ev ext req input else rest_plain req input) st
  | HTcp => keep (handle_tcp_handshake req input) st
  | HTransport => keep (handle_transport_handshake ev uuid req input) st
  | HUser n => cd n uuid req input st
  end.
(** request_handlers.py:25-27 handle, then async_extension_host.py:55-57 *)
Definition handle_table {U} (ev : env) (acts : bool) (ext : extension U) (cd : code U) (uuid : bytes)
  (req : outbound) (input : bytes) (st : host U * handlers) : res (option bytes) * (host U * handlers) :=
  match dict_get streqb (o_action req) (snd st) with
  | None => keep (handle_not_found req) st
  | Some x =>
      match run_handler ev acts ext cd uuid x req input st with
      | (Ok None, st') => keep (handle_not_found req) st'
      | y => y
      end
  end.
(** async_extension_host.py:48-70 on_input with the table *)
Definition on_input_table {U} (ev : env) (acts : bool) (ext : extension U) (cd : code U) (uuid raw : bytes)
  (st : host U * handlers) : res (option bytes) * (host U * handlers) :=
  match keep (_d <== hids default_header ;; hlift (read_header raw)) st with
  | (Raise e, st) => (Raise e, st)
  | (Ok (hd, rest), st) =>
      if is_request hd then
        match keep (o <== hids (new_request None [] None HNone [] None false false) ;;
                    hlift (read_outbound (e_so ev) true o hd rest)) st with
        | (Raise e, st) => (Raise e, st)
        | (Ok (o, input), st) => handle_table ev acts ext cd uuid o input st
        end
      else
        keep (o <== hids (new_response None [] None HNone None false false) ;;
              m <== hlift (read_outbound (e_so ev) false o hd rest) ;;
              if is_error hd then hret None else handle_response ev (h_id hd) (snd m)) st
  end.

(** ** response_handlers.py: ResponseHandlers is a dict from ids to handlers of any kind [H] *)
Inductive rop (H : Type) :=
| Register (id : Z) (x : H)     (* register(id, x), by whoever *)
| Respond (id : Z).             (* handle(response, input) of a response with that id *)
Arguments Register {H}. Arguments Respond {H}.
(** response_handlers.py:22-27: one call; the handler it runs, if any *)
Definition responses_step {H} (d : list (Z * H)) (o : rop H) : list (Z * H) * option H :=
  match o with
  | Register id x => (dict_set Z.eqb id x d, None)
  | Respond id => (dict_del Z.eqb id d, dict_get Z.eqb id d)
  end.
(** response_handlers.py:22-27: a history of calls; what a handler that is run registers in turn
    follows in the history *)
Fixpoint responses_run {H} (d : list (Z * H)) (l : list (rop H)) : list (option H) :=
  match l with
  | [] => []
  | o :: l => snd (responses_step d o) :: responses_run (fst (responses_step d o)) l
  end.
