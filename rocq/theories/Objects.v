(** * REST requests and responses as objects (rest/extension_rest_request.py,
      rest/extension_rest_response.py)

    Rest.v describes a request and a response by their contents.  A handler works with objects:
    assignments do not copy, and the default argument of [headers] is one dict for the whole
    process.  Here dicts, sets, requests and responses have identities: their number in the
    order of creation. *)
From Coq Require Import ZArith List Bool String.
From Coq Require Import Strings.Byte.
From Verif Require Import Py Stream Version Messages Rest.
Import ListNotations.
Open Scope Z_scope.

(** A request: the attributes that are not objects of their own, and the set consumed_params
    (extension_rest_request.py:36-46; rq_consumed is not used). *)
Record req_obj := mkReqObj { ro_attrs : rest_request; ro_consumed : nat }.
(** A response (extension_rest_response.py:33-41) *)
Record resp_obj := mkRespObj {
  so_status : option Z;
  so_content : bytes;
  so_ctype : pystr;
  so_headers : nat;          (* a dict *)
  so_consumed : nat;         (* a set *)
  so_content_consumed : bool }.
(** The objects of the process *)
Record heap := mkHeap {
  hp_dicts : list (sdict (list pystr));
  hp_sets : list (list pystr);
  hp_reqs : list req_obj;
  hp_resps : list resp_obj }.

(** What the program does next *)
Inductive op :=
| NewDict (d : sdict (list pystr))   (* a dict display *)
| NewRequest (q : rest_request)      (* ExtensionRestRequest().read_from(...), with these contents *)
| CallRequest (j : nat) (c : call)   (* request j: param, has_param, content, has_content *)
| NewResponse (j : option nat) (status : option Z) (content : bytes) (ctype : pystr) (headers : option nat)
    (* ExtensionRestResponse(request j or None, status, content, ctype, dict number headers, or without) *)
| SetHeader (i : nat) (k : pystr) (v : list pystr). (* response i: response.headers[k] = v *)

(** assignment in a list of objects *)
Fixpoint put {A} (n : nat) (x : A) (l : list A) : list A :=
  match l, n with
  | [], _ => []
  | _ :: t, O => x :: t
  | y :: t, S m => y :: put m x t
  end.

(** extension_rest_response.py:30 headers = dict(): evaluated once, when the class is made *)
Definition DEFAULT_HEADERS : nat := 0.
(** the process after its imports *)
Definition new_heap : heap := mkHeap [[]] [] [] [].

(** extension_rest_request.py:48-60 read_from with 45-46: a new request has consumed nothing *)
Definition do_new_request (h : heap) (q : rest_request) : heap :=
  mkHeap (hp_dicts h) (hp_sets h ++ [[]])
    (hp_reqs h ++ [mkReqObj (with_consumed q [] false) (List.length (hp_sets h))]) (hp_resps h).
(** extension_rest_request.py:78-92 *)
Definition do_call_request (h : heap) (j : nat) (c : call) : heap :=
  match nth_error (hp_reqs h) j with
  | None => h
  | Some r =>
      match nth_error (hp_sets h) (ro_consumed r) with
      | None => h
      | Some s =>
          let q := snd (do_call (with_consumed (ro_attrs r) s (rq_content_consumed (ro_attrs r))) c) in
          mkHeap (hp_dicts h) (put (ro_consumed r) (rq_consumed q) (hp_sets h))
            (put j (mkReqObj (with_consumed q [] (rq_content_consumed q)) (ro_consumed r)) (hp_reqs h)) (hp_resps h)
      end
  end.
(** extension_rest_response.py:24-41 __init__: the set of the request, not a copy, or a new
    one; the flag is copied; the dict given, or the default one *)
Definition do_new_response (h : heap) (j : option nat) (status : option Z) (content : bytes) (ctype : pystr)
  (headers : option nat) : heap :=
  let d := match headers with Some d => d | None => DEFAULT_HEADERS end in
  match match j with Some j => nth_error (hp_reqs h) j | None => None end with
  | Some r =>
      mkHeap (hp_dicts h) (hp_sets h) (hp_reqs h)
        (hp_resps h ++ [mkRespObj status content ctype d (ro_consumed r) (rq_content_consumed (ro_attrs r))])
  | None =>
      mkHeap (hp_dicts h) (hp_sets h ++ [[]]) (hp_reqs h)
        (hp_resps h ++ [mkRespObj status content ctype d (List.length (hp_sets h)) false])
  end.
(** response.headers[k] = v *)
Definition do_set_header (h : heap) (i : nat) (k : pystr) (v : list pystr) : heap :=
  match nth_error (hp_resps h) i with
  | None => h
  | Some r =>
      match nth_error (hp_dicts h) (so_headers r) with
      | None => h
      | Some d => mkHeap (put (so_headers r) (dict_set streqb k v d) (hp_dicts h)) (hp_sets h) (hp_reqs h) (hp_resps h)
      end
  end.
(** one operation.  Simplified: attributes are not assigned to after construction, and the
    lists in the dicts are not changed in place. *)
Definition obj_step (h : heap) (o : op) : heap :=
  match o with
  | NewDict d => mkHeap (hp_dicts h ++ [d]) (hp_sets h) (hp_reqs h) (hp_resps h)
  | NewRequest q => do_new_request h q
  | CallRequest j c => do_call_request h j c
  | NewResponse j st c ct hd => do_new_response h j st c ct hd
  | SetHeader i k v => do_set_header h i k v
  end.
(** one after the other *)
Definition obj_run (h : heap) (os : list op) : heap := fold_left obj_step os h.

(** what extension_rest_request_handler.py:37-43 (and write_to) find in the attributes of
    response [i] *)
Definition response_at (h : heap) (i : nat) : option rest_response :=
  match nth_error (hp_resps h) i with
  | None => None
  | Some r =>
      match nth_error (hp_dicts h) (so_headers r), nth_error (hp_sets h) (so_consumed r) with
      | Some d, Some s => Some (mkResp (so_status r) (so_content r) (so_ctype r) d s (so_content_consumed r))
      | _, _ => None
      end
  end.

(** Handlers written with these operations: for each request a new request object, then what
    the handler does (it knows the objects there are), then the last response is returned
    (extension_rest_request_handler.py:27-43). *)
Definition run_handler (script : nat -> heap -> list op) (n : nat) (h : heap) (q : rest_request) : heap * res rest_response :=
  let h1 := do_new_request h q in
  let h2 := obj_run h1 (script n h1) in
  (h2, match response_at h2 (pred (List.length (hp_resps h2))) with Some p => Ok p | None => Raise EAttr end).
