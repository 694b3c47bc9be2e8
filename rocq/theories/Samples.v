(** * The sample extensions (samples/hello, samples/crud) *)
From Coq Require Import String ZArith List Bool.
From Verif Require Import Py Stream Rest Routes Host.
Import ListNotations.
Open Scope list_scope.
Open Scope Z_scope.

(** extension.py:19-24 implemented_interfaces of a class derived from Extension and
    ActionExtension, as both samples are (hello_extension.py:19, crud_extension.py:18) *)
Definition SAMPLE_INTERFACES : list pystr := [py "Extension"; py "ActionExtension"].

(** ** samples/hello *)

(** hello_rest_handler.py:31-33 routes *)
Definition hello_routes : list named_route :=
  [mkRoute 0 (py "/hello") (py "greeting"); mkRoute 0 (py "/hello/{name}") (py "personal_greeting")].
(** hello_rest_handler.py:22-29 handle_request; 0x1F44B is the waving hand, 10 the newline *)
Definition hello_handle (q : rest_request) : res rest_response :=
  match do_call q (CParam (py "name")) with
  | (AStr name, q') =>
      b <- utf8_encode (match name with
                        | Some name => py "Hello " ++ name ++ py "! " ++ [0x1F44B; 10]
                        | None => py "Hello from Python! " ++ [0x1F44B; 10]
                        end) ;;
      Ok (new_rest_response (Some q') (Some q') (Some STATUS_OK) b TEXT_CONTENT_TYPE [])
  | _ => Raise EType
  end.
(** hello_extension.py:19-26 HelloExtension() *)
Definition hello_extension : res (extension unit) :=
  g <- new_action_extension [hello_routes] ;;
  Ok (mkExtn unit (py "hello-world-py") SAMPLE_INTERFACES g (fun _ u q => (u, hello_handle q))).

(** ** samples/crud *)

(** What the handler asks of the OpenSearch client (crud_handler.py:34-68).  An [id] of None
    is the client's default; refresh=True on both kinds of index calls and the fields and size
    of the query are constants and left out. *)
Inductive client_call :=
| ClientIndex (index : pystr) (body : bytes) (id : option pystr)
| ClientSearch (index : pystr) (query : option pystr)
| ClientDelete (index : pystr) (id : option pystr).
(** The client and the cluster behind it: an oracle from the state of the cluster to the JSON
    text (json.dumps) of the client's response, or an exception. *)
Definition client (U : Type) := client_call -> U -> U * res pystr.

(** crud_handler.py:36 *)
Definition TEST_INDEX : pystr := py "test-index".
(** the part of a branch after the call to the client (crud_handler.py:39-40, 49-50, 58-59, 66-68) *)
Definition crud_answer (q : rest_request) (json : res pystr) : res rest_response :=
  j <- json ;; b <- utf8_encode j ;;
  Ok (new_rest_response (Some q) (Some q) (Some STATUS_OK) b JSON_CONTENT_TYPE []).
(** crud_handler.py:30-71 handle_request.  The last branch passes a status as the request:
    RestStatus has no consumed_params, AttributeError. *)
Definition crud_handle {U} (cl : client U) (u : U) (q : rest_request) : U * res rest_response :=
  match rq_method q with
  | Some 1 =>
      match do_call q (CContent true) with
      | (ABytes b, q1) => let (u', j) := cl (ClientIndex TEST_INDEX b None) u in (u', crud_answer q1 j)
      | _ => (u, Raise EType)
      end
  | Some 0 =>
      match do_call q (CParam (py "q")) with
      | (AStr t, q1) => let (u', j) := cl (ClientSearch TEST_INDEX t) u in (u', crud_answer q1 j)
      | _ => (u, Raise EType)
      end
  | Some 2 =>
      match do_call q (CParam (py "id")) with
      | (AStr id, q1) =>
          match do_call q1 (CContent true) with
          | (ABytes b, q2) => let (u', j) := cl (ClientIndex TEST_INDEX b id) u in (u', crud_answer q2 j)
          | _ => (u, Raise EType)
          end
      | _ => (u, Raise EType)
      end
  | Some 3 =>
      match do_call q (CParam (py "id")) with
      | (AStr id, q1) => let (u', j) := cl (ClientDelete TEST_INDEX id) u in (u', crud_answer q1 j)
      | _ => (u, Raise EType)
      end
  | _ => (u, Raise EAttr)
  end.
(** crud_handler.py:73-80 routes *)
Definition crud_routes : list named_route :=
  [mkRoute 1 (py "/crud") (py "crud_post"); mkRoute 0 (py "/crud") (py "crud_get");
   mkRoute 2 (py "/crud") (py "crud_put"); mkRoute 3 (py "/crud") (py "crud_delete")].
(** crud_extension.py:18-25 CRUDExtension() *)
Definition crud_extension {U} (cl : client U) : res (extension U) :=
  g <- new_action_extension [crud_routes] ;;
  Ok (mkExtn U (py "crud-py") SAMPLE_INTERFACES g (fun _ => crud_handle cl)).
