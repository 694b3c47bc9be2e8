(** * REST messages (rest/*.py) *)
From Coq Require Import ZArith List Bool String.
From Coq Require Import Strings.Byte.
From Verif Require Import Py Stream Version Frame Proto Messages.
Import ListNotations.
Open Scope Z_scope.

(** rest_method.py:12: members 0..8 *)
Definition N_METHODS : Z := 9.
(** rest_method.py:12 *)
Definition method_names : list pystr :=
  map py ["GET"; "POST"; "PUT"; "DELETE"; "OPTIONS"; "HEAD"; "PATCH"; "TRACE"; "CONNECT"]%string.
(** [method.name]; AttributeError on None (a number outside 0..8 is not a member) *)
Definition method_name (m : option Z) : res pystr :=
  match m with
  | Some m => match nth_error method_names (Z.to_nat m) with
              | Some n => if m <? 0 then Raise EAttr else Ok n
              | None => Raise EAttr
              end
  | None => Raise EAttr
  end.
(** http_version.py:12: HTTP_1_0, HTTP_1_1 *)
Definition N_HTTP : Z := 2.
(** rest_status.py:13-415: 47 members numbered from 0 in declaration order *)
Definition N_STATUS : Z := 47.
(** rest_status.py:13-415 *)
Definition status_names : list pystr :=
  map py ["CONTINUE"; "SWITCHING_PROTOCOLS"; "OK"; "CREATED"; "ACCEPTED";
    "NON_AUTHORITATIVE_INFORMATION"; "NO_CONTENT"; "RESET_CONTENT"; "PARTIAL_CONTENT";
    "MULTI_STATUS"; "MULTIPLE_CHOICES"; "MOVED_PERMANENTLY"; "FOUND"; "SEE_OTHER";
    "NOT_MODIFIED"; "USE_PROXY"; "TEMPORARY_REDIRECT"; "BAD_REQUEST"; "UNAUTHORIZED";
    "PAYMENT_REQUIRED"; "FORBIDDEN"; "NOT_FOUND"; "METHOD_NOT_ALLOWED"; "NOT_ACCEPTABLE";
    "PROXY_AUTHENTICATION"; "REQUEST_TIMEOUT"; "CONFLICT"; "GONE"; "LENGTH_REQUIRED";
    "PRECONDITION_FAILED"; "REQUEST_ENTITY_TOO_LARGE"; "REQUEST_URI_TOO_LONG";
    "UNSUPPORTED_MEDIA_TYPE"; "REQUESTED_RANGE_NOT_SATISFIED"; "EXPECTATION_FAILED";
    "MISDIRECTED_REQUEST"; "UNPROCESSABLE_ENTITY"; "LOCKED"; "FAILED_DEPENDENCY";
    "TOO_MANY_REQUESTS"; "INTERNAL_SERVER_ERROR"; "NOT_IMPLEMENTED"; "BAD_GATEWAY";
    "SERVICE_UNAVAILABLE"; "GATEWAY_TIMEOUT"; "HTTP_VERSION_NOT_SUPPORTED";
    "INSUFFICIENT_STORAGE"]%string.
(** [RestStatus.NAME.value], if there is such a member *)
Definition status_value (name : pystr) : option Z :=
  (fix go (l : list pystr) (i : Z) : option Z :=
     match l with
     | [] => None
     | x :: t => if streqb name x then Some i else go t (i + 1)
     end) status_names 0.
(** rest_status.py:32 *)
Definition STATUS_OK : Z := 2.
(** rest_status.py:250 *)
Definition STATUS_NOT_FOUND : Z := 21.

(** stream_output.py:1023-1024 write_enum: [enum.value], AttributeError on None *)
Definition write_opt_enum (e : option Z) : res bytes :=
  match e with Some v => write_enum v | None => Raise EAttr end.

(** ** extension_rest_request.py:23-46 attributes.  [rq_consumed] lists the set's members. *)
Record rest_request := mkReq {
  rq_task : task_id;
  rq_method : option Z;
  rq_uri : pystr;
  rq_path : pystr;
  rq_params : sdict pystr;
  rq_headers : sdict (list pystr);
  rq_media : pystr;
  rq_content : bytes;
  rq_token : pystr;
  rq_http : option Z;
  rq_consumed : list pystr;
  rq_content_consumed : bool }.

(** extension_rest_request.py:48-60 read_from on a fresh ExtensionRestRequest() *)
Definition read_rest_request : reader rest_request :=
  t <~ read_transport_request ;;
  m <~ read_enum N_METHODS ;;
  uri <~ read_string ;;
  path <~ read_string ;;
  params <~ read_string_to_string_dict ;;
  headers <~ read_string_to_string_array_dict ;;
  has <~ read_boolean ;;
  media <~ (if has then read_string else rret []) ;;
  n <~ read_array_size ;;
  content <~ read_bytes n ;;
  tok <~ read_string ;;
  hv <~ read_enum N_HTTP ;;
  rret (mkReq t (Some m) uri path params headers media content tok (Some hv) [] false).

(** extension_rest_request.py:62-76 write_to *)
Definition write_rest_request (r : rest_request) : res bytes :=
  wcat [write_transport_request (rq_task r);
        write_opt_enum (rq_method r);
        write_string (rq_uri r);
        write_string (rq_path r);
        write_string_to_string_dict (rq_params r);
        write_string_to_string_array_dict (rq_headers r);
        write_boolean (0 <? zlen (rq_media r));
        match rq_media r with [] => Ok [] | _ => write_string (rq_media r) end;
        write_v_int (zlen (rq_content r));
        Ok (rq_content r);
        write_string (rq_token r);
        write_opt_enum (rq_http r)].

(** *** What a handler can do with a request (extension_rest_request.py:78-92) *)
Inductive call :=
| CParam (key : pystr)      (* param(key) *)
| CHasParam (key : pystr)   (* has_param(key) *)
| CContent (consume : bool) (* content(consume) *)
| CHasContent.              (* has_content() *)
Inductive answer :=
| AStr (v : option pystr) | ABool (b : bool) | ABytes (b : bytes).

(** assignment to consumed_params *)
Definition with_consumed (r : rest_request) (c : list pystr) (cc : bool) : rest_request :=
  mkReq (rq_task r) (rq_method r) (rq_uri r) (rq_path r) (rq_params r) (rq_headers r)
    (rq_media r) (rq_content r) (rq_token r) (rq_http r) c cc.

(** extension_rest_request.py:78-92, one call *)
Definition do_call (r : rest_request) (c : call) : answer * rest_request :=
  match c with
  | CParam k => (AStr (dict_get streqb k (rq_params r)),
                 with_consumed r (set_add k (rq_consumed r)) (rq_content_consumed r))
  | CHasParam k =>
      (ABool (match dict_get streqb k (rq_params r) with Some _ => true | None => false end), r)
  | CContent b =>
      (ABytes (rq_content r), with_consumed r (rq_consumed r) (rq_content_consumed r || b))
  | CHasContent => (ABool (0 <? zlen (rq_content r)), r)
  end.
(** extension_rest_request.py:78-92, calls one after the other *)
Definition do_calls (r : rest_request) (cs : list call) : rest_request :=
  fold_left (fun r c => snd (do_call r c)) cs r.

(** ** extension_rest_response.py *)

(** extension_rest_response.py:20-22 *)
Definition TEXT_CONTENT_TYPE : pystr := py "text/plain; charset=UTF-8".
(** extension_rest_response.py:21 *)
Definition JSON_CONTENT_TYPE : pystr := py "application/json; charset=UTF-8".

(** Attributes; [rp_consumed] lists the members of the set in iteration order. *)
Record rest_response := mkResp {
  rp_status : option Z;
  rp_content : bytes;
  rp_ctype : pystr;
  rp_headers : sdict (list pystr);
  rp_consumed : list pystr;
  rp_content_consumed : bool }.

(** extension_rest_response.py:24-41 __init__.  [self.consumed_params =
    request.consumed_params] shares the set object, so the members are those of the
    request at the time the response is used, not at construction: [built] is the request
    at construction (from which content_consumed is copied), [now] the same request when
    the response is sent. *)
Definition new_rest_response (built now : option rest_request) (status : option Z)
  (content : bytes) (ctype : pystr) (headers : sdict (list pystr)) : rest_response :=
  mkResp status content ctype headers
    (match now with Some r => rq_consumed r | None => [] end)
    (match built with Some r => rq_content_consumed r | None => false end).

(** extension_rest_response.py:43-51 read_from; set(list) goes through the order oracle *)
Definition read_rest_response (so : set_order) : reader rest_response :=
  st <~ read_enum N_STATUS ;;
  n <~ read_array_size ;;
  c <~ read_bytes n ;;
  ct <~ read_string ;;
  h <~ read_string_to_string_array_dict ;;
  ps <~ read_string_array ;;
  cc <~ read_boolean ;;
  rret (mkResp (Some st) c ct h (so (set_of_list ps)) cc).

(** extension_rest_response.py:53-62 write_to *)
Definition write_rest_response (r : rest_response) : res bytes :=
  wcat [write_opt_enum (rp_status r);
        write_v_int (zlen (rp_content r));
        Ok (rp_content r);
        write_string (rp_ctype r);
        write_string_to_string_array_dict (rp_headers r);
        write_string_array (py_sorted (rp_consumed r));
        write_boolean (rp_content_consumed r)].

(** ** rest_execute_on_extension_response.py:19-34 attributes *)
Record exec_response := mkExec {
  ex_status : option Z;
  ex_ctype : pystr;
  ex_content : bytes;
  ex_headers : sdict (list pystr);
  ex_consumed : list pystr;
  ex_content_consumed : bool }.

(** rest_execute_on_extension_response.py:36-44 *)
Definition read_exec_response : reader exec_response :=
  st <~ read_enum N_STATUS ;;
  ct <~ read_string ;;
  n <~ read_array_size ;;
  c <~ read_bytes n ;;
  h <~ read_string_to_string_array_dict ;;
  ps <~ read_string_array ;;
  cc <~ read_boolean ;;
  rret (mkExec (Some st) ct c h ps cc).

(** rest_execute_on_extension_response.py:46-55 *)
Definition write_exec_response (r : exec_response) : res bytes :=
  wcat [write_opt_enum (ex_status r);
        write_string (ex_ctype r);
        write_v_int (zlen (ex_content r));
        Ok (ex_content r);
        write_string_to_string_array_dict (ex_headers r);
        write_string_array (ex_consumed r);
        write_boolean (ex_content_consumed r)].
