(** * read_from on objects that were used before.  Most read_from methods assign every attribute;
    those of ExtensionRestRequest and OutboundMessage do not, and the latter reads the thread
    context in place.  (An object whose read_from raised is in Half.v.) *)
From Coq Require Import ZArith List Bool.
From Coq Require Import Strings.Byte.
From Verif Require Import Py Stream Frame Messages Rest.
Import ListNotations.
Open Scope list_scope.
Open Scope Z_scope.

(** extension_rest_request.py:48-60 read_from on the object [old]: the media type is assigned
    only if there is one (55-56); consumed_params and content_consumed (45-46) never are *)
Definition read_rest_request_into (old : rest_request) : reader rest_request :=
  t <~ read_transport_request ;;
  m <~ read_enum N_METHODS ;;
  uri <~ read_string ;;
  path <~ read_string ;;
  params <~ read_string_to_string_dict ;;
  headers <~ read_string_to_string_array_dict ;;
  has <~ read_boolean ;;
  media <~ (if has then read_string else rret (rq_media old)) ;;
  n <~ read_array_size ;;
  content <~ read_bytes n ;;
  tok <~ read_string ;;
  hv <~ read_enum N_HTTP ;;
  rret (mkReq t (Some m) uri path params headers media content tok (Some hv)
          (rq_consumed old) (rq_content_consumed old)).
(** extension_rest_request.py:23-46 ExtensionRestRequest() *)
Definition new_rest_request : rest_request :=
  mkReq default_task None [] [] [] [] [] [] [] None [] false.

(** A message and the number of its ThreadContextStruct among those of the program
    (network_message.py:20-32: a context given to the constructor is kept, not copied). *)
Record held := mkHeld { hd_ctx : nat; hd_out : outbound }.
(** [l[i] = x] *)
Fixpoint put {A} (i : nat) (x : A) (l : list A) : list A :=
  match l, i with
  | [], _ => []
  | _ :: t, O => x :: t
  | y :: t, S j => y :: put j x t
  end.
(** the message as its attributes and the contents of its context say *)
Definition whole (st : list ctx) (m : held) : outbound :=
  let o := hd_out m in
  mkOut (o_hdr o) (nth (hd_ctx m) st empty_ctx) (o_var o) (o_msg o) (o_features o) (o_action o).
(** outbound_message.py:71-85 read_from; line 76 reads the context in place *)
Definition read_held (so : set_order) (req : bool) (st : list ctx) (m : held) (h : header)
  : reader (list ctx * held) :=
  o <~ read_outbound so req (whole st m) h ;;
  rret (put (hd_ctx m) (o_ctx o) st, mkHeld (hd_ctx m) o).
(** outbound_message.py:99-106 write_to *)
Definition write_held (st : list ctx) (m : held) : res bytes := write_outbound (whole st m).
