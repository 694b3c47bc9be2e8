(** * Conformance vectors (generated by tools/gen_vectors.py)
    The literals of the project's own unit tests (tests/**/*.py) and the frames captured from
    OpenSearch (tests/transport/data/*.txt), computed with the model.  These are tests of the
    model, not proofs of properties: they tie it to what the project's authors observed. *)
From Coq Require Import String Ascii ZArith List Bool.
From Coq Require Import Strings.Byte.
From Verif Require Import Py Stream Version Frame Proto Messages Rest Routes Settings Floats Host Address.
Import ListNotations.
Open Scope list_scope.
Open Scope Z_scope.
(* the texts below are ASCII and short *)
#[local] Existing Instance ascii_rt.

Definition hexdigit (c : ascii) : Z :=
  let n := Z.of_nat (nat_of_ascii c) in if n <? 58 then n - 48 else n - 87.
Fixpoint hx (s : string) : bytes :=
  match s with
  | String a (String b t) => z2b (hexdigit a * 16 + hexdigit b) :: hx t
  | _ => []
  end.
Definition got {A} (r : reader A) (s : bytes) : option A :=
  match r s with Ok (a, _) => Some a | Raise _ => None end.
Definition raises {A} (x : res A) : bool := match x with Raise _ => true | Ok _ => false end.
Definition same_order : set_order := fun l => l.
Ltac v := vm_compute; reflexivity.


(** ** tests/transport/test_stream_input.py *)
Example v_read_byte :
  got (x0 <~ read_byte ;; x1 <~ read_byte ;; rret [x0; x1]) (hx "2aff") = Some [42; -1].
Proof. v. Qed.
Example v_read_bytes :
  got (read_bytes 3) (hx "271042") = Some (hx "271042").
Proof. v. Qed.
Example v_read_int :
  got (x0 <~ read_int ;; x1 <~ read_int ;; rret [x0; x1]) (hx "0000002affffffff") = Some [42; -1].
Proof. v. Qed.
Example v_read_short :
  got (x0 <~ read_short ;; x1 <~ read_short ;; rret [x0; x1]) (hx "1234ffff") = Some [4660; -1].
Proof. v. Qed.
Example v_read_float :
  got (x0 <~ read_float ;; x1 <~ read_float ;; rret [x0; x1]) (hx "40490fdb7f800000") = Some [4614256656748904448; 9218868437227405312].
Proof. v. Qed.
Example v_read_double :
  got (x0 <~ read_double ;; rret [x0]) (hx "4005bf0a8b145769") = Some [4613303445314885481].
Proof. v. Qed.
Example v_read_boolean :
  got (x0 <~ read_boolean ;; x1 <~ read_boolean ;; rret [x0; x1]) (hx "000102") = Some [false; true] /\
  raises (read_boolean (hx "02")) = true.
Proof. vm_compute. repeat split; reflexivity. Qed.
Example v_read_optional_boolean :
  got (x0 <~ read_optional_boolean ;; x1 <~ read_optional_boolean ;; x2 <~ read_optional_boolean ;; rret [x0; x1; x2]) (hx "00010203") = Some [Some false; Some true; None] /\
  raises (read_optional_boolean (hx "03")) = true.
Proof. vm_compute. repeat split; reflexivity. Qed.
Example v_read_v_int :
  got read_v_int (hx "2a") = Some 42 /\
  got read_v_int (hx "8001") = Some (128 ^ 1) /\
  got read_v_int (hx "808001") = Some (128 ^ 2) /\
  got read_v_int (hx "80808001") = Some (128 ^ 3) /\
  got read_v_int (hx "8080808001") = Some (128 ^ 4) /\
  raises (read_v_int (hx "808080808001")) = true.
Proof. vm_compute. repeat split; reflexivity. Qed.
Example v_read_v_long :
  got read_v_long (hx "2a") = Some 42 /\
  got read_v_long (hx "8001") = Some (128 ^ 1) /\
  got read_v_long (hx "808001") = Some (128 ^ 2) /\
  got read_v_long (hx "80808001") = Some (128 ^ 3) /\
  got read_v_long (hx "8080808001") = Some (128 ^ 4) /\
  got read_v_long (hx "808080808001") = Some (128 ^ 5) /\
  got read_v_long (hx "80808080808001") = Some (128 ^ 6) /\
  got read_v_long (hx "8080808080808001") = Some (128 ^ 7) /\
  got read_v_long (hx "808080808080808001") = Some (128 ^ 8) /\
  got read_v_long (hx "80808080808080808001") = Some (128 ^ 9) /\
  raises (read_v_long (hx "8080808080808080808001")) = true.
Proof. vm_compute. repeat split; reflexivity. Qed.
Example v_read_version :
  got read_version (hx "83978041") = Some (mkVersion 136317827) /\
  v_str (mkVersion 136317827) = py "2.10.0.99".
Proof. vm_compute. repeat split; reflexivity. Qed.
Example v_read_optional_int :
  got (x0 <~ read_optional_int ;; x1 <~ read_optional_int ;; x2 <~ read_optional_int ;; rret [x0; x1; x2]) (hx "010000002a01ffffffff00") = Some [Some 42; Some (-1); None].
Proof. v. Qed.
Example v_read_long :
  got (x0 <~ read_long ;; x1 <~ read_long ;; rret [x0; x1]) (hx "0000000102030405ffffffffffffffff") = Some [4328719365; -1].
Proof. v. Qed.
Example v_read_optional_v_long :
  got read_optional_v_long (hx "0180808080808080808001") = Some (Some (128 ^ 9)) /\
  got read_optional_v_long (hx "0080808080808080808001") = Some None /\
  raises (read_optional_v_long (hx "018080808080808080808001")) = true.
Proof. vm_compute. repeat split; reflexivity. Qed.
Example v_read_optional_long :
  got (x0 <~ read_optional_long ;; x1 <~ read_optional_long ;; x2 <~ read_optional_long ;; rret [x0; x1; x2]) (hx "01000000000000002a01ffffffffffffffff00") = Some [Some 42; Some (-1); None].
Proof. v. Qed.
Example v_read_z_long :
  got read_z_long (hx "2a") = Some 21 /\
  got read_z_long (hx "2b") = Some (-21) /\
  got read_z_long (hx "8001") = Some (64 * 128 ^ 0) /\
  got read_z_long (hx "8101") = Some (- 64 * 128 ^ 0) /\
  got read_z_long (hx "808001") = Some (64 * 128 ^ 1) /\
  got read_z_long (hx "818001") = Some (- 64 * 128 ^ 1) /\
  got read_z_long (hx "80808001") = Some (64 * 128 ^ 2) /\
  got read_z_long (hx "81808001") = Some (- 64 * 128 ^ 2) /\
  got read_z_long (hx "8080808001") = Some (64 * 128 ^ 3) /\
  got read_z_long (hx "8180808001") = Some (- 64 * 128 ^ 3) /\
  got read_z_long (hx "808080808001") = Some (64 * 128 ^ 4) /\
  got read_z_long (hx "818080808001") = Some (- 64 * 128 ^ 4) /\
  got read_z_long (hx "80808080808001") = Some (64 * 128 ^ 5) /\
  got read_z_long (hx "81808080808001") = Some (- 64 * 128 ^ 5) /\
  got read_z_long (hx "8080808080808001") = Some (64 * 128 ^ 6) /\
  got read_z_long (hx "8180808080808001") = Some (- 64 * 128 ^ 6) /\
  got read_z_long (hx "808080808080808001") = Some (64 * 128 ^ 7) /\
  got read_z_long (hx "818080808080808001") = Some (- 64 * 128 ^ 7) /\
  got read_z_long (hx "80808080808080808001") = Some (64 * 128 ^ 8) /\
  got read_z_long (hx "81808080808080808001") = Some (- 64 * 128 ^ 8) /\
  raises (read_z_long (hx "8080808080808080808001")) = true.
Proof. vm_compute. repeat split; reflexivity. Qed.
Example v_read_optional_string :
  got read_optional_string (hx "010474657374") = Some (Some (py "test")) /\
  got read_optional_string (hx "000474657374") = Some None.
Proof. vm_compute. repeat split; reflexivity. Qed.
Example v_read_array_size :
  got read_array_size (hx "2a") = Some 42 /\
  raises (read_array_size (hx "8180808008")) = true.
Proof. vm_compute. repeat split; reflexivity. Qed.
Example v_read_string :
  got read_string (hx "0474657374") = Some (py "test").
Proof. v. Qed.
Example v_read_string_array :
  got read_string_array (hx "0203666f6f03626172") = Some [py "foo"; py "bar"].
Proof. v. Qed.
Example v_read_optional_string_array :
  got read_optional_string_array (hx "010203666f6f03626172") = Some (Some [py "foo"; py "bar"]) /\
  got read_optional_string_array (hx "000203666f6f03626172") = Some None.
Proof. vm_compute. repeat split; reflexivity. Qed.
Example v_read_string_to_string_dict :
  got read_string_to_string_dict (hx "0203666f6f036261720362617a03717578") = Some [(py "foo", py "bar"); (py "baz", py "qux")] /\
  got read_string_to_string_dict (hx "00") = Some [].
Proof. vm_compute. repeat split; reflexivity. Qed.
Example v_read_string_to_string_array_dict :
  got read_string_to_string_array_dict (hx "0203666f6f02036261720362617a0371757800") = Some [(py "foo", [py "bar"; py "baz"]); (py "qux", [])] /\
  got read_string_to_string_array_dict (hx "00") = Some [].
Proof. vm_compute. repeat split; reflexivity. Qed.
Example v_read_string_to_string_set_dict :
  got (read_string_to_string_set_dict same_order) (hx "0203666f6f03036261720362617a036261720371757800") = Some [(py "foo", [py "bar"; py "baz"]); (py "qux", [])].
Proof. v. Qed.
Example v_read_generic_value :
  got (read_generic_value 2) (hx "ff") = Some VNone /\
  got (read_generic_value 2) (hx "000474657374") = Some (VStr (py "test")) /\
  got (read_generic_value 2) (hx "010000002a") = Some (VInt 42) /\
  got (read_generic_value 2) (hx "020000000102030405") = Some (VInt 4328719365) /\
  got (read_generic_value 2) (hx "0501") = Some (VBool true) /\
  got (read_generic_value 2) (hx "0600") = Some (VBytes []) /\
  got (read_generic_value 2) (hx "0603271042") = Some (VBytes (hx "271042")) /\
  got (read_generic_value 2) (hx "0700") = Some (VList []) /\
  got (read_generic_value 2) (hx "07020003666f6f0003626172") = Some (VList [VStr (py "foo"); VStr (py "bar")]) /\
  got (read_generic_value 2) (hx "0b2a") = Some (VInt 42) /\
  got (read_generic_value 2) (hx "10002a") = Some (VInt 42) /\
  raises (read_generic_value 2 (hx "fe")) = true.
Proof. vm_compute. repeat split; reflexivity. Qed.
Example v_read_enum :
  got (read_enum 3) (hx "01") = Some 1.
Proof. v. Qed.
Example v_read_time_value :
  got read_time_value (hx "0a04") = Some (mkTV 5 4) /\
  option_map tv_dur (got read_time_value (hx "0302")) = Some (-1) /\
  option_map tv_dur (got read_time_value (hx "0000")) = Some 0.
Proof. vm_compute. repeat split; reflexivity. Qed.

(** ** tests/transport/test_stream_output.py *)
Example v_write_byte :
  write_byte 42 = Ok (hx "2a") /\
  write_byte 256 = Raise EOverflow.
Proof. vm_compute. repeat split; reflexivity. Qed.
Example v_write_int :
  write_int 42 = Ok (hx "0000002a") /\
  write_int 4294967296 = Raise EOverflow.
Proof. vm_compute. repeat split; reflexivity. Qed.
Example v_write_v_int :
  write_v_int 42 = Ok (hx "2a") /\
  write_v_int 127 = Ok (hx "7f") /\
  v_int_size 127 = 1 /\
  write_v_int 128 = Ok (hx "8001") /\
  v_int_size 128 = 2 /\
  write_v_int 16383 = Ok (hx "ff7f") /\
  v_int_size 16383 = 2 /\
  write_v_int 16384 = Ok (hx "808001") /\
  v_int_size 16384 = 3 /\
  write_v_int 2097151 = Ok (hx "ffff7f") /\
  v_int_size 2097151 = 3 /\
  write_v_int 2097152 = Ok (hx "80808001") /\
  v_int_size 2097152 = 4 /\
  write_v_int 268435455 = Ok (hx "ffffff7f") /\
  v_int_size 268435455 = 4 /\
  write_v_int 268435456 = Ok (hx "8080808001") /\
  v_int_size 268435456 = 5.
Proof. vm_compute. repeat split; reflexivity. Qed.
Example v_write_v_long :
  write_v_long 42 = Ok (hx "2a") /\
  write_v_long (2 ^ 7 - 1) = Ok (hx "7f") /\
  write_v_long (2 ^ 14 - 1) = Ok (hx "ff7f") /\
  write_v_long (2 ^ 63 - 1) = Ok (hx "ffffffffffffffff7f") /\
  write_v_long (2 ^ 63) = Ok (hx "80808080808080808001").
Proof. vm_compute. repeat split; reflexivity. Qed.
Example v_write_z_long :
  write_z_long 21 = Ok (hx "2a") /\
  write_z_long (-21) = Ok (hx "2b") /\
  write_z_long 64 = Ok (hx "8001") /\
  write_z_long (-64) = Ok (hx "8101") /\
  write_z_long (2 ^ 13) = Ok (hx "808001") /\
  write_z_long (- 2 ^ 13) = Ok (hx "818001") /\
  write_z_long (2 ^ 62) = Ok (hx "80808080808080808001") /\
  write_z_long (- 2 ^ 62) = Ok (hx "81808080808080808001") /\
  write_z_long (2 ^ 63) = Raise EValue.
Proof. vm_compute. repeat split; reflexivity. Qed.
Example v_write_version :
  write_version (version_of_id 2100099) = Ok (hx "83978041") /\
  version_size (version_of_id 2100099) = 4 /\
  write_version (mkVersion 0) = Ok (hx "00") /\
  version_size (mkVersion 0) = 1.
Proof. vm_compute. repeat split; reflexivity. Qed.
Example v_write_long :
  write_long 5409454583320448 = Ok (hx "001337decade0f80").
Proof. v. Qed.
Example v_write_byte_array :
  write_byte_array (hx "74657374") = Ok (hx "0474657374").
Proof. v. Qed.
Example v_write_string :
  write_string (py "test") = Ok (hx "0474657374").
Proof. v. Qed.
Example v_write_float :
  write_float 4613303445314885481 = Ok (hx "402df854") /\
  write_float 9223372036854775808 = Ok (hx "80000000").
Proof. vm_compute. repeat split; reflexivity. Qed.
Example v_write_double :
  write_double 4613303445314885481 = Ok (hx "4005bf0a8b145769").
Proof. v. Qed.
Example v_write_boolean :
  wcat [write_boolean true; write_boolean false] = Ok (hx "0100").
Proof. v. Qed.
Example v_write_string_array :
  write_string_array [py "foo"; py "bar"] = Ok (hx "0203666f6f03626172").
Proof. v. Qed.
Example v_write_string_to_string_dict :
  write_string_to_string_dict [(py "foo", py "bar"); (py "baz", py "qux")] = Ok (hx "0203666f6f036261720362617a03717578") /\
  string_to_string_dict_size [(py "foo", py "bar"); (py "baz", py "qux")] = Ok 17.
Proof. vm_compute. repeat split; reflexivity. Qed.
Example v_write_string_to_string_array_dict :
  write_string_to_string_array_dict [(py "foo", [py "bar"; py "baz"]); (py "qux", [])] = Ok (hx "0203666f6f02036261720362617a0371757800") /\
  string_to_string_collection_dict_size [(py "foo", [py "bar"; py "baz"]); (py "qux", [])] = Ok 19.
Proof. vm_compute. repeat split; reflexivity. Qed.
Example v_write_string_to_string_set_dict :
  write_string_to_string_set_dict [(py "foo", [py "bar"; py "baz"]); (py "qux", [])] = Ok (hx "0203666f6f02036261720362617a0371757800").
Proof. v. Qed.
Example v_write_generic_value :
  wcat [write_generic_value VNone; write_generic_value (VStr (py "test")); write_generic_value (VInt 42); write_generic_value (VBool true)] = Ok (hx "ff00047465737402000000000000002a0501") /\
  wcat [write_generic_value (VBytes (hx "74657374")); write_generic_value (VList [VStr (py "foo"); VStr (py "bar")])] = Ok (hx "06047465737407020003666f6f0003626172").
Proof. vm_compute. repeat split; reflexivity. Qed.
Example v_write_enum :
  write_enum 2 = Ok (hx "02").
Proof. v. Qed.
Example v_write_time_value :
  write_time_value (mkTV 5 4) = Ok (hx "0a04") /\
  write_time_value TV_MINUS_ONE = Ok (hx "0302") /\
  write_time_value (mkTV 0 0) = Ok (hx "0000").
Proof. vm_compute. repeat split; reflexivity. Qed.

(** ** tests/transport: tasks, addresses, versions, contexts, handshakes *)
Example v_task_id :
  write_task (mkTask (py "test") (Some 42)) = Ok (hx "0474657374000000000000002a") /\
  write_task default_task = Ok (hx "00") /\
  got read_task (hx "0474657374000000000000002a010203") = Some (mkTask (py "test") (Some 42)).
Proof. vm_compute. repeat split; reflexivity. Qed.
Example v_transport_address :
  write_addr (new_addr 16909060 1234 None) = Ok (hx "040102030407312e322e332e34000004d2") /\
  write_addr (new_addr 16909060 1234 (Some (py "host.name"))) = Ok (hx "040102030409686f73742e6e616d65000004d2") /\
  got read_addr (hx "040102030409686f73742e6e616d65000004d2") = Some (mkAddr 16909060 (py "host.name") 1234) /\
  ip_str 16909060 = py "1.2.3.4" /\
  parse_ip (py "1.2.3.4") = Ok 16909060 /\
  raises (parse_ip (py "1.2.3.4.5")) = true /\
  raises (read_addr (hx "05010203040509686f73742e6e616d65000004d2")) = true.
Proof. vm_compute. repeat split; reflexivity. Qed.
Example v_version :
  vid (version_of_id 2100099) = 136317827 /\
  let v := version_of_id 2100099 in (v_major v, v_minor v, v_revision v, v_build v) = (2, 10, 0, 99) /\
  v_str (version_of_id 2100099) = py "2.10.0.99" /\
  version_to_bytes (version_of_id 2100099) = Ok (hx "08200b83") /\
  version_from_bytes (hx "08200b83") = version_of_id 2100099 /\
  v_str (mkVersion MASK) = py "0.0.0.0" /\
  version_to_bytes (mkVersion MASK) = Ok (hx "08000000").
Proof. vm_compute. repeat split; reflexivity. Qed.
Example v_thread_context :
  write_ctx (mkCtx [(py "foo", py "bar")] [(py "baz", [py "qux"; py "quux"])]) = Ok (hx "0103666f6f03626172010362617a02037175780471757578") /\
  got (read_ctx same_order) (hx "0103666f6f03626172010362617a02037175780471757578") = Some (mkCtx [(py "foo", py "bar")] [(py "baz", [py "qux"; py "quux"])]) /\
  write_ctx empty_ctx = Ok (hx "0000") /\
  got (read_ctx same_order) (hx "0000") = Some empty_ctx /\
  ctx_size empty_ctx = Ok 2 /\
  ctx_size (mkCtx [(py "foo", py "bar")] []) = Ok 10 /\
  ctx_size (mkCtx [(py "foo", py "bar")] [(py "baz", [py "qux"; py "quux"])]) = Ok 24.
Proof. vm_compute. repeat split; reflexivity. Qed.
Example v_tcp_handshake :
  write_tcp_handshake_request (mkTcpReq default_task (Some (version_of_id 2100099))) = Ok (hx "000483978041") /\
  got read_tcp_handshake_request (hx "000483978041") = Some (mkTcpReq default_task (Some (mkVersion 136317827))) /\
  write_tcp_handshake_response (Some (version_of_id 2100099)) = Ok (hx "83978041").
Proof. vm_compute. repeat split; reflexivity. Qed.
Example v_header_flags :
  match new_header ES (Some 42) 0 (HVer (version_of_id 3000099)) MESSAGE_SIZE 0 7 with (Ok h, n) => (h_size h, h_vhs h, is_request h, is_response h, is_error h, is_compress h, is_handshake h, statuses h, n) | _ => (0, 0, false, false, false, false, false, [], 0) end = (17, 0, true, false, false, false, false, [py "request"], 7).
Proof. v. Qed.
Example v_outbound_request :
  (o <! new_request None [py "foo"; py "bar"] (Some (wcat [write_transport_request default_task; write_string (py "test")])) (HVer (version_of_id 3000099)) (py "internal:test/handshake") (Some 2) true false ;; ilift (write_outbound o)) 0 = (Ok (hx "45530000003a000000000000000208082dc7230000002300000203666f6f0362617217696e7465726e616c3a746573742f68616e647368616b65000474657374"), 0).
Proof. v. Qed.
Example v_outbound_response :
  (o <! new_response None [py "foo"; py "bar"] (Some (write_string (py "test"))) (HVer (version_of_id 3000099)) (Some 2) true false ;; ilift (write_outbound o)) 0 = (Ok (hx "455300000018000000000000000209082dc7230000000200000474657374"), 0).
Proof. v. Qed.

(** ** tests/transport, tests/protobuf: messages written and read back *)
Definition again {A} (w : A -> res bytes) (r : reader A) (a : A) : res A := b <- w a ;; rmap fst (r b).
Definition v_uuid : bytes := repeat x00 16.
(** test_dicovery_node.py *)
Definition v_node : node := new_node v_uuid (py "name") (py "id") None None None (new_addr 16909060 1234 (Some (py "foo.bar")))
  [(py "foo", py "bar"); (py "baz", py "qux")] [DATA_ROLE; INGEST_ROLE] None.
Example v_discovery_node :
  n_name v_node = py "name" /\ n_id v_node = py "id" /\ zlen (n_eph v_node) = 22 /\ n_host v_node = py "foo.bar" /\
  n_hostaddr v_node = py "1.2.3.4" /\ again write_node read_node v_node = Ok v_node.
Proof. vm_compute. repeat split; reflexivity. Qed.
(** test_extension_dependency.py, test_dicovery_extension_node.py, test_initialize_extension_request.py *)
Definition v_ext_node : ext_node :=
  mkExtNode v_node (version_of_id 1000100) [mkDep (py "foo") (version_of_id 1010100); mkDep (py "bar") (version_of_id 1020000)].
Example v_extension_node :
  v_str (x_min v_ext_node) = py "1.0.1.0" /\ again write_ext_node read_ext_node v_ext_node = Ok v_ext_node /\
  again write_init_request read_init_request (mkInitReq default_task v_node v_ext_node) = Ok (mkInitReq default_task v_node v_ext_node).
Proof. vm_compute. repeat split; reflexivity. Qed.
(** test_initialize_extension_response.py, test_acknowledged_response.py *)
Example v_initialize_response : let r := mkInitResp (py "test") [py "Extension"; py "ActionExtension"] in
  again write_init_response read_init_response r = Ok r /\ again write_ack read_ack true = Ok true.
Proof. vm_compute. repeat split; reflexivity. Qed.
(** test_transport_service_handshake_response.py *)
Example v_handshake_response :
  let r := mkHsResp (Some v_node) (py "hello-world") (version_of_id 2100099) in
  let r' := mkHsResp None (py "hello-world") (version_of_id 2100099) in
  again write_handshake_response read_handshake_response r = Ok r /\
  again write_handshake_response read_handshake_response r' = Ok r'.
Proof. vm_compute. repeat split; reflexivity. Qed.
(** test_extension_transport_request.py, test_register_rest_actions_request.py, tests/protobuf *)
Example v_extension_transport_request :
  (x <- new_ext_transport_request 4 (py "test") ;; again write_ext_transport_request read_ext_transport_request x) = new_ext_transport_request 4 (py "test") /\
  rmap (fun x => (er_type (etr_er x), opt_str (er_identity (etr_er x))))
    (x <- new_ext_transport_request 4 [] ;; again write_ext_transport_request read_ext_transport_request x) = Ok (4, []).
Proof. vm_compute. repeat split; reflexivity. Qed.
Example v_register_request :
  rmap (fun x => (opt_str (rra_identity (rrr_rra x)), rra_actions (rrr_rra x), rra_deprecated (rrr_rra x)))
    (x <- new_register_request (py "test") [py "foo"; py "bar"] [py "baz"; py "qux"] ;; again write_register_request read_register_request x)
  = Ok (py "test", [py "foo"; py "bar"], [py "baz"; py "qux"]).
Proof. v. Qed.


(** ** tests/transport/data: frames captured from OpenSearch *)
Definition tcp_header_frame : bytes := (hx "45530000003100000000000000080808200b830000001a").
Definition tcp_handshake_frame : bytes := (hx "45530000003100000000000000080808200b830000001a00000016696e7465726e616c3a7463702f68616e647368616b650004a38eb741").
Definition handshake_request_frame : bytes := (hx "455300000032000000000000000900082dc723000000200000001c696e7465726e616c3a7472616e73706f72742f68616e647368616b6500").
Definition handshake_response_frame : bytes := (hx "4553000000c8000000000000000901082dc723000000020000010b68656c6c6f2d776f726c64166c46617869644474547a53763179596e4f65374e524116646f364638345a3151684b4b416f484c473036364d77093132372e302e302e31093132372e302e302e31047f000001093132372e302e302e310000119400040f636c75737465725f6d616e61676572016d00046461746101640106696e676573740169001572656d6f74655f636c75737465725f636c69656e74017200a38eb7410a6f70656e736561726368a38eb741").
Definition initialize_frame : bytes := (hx "4553000001e9000000000000000a00082dc72300000044011c5f73797374656d5f696e6465785f6163636573735f616c6c6f7765640566616c736500001d696e7465726e616c3a646973636f766572792f657874656e73696f6e73000972756e5461736b2d30163147704d315a4e6d54784f74746a51686b567741366716575a306f5459375252752d3861706c54557648356351093132372e302e302e31093132372e302e302e31047f000001093132372e302e302e31000024540208746573746174747204746573741f73686172645f696e646578696e675f70726573737572655f656e61626c65640474727565040f636c75737465725f6d616e61676572016d00046461746101640106696e676573740169001572656d6f74655f636c75737465725f636c69656e74017200a38eb7410b68656c6c6f2d776f726c640b68656c6c6f2d776f726c6416504f625f5f4867655373794c6d355255534378647567093132372e302e302e31093132372e302e302e31047f000001093132372e302e302e310000119400050f636c75737465725f6d616e61676572016d00046461746101640106696e676573740169001572656d6f74655f636c75737465725f636c69656e7401720006736561726368017301a38eb741a38eb74102057465737431e389fa40057465737432a38eb741").
(** reading a frame (header, context, variable part) and then the message *)
Definition a_request : outbound := mkOut (mkHeader ES 0 0 0 HNone 0) empty_ctx None None [] [].
Definition in_frame {A} (req : bool) (r : reader A) : reader (outbound * A) :=
  h <~ read_header ;; o <~ read_outbound same_order req a_request h ;; a <~ r ;; rret (o, a).
(** read it, write it again *)
Definition rewritten {A} (req : bool) (r : reader A) (w : A -> res bytes) (raw : bytes) : res bytes :=
  x <- in_frame req r raw ;; wcat [write_outbound (fst (fst x)); w (snd (fst x))].

(** test_tcp_header.py:90-103 *)
Example v_tcp_header : match read_header tcp_header_frame with
  | Ok (h, s) => h_prefix h = ES /\ h_id h = 8 /\ is_handshake h = true /\ h_version h = HVer (mkVersion 136317827) /\
      h_size h = 49 /\ h_vhs h = 26 /\ write_header h = Ok tcp_header_frame /\ s = []
  | Raise _ => False end.
Proof. vm_compute. repeat split; reflexivity. Qed.
(** test_transport_handshaker_handshake_request.py:34-47 *)
Example v_tcp_handshake_frame : match in_frame true read_tcp_handshake_request tcp_handshake_frame with
  | Ok ((o, r), s) => option_map v_str (tr_version r) = Some (py "3.0.0.99") /\ o_action o = py "internal:tcp/handshake" /\ s = []
  | Raise _ => False end /\
  rewritten true read_tcp_handshake_request write_tcp_handshake_request tcp_handshake_frame = Ok tcp_handshake_frame.
Proof. vm_compute. repeat split; reflexivity. Qed.
(** test_transport_service_handshake_request.py:31-43 *)
Example v_handshake_request_frame :
  rewritten true read_transport_request write_transport_request handshake_request_frame = Ok handshake_request_frame.
Proof. v. Qed.
(** test_transport_service_handshake_response.py:49-64 *)
Example v_handshake_response_frame : match in_frame false read_handshake_response handshake_response_frame with
  | Ok ((o, r), s) => option_map n_id (hr_node r) = Some (py "lFaxidDtTzSv1yYnOe7NRA") /\ hr_cluster r = py "opensearch" /\
      v_str (hr_version r) = py "3.0.0.99" /\ s = []
  | Raise _ => False end /\
  rewritten false read_handshake_response write_handshake_response handshake_response_frame = Ok handshake_response_frame.
Proof. vm_compute. repeat split; reflexivity. Qed.
(** test_initialize_extension_request.py:51-67 *)
Example v_initialize_frame : match in_frame true read_init_request initialize_frame with
  | Ok ((o, r), s) => n_id (ir_source r) = py "1GpM1ZNmTxOttjQhkVwA6g" /\ n_id (x_node (ir_ext r)) = py "hello-world" /\ s = [] /\
      o_action o = A_DISCOVERY /\ c_req (o_ctx o) = [(py "_system_index_access_allowed", py "false")]
  | Raise _ => False end /\
  rewritten true read_init_request write_init_request initialize_frame = Ok initialize_frame.
Proof. vm_compute. repeat split; reflexivity. Qed.

(** ** tests/server/test_async_extension_host.py *)
Definition v_env : env := mkEnv same_order (fun l => l) 10 (fun _ => None).
Definition v_ext : extension unit :=
  mkExtn unit (py "hello-world") [py "Extension"; py "ActionExtension"] empty_registry (fun _ u _ => (u, Raise EGeneric)).
(** the bytes the host sends for each chunk, the ids drawn in the end *)
Definition talk (h : host unit) (chunks : list bytes) : list (option (option bytes)) * host unit :=
  fold_left (fun acc raw => match on_input v_env v_ext v_uuid raw (snd acc) with
    | (Ok o, h') => (fst acc ++ [Some o], h') | (Raise _, h') => (fst acc ++ [None], h') end) chunks ([], h).
(** test_discovery_extensions_request: the host asks to register "hello-world" *)
Example v_discovery : match fst (talk (initial_host tt) [handshake_request_frame; initialize_frame]) with
  | [Some (Some _); Some (Some b)] =>
      match in_frame true read_register_request b with
      | Ok ((o, r), _) => c_req (o_ctx o) = [(py "_system_index_access_allowed", py "false")] /\
          opt_str (rra_identity (rrr_rra r)) = py "hello-world"
      | Raise _ => False end
  | _ => False end.
Proof. vm_compute. repeat split; reflexivity. Qed.
(** test_run_unhandled_request_error *)
Definition v_invalid : bytes :=
  match (o <! new_request None [] None (HVer (version_of_id 2100099)) (py "internal:invalid") None false false ;;
         ilift (write_outbound o)) 5 with (Ok b, _) => b | _ => [] end.
Example v_unhandled : match fst (talk (initial_host tt) [handshake_request_frame; v_invalid]) with
  | [Some (Some _); Some (Some b)] =>
      match in_frame false read_exec_response b with
      | Ok ((o, r), _) => c_req (o_ctx o) = [] /\ ex_status r = status_value (py "NOT_FOUND") /\
          ex_ctype r = JSON_CONTENT_TYPE /\ ex_headers r = [] /\
          ex_content r = map z2b (py "{""error"": ""No handler found for internal:invalid""}")
      | Raise _ => False end
  | _ => False end.
Proof. vm_compute. repeat split; reflexivity. Qed.
(** test_acknowledged_response: acknowledged, the host asks for the environment settings *)
Definition v_ack (id : Z) : bytes :=
  match (o <! new_response None [] (Some (write_ack true)) (HVer (version_of_id 2100099)) (Some id) false false ;;
         ilift (write_outbound o)) 0 with (Ok b, _) => b | _ => [] end.
Definition v_started : list (option (option bytes)) * host unit := talk (initial_host tt) [initialize_frame].
Definition v_register_id : Z := match fst v_started with
  | [Some (Some b)] => match read_header b with Ok (h, _) => h_id h | _ => 0 end | _ => 0 end.
Example v_acknowledged : match fst (talk (snd v_started) [handshake_request_frame; v_ack v_register_id]) with
  | [Some (Some _); Some (Some b)] =>
      match in_frame true read_ext_transport_request b with
      | Ok ((o, r), _) => c_req (o_ctx o) = [(py "_system_index_access_allowed", py "false")] /\
          (match h_version (o_hdr o) with HVer v => Z.lxor (vid v) MASK | _ => 0 end) = MIN_COMPAT /\
          er_type (etr_er r) = REQUEST_EXTENSION_ENVIRONMENT_SETTINGS
      | Raise _ => False end
  | _ => False end.
Proof. vm_compute. repeat split; reflexivity. Qed.
(** test_error_response: no reply *)
Definition v_error : bytes :=
  match (o <! new_response None [] None (HVer (version_of_id 2100099)) None false false ;;
         ilift (write_outbound (with_hdr o (set_is_error (o_hdr o) true)))) 9 with (Ok b, _) => b | _ => [] end.
Example v_error_response : match fst (talk (initial_host tt) [handshake_request_frame; v_error]) with
  | [Some (Some _); Some None] => True | _ => False end.
Proof. vm_compute. exact I. Qed.


(** ** tests/settings, tests/transport/test_byte_size_value.py, test_time_value.py *)
Definition no_repr : pyval -> pystr := fun _ => [].
Definition getI (s : res (setting Z * int_parser)) (d : sdict pyval) : res Z := x <- s ;; setting_get no_repr (fst x) d.
Example v_integer_setting :
  getI (new_integer_setting (py "answer.to.life") 24 (- 2 ^ 31) (2 ^ 31 - 1) []) [] = Ok 24 /\
  getI (new_integer_setting (py "answer.to.life") 24 (- 2 ^ 31) (2 ^ 31 - 1) []) [(py "answer.to.life", VStr (py "42"))] = Ok 42 /\
  new_integer_setting (py "key") 10 0 5 [] = Raise EValue /\
  new_integer_setting (py "key") 0 (- 2 ^ 31 - 1) (2 ^ 31 - 1) [] = Raise EValue /\
  new_integer_setting (py "key") 0 0 (2 ^ 31) [] = Raise EValue.
Proof. vm_compute. repeat split; reflexivity. Qed.
Example v_long_setting :
  getI (new_long_setting (py "answer.to.life") (2 ^ 42) (- 2 ^ 63) (2 ^ 63 - 1) []) [] = Ok (2 ^ 42) /\
  getI (new_long_setting (py "answer.to.life") (2 ^ 42) (- 2 ^ 63) (2 ^ 63 - 1) []) [(py "answer.to.life", VStr (py "42"))] = Ok 42 /\
  new_long_setting (py "key") 10 0 5 [] = Raise EValue /\
  new_long_setting (py "key") 0 (- 2 ^ 63 - 1) (2 ^ 63 - 1) [] = Raise EValue /\
  new_long_setting (py "key") 0 0 (2 ^ 63) [] = Raise EValue.
Proof. vm_compute. repeat split; reflexivity. Qed.
Example v_integer_parser : match new_int_parser 31 (-100) 100 (py "foo") [PProp DYNAMIC; PProp NODE_SCOPE] with
  | Ok p => ip_filtered p = false /\ (b <- write_integer_parser p ;; rmap fst (read_integer_parser b)) = Ok p /\
      (b <- write_long_parser p ;; rmap fst (read_long_parser b)) = Ok p /\
      int_parse p (py "42") = Ok 42 /\ int_parse p (py "not an integer") = Raise EValue /\ int_parse p (py "101") = Raise EValue
  | Raise _ => False end /\
  rmap ip_filtered (new_int_parser 31 0 100 (py "foo") [PProp FILTERED]) = Ok true.
Proof. vm_compute. repeat split; reflexivity. Qed.
Example v_boolean_setting : let s := new_boolean_setting (py "glass.half.full") false [] in
  setting_get no_repr s [] = Ok false /\
  setting_get no_repr s [(py "glass.half.full", VBool true)] = Ok true.
Proof. vm_compute. repeat split; reflexivity. Qed.
Example v_version_setting : let s := new_version_setting (py "version") (version_of_id 3000099) [] in
  rmap v_str (setting_get no_repr s []) = Ok (py "3.0.0.99") /\
  rmap v_str (setting_get no_repr s [(py "version", VStr (py "2110099"))]) = Ok (py "2.11.0.99") /\
  rmap v_str (version_parse (py "2090102")) = Ok (py "2.9.1.2").
Proof. vm_compute. repeat split; reflexivity. Qed.
(** test_settings.py: the text of bytes and of lists is an oracle in the model *)
Definition v_settings : sdict pyval :=
  [(py "foo", VStr (py "bar")); (py "baz", VInt 42); (py "qux", VBool true); (py "bytes", VBytes (map z2b (py "test")));
   (py "list", VList [VStr (py "a"); VStr (py "b"); VStr (py "c")])].
Example v_settings_read_write :
  settings_get no_repr v_settings (py "bar") None = None /\
  settings_get no_repr v_settings (py "bar") (Some (py "baz")) = Some (py "baz") /\
  settings_get no_repr v_settings (py "foo") (Some (py "baz")) = Some (py "bar") /\
  settings_get no_repr v_settings (py "baz") None = Some (py "42") /\
  settings_get no_repr v_settings (py "qux") None = Some (py "True") /\
  (b <- write_settings v_settings ;; Ok (snd (read_settings 3 [] b))) = Ok v_settings.
Proof. vm_compute. repeat split; reflexivity. Qed.
Example v_byte_size_value :
  bsv_str (mkBSV 42 1) = py "42kb" /\ bsv_parse (py "42mb") = Ok (mkBSV 42 2) /\ bsv_parse (py "42 gb") = Ok (mkBSV 42 3) /\
  bsv_parse (py "no digits") = Raise EValue /\ bsv_parse (py "100eb") = Raise EValue /\
  map (fun u => bsv_to_bytes (mkBSV 42 u)) [0; 1; 2; 3; 4; 5] = [42; 42 * 1024; 42 * 1024 ^ 2; 42 * 1024 ^ 3; 42 * 1024 ^ 4; 42 * 1024 ^ 5].
Proof. vm_compute. repeat split; reflexivity. Qed.
Example v_time_value :
  tv_str (mkTV 42 3) = py "42s" /\ tv_parse (py "42s") = Ok (mkTV 42 3) /\ tv_parse (py "24 h") = Ok (mkTV 24 5) /\
  tv_parse (py "no digits") = Raise EValue /\ tv_parse (py "9 weeks") = Raise EValue /\
  map (fun u => tv_to_nanos (mkTV 42 u)) [0; 1; 2; 3; 4; 5; 6] =
    [42; 42000; 42000000; 42000000000; 42000000000 * 60; 42000000000 * 3600; 42000000000 * 86400].
Proof. vm_compute. repeat split; reflexivity. Qed.
Definition B (n u : Z) := mkBSV n u.
Definition MAXB : bsv := mkBSV (2 ^ 63 - 1) 0.
Example v_byte_size_setting :
  let s := new_byte_size_setting (py "unix.v1.lines") (B 4501 0) (B 0 0) MAXB [] in
  (x <- s ;; setting_get no_repr (fst x) []) = Ok (B 4501 0) /\
  (x <- s ;; setting_get no_repr (fst x) [(py "unix.v1.lines", VStr (py "4kb"))]) = Ok (B 4 1) /\
  new_byte_size_setting (py "key") (B 1 1) (B 0 0) (B 512 0) [] = Raise EValue /\
  new_byte_size_setting (py "key") (B 10 2) (B 15 2) (B 1 3) [] = Raise EValue /\
  new_byte_size_setting (py "key") (B (-2) 1) (B 0 0) MAXB [] = Raise EValue /\
  new_byte_size_setting (py "key") (B 0 0) (B (-2) 1) (B 0 0) [] = Raise EValue /\
  new_byte_size_setting (py "key") (B 0 0) (B 0 0) (B (-2) 1) [] = Raise EValue.
Proof. vm_compute. repeat split; reflexivity. Qed.
Example v_byte_size_parser :
  (p <- new_bs_parser (B 100 1) (B 5 2) (py "foo") ;; b <- write_bs_parser p ;; rmap fst (read_bs_parser b)) =
    new_bs_parser (B 100 1) (B 5 2) (py "foo") /\
  match new_bs_parser (B 5 1) (B 10 1) (py "foo") with
  | Ok p => bs_parse p (py "8k") = Ok (B 8 1) /\ bsv_str (B 8 1) = py "8kb" /\ bs_parse p (py "not a byte size value") = Raise EValue /\
      bs_parse p (py "-2kb") = Raise EValue /\ bs_parse p (py "2k") = Raise EValue /\ bs_parse p (py "12k") = Raise EValue
  | Raise _ => False end.
Proof. vm_compute. repeat split; reflexivity. Qed.
Definition T (n u : Z) := mkTV n u.
Example v_time_setting :
  let s := new_time_setting (py "time.to.sleep") (T 8 5) (T 0 0) TV_MINUS_ONE [] in
  (x <- s ;; setting_get no_repr (fst x) []) = Ok (T 8 5) /\
  (x <- s ;; setting_get no_repr (fst x) [(py "time.to.sleep", VStr (py "30m"))]) = Ok (T 30 4) /\
  new_time_setting (py "key") (T 1 5) (T 0 0) (T 30 4) [] = Raise EValue /\
  new_time_setting (py "key") (T 10 4) (T 15 4) (T 30 4) [] = Raise EValue /\
  new_time_setting (py "key") (T (-2) 1) (T 0 0) TV_MINUS_ONE [] = Raise EValue /\
  new_time_setting (py "key") (T 0 0) (T (-2) 1) (T 0 0) [] = Raise EValue /\
  new_time_setting (py "key") (T 0 0) (T 0 0) (T (-2) 1) [] = Raise EValue.
Proof. vm_compute. repeat split; reflexivity. Qed.
Example v_time_parser :
  (p <- new_tv_parser (T 0 0) (T 5 4) (py "foo") [PProp FILTERED] ;; b <- write_tv_parser p ;; rmap fst (read_tv_parser b)) =
    new_tv_parser (T 0 0) (T 5 4) (py "foo") [PProp FILTERED] /\
  (p <- new_tv_parser (T 0 0) TV_MINUS_ONE (py "foo") [PProp DYNAMIC] ;; b <- write_tv_parser p ;; rmap fst (read_tv_parser b)) =
    new_tv_parser (T 0 0) TV_MINUS_ONE (py "foo") [PProp DYNAMIC] /\
  match new_tv_parser (T 5 4) (T 10 4) (py "foo") [] with
  | Ok p => tvs_parse p (py "8m") = Ok (T 8 4) /\ tv_str (T 8 4) = py "8m" /\ tvs_parse p (py "not a time value") = Raise EValue /\
      tvs_parse p (py "-2m") = Raise EValue /\ tvs_parse p (py "2m") = Raise EValue /\ tvs_parse p (py "12m") = Raise EValue
  | Raise _ => False end.
Proof. vm_compute. repeat split; reflexivity. Qed.


(** ** tests/rest *)
Definition v_rest_request : rest_request :=
  mkReq default_task (Some 0) (py "/hello?v") (py "/hello") [(py "foo", py "bar")] [(py "foo", [py "bar"; py "baz"])]
    (py "application/json; charset=utf-8") (map z2b (py "{}")) (py "token") (Some 1) [] false.
(** test_extension_rest_request.py *)
Example v_rest_request_read_write : (b <- write_rest_request v_rest_request ;; rmap fst (read_rest_request b)) = Ok v_rest_request.
Proof. v. Qed.
Example v_consuming : let r1 := do_calls v_rest_request [CHasParam (py "foo")] in
  let r2 := do_calls r1 [CParam (py "foo"); CHasParam (py "bar")] in
  let r3 := do_calls r2 [CParam (py "bar"); CHasContent; CContent false] in
  let r4 := do_calls r3 [CContent true] in
  rq_consumed r1 = [] /\ fst (do_call r1 (CParam (py "foo"))) = AStr (Some (py "bar")) /\
  fst (do_call v_rest_request (CHasParam (py "bar"))) = ABool false /\ rq_consumed r2 = [py "foo"] /\
  fst (do_call r2 (CParam (py "bar"))) = AStr None /\ rq_consumed r3 = [py "foo"; py "bar"] /\
  fst (do_call r3 CHasContent) = ABool true /\ rq_content_consumed r3 = false /\ rq_content_consumed r4 = true.
Proof. vm_compute. repeat split; reflexivity. Qed.
(** test_extension_rest_response.py; the set is read back in the order written (sorted) *)
Definition v_rest_response : rest_response :=
  let q := do_calls v_rest_request [CParam (py "foo"); CParam (py "bar"); CContent true] in
  new_rest_response (Some q) (Some q) (Some 2) (map z2b (py "test")) JSON_CONTENT_TYPE [(py "foo", [py "bar"; py "baz"])].
Example v_rest_response_read_write : match (b <- write_rest_response v_rest_response ;; rmap fst (read_rest_response same_order b)) with
  | Ok r => rp_status r = status_value (py "OK") /\ rp_content r = map z2b (py "test") /\ rp_ctype r = JSON_CONTENT_TYPE /\
      rp_headers r = [(py "foo", [py "bar"; py "baz"])] /\ rp_consumed r = [py "bar"; py "foo"] /\ rp_content_consumed r = true
  | Raise _ => False end.
Proof. vm_compute. repeat split; reflexivity. Qed.
(** test_rest_execute_on_extension_response.py *)
Definition v_exec : exec_response :=
  mkExec (Some 2) (py "application/json; charset=utf-8") (map z2b (py "{}")) [(py "foo", [py "bar"; py "baz"])] [py "bar"; py "baz"] true.
Example v_exec_read_write : (b <- write_exec_response v_exec ;; rmap fst (read_exec_response b)) = Ok v_exec.
Proof. v. Qed.
(** test_named_route.py, test_extension_rest_handlers.py, api/test_action_extension.py *)
Definition v_foobar := [mkRoute 0 (py "/foo") (py "get_foo"); mkRoute 0 (py "/bar/{foo}") (py "get_bar")].
Definition v_barfoo := [mkRoute 0 (py "/bar/{baz}") (py "get_baz"); mkRoute 0 (py "/foo/{bar}/baz/{qux}") (py "get_barqux")].
Definition v_cls : class_oracle := fun _ => None.
Example v_named_route : route_str (mkRoute 0 (py "/test") (py "testing")) = py "GET /test testing".
Proof. v. Qed.
Example v_register_handlers : match register empty_registry 0 v_foobar with
  | (g, None) => map fst (rg_map g) = [py "GET /foo"; py "GET /bar/*"] /\
      rg_named g = [py "GET /foo get_foo"; py "GET /bar/{foo} get_bar"] /\
      find_handler v_cls (rg_map g) (py "GET /foo") = Ok 0%nat /\
      find_handler v_cls (rg_map g) (py "GET /bar/anything") = Ok 0%nat /\
      raises (find_handler v_cls (rg_map g) (py "GET /baz")) = true /\
      (* test_register_conflicts *)
      snd (register g 1 v_barfoo) = Some EGeneric
  | _ => False end.
Proof. vm_compute. repeat split; reflexivity. Qed.
Example v_register_wildcards : match register empty_registry 0 v_barfoo with
  | (g, None) => map fst (rg_map g) = [py "GET /bar/*"; py "GET /foo/*/baz/*"] /\
      rg_named g = [py "GET /bar/{baz} get_baz"; py "GET /foo/{bar}/baz/{qux} get_barqux"] /\
      find_handler v_cls (rg_map g) (py "GET /bar/anything") = Ok 0%nat /\
      find_handler v_cls (rg_map g) (py "GET /foo/something/baz/anything") = Ok 0%nat
  | _ => False end.
Proof. vm_compute. repeat split; reflexivity. Qed.

