#!/usr/bin/env python3
"""Writes rocq/theories/Vectors.v: the literals of /repo/tests as computations of the model.
Only the text of the tests and of the captured frames is read, no code of the project is run."""
import ast, re, sys

OUT = "/verif/rocq/theories/Vectors.v"

def capture(name):
    bs = bytearray()
    for line in open("/repo/tests/transport/data/%s.txt" % name):
        m = re.fullmatch(r"\|(.[0-9a-fA-F]+)\| (?P<data>.[0-9a-fA-F\ ]+) \|(..+)\|", line.strip())
        if m:
            bs.extend(bytes.fromhex(m.group("data")))
    return bytes(bs)

def hexed(b):
    return '(hx "%s")' % b.hex()

HEAD = r'''(** * Conformance vectors (generated by tools/gen_vectors.py)
    The literals of the project's own unit tests (tests/**/*.py) and the frames captured from
    OpenSearch (tests/transport/data/*.txt), computed with the model.  These are tests of the
    model, not proofs of properties: they tie it to what the project's authors observed. *)
From Coq Require Import String Ascii ZArith List Bool.
From Coq Require Import Strings.Byte.
From Verif Require Import Py Stream Version Frame Proto Messages Rest Routes Settings Floats Host Address.
Import ListNotations.
Open Scope list_scope.
Open Scope Z_scope.
(* the texts below are ASCII and short *)
#[local] Existing Instance ascii_rt.

Definition hexdigit (c : ascii) : Z :=
  let n := Z.of_nat (nat_of_ascii c) in if n <? 58 then n - 48 else n - 87.
Fixpoint hx (s : string) : bytes :=
  match s with
  | String a (String b t) => z2b (hexdigit a * 16 + hexdigit b) :: hx t
  | _ => []
  end.
Definition got {A} (r : reader A) (s : bytes) : option A :=
  match r s with Ok (a, _) => Some a | Raise _ => None end.
Definition raises {A} (x : res A) : bool := match x with Raise _ => true | Ok _ => false end.
Definition same_order : set_order := fun l => l.
Ltac v := vm_compute; reflexivity.
'''

cases = []
def case(name, *eqs):
    cases.append((name, eqs))

def section(t):
    cases.append((None, t))

# ---------------------------------------------------------------- test_stream_input.py
section("tests/transport/test_stream_input.py")
def reads(name, reader, pairs):
    """successive reads of one input"""
    data, vals = pairs
    k = " ".join("x%d <~ %s ;;" % (i, reader) for i in range(len(vals)))
    t = "[" + "; ".join("x%d" % i for i in range(len(vals))) + "]"
    return "got (%s rret %s) %s = Some [%s]" % (k, t, hexed(data), "; ".join(vals))
case("read_byte", reads("", "read_byte", (b"\x2a\xff", ["42", "-1"])))
case("read_bytes", "got (read_bytes 3) %s = Some %s" % (hexed(b"\x27\x10\x42"), hexed(b"\x27\x10\x42")))
case("read_int", reads("", "read_int", (b"\x00\x00\x00\x2a\xff\xff\xff\xff", ["42", "-1"])))
case("read_short", reads("", "read_short", (b"\x12\x34\xff\xff", ["4660", "-1"])))
import struct
def f64(x): return str(int.from_bytes(struct.pack(">d", x), "big"))
case("read_float", reads("", "read_float", (b"\x40\x49\x0f\xdb\x7f\x80\x00\x00", [f64(3.1415927410125732), f64(float("inf"))])))
case("read_double", reads("", "read_double", (b"\x40\x05\xBF\x0A\x8B\x14\x57\x69", [f64(2.718281828459045)])))
case("read_boolean", reads("", "read_boolean", (b"\x00\x01\x02", ["false", "true"])), "raises (read_boolean %s) = true" % hexed(b"\x02"))
case("read_optional_boolean", reads("", "read_optional_boolean", (b"\x00\x01\x02\x03", ["Some false", "Some true", "None"])),
     "raises (read_optional_boolean %s) = true" % hexed(b"\x03"))
for nm, mx in (("read_v_int", 5), ("read_v_long", 10)):
    eqs = ["got %s %s = Some 42" % (nm, hexed(b"\x2a"))]
    for k in range(1, mx):
        eqs.append("got %s %s = Some (128 ^ %d)" % (nm, hexed(b"\x80" * k + b"\x01"), k))
    eqs.append("raises (%s %s) = true" % (nm, hexed(b"\x80" * mx + b"\x01")))
    case(nm, *eqs)
case("read_version", "got read_version %s = Some (mkVersion 136317827)" % hexed(b"\x83\x97\x80\x41"),
     "v_str (mkVersion 136317827) = py \"2.10.0.99\"")
case("read_optional_int", reads("", "read_optional_int", (b"\x01\x00\x00\x00\x2a\x01\xff\xff\xff\xff\x00", ["Some 42", "Some (-1)", "None"])))
case("read_long", reads("", "read_long", (b"\x00\x00\x00\x01\x02\x03\x04\x05\xff\xff\xff\xff\xff\xff\xff\xff", ["4328719365", "-1"])))
case("read_optional_v_long", "got read_optional_v_long %s = Some (Some (128 ^ 9))" % hexed(b"\x01" + b"\x80" * 9 + b"\x01"),
     "got read_optional_v_long %s = Some None" % hexed(b"\x00" + b"\x80" * 9 + b"\x01"),
     "raises (read_optional_v_long %s) = true" % hexed(b"\x01" + b"\x80" * 10 + b"\x01"))
case("read_optional_long", reads("", "read_optional_long", (b"\x01\x00\x00\x00\x00\x00\x00\x00\x2a\x01\xff\xff\xff\xff\xff\xff\xff\xff\x00", ["Some 42", "Some (-1)", "None"])))
eqs = ["got read_z_long %s = Some 21" % hexed(b"\x2a"), "got read_z_long %s = Some (-21)" % hexed(b"\x2b")]
for k in range(1, 10):
    eqs.append("got read_z_long %s = Some (64 * 128 ^ %d)" % (hexed(b"\x80" * k + b"\x01"), k - 1))
    eqs.append("got read_z_long %s = Some (- 64 * 128 ^ %d)" % (hexed(b"\x81" + b"\x80" * (k - 1) + b"\x01"), k - 1))
eqs.append("raises (read_z_long %s) = true" % hexed(b"\x80" * 10 + b"\x01"))
case("read_z_long", *eqs)
def S(x): return 'py "%s"' % x
def L(xs): return "[" + "; ".join(S(x) for x in xs) + "]"
def D(d, val=S): return "[" + "; ".join("(%s, %s)" % (S(k), val(v)) for k, v in d.items()) + "]"
case("read_optional_string", "got read_optional_string %s = Some (Some (%s))" % (hexed(b"\x01\x04test"), S("test")),
     "got read_optional_string %s = Some None" % hexed(b"\x00\x04test"))
case("read_array_size", "got read_array_size %s = Some 42" % hexed(b"\x2a"), "raises (read_array_size %s) = true" % hexed(b"\x81\x80\x80\x80\x08"))
case("read_string", "got read_string %s = Some (%s)" % (hexed(b"\x04test"), S("test")))
case("read_string_array", "got read_string_array %s = Some %s" % (hexed(b"\x02\x03foo\x03bar"), L(["foo", "bar"])))
case("read_optional_string_array", "got read_optional_string_array %s = Some (Some %s)" % (hexed(b"\x01\x02\x03foo\x03bar"), L(["foo", "bar"])),
     "got read_optional_string_array %s = Some None" % hexed(b"\x00\x02\x03foo\x03bar"))
case("read_string_to_string_dict", "got read_string_to_string_dict %s = Some %s" % (hexed(b"\x02\x03foo\x03bar\x03baz\x03qux"), D({"foo": "bar", "baz": "qux"})),
     "got read_string_to_string_dict %s = Some []" % hexed(b"\x00"))
case("read_string_to_string_array_dict", "got read_string_to_string_array_dict %s = Some %s" % (hexed(b"\x02\x03foo\x02\x03bar\x03baz\x03qux\x00"), D({"foo": ["bar", "baz"], "qux": []}, L)),
     "got read_string_to_string_array_dict %s = Some []" % hexed(b"\x00"))
case("read_string_to_string_set_dict", "got (read_string_to_string_set_dict same_order) %s = Some %s" % (hexed(b"\x02\x03foo\x03\x03bar\x03baz\x03bar\x03qux\x00"), D({"foo": ["bar", "baz"], "qux": []}, L)))
G = "got (read_generic_value 2)"
case("read_generic_value",
     "%s %s = Some VNone" % (G, hexed(b"\xff")),
     "%s %s = Some (VStr (%s))" % (G, hexed(b"\x00\x04test"), S("test")),
     "%s %s = Some (VInt 42)" % (G, hexed(b"\x01\x00\x00\x00\x2a")),
     "%s %s = Some (VInt 4328719365)" % (G, hexed(b"\x02\x00\x00\x00\x01\x02\x03\x04\x05")),
     "%s %s = Some (VBool true)" % (G, hexed(b"\x05\x01")),
     "%s %s = Some (VBytes [])" % (G, hexed(b"\x06\x00")),
     "%s %s = Some (VBytes %s)" % (G, hexed(b"\x06\x03\x27\x10\x42"), hexed(b"\x27\x10\x42")),
     "%s %s = Some (VList [])" % (G, hexed(b"\x07\x00")),
     "%s %s = Some (VList [VStr (%s); VStr (%s)])" % (G, hexed(b"\x07\x02\x00\x03foo\x00\x03bar"), S("foo"), S("bar")),
     "%s %s = Some (VInt 42)" % (G, hexed(b"\x0b\x2a")),
     "%s %s = Some (VInt 42)" % (G, hexed(b"\x10\x00\x2a")),
     "raises (read_generic_value 2 %s) = true" % hexed(b"\xfe"))
case("read_enum", "got (read_enum 3) %s = Some 1" % hexed(b"\x01"))
case("read_time_value", "got read_time_value %s = Some (mkTV 5 4)" % hexed(b"\x0a\x04"),
     "option_map tv_dur (got read_time_value %s) = Some (-1)" % hexed(b"\x03\x02"),
     "option_map tv_dur (got read_time_value %s) = Some 0" % hexed(b"\x00\x00"))

# ---------------------------------------------------------------- test_stream_output.py
section("tests/transport/test_stream_output.py")
def w(e, b): return "%s = Ok %s" % (e, hexed(b))
case("write_byte", w("write_byte 42", b"\x2a"), "write_byte 256 = Raise EOverflow")
case("write_int", w("write_int 42", b"\x00\x00\x00\x2a"), "write_int 4294967296 = Raise EOverflow")
eqs = [w("write_v_int 42", b"\x2a")]
for n, b, sz in ((127, b"\x7f", 1), (128, b"\x80\x01", 2), (16383, b"\xff\x7f", 2), (16384, b"\x80\x80\x01", 3), (2097151, b"\xff\xff\x7f", 3),
                 (2097152, b"\x80\x80\x80\x01", 4), (268435455, b"\xff\xff\xff\x7f", 4), (268435456, b"\x80\x80\x80\x80\x01", 5)):
    eqs += [w("write_v_int %d" % n, b), "v_int_size %d = %d" % (n, sz)]
case("write_v_int", *eqs)
case("write_v_long", w("write_v_long 42", b"\x2a"), w("write_v_long (2 ^ 7 - 1)", b"\x7f"), w("write_v_long (2 ^ 14 - 1)", b"\xff\x7f"),
     w("write_v_long (2 ^ 63 - 1)", b"\xff" * 8 + b"\x7f"), w("write_v_long (2 ^ 63)", b"\x80" * 9 + b"\x01"))
case("write_z_long", w("write_z_long 21", b"\x2a"), w("write_z_long (-21)", b"\x2b"), w("write_z_long 64", b"\x80\x01"), w("write_z_long (-64)", b"\x81\x01"),
     w("write_z_long (2 ^ 13)", b"\x80\x80\x01"), w("write_z_long (- 2 ^ 13)", b"\x81\x80\x01"), w("write_z_long (2 ^ 62)", b"\x80" * 9 + b"\x01"),
     w("write_z_long (- 2 ^ 62)", b"\x81" + b"\x80" * 8 + b"\x01"), "write_z_long (2 ^ 63) = Raise EValue")
case("write_version", w("write_version (version_of_id 2100099)", b"\x83\x97\x80\x41"), "version_size (version_of_id 2100099) = 4",
     w("write_version (mkVersion 0)", b"\x00"), "version_size (mkVersion 0) = 1")
case("write_long", w("write_long 5409454583320448", b"\x00\x13\x37\xde\xca\xde\x0f\x80"))
case("write_byte_array", w("write_byte_array %s" % hexed(b"test"), b"\x04test"))
case("write_string", w("write_string (%s)" % S("test"), b"\x04test"))
case("write_float", w("write_float %s" % f64(2.718281828459045), b"\x40\x2d\xf8\x54"), w("write_float %s" % f64(-0.0), b"\x80\x00\x00\x00"))
case("write_double", w("write_double %s" % f64(2.718281828459045), b"\x40\x05\xBF\x0A\x8B\x14\x57\x69"))
case("write_boolean", w("wcat [write_boolean true; write_boolean false]", b"\x01\x00"))
case("write_string_array", w("write_string_array %s" % L(["foo", "bar"]), b"\x02\x03foo\x03bar"))
d = D({"foo": "bar", "baz": "qux"}); b = b"\x02\x03foo\x03bar\x03baz\x03qux"
case("write_string_to_string_dict", w("write_string_to_string_dict %s" % d, b), "string_to_string_dict_size %s = Ok %d" % (d, len(b)))
d = D({"foo": ["bar", "baz"], "qux": []}, L); b = b"\x02\x03foo\x02\x03bar\x03baz\x03qux\x00"
case("write_string_to_string_array_dict", w("write_string_to_string_array_dict %s" % d, b), "string_to_string_collection_dict_size %s = Ok %d" % (d, len(b)))
case("write_string_to_string_set_dict", w("write_string_to_string_set_dict %s" % d, b))
def VS(x): return "VStr (%s)" % S(x)
case("write_generic_value", w("wcat [write_generic_value VNone; write_generic_value (%s); write_generic_value (VInt 42); write_generic_value (VBool true)]" % VS("test"),
     b"\xff\x00\x04test\x02\x00\x00\x00\x00\x00\x00\x00\x2a\05\01"),
     w("wcat [write_generic_value (VBytes %s); write_generic_value (VList [%s; %s])]" % (hexed(b"test"), VS("foo"), VS("bar")), b"\x06\x04test\x07\x02\x00\x03foo\x00\x03bar"))
case("write_enum", w("write_enum 2", b"\x02"))
case("write_time_value", w("write_time_value (mkTV 5 4)", b"\x0a\x04"), w("write_time_value TV_MINUS_ONE", b"\x03\x02"), w("write_time_value (mkTV 0 0)", b"\x00\x00"))

# ---------------------------------------------------------------- messages
section("tests/transport: tasks, addresses, versions, contexts, handshakes")
case("task_id", w("write_task (mkTask (%s) (Some 42))" % S("test"), b"\x04test\x00\x00\x00\x00\x00\x00\x00\x2a"), w("write_task default_task", b"\x00"),
     "got read_task %s = Some (mkTask (%s) (Some 42))" % (hexed(b"\x04test\x00\x00\x00\x00\x00\x00\x00\x2a\x01\x02\x03"), S("test")))
A1 = b"\x04\x01\x02\x03\x04\x071.2.3.4\x00\x00\x04\xd2"; A2 = b"\x04\x01\x02\x03\x04\x09host.name\x00\x00\x04\xd2"
case("transport_address", w("write_addr (new_addr 16909060 1234 None)", A1), w("write_addr (new_addr 16909060 1234 (Some (%s)))" % S("host.name"), A2),
     "got read_addr %s = Some (mkAddr 16909060 (%s) 1234)" % (hexed(A2), S("host.name")), "ip_str 16909060 = %s" % S("1.2.3.4"),
     "parse_ip (%s) = Ok 16909060" % S("1.2.3.4"), "raises (parse_ip (%s)) = true" % S("1.2.3.4.5"),
     "raises (read_addr %s) = true" % hexed(b"\x05\x01\x02\x03\x04\x05\x09host.name\x00\x00\x04\xd2"))
case("version", "vid (version_of_id 2100099) = 136317827", *["let v := version_of_id 2100099 in (v_major v, v_minor v, v_revision v, v_build v) = (2, 10, 0, 99)",
     "v_str (version_of_id 2100099) = %s" % S("2.10.0.99"), w("version_to_bytes (version_of_id 2100099)", b"\x08 \x0b\x83"),
     "version_from_bytes %s = version_of_id 2100099" % hexed(b"\x08 \x0b\x83"), "v_str (mkVersion MASK) = %s" % S("0.0.0.0"),
     w("version_to_bytes (mkVersion MASK)", b"\x08\x00\x00\x00")])
C = "(mkCtx %s %s)" % (D({"foo": "bar"}), D({"baz": ["qux", "quux"]}, L)); CB = b"\x01\x03foo\x03bar\x01\x03baz\x02\x03qux\x04quux"
case("thread_context", w("write_ctx %s" % C, CB), "got (read_ctx same_order) %s = Some %s" % (hexed(CB), C), w("write_ctx empty_ctx", b"\0\0"),
     "got (read_ctx same_order) %s = Some empty_ctx" % hexed(b"\0\0"), "ctx_size empty_ctx = Ok 2", "ctx_size (mkCtx %s []) = Ok 10" % D({"foo": "bar"}), "ctx_size %s = Ok 24" % C)
case("tcp_handshake", w("write_tcp_handshake_request (mkTcpReq default_task (Some (version_of_id 2100099)))", b"\x00\x04\x83\x97\x80\x41"),
     "got read_tcp_handshake_request %s = Some (mkTcpReq default_task (Some (mkVersion 136317827)))" % hexed(b"\x00\x04\x83\x97\x80\x41"),
     w("write_tcp_handshake_response (Some (version_of_id 2100099))", b"\x83\x97\x80\x41"))
case("header_flags", "match new_header ES (Some 42) 0 (HVer (version_of_id 3000099)) MESSAGE_SIZE 0 7 with (Ok h, n) => (h_size h, h_vhs h, is_request h, is_response h, is_error h, is_compress h, is_handshake h, statuses h, n) | _ => (0, 0, false, false, false, false, false, [], 0) end = (17, 0, true, false, false, false, false, [%s], 7)" % S("request"))
F1 = (b"ES\x00\x00\x00\x3a\x00\x00\x00\x00\x00\x00\x00\x02\x08\x08\x2d\xc7\x23\x00\x00\x00\x23" + b"\x00\x00" + b"\x02\x03foo\x03bar" + b"\x17internal:test/handshake" + b"\x00" + b"\x04test")
case("outbound_request", "(o <! new_request None %s (Some (wcat [write_transport_request default_task; write_string (%s)])) (HVer (version_of_id 3000099)) (%s) (Some 2) true false ;; ilift (write_outbound o)) 0 = (Ok %s, 0)" % (L(["foo", "bar"]), S("test"), S("internal:test/handshake"), hexed(F1)))
F2 = b"ES\x00\x00\x00\x18\x00\x00\x00\x00\x00\x00\x00\x02\x09\x08\x2d\xc7\x23\x00\x00\x00\x02" + b"\x00\x00" + b"\x04test"
case("outbound_response", "(o <! new_response None %s (Some (write_string (%s))) (HVer (version_of_id 3000099)) (Some 2) true false ;; ilift (write_outbound o)) 0 = (Ok %s, 0)" % (L(["foo", "bar"]), S("test"), hexed(F2)))

body = [HEAD]
# ---------------------------------------------------------------- captures
CAP = r'''
(** ** tests/transport/data: frames captured from OpenSearch *)
Definition tcp_header_frame : bytes := @tcp_header@.
Definition tcp_handshake_frame : bytes := @tcp_handshake@.
Definition handshake_request_frame : bytes := @transport_service_handshake_request@.
Definition handshake_response_frame : bytes := @transport_service_handshake_response@.
Definition initialize_frame : bytes := @initialize_extension_request@.
(** reading a frame (header, context, variable part) and then the message *)
Definition a_request : outbound := mkOut (mkHeader ES 0 0 0 HNone 0) empty_ctx None None [] [].
Definition in_frame {A} (req : bool) (r : reader A) : reader (outbound * A) :=
  h <~ read_header ;; o <~ read_outbound same_order req a_request h ;; a <~ r ;; rret (o, a).
(** read it, write it again *)
Definition rewritten {A} (req : bool) (r : reader A) (w : A -> res bytes) (raw : bytes) : res bytes :=
  x <- in_frame req r raw ;; wcat [write_outbound (fst (fst x)); w (snd (fst x))].

(** test_tcp_header.py:90-103 *)
Example v_tcp_header : match read_header tcp_header_frame with
  | Ok (h, s) => h_prefix h = ES /\ h_id h = 8 /\ is_handshake h = true /\ h_version h = HVer (mkVersion 136317827) /\
      h_size h = 49 /\ h_vhs h = 26 /\ write_header h = Ok tcp_header_frame /\ s = []
  | Raise _ => False end.
Proof. vm_compute. repeat split; reflexivity. Qed.
(** test_transport_handshaker_handshake_request.py:34-47 *)
Example v_tcp_handshake_frame : match in_frame true read_tcp_handshake_request tcp_handshake_frame with
  | Ok ((o, r), s) => option_map v_str (tr_version r) = Some (py "3.0.0.99") /\ o_action o = py "internal:tcp/handshake" /\ s = []
  | Raise _ => False end /\
  rewritten true read_tcp_handshake_request write_tcp_handshake_request tcp_handshake_frame = Ok tcp_handshake_frame.
Proof. vm_compute. repeat split; reflexivity. Qed.
(** test_transport_service_handshake_request.py:31-43 *)
Example v_handshake_request_frame :
  rewritten true read_transport_request write_transport_request handshake_request_frame = Ok handshake_request_frame.
Proof. v. Qed.
(** test_transport_service_handshake_response.py:49-64 *)
Example v_handshake_response_frame : match in_frame false read_handshake_response handshake_response_frame with
  | Ok ((o, r), s) => option_map n_id (hr_node r) = Some (py "lFaxidDtTzSv1yYnOe7NRA") /\ hr_cluster r = py "opensearch" /\
      v_str (hr_version r) = py "3.0.0.99" /\ s = []
  | Raise _ => False end /\
  rewritten false read_handshake_response write_handshake_response handshake_response_frame = Ok handshake_response_frame.
Proof. vm_compute. repeat split; reflexivity. Qed.
(** test_initialize_extension_request.py:51-67 *)
Example v_initialize_frame : match in_frame true read_init_request initialize_frame with
  | Ok ((o, r), s) => n_id (ir_source r) = py "1GpM1ZNmTxOttjQhkVwA6g" /\ n_id (x_node (ir_ext r)) = py "hello-world" /\ s = [] /\
      o_action o = A_DISCOVERY /\ c_req (o_ctx o) = [(py "_system_index_access_allowed", py "false")]
  | Raise _ => False end /\
  rewritten true read_init_request write_init_request initialize_frame = Ok initialize_frame.
Proof. vm_compute. repeat split; reflexivity. Qed.

(** ** tests/server/test_async_extension_host.py *)
Definition v_env : env := mkEnv same_order (fun l => l) 10 (fun _ => None).
Definition v_ext : extension unit :=
  mkExtn unit (py "hello-world") [py "Extension"; py "ActionExtension"] empty_registry (fun _ u _ => (u, Raise EGeneric)).
(** the bytes the host sends for each chunk, the ids drawn in the end *)
Definition talk (h : host unit) (chunks : list bytes) : list (option (option bytes)) * host unit :=
  fold_left (fun acc raw => match on_input v_env v_ext v_uuid raw (snd acc) with
    | (Ok o, h') => (fst acc ++ [Some o], h') | (Raise _, h') => (fst acc ++ [None], h') end) chunks ([], h).
(** test_discovery_extensions_request: the host asks to register "hello-world" *)
Example v_discovery : match fst (talk (initial_host tt) [handshake_request_frame; initialize_frame]) with
  | [Some (Some _); Some (Some b)] =>
      match in_frame true read_register_request b with
      | Ok ((o, r), _) => c_req (o_ctx o) = [(py "_system_index_access_allowed", py "false")] /\
          opt_str (rra_identity (rrr_rra r)) = py "hello-world"
      | Raise _ => False end
  | _ => False end.
Proof. vm_compute. repeat split; reflexivity. Qed.
(** test_run_unhandled_request_error *)
Definition v_invalid : bytes :=
  match (o <! new_request None [] None (HVer (version_of_id 2100099)) (py "internal:invalid") None false false ;;
         ilift (write_outbound o)) 5 with (Ok b, _) => b | _ => [] end.
Example v_unhandled : match fst (talk (initial_host tt) [handshake_request_frame; v_invalid]) with
  | [Some (Some _); Some (Some b)] =>
      match in_frame false read_exec_response b with
      | Ok ((o, r), _) => c_req (o_ctx o) = [] /\ ex_status r = status_value (py "NOT_FOUND") /\
          ex_ctype r = JSON_CONTENT_TYPE /\ ex_headers r = [] /\
          ex_content r = map z2b (py "{""error"": ""No handler found for internal:invalid""}")
      | Raise _ => False end
  | _ => False end.
Proof. vm_compute. repeat split; reflexivity. Qed.
(** test_acknowledged_response: acknowledged, the host asks for the environment settings *)
Definition v_ack (id : Z) : bytes :=
  match (o <! new_response None [] (Some (write_ack true)) (HVer (version_of_id 2100099)) (Some id) false false ;;
         ilift (write_outbound o)) 0 with (Ok b, _) => b | _ => [] end.
Definition v_started : list (option (option bytes)) * host unit := talk (initial_host tt) [initialize_frame].
Definition v_register_id : Z := match fst v_started with
  | [Some (Some b)] => match read_header b with Ok (h, _) => h_id h | _ => 0 end | _ => 0 end.
Example v_acknowledged : match fst (talk (snd v_started) [handshake_request_frame; v_ack v_register_id]) with
  | [Some (Some _); Some (Some b)] =>
      match in_frame true read_ext_transport_request b with
      | Ok ((o, r), _) => c_req (o_ctx o) = [(py "_system_index_access_allowed", py "false")] /\
          (match h_version (o_hdr o) with HVer v => Z.lxor (vid v) MASK | _ => 0 end) = MIN_COMPAT /\
          er_type (etr_er r) = REQUEST_EXTENSION_ENVIRONMENT_SETTINGS
      | Raise _ => False end
  | _ => False end.
Proof. vm_compute. repeat split; reflexivity. Qed.
(** test_error_response: no reply *)
Definition v_error : bytes :=
  match (o <! new_response None [] None (HVer (version_of_id 2100099)) None false false ;;
         ilift (write_outbound (with_hdr o (set_is_error (o_hdr o) true)))) 9 with (Ok b, _) => b | _ => [] end.
Example v_error_response : match fst (talk (initial_host tt) [handshake_request_frame; v_error]) with
  | [Some (Some _); Some None] => True | _ => False end.
Proof. vm_compute. exact I. Qed.
'''
REST = r'''
(** ** tests/rest *)
Definition v_rest_request : rest_request :=
  mkReq default_task (Some 0) (py "/hello?v") (py "/hello") [(py "foo", py "bar")] [(py "foo", [py "bar"; py "baz"])]
    (py "application/json; charset=utf-8") (map z2b (py "{}")) (py "token") (Some 1) [] false.
(** test_extension_rest_request.py *)
Example v_rest_request_read_write : (b <- write_rest_request v_rest_request ;; rmap fst (read_rest_request b)) = Ok v_rest_request.
Proof. v. Qed.
Example v_consuming : let r1 := do_calls v_rest_request [CHasParam (py "foo")] in
  let r2 := do_calls r1 [CParam (py "foo"); CHasParam (py "bar")] in
  let r3 := do_calls r2 [CParam (py "bar"); CHasContent; CContent false] in
  let r4 := do_calls r3 [CContent true] in
  rq_consumed r1 = [] /\ fst (do_call r1 (CParam (py "foo"))) = AStr (Some (py "bar")) /\
  fst (do_call v_rest_request (CHasParam (py "bar"))) = ABool false /\ rq_consumed r2 = [py "foo"] /\
  fst (do_call r2 (CParam (py "bar"))) = AStr None /\ rq_consumed r3 = [py "foo"; py "bar"] /\
  fst (do_call r3 CHasContent) = ABool true /\ rq_content_consumed r3 = false /\ rq_content_consumed r4 = true.
Proof. vm_compute. repeat split; reflexivity. Qed.
(** test_extension_rest_response.py; the set is read back in the order written (sorted) *)
Definition v_rest_response : rest_response :=
  let q := do_calls v_rest_request [CParam (py "foo"); CParam (py "bar"); CContent true] in
  new_rest_response (Some q) (Some q) (Some 2) (map z2b (py "test")) JSON_CONTENT_TYPE [(py "foo", [py "bar"; py "baz"])].
Example v_rest_response_read_write : match (b <- write_rest_response v_rest_response ;; rmap fst (read_rest_response same_order b)) with
  | Ok r => rp_status r = status_value (py "OK") /\ rp_content r = map z2b (py "test") /\ rp_ctype r = JSON_CONTENT_TYPE /\
      rp_headers r = [(py "foo", [py "bar"; py "baz"])] /\ rp_consumed r = [py "bar"; py "foo"] /\ rp_content_consumed r = true
  | Raise _ => False end.
Proof. vm_compute. repeat split; reflexivity. Qed.
(** test_rest_execute_on_extension_response.py *)
Definition v_exec : exec_response :=
  mkExec (Some 2) (py "application/json; charset=utf-8") (map z2b (py "{}")) [(py "foo", [py "bar"; py "baz"])] [py "bar"; py "baz"] true.
Example v_exec_read_write : (b <- write_exec_response v_exec ;; rmap fst (read_exec_response b)) = Ok v_exec.
Proof. v. Qed.
(** test_named_route.py, test_extension_rest_handlers.py, api/test_action_extension.py *)
Definition v_foobar := [mkRoute 0 (py "/foo") (py "get_foo"); mkRoute 0 (py "/bar/{foo}") (py "get_bar")].
Definition v_barfoo := [mkRoute 0 (py "/bar/{baz}") (py "get_baz"); mkRoute 0 (py "/foo/{bar}/baz/{qux}") (py "get_barqux")].
Definition v_cls : class_oracle := fun _ => None.
Example v_named_route : route_str (mkRoute 0 (py "/test") (py "testing")) = py "GET /test testing".
Proof. v. Qed.
Example v_register_handlers : match register empty_registry 0 v_foobar with
  | (g, None) => map fst (rg_map g) = [py "GET /foo"; py "GET /bar/*"] /\
      rg_named g = [py "GET /foo get_foo"; py "GET /bar/{foo} get_bar"] /\
      find_handler v_cls (rg_map g) (py "GET /foo") = Ok 0%nat /\
      find_handler v_cls (rg_map g) (py "GET /bar/anything") = Ok 0%nat /\
      raises (find_handler v_cls (rg_map g) (py "GET /baz")) = true /\
      (* test_register_conflicts *)
      snd (register g 1 v_barfoo) = Some EGeneric
  | _ => False end.
Proof. vm_compute. repeat split; reflexivity. Qed.
Example v_register_wildcards : match register empty_registry 0 v_barfoo with
  | (g, None) => map fst (rg_map g) = [py "GET /bar/*"; py "GET /foo/*/baz/*"] /\
      rg_named g = [py "GET /bar/{baz} get_baz"; py "GET /foo/{bar}/baz/{qux} get_barqux"] /\
      find_handler v_cls (rg_map g) (py "GET /bar/anything") = Ok 0%nat /\
      find_handler v_cls (rg_map g) (py "GET /foo/something/baz/anything") = Ok 0%nat
  | _ => False end.
Proof. vm_compute. repeat split; reflexivity. Qed.
'''
SETTINGS = r'''
(** ** tests/settings, tests/transport/test_byte_size_value.py, test_time_value.py *)
Definition no_repr : pyval -> pystr := fun _ => [].
Definition getI (s : res (setting Z * int_parser)) (d : sdict pyval) : res Z := x <- s ;; setting_get no_repr (fst x) d.
Example v_integer_setting :
  getI (new_integer_setting (py "answer.to.life") 24 (- 2 ^ 31) (2 ^ 31 - 1) []) [] = Ok 24 /\
  getI (new_integer_setting (py "answer.to.life") 24 (- 2 ^ 31) (2 ^ 31 - 1) []) [(py "answer.to.life", VStr (py "42"))] = Ok 42 /\
  new_integer_setting (py "key") 10 0 5 [] = Raise EValue /\
  new_integer_setting (py "key") 0 (- 2 ^ 31 - 1) (2 ^ 31 - 1) [] = Raise EValue /\
  new_integer_setting (py "key") 0 0 (2 ^ 31) [] = Raise EValue.
Proof. vm_compute. repeat split; reflexivity. Qed.
Example v_long_setting :
  getI (new_long_setting (py "answer.to.life") (2 ^ 42) (- 2 ^ 63) (2 ^ 63 - 1) []) [] = Ok (2 ^ 42) /\
  getI (new_long_setting (py "answer.to.life") (2 ^ 42) (- 2 ^ 63) (2 ^ 63 - 1) []) [(py "answer.to.life", VStr (py "42"))] = Ok 42 /\
  new_long_setting (py "key") 10 0 5 [] = Raise EValue /\
  new_long_setting (py "key") 0 (- 2 ^ 63 - 1) (2 ^ 63 - 1) [] = Raise EValue /\
  new_long_setting (py "key") 0 0 (2 ^ 63) [] = Raise EValue.
Proof. vm_compute. repeat split; reflexivity. Qed.
Example v_integer_parser : match new_int_parser 31 (-100) 100 (py "foo") [PProp DYNAMIC; PProp NODE_SCOPE] with
  | Ok p => ip_filtered p = false /\ (b <- write_integer_parser p ;; rmap fst (read_integer_parser b)) = Ok p /\
      (b <- write_long_parser p ;; rmap fst (read_long_parser b)) = Ok p /\
      int_parse p (py "42") = Ok 42 /\ int_parse p (py "not an integer") = Raise EValue /\ int_parse p (py "101") = Raise EValue
  | Raise _ => False end /\
  rmap ip_filtered (new_int_parser 31 0 100 (py "foo") [PProp FILTERED]) = Ok true.
Proof. vm_compute. repeat split; reflexivity. Qed.
Example v_boolean_setting : let s := new_boolean_setting (py "glass.half.full") false [] in
  setting_get no_repr s [] = Ok false /\
  setting_get no_repr s [(py "glass.half.full", VBool true)] = Ok true.
Proof. vm_compute. repeat split; reflexivity. Qed.
Example v_version_setting : let s := new_version_setting (py "version") (version_of_id 3000099) [] in
  rmap v_str (setting_get no_repr s []) = Ok (py "3.0.0.99") /\
  rmap v_str (setting_get no_repr s [(py "version", VStr (py "2110099"))]) = Ok (py "2.11.0.99") /\
  rmap v_str (version_parse (py "2090102")) = Ok (py "2.9.1.2").
Proof. vm_compute. repeat split; reflexivity. Qed.
(** test_settings.py: the text of bytes and of lists is an oracle in the model *)
Definition v_settings : sdict pyval :=
  [(py "foo", VStr (py "bar")); (py "baz", VInt 42); (py "qux", VBool true); (py "bytes", VBytes (map z2b (py "test")));
   (py "list", VList [VStr (py "a"); VStr (py "b"); VStr (py "c")])].
Example v_settings_read_write :
  settings_get no_repr v_settings (py "bar") None = None /\
  settings_get no_repr v_settings (py "bar") (Some (py "baz")) = Some (py "baz") /\
  settings_get no_repr v_settings (py "foo") (Some (py "baz")) = Some (py "bar") /\
  settings_get no_repr v_settings (py "baz") None = Some (py "42") /\
  settings_get no_repr v_settings (py "qux") None = Some (py "True") /\
  (b <- write_settings v_settings ;; Ok (snd (read_settings 3 [] b))) = Ok v_settings.
Proof. vm_compute. repeat split; reflexivity. Qed.
Example v_byte_size_value :
  bsv_str (mkBSV 42 1) = py "42kb" /\ bsv_parse (py "42mb") = Ok (mkBSV 42 2) /\ bsv_parse (py "42 gb") = Ok (mkBSV 42 3) /\
  bsv_parse (py "no digits") = Raise EValue /\ bsv_parse (py "100eb") = Raise EValue /\
  map (fun u => bsv_to_bytes (mkBSV 42 u)) [0; 1; 2; 3; 4; 5] = [42; 42 * 1024; 42 * 1024 ^ 2; 42 * 1024 ^ 3; 42 * 1024 ^ 4; 42 * 1024 ^ 5].
Proof. vm_compute. repeat split; reflexivity. Qed.
Example v_time_value :
  tv_str (mkTV 42 3) = py "42s" /\ tv_parse (py "42s") = Ok (mkTV 42 3) /\ tv_parse (py "24 h") = Ok (mkTV 24 5) /\
  tv_parse (py "no digits") = Raise EValue /\ tv_parse (py "9 weeks") = Raise EValue /\
  map (fun u => tv_to_nanos (mkTV 42 u)) [0; 1; 2; 3; 4; 5; 6] =
    [42; 42000; 42000000; 42000000000; 42000000000 * 60; 42000000000 * 3600; 42000000000 * 86400].
Proof. vm_compute. repeat split; reflexivity. Qed.
Definition B (n u : Z) := mkBSV n u.
Definition MAXB : bsv := mkBSV (2 ^ 63 - 1) 0.
Example v_byte_size_setting :
  let s := new_byte_size_setting (py "unix.v1.lines") (B 4501 0) (B 0 0) MAXB [] in
  (x <- s ;; setting_get no_repr (fst x) []) = Ok (B 4501 0) /\
  (x <- s ;; setting_get no_repr (fst x) [(py "unix.v1.lines", VStr (py "4kb"))]) = Ok (B 4 1) /\
  new_byte_size_setting (py "key") (B 1 1) (B 0 0) (B 512 0) [] = Raise EValue /\
  new_byte_size_setting (py "key") (B 10 2) (B 15 2) (B 1 3) [] = Raise EValue /\
  new_byte_size_setting (py "key") (B (-2) 1) (B 0 0) MAXB [] = Raise EValue /\
  new_byte_size_setting (py "key") (B 0 0) (B (-2) 1) (B 0 0) [] = Raise EValue /\
  new_byte_size_setting (py "key") (B 0 0) (B 0 0) (B (-2) 1) [] = Raise EValue.
Proof. vm_compute. repeat split; reflexivity. Qed.
Example v_byte_size_parser :
  (p <- new_bs_parser (B 100 1) (B 5 2) (py "foo") ;; b <- write_bs_parser p ;; rmap fst (read_bs_parser b)) =
    new_bs_parser (B 100 1) (B 5 2) (py "foo") /\
  match new_bs_parser (B 5 1) (B 10 1) (py "foo") with
  | Ok p => bs_parse p (py "8k") = Ok (B 8 1) /\ bsv_str (B 8 1) = py "8kb" /\ bs_parse p (py "not a byte size value") = Raise EValue /\
      bs_parse p (py "-2kb") = Raise EValue /\ bs_parse p (py "2k") = Raise EValue /\ bs_parse p (py "12k") = Raise EValue
  | Raise _ => False end.
Proof. vm_compute. repeat split; reflexivity. Qed.
Definition T (n u : Z) := mkTV n u.
Example v_time_setting :
  let s := new_time_setting (py "time.to.sleep") (T 8 5) (T 0 0) TV_MINUS_ONE [] in
  (x <- s ;; setting_get no_repr (fst x) []) = Ok (T 8 5) /\
  (x <- s ;; setting_get no_repr (fst x) [(py "time.to.sleep", VStr (py "30m"))]) = Ok (T 30 4) /\
  new_time_setting (py "key") (T 1 5) (T 0 0) (T 30 4) [] = Raise EValue /\
  new_time_setting (py "key") (T 10 4) (T 15 4) (T 30 4) [] = Raise EValue /\
  new_time_setting (py "key") (T (-2) 1) (T 0 0) TV_MINUS_ONE [] = Raise EValue /\
  new_time_setting (py "key") (T 0 0) (T (-2) 1) (T 0 0) [] = Raise EValue /\
  new_time_setting (py "key") (T 0 0) (T 0 0) (T (-2) 1) [] = Raise EValue.
Proof. vm_compute. repeat split; reflexivity. Qed.
Example v_time_parser :
  (p <- new_tv_parser (T 0 0) (T 5 4) (py "foo") [PProp FILTERED] ;; b <- write_tv_parser p ;; rmap fst (read_tv_parser b)) =
    new_tv_parser (T 0 0) (T 5 4) (py "foo") [PProp FILTERED] /\
  (p <- new_tv_parser (T 0 0) TV_MINUS_ONE (py "foo") [PProp DYNAMIC] ;; b <- write_tv_parser p ;; rmap fst (read_tv_parser b)) =
    new_tv_parser (T 0 0) TV_MINUS_ONE (py "foo") [PProp DYNAMIC] /\
  match new_tv_parser (T 5 4) (T 10 4) (py "foo") [] with
  | Ok p => tvs_parse p (py "8m") = Ok (T 8 4) /\ tv_str (T 8 4) = py "8m" /\ tvs_parse p (py "not a time value") = Raise EValue /\
      tvs_parse p (py "-2m") = Raise EValue /\ tvs_parse p (py "2m") = Raise EValue /\ tvs_parse p (py "12m") = Raise EValue
  | Raise _ => False end.
Proof. vm_compute. repeat split; reflexivity. Qed.
'''

for name, eqs in cases:
    if name is None:
        body.append("\n(** ** %s *)" % eqs)
    else:
        body.append("Example v_%s :\n  %s.\nProof. %s Qed." % (name, " /\\\n  ".join(eqs), "vm_compute. repeat split; reflexivity." if len(eqs) > 1 else "v."))
MESSAGES = r"""
(** ** tests/transport, tests/protobuf: messages written and read back *)
Definition again {A} (w : A -> res bytes) (r : reader A) (a : A) : res A := b <- w a ;; rmap fst (r b).
Definition v_uuid : bytes := repeat x00 16.
(** test_dicovery_node.py *)
Definition v_node : node := new_node v_uuid (py "name") (py "id") None None None (new_addr 16909060 1234 (Some (py "foo.bar")))
  [(py "foo", py "bar"); (py "baz", py "qux")] [DATA_ROLE; INGEST_ROLE] None.
Example v_discovery_node :
  n_name v_node = py "name" /\ n_id v_node = py "id" /\ zlen (n_eph v_node) = 22 /\ n_host v_node = py "foo.bar" /\
  n_hostaddr v_node = py "1.2.3.4" /\ again write_node read_node v_node = Ok v_node.
Proof. vm_compute. repeat split; reflexivity. Qed.
(** test_extension_dependency.py, test_dicovery_extension_node.py, test_initialize_extension_request.py *)
Definition v_ext_node : ext_node :=
  mkExtNode v_node (version_of_id 1000100) [mkDep (py "foo") (version_of_id 1010100); mkDep (py "bar") (version_of_id 1020000)].
Example v_extension_node :
  v_str (x_min v_ext_node) = py "1.0.1.0" /\ again write_ext_node read_ext_node v_ext_node = Ok v_ext_node /\
  again write_init_request read_init_request (mkInitReq default_task v_node v_ext_node) = Ok (mkInitReq default_task v_node v_ext_node).
Proof. vm_compute. repeat split; reflexivity. Qed.
(** test_initialize_extension_response.py, test_acknowledged_response.py *)
Example v_initialize_response : let r := mkInitResp (py "test") [py "Extension"; py "ActionExtension"] in
  again write_init_response read_init_response r = Ok r /\ again write_ack read_ack true = Ok true.
Proof. vm_compute. repeat split; reflexivity. Qed.
(** test_transport_service_handshake_response.py *)
Example v_handshake_response :
  let r := mkHsResp (Some v_node) (py "hello-world") (version_of_id 2100099) in
  let r' := mkHsResp None (py "hello-world") (version_of_id 2100099) in
  again write_handshake_response read_handshake_response r = Ok r /\
  again write_handshake_response read_handshake_response r' = Ok r'.
Proof. vm_compute. repeat split; reflexivity. Qed.
(** test_extension_transport_request.py, test_register_rest_actions_request.py, tests/protobuf *)
Example v_extension_transport_request :
  (x <- new_ext_transport_request 4 (py "test") ;; again write_ext_transport_request read_ext_transport_request x) = new_ext_transport_request 4 (py "test") /\
  rmap (fun x => (er_type (etr_er x), opt_str (er_identity (etr_er x))))
    (x <- new_ext_transport_request 4 [] ;; again write_ext_transport_request read_ext_transport_request x) = Ok (4, []).
Proof. vm_compute. repeat split; reflexivity. Qed.
Example v_register_request :
  rmap (fun x => (opt_str (rra_identity (rrr_rra x)), rra_actions (rrr_rra x), rra_deprecated (rrr_rra x)))
    (x <- new_register_request (py "test") [py "foo"; py "bar"] [py "baz"; py "qux"] ;; again write_register_request read_register_request x)
  = Ok (py "test", [py "foo"; py "bar"], [py "baz"; py "qux"]).
Proof. v. Qed.
"""
body.append(MESSAGES)
body.append(re.sub(r"@(\w+)@", lambda m: hexed(capture(m.group(1))), CAP))
body.append(SETTINGS)
body.append(REST)
open(OUT, "w").write("\n".join(body) + "\n")
