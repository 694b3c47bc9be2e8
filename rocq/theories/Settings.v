(** * Settings (settings/*.py, transport/byte_size_value.py, transport/time_value.py,
    transport/environment_settings_response.py) *)
From Coq Require Import ZArith List Bool String.
From Coq Require Import Strings.Byte.
From Verif Require Import Py Stream Version.
Import ListNotations.
Open Scope Z_scope.

(** ** Python's truth value and [str()] of a settings value *)
Definition truthy (v : pyval) : bool :=
  match v with
  | VNone => false
  | VBool b => b
  | VStr s => match s with [] => false | _ => true end
  | VInt i => negb (i =? 0)
  | VBytes b => match b with [] => false | _ => true end
  | VList l => match l with [] => false | _ => true end
  | VOther t _ => t
  end.
(** [str(v)]; the text of bytes and lists is left to an oracle [rp] *)
Definition py_str (rp : pyval -> pystr) (v : pyval) : pystr :=
  match v with
  | VNone => py "None"
  | VBool true => py "True"
  | VBool false => py "False"
  | VStr s => s
  | VInt i => str_int i
  | VOther _ r => r
  | _ => rp v
  end.

(** ** settings.py *)

(** settings.py:40-42 get *)
Definition settings_get (rp : pyval -> pystr) (d : sdict pyval) (k : pystr)
  (default : option pystr) : option pystr :=
  match dict_get streqb k d with
  | Some v => if truthy v then Some (py_str rp v) else default
  | None => default
  end.

(** settings.py:27-30, the loop of read_from: the dict object is updated in place, so
    pairs read before an exception stay in it *)
Fixpoint read_settings_loop (fuel : nat) (n : nat) (d : sdict pyval) (s : bytes)
  : res bytes * sdict pyval :=
  match n with
  | O => (Ok s, d)
  | S k =>
      match (key <~ read_string ;; v <~ read_generic_value fuel ;; rret (key, v)) s with
      | Ok ((key, v), s') => read_settings_loop fuel k (dict_set streqb key v d) s'
      | Raise e => (Raise e, d)
      end
  end.
(** settings.py:25-31 read_from on an object whose dict is [d]: the unread input or the
    exception, and the dict afterwards *)
Definition read_settings (fuel : nat) (d : sdict pyval) (s : bytes) : res bytes * sdict pyval :=
  match read_v_int s with
  | Ok (n, s') => read_settings_loop fuel (Z.to_nat n) d s'
  | Raise e => (Raise e, d)
  end.
(** settings.py:33-38 write_to; environment_settings_response.py:28-31 write_to is the same bytes *)
Definition write_settings (d : sdict pyval) : res bytes :=
  wcat (write_v_int (zlen d)
        :: map (fun kv => wcat [write_string (fst kv); write_generic_value (snd kv)]) d).

(** settings.py:18-23: the default argument is one dict shared by every [Settings()] of
    the process.  [shared] is its content; reading into a fresh [Settings()] (as
    environment_settings_response.py:25 does) yields and changes that dict. *)
Definition fresh_settings_read := read_settings.

(** ** setting.py *)

(** setting.py:35 Property *)
Inductive prop :=
| FILTERED | DYNAMIC | FINAL | DEPRECATED | NODE_SCOPE | CONSISTENT | INDEX_SCOPE
| NOT_COPYABLE_ON_RESIZE | INTERNAL_INDEX | PRIVATE_INDEX | EXTENSION_SCOPE.
(** Python: == of Property members *)
Definition prop_eqb (a b : prop) : bool :=
  match a, b with
  | FILTERED, FILTERED | DYNAMIC, DYNAMIC | FINAL, FINAL | DEPRECATED, DEPRECATED
  | NODE_SCOPE, NODE_SCOPE | CONSISTENT, CONSISTENT | INDEX_SCOPE, INDEX_SCOPE
  | NOT_COPYABLE_ON_RESIZE, NOT_COPYABLE_ON_RESIZE | INTERNAL_INDEX, INTERNAL_INDEX
  | PRIVATE_INDEX, PRIVATE_INDEX | EXTENSION_SCOPE, EXTENSION_SCOPE => true
  | _, _ => false
  end.
(** An argument received by a [*properties] parameter: a Property, or a whole tuple of
    them (the subclasses pass their tuple on without unpacking it). *)
Inductive parg := PProp (p : prop) | PTuple (l : list prop).
(** [Setting.Property.FILTERED in properties] *)
Definition has_filtered (l : list parg) : bool :=
  existsb (fun a => match a with PProp p => prop_eqb FILTERED p | PTuple _ => false end) l.

(** setting.py:37 Type *)
Inductive stype :=
| TBOOLEAN | TINTEGER | TLONG | TFLOAT | TDOUBLE | TSTRING | TTIME_VALUE | TBYTE_SIZE_VALUE
| TVERSION.

(** setting.py:20-27.  [s_default] is the text produced by the default_value callable
    (every subclass passes a constant function); the parser is its [parse]. *)
Record setting (A : Type) := mkSetting {
  s_type : stype;
  s_key : pystr;
  s_default : pystr;
  s_parse : pystr -> res A;
  s_validate : option (pystr -> res unit);
  s_props : list parg }.
Arguments s_type {A}. Arguments s_key {A}. Arguments s_default {A}.
Arguments s_parse {A}. Arguments s_validate {A}. Arguments s_props {A}.
Arguments mkSetting {A}.

(** setting.py:29-33 get *)
Definition setting_get {A} (rp : pyval -> pystr) (st : setting A) (d : sdict pyval) : res A :=
  match settings_get rp d (s_key st) None with
  | Some (c :: t) =>
      _u <- match s_validate st with Some f => f (c :: t) | None => Ok tt end ;;
      s_parse st (c :: t)
  | _ => s_parse st (s_default st)
  end.

(** ** integer_setting.py, long_setting.py (same code, different limits) *)
Record int_parser := mkIP { ip_min : Z; ip_max : Z; ip_key : pystr; ip_filtered : bool }.
(** Python: [lo <= v <= hi] *)
Definition in_rangeb (lo hi v : Z) : bool := (lo <=? v) && (v <=? hi).

(** integer_setting.py:27-35 / long_setting.py:26-34 Parser.__init__; [bits] is 31 / 63 *)
Definition new_int_parser (bits lo hi : Z) (key : pystr) (props : list parg) : res int_parser :=
  if negb (in_rangeb (- 2 ^ bits) (2 ^ bits - 1) lo) then Raise EValue
  else if negb (in_rangeb (- 2 ^ bits) (2 ^ bits - 1) hi) then Raise EValue
  else Ok (mkIP lo hi key (has_filtered props)).
(** integer_setting.py:40-43 / long_setting.py:39-42 bounds_check *)
Definition int_bounds_check (p : int_parser) (v : Z) : res Z :=
  if negb (in_rangeb (ip_min p) (ip_max p) v) then Raise EValue else Ok v.
(** integer_setting.py:37-38 / long_setting.py:36-37 parse *)
Definition int_parse {rt : runtime} (p : int_parser) (s : pystr) : res Z :=
  v <- py_int s ;; int_bounds_check p v.
(** integer_setting.py:21-24 / long_setting.py:20-23 __init__ (both say Type.INTEGER).
    The result pairs the setting with its parser object. *)
Definition new_int_setting {rt : runtime} (bits : Z) (key : pystr) (default lo hi : Z) (props : list prop)
  : res (setting Z * int_parser) :=
  p <- new_int_parser bits lo hi key [PTuple props] ;;
  _d <- int_bounds_check p default ;;
  Ok (mkSetting TINTEGER key (str_int default) (int_parse p) None [PTuple props], p).
(** integer_setting.py:21-24 *)
Definition new_integer_setting {rt : runtime} := new_int_setting 31.
(** long_setting.py:20-23 *)
Definition new_long_setting {rt : runtime} := new_int_setting 63.

(** integer_setting.py:45-57 read_from, write_to *)
Definition write_integer_parser (p : int_parser) : res bytes :=
  wcat [write_int (ip_min p); write_int (ip_max p); write_string (ip_key p);
        write_boolean (ip_filtered p)].
(** integer_setting.py:45-50 read_from *)
Definition read_integer_parser : reader int_parser :=
  a <~ read_int ;; b <~ read_int ;; k <~ read_string ;; f <~ read_boolean ;;
  rret (mkIP a b k f).
(** long_setting.py:44-56 read_from, write_to *)
Definition write_long_parser (p : int_parser) : res bytes :=
  wcat [write_long (ip_min p); write_long (ip_max p); write_string (ip_key p);
        write_boolean (ip_filtered p)].
(** long_setting.py:44-49 read_from *)
Definition read_long_parser : reader int_parser :=
  a <~ read_long ;; b <~ read_long ;; k <~ read_string ;; f <~ read_boolean ;;
  rret (mkIP a b k f).

(** ** boolean_setting.py *)
(** boolean_setting.py:20-22 parse *)
Definition bool_parse {rt : runtime} (s : pystr) : res bool := Ok (streqb (lower s) (py "true")).
(** boolean_setting.py:15-17 *)
Definition new_boolean_setting {rt : runtime} (key : pystr) (default : bool) (props : list prop)
  : setting bool :=
  mkSetting TBOOLEAN key (if default then py "True" else py "False") bool_parse None
    [PTuple props].

(** ** regex_validator.py, string_setting.py *)
Record validator := mkVal { rv_regex : pystr; rv_matching : bool }.
(** [re.match(regex, value)]: an oracle, None when the expression does not compile *)
Definition regex_oracle := pystr -> pystr -> option bool.
(** regex_validator.py:22-26 validate *)
Definition validate (rm : regex_oracle) (v : validator) (s : pystr) : res unit :=
  match rm (rv_regex v) s with
  | None => Raise ERegex
  | Some m =>
      if rv_matching v && negb m then Raise EValue
      else if m && negb (rv_matching v) then Raise EValue
      else Ok tt
  end.
(** regex_validator.py:28-36 *)
Definition write_validator (v : validator) : res bytes :=
  wcat [write_string (rv_regex v); write_boolean (rv_matching v)].
(** regex_validator.py:28-31 read_from *)
Definition read_validator : reader validator :=
  r <~ read_string ;; m <~ read_boolean ;; rret (mkVal r m).
(** string_setting.py:19-22; parser.py:17-19 parse is the identity *)
Definition new_string_setting (rm : regex_oracle) (key default : pystr)
  (v : option validator) (props : list prop) : res (setting pystr) :=
  _u <- match v with Some v => validate rm v default | None => Ok tt end ;;
  Ok (mkSetting TSTRING key default (fun s => Ok s) (option_map (validate rm) v)
        [PTuple props]).

(** ** version_setting.py:15-22 *)
Definition version_parse {rt : runtime} (s : pystr) : res version :=
  n <- py_int s ;; Ok (version_of_id (Z.lxor n MASK)).
(** version_setting.py:16-18 __init__ *)
Definition new_version_setting {rt : runtime} (key : pystr) (default : version) (props : list prop)
  : setting version :=
  mkSetting TVERSION key (str_int (vid default)) version_parse None [PTuple props].

(** ** byte_size_value.py, time_value.py: a number and a unit *)

(** Matching [\d+\s*\w+] at the start of a string and taking the two groups.  Greedy
    matching: all digits, all spaces, all word characters.  When no word character is left
    after them the regular expression backtracks into the digits, so that the unit begins
    with a digit; no unit does, and both cases raise ValueError. *)
Definition split_quantity {rt : runtime} (s : pystr) : res (Z * pystr) :=
  let s := lower s in
  let ds := take_while is_decimal s in
  let u := take_while re_word (drop_while re_space (drop_while is_decimal s)) in
  match ds, u with
  | [], _ => Raise EValue
  | _, [] => Raise EValue
  | _, _ => n <- py_int ds ;; Ok (n, u)
  end.

(** look-up of a unit in the tables of byte_size_value.py:19-26 and time_value.py:17-25 *)
Fixpoint index_of (u : pystr) (l : list pystr) (i : Z) : option Z :=
  match l with
  | [] => None
  | x :: t => if streqb u x then Some i else index_of u t (i + 1)
  end.

(** byte_size_unit.py:13, byte_size_value.py:19-26; a unit is its number 0..5 *)
Definition byte_units : list pystr := map py ["b"; "kb"; "mb"; "gb"; "tb"; "pb"]%string.
(** byte_size_value.py:28-30 attributes *)
Record bsv := mkBSV { bs_size : Z; bs_unit : Z }.
(** byte_size_value.py:33-45 parse *)
Definition ends_in_b (u : pystr) : bool := last u 0 =? 98.
(** byte_size_value.py:33-45 parse *)
Definition bsv_parse {rt : runtime} (s : pystr) : res bsv :=
  q <- split_quantity s ;;
  let u := if ends_in_b (snd q) then snd q else snd q ++ [98] in
  match index_of u byte_units 0 with
  | Some k => Ok (mkBSV (fst q) k)
  | None => Raise EValue
  end.
(** byte_size_value.py:47-58 to_bytes *)
Definition bsv_to_bytes (v : bsv) : Z :=
  if bs_unit v =? 1 then bs_size v * 2 ^ 10
  else if bs_unit v =? 2 then bs_size v * 2 ^ 20
  else if bs_unit v =? 3 then bs_size v * 2 ^ 30
  else if bs_unit v =? 4 then bs_size v * 2 ^ 40
  else if bs_unit v =? 5 then bs_size v * 2 ^ 50
  else bs_size v.
(** byte_size_value.py:60-68 *)
Definition write_bsv (v : bsv) : res bytes := wcat [write_z_long (bs_size v); write_enum (bs_unit v)].
(** byte_size_value.py:60-63 read_from *)
Definition read_bsv : reader bsv :=
  n <~ read_z_long ;; u <~ read_enum 6 ;; rret (mkBSV n u).
(** byte_size_value.py:70-72 __str__ *)
Definition bsv_str (v : bsv) : pystr :=
  str_int (bs_size v) ++ nth (Z.to_nat (bs_unit v)) byte_units [].

(** time_unit.py:13, time_value.py:17-25; a unit is its number 0..6 *)
Definition time_units : list pystr :=
  map py ["nanos"; "micros"; "ms"; "s"; "m"; "h"; "d"]%string.
(** time_value.py:27-29 attributes *)
Record tval := mkTV { tv_dur : Z; tv_unit : Z }.
(** time_value.py:32-42 parse *)
Definition tv_parse {rt : runtime} (s : pystr) : res tval :=
  q <- split_quantity s ;;
  match index_of (snd q) time_units 0 with
  | Some k => Ok (mkTV (fst q) k)
  | None => Raise EValue
  end.
(** time_value.py:44-57 to_nanos *)
Definition tv_to_nanos (v : tval) : Z :=
  if tv_unit v =? 0 then tv_dur v
  else if tv_unit v =? 1 then tv_dur v * 10 ^ 3
  else if tv_unit v =? 2 then tv_dur v * 10 ^ 6
  else if tv_unit v =? 3 then tv_dur v * 10 ^ 9
  else if tv_unit v =? 4 then tv_dur v * 10 ^ 9 * 60
  else if tv_unit v =? 5 then tv_dur v * 10 ^ 9 * 60 ^ 2
  else tv_dur v * 10 ^ 9 * 60 ^ 2 * 24.
(** time_value.py:59-61 __str__ *)
Definition tv_str (v : tval) : pystr :=
  str_int (tv_dur v) ++ nth (Z.to_nat (tv_unit v)) time_units [].
(** stream_output.py:1036-1038 write_time_value, stream_input.py:280-283 read_time_value *)
Definition write_time_value (v : tval) : res bytes :=
  wcat [write_z_long (tv_dur v); write_byte (tv_unit v)].
(** stream_input.py:280-283 read_time_value *)
Definition read_time_value : reader tval :=
  n <~ read_z_long ;; u <~ read_enum 7 ;; rret (mkTV n u).

(** ** byte_size_value_setting.py *)
Record bs_parser := mkBP { bp_min : bsv; bp_max : bsv; bp_key : pystr }.
(** byte_size_value_setting.py:28-35; the parser takes no properties *)
Definition new_bs_parser (lo hi : bsv) (key : pystr) : res bs_parser :=
  if bs_size lo <? -1 then Raise EValue
  else if bs_size hi <? -1 then Raise EValue
  else Ok (mkBP lo hi key).
(** byte_size_value_setting.py:40-45 *)
Definition bs_bounds_check (p : bs_parser) (v : bsv) : res bsv :=
  if (0 <=? bs_size (bp_min p)) && (bsv_to_bytes v <? bsv_to_bytes (bp_min p)) then Raise EValue
  else if (0 <=? bs_size (bp_max p)) && (bsv_to_bytes (bp_max p) <? bsv_to_bytes v)
  then Raise EValue
  else Ok v.
(** byte_size_value_setting.py:37-38 *)
Definition bs_parse {rt : runtime} (p : bs_parser) (s : pystr) : res bsv :=
  v <- bsv_parse s ;; bs_bounds_check p v.
(** byte_size_value_setting.py:22-25 (it says Type.TIME_VALUE) *)
Definition new_byte_size_setting {rt : runtime} (key : pystr) (default lo hi : bsv) (props : list prop)
  : res (setting bsv * bs_parser) :=
  p <- new_bs_parser lo hi key ;;
  _d <- bs_bounds_check p default ;;
  Ok (mkSetting TTIME_VALUE key (bsv_str default) (bs_parse p) None [PTuple props], p).
(** byte_size_value_setting.py:47-57 *)
Definition write_bs_parser (p : bs_parser) : res bytes :=
  wcat [write_bsv (bp_min p); write_bsv (bp_max p); write_string (bp_key p)].
(** byte_size_value_setting.py:47-51 read_from *)
Definition read_bs_parser : reader bs_parser :=
  a <~ read_bsv ;; b <~ read_bsv ;; k <~ read_string ;; rret (mkBP a b k).

(** ** time_value_setting.py *)
Record tv_parser := mkTP { tp_min : tval; tp_max : tval; tp_key : pystr; tp_filtered : bool }.
(** time_value_setting.py:20 *)
Definition TV_MINUS_ONE : tval := mkTV (-1) 2.
(** time_value_setting.py:28-36 *)
Definition new_tv_parser (lo hi : tval) (key : pystr) (props : list parg) : res tv_parser :=
  if tv_dur lo <? -1 then Raise EValue
  else if tv_dur hi <? -1 then Raise EValue
  else Ok (mkTP lo hi key (has_filtered props)).
(** time_value_setting.py:41-46 *)
Definition tv_bounds_check (p : tv_parser) (v : tval) : res tval :=
  if (0 <=? tv_dur (tp_min p)) && (tv_to_nanos v <? tv_to_nanos (tp_min p)) then Raise EValue
  else if (0 <=? tv_dur (tp_max p)) && (tv_to_nanos (tp_max p) <? tv_to_nanos v)
  then Raise EValue
  else Ok v.
(** time_value_setting.py:38-39 *)
Definition tvs_parse {rt : runtime} (p : tv_parser) (s : pystr) : res tval :=
  v <- tv_parse s ;; tv_bounds_check p v.
(** time_value_setting.py:22-25 *)
Definition new_time_setting {rt : runtime} (key : pystr) (default lo hi : tval) (props : list prop)
  : res (setting tval * tv_parser) :=
  p <- new_tv_parser lo hi key [PTuple props] ;;
  _d <- tv_bounds_check p default ;;
  Ok (mkSetting TTIME_VALUE key (tv_str default) (tvs_parse p) None [PTuple props], p).
(** time_value_setting.py:48-64 *)
Definition write_tv_parser (p : tv_parser) : res bytes :=
  let has_max := 0 <=? tv_dur (tp_max p) in
  wcat [write_boolean has_max; write_string (tp_key p); write_time_value (tp_min p);
        if has_max then write_time_value (tp_max p) else Ok [];
        write_boolean (tp_filtered p)].
(** time_value_setting.py:48-54 read_from *)
Definition read_tv_parser : reader tv_parser :=
  has_max <~ read_boolean ;;
  k <~ read_string ;;
  lo <~ read_time_value ;;
  hi <~ (if has_max then read_time_value else rret TV_MINUS_ONE) ;;
  f <~ read_boolean ;;
  rret (mkTP lo hi k f).

(** ** setting.py:19-33 Setting, used directly: the default may be computed from the settings
    (its callable may raise), there may be a fallback, and parser and validator may be the user's.
    The record [setting] above is the case of the subclasses. *)
Inductive setting_obj (A : Type) :=
| mkSettingObj (key : pystr) (default : sdict pyval -> res pystr) (fallback : option (setting_obj A))
    (parse : pystr -> res A) (validate : option (pystr -> res unit)).
Arguments mkSettingObj {A}.
(** setting.py:29-33 get; the attribute [fallback] is not used *)
Definition setting_obj_get {A} (rp : pyval -> pystr) (st : setting_obj A) (d : sdict pyval) : res A :=
  let 'mkSettingObj key default _ parse validate := st in
  match settings_get rp d key None with
  | Some (c :: t) =>
      _u <- match validate with Some f => f (c :: t) | None => Ok tt end ;;
      parse (c :: t)
  | _ => x <- default d ;; parse x
  end.
(** what the constructors of the subclasses make: a constant default and no fallback *)
Definition setting_obj_of {A} (st : setting A) : setting_obj A :=
  mkSettingObj (s_key st) (fun _ => Ok (s_default st)) None (s_parse st) (s_validate st).
