(** * What a read_from of a value with a unit, of the parser of a setting and of a validator leaves of the object
    when it raises: the attributes assigned until then (as Half.v for the messages). *)
From Coq Require Import ZArith List Bool.
From Verif Require Import Py Stream Settings Half.
Import ListNotations.
Open Scope list_scope.
Open Scope Z_scope.

(** ** byte_size_value.py:60-63 *)
Definition half_bsv : stm bsv :=
  take read_z_long (fun v n => mkBSV n (bs_unit v)) >>>
  take (read_enum 6) (fun v u => mkBSV (bs_size v) u).
(** ** integer_setting.py:45-50; the object is the parser, which [parse] and [bounds_check] use as it then is *)
Definition half_integer_parser : stm int_parser :=
  take read_int (fun p x => mkIP x (ip_max p) (ip_key p) (ip_filtered p)) >>>
  take read_int (fun p x => mkIP (ip_min p) x (ip_key p) (ip_filtered p)) >>>
  take read_string (fun p x => mkIP (ip_min p) (ip_max p) x (ip_filtered p)) >>>
  take read_boolean (fun p x => mkIP (ip_min p) (ip_max p) (ip_key p) x).
(** ** long_setting.py:44-49 *)
Definition half_long_parser : stm int_parser :=
  take read_long (fun p x => mkIP x (ip_max p) (ip_key p) (ip_filtered p)) >>>
  take read_long (fun p x => mkIP (ip_min p) x (ip_key p) (ip_filtered p)) >>>
  take read_string (fun p x => mkIP (ip_min p) (ip_max p) x (ip_filtered p)) >>>
  take read_boolean (fun p x => mkIP (ip_min p) (ip_max p) (ip_key p) x).
(** ** byte_size_value_setting.py:47-51; each bound is a new ByteSizeValue, read and then assigned *)
Definition half_bs_parser : stm bs_parser :=
  take read_bsv (fun p x => mkBP x (bp_max p) (bp_key p)) >>>
  take read_bsv (fun p x => mkBP (bp_min p) x (bp_key p)) >>>
  take read_string (fun p x => mkBP (bp_min p) (bp_max p) x).
(** ** time_value_setting.py:48-54; [has_max] is a local variable (49) *)
Definition half_tv_parser : stm tv_parser := fun p s =>
  match read_boolean s with
  | Raise e => (Raise e, p)
  | Ok (has_max, t) =>
      (take read_string (fun p x => mkTP (tp_min p) (tp_max p) x (tp_filtered p)) >>>
       take read_time_value (fun p x => mkTP x (tp_max p) (tp_key p) (tp_filtered p)) >>>
       take (if has_max then read_time_value else rret TV_MINUS_ONE) (fun p x => mkTP (tp_min p) x (tp_key p) (tp_filtered p)) >>>
       take read_boolean (fun p x => mkTP (tp_min p) (tp_max p) (tp_key p) x)) p t
  end.
(** ** regex_validator.py:28-31 *)
Definition half_validator : stm validator :=
  take read_string (fun v x => mkVal x (rv_matching v)) >>>
  take read_boolean (fun v x => mkVal (rv_regex v) x).
