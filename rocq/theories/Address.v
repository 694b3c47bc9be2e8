(** * Addresses from text: transport_address.py:18-21 and the part of CPython's ipaddress
    module it calls (IPv4Address.__init__ with a str, _ip_int_from_string, _parse_octet;
    CPython 3.9.5 and later, which refuse leading zeros). *)
From Coq Require Import String ZArith List Bool.
From Verif Require Import Py Stream Version Messages.
Import ListNotations.
Open Scope list_scope.
Open Scope Z_scope.

(** [s.split('.')] *)
Fixpoint split_dots (s : pystr) : list pystr :=
  match s with
  | [] => [[]]
  | c :: t =>
      if c =? 46 then [] :: split_dots t
      else match split_dots t with h :: r => (c :: h) :: r | [] => [[c]] end
  end.
(** ipaddress._BaseV4._parse_octet *)
Definition parse_octet (o : pystr) : res Z :=
  match o with
  | [] => Raise EValue
  | c :: _ =>
      if negb (forallb is_digit o) then Raise EValue
      else if 3 <? zlen o then Raise EValue
      else if negb (streqb o (py "0")) && (c =? 48) then Raise EValue
      else n <- @py_int ascii_rt o ;; if 255 <? n then Raise EValue else Ok n
  end.
(** ipaddress._BaseV4._ip_int_from_string.  The separate refusals of the empty text and of
    a text with a slash raise the same exception as what follows would and are left out. *)
Definition parse_ip (s : pystr) : res Z :=
  match split_dots s with
  | [a; b; c; d] =>
      w <- parse_octet a ;; x <- parse_octet b ;; y <- parse_octet c ;; z <- parse_octet d ;;
      Ok (w * 16777216 + x * 65536 + y * 256 + z)
  | _ => Raise EValue
  end.
(** transport_address.py:18-21 __init__ *)
Definition make_addr (text : pystr) (port : Z) (host : option pystr) : res taddr :=
  a <- parse_ip text ;; Ok (new_addr a port host).
