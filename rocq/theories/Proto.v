(** * The proto3 messages embedded in two transport requests
    (protobuf/*.proto, protobuf/*_pb2.py, google.protobuf runtime) *)
From Coq Require Import ZArith List Bool.
From Coq Require Import Strings.Byte.
From Verif Require Import Py.
Import ListNotations.
Open Scope Z_scope.

(** ** Wire format of the google.protobuf runtime (an external library, modelled from its
    published encoding and the limits of its C parser).  Simplifications: groups (wire types
    3 and 4) are rejected (the library skips them); unknown fields are dropped on parsing (the
    library keeps them for re-serialization). *)

(** protobuf: base-128 varint, low digits first *)
Fixpoint pb_varint_fuel (fuel : nat) (n : Z) : bytes :=
  match fuel with
  | O => [z2b (n mod 128)]
  | S f => if n <? 128 then [z2b n]
           else z2b (n mod 128 + 128) :: pb_varint_fuel f (n / 128)
  end.
(** protobuf: varint of n >= 0 *)
Definition pb_varint (n : Z) : bytes := pb_varint_fuel (Z.to_nat (Z.log2 n)) n.

(** at most [fuel] bytes (ten for values, five for tags and sizes); the value is taken modulo
    2^64 *)
Fixpoint pb_read_varint (fuel : nat) (sh acc : Z) (s : bytes) : res (Z * bytes) :=
  match fuel with
  | O => Raise EProto
  | S f =>
      match s with
      | [] => Raise EProto
      | b :: t =>
          let x := b2z b in
          let acc := acc + (x mod 128) * 2 ^ sh in
          if x <? 128 then Ok (acc mod 2 ^ 64, t) else pb_read_varint f (sh + 7) acc t
      end
  end.

(** protobuf: payload of a field by wire type *)
Inductive pbval := PVarint (n : Z) | PFixed (b : bytes) | PBytes (b : bytes).

(** a field: number and payload *)
Definition pb_bytes_field (num : Z) (b : bytes) : bytes :=
  pb_varint (num * 8 + 2) ++ pb_varint (zlen b) ++ b.
(** protobuf: field of wire type 0; not written if 0 (proto3) *)
Definition pb_varint_field (num : Z) (n : Z) : bytes :=
  pb_varint (num * 8) ++ pb_varint n.

(** protobuf: the next n bytes *)
Definition pb_take (n : Z) (s : bytes) : res (bytes * bytes) :=
  if zlen s <? n then Raise EProto else Ok (takeZ n s, dropZ n s).

(** a tag is below 2^32, a size below 2^31 *)
Definition pb_read_tag (s : bytes) : res (Z * bytes) :=
  match pb_read_varint 5 0 0 s with
  | Ok (n, s) => if n <? 2 ^ 32 then Ok (n, s) else Raise EProto
  | Raise e => Raise e
  end.
(** protobuf: size of a length-delimited field *)
Definition pb_read_size (s : bytes) : res (Z * bytes) :=
  match pb_read_varint 5 0 0 s with
  | Ok (n, s) => if n <? 2 ^ 31 then Ok (n, s) else Raise EProto
  | Raise e => Raise e
  end.

(** protobuf: one field *)
Definition pb_read_field (s : bytes) : res ((Z * pbval) * bytes) :=
  match pb_read_tag s with
  | Raise e => Raise e
  | Ok (tag, s) =>
      let num := tag / 8 in
      let wt := tag mod 8 in
      if num =? 0 then Raise EProto
      else if wt =? 0 then
        match pb_read_varint 10 0 0 s with
        | Ok (n, s) => Ok ((num, PVarint n), s) | Raise e => Raise e end
      else if wt =? 1 then
        match pb_take 8 s with
        | Ok (b, s) => Ok ((num, PFixed b), s) | Raise e => Raise e end
      else if wt =? 2 then
        match pb_read_size s with
        | Ok (n, s) =>
            match pb_take n s with
            | Ok (b, s) => Ok ((num, PBytes b), s) | Raise e => Raise e end
        | Raise e => Raise e end
      else if wt =? 5 then
        match pb_take 4 s with
        | Ok (b, s) => Ok ((num, PFixed b), s) | Raise e => Raise e end
      else Raise EProto
  end.

(** all fields of a message; every field takes at least one byte, so the length of the
    input is enough fuel *)
Fixpoint pb_fields (fuel : nat) (s : bytes) : res (list (Z * pbval)) :=
  match s with
  | [] => Ok []
  | _ =>
    match fuel with
    | O => Raise EProto
    | S f =>
        match pb_read_field s with
        | Ok (x, s') => rmap (cons x) (pb_fields f s')
        | Raise e => Raise e
        end
    end
  end.
(** protobuf: all fields of a message *)
Definition pb_parse (s : bytes) : res (list (Z * pbval)) := pb_fields (length s) s.

(** a string field must hold valid UTF-8 *)
Definition pb_str (b : bytes) : res pystr :=
  match utf8_decode b with Ok s => Ok s | Raise _ => Raise EProto end.

(** ** ExtensionIdentityProto.proto:17-19 message ExtensionIdentity { string uniqueId = 1; } *)
Definition ser_identity (uid : bytes) : bytes :=
  if 0 <? zlen uid then pb_bytes_field 1 uid else [].

(** later occurrences overwrite; an absent field leaves the value as it was *)
Fixpoint merge_identity (uid : pystr) (fs : list (Z * pbval)) : res pystr :=
  match fs with
  | [] => Ok uid
  | (num, v) :: t =>
      match v with
      | PBytes b => if num =? 1 then s <- pb_str b ;; merge_identity s t
                    else merge_identity uid t
      | _ => merge_identity uid t
      end
  end.

(** ** ExtensionRequestProto.proto:18-33 message ExtensionRequest
    { ExtensionIdentity identity = 1; RequestType requestType = 2; }
    [er_identity] is None when the submessage is absent. *)
Record ext_request := mkER { er_identity : option pystr; er_type : Z }.

(** SerializeToString: fields in number order; the enum is left out when 0 *)
Definition ser_ext_request (m : ext_request) : res bytes :=
  i <- match er_identity m with
       | None => Ok []
       | Some u => b <- utf8_encode u ;; Ok (pb_bytes_field 1 (ser_identity b))
       end ;;
  Ok (i ++ (if er_type m =? 0 then [] else pb_varint_field 2 (er_type m mod 2 ^ 64))).

(** an enum is an int32: the low 32 bits, signed *)
Definition to_int32 (n : Z) : Z :=
  let u := n mod 2 ^ 32 in if 2 ^ 31 <=? u then u - 2 ^ 32 else u.

(** protobuf: an absent string is empty *)
Definition opt_str (o : option pystr) : pystr := match o with Some s => s | None => [] end.

(** ExtensionRequestProto.proto: ParseFromString, field after field *)
Fixpoint merge_ext_request (m : ext_request) (fs : list (Z * pbval)) : res ext_request :=
  match fs with
  | [] => Ok m
  | (num, v) :: t =>
      match v with
      | PBytes b =>
          if num =? 1 then
            g <- pb_parse b ;;
            u <- merge_identity (opt_str (er_identity m)) g ;;
            merge_ext_request (mkER (Some u) (er_type m)) t
          else merge_ext_request m t
      | PVarint n =>
          if num =? 2 then merge_ext_request (mkER (er_identity m) (to_int32 n)) t
          else merge_ext_request m t
      | _ => merge_ext_request m t
      end
  end.
(** ParseFromString *)
Definition parse_ext_request (b : bytes) : res ext_request :=
  fs <- pb_parse b ;; merge_ext_request (mkER None 0) fs.

(** ** RegisterRestActionsProto.proto:18-22 message RegisterRestActions
    { ExtensionIdentity identity = 1; repeated string restActions = 2;
      repeated string deprecatedRestActions = 3; } *)
Record rest_actions := mkRRA {
  rra_identity : option pystr; rra_actions : list pystr; rra_deprecated : list pystr }.

(** protobuf: a repeated string *)
Definition ser_strings (num : Z) (l : list pystr) : res bytes :=
  wcat (map (fun s => b <- utf8_encode s ;; Ok (pb_bytes_field num b)) l).

(** RegisterRestActionsProto.proto: SerializeToString *)
Definition ser_rest_actions (m : rest_actions) : res bytes :=
  i <- match rra_identity m with
       | None => Ok []
       | Some u => b <- utf8_encode u ;; Ok (pb_bytes_field 1 (ser_identity b))
       end ;;
  a <- ser_strings 2 (rra_actions m) ;;
  d <- ser_strings 3 (rra_deprecated m) ;;
  Ok (i ++ a ++ d).

(** RegisterRestActionsProto.proto: ParseFromString, field after field *)
Fixpoint merge_rest_actions (m : rest_actions) (fs : list (Z * pbval)) : res rest_actions :=
  match fs with
  | [] => Ok m
  | (num, v) :: t =>
      match v with
      | PBytes b =>
          if num =? 1 then
            g <- pb_parse b ;;
            u <- merge_identity (opt_str (rra_identity m)) g ;;
            merge_rest_actions (mkRRA (Some u) (rra_actions m) (rra_deprecated m)) t
          else if num =? 2 then
            s <- pb_str b ;;
            merge_rest_actions (mkRRA (rra_identity m) (rra_actions m ++ [s]) (rra_deprecated m)) t
          else if num =? 3 then
            s <- pb_str b ;;
            merge_rest_actions (mkRRA (rra_identity m) (rra_actions m) (rra_deprecated m ++ [s])) t
          else merge_rest_actions m t
      | _ => merge_rest_actions m t
      end
  end.
(** RegisterRestActionsProto.proto: ParseFromString *)
Definition parse_rest_actions (b : bytes) : res rest_actions :=
  fs <- pb_parse b ;; merge_rest_actions (mkRRA None [] []) fs.
