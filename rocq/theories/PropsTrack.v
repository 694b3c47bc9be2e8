(** * Properties C107 and C108: what an exception leaves behind *)
From Coq Require Import String ZArith List Bool Lia.
From Coq Require Import ZifyBool.
From Coq Require Import Strings.Byte.
From Verif Require Import Py PyFacts Utf8Facts Stream StreamFacts StreamFacts2 Version Frame Proto Messages Rest Settings Floats
  Spec SpecFacts Wire WireFacts WireFacts2 WireFacts3 PropsReaders PropsWire Track.
Import ListNotations.
Open Scope list_scope.
Open Scope Z_scope.

(** ** Readers *)

(** Every reader of the model with its tracked version (Track.v). *)
Inductive tracked : forall A : Type, reader A -> tracker A -> Prop :=
| tk_bytes n : tracked _ (read_bytes n) (t_read_bytes n)
| tk_byte : tracked _ read_byte t_read_byte
| tk_int : tracked _ read_int t_read_int
| tk_short : tracked _ read_short t_read_short
| tk_long : tracked _ read_long t_read_long
| tk_boolean : tracked _ read_boolean t_read_boolean
| tk_optional_boolean : tracked _ read_optional_boolean t_read_optional_boolean
| tk_v_int : tracked _ read_v_int t_read_v_int
| tk_optional_int : tracked _ read_optional_int t_read_optional_int
| tk_v_long : tracked _ read_v_long t_read_v_long
| tk_z_long : tracked _ read_z_long t_read_z_long
| tk_optional_v_long : tracked _ read_optional_v_long t_read_optional_v_long
| tk_optional_long : tracked _ read_optional_long t_read_optional_long
| tk_array_size : tracked _ read_array_size t_read_array_size
| tk_string : tracked _ read_string t_read_string
| tk_optional_string : tracked _ read_optional_string t_read_optional_string
| tk_string_array : tracked _ read_string_array t_read_string_array
| tk_optional_string_array : tracked _ read_optional_string_array t_read_optional_string_array
| tk_string_to_string_dict : tracked _ read_string_to_string_dict t_read_string_to_string_dict
| tk_string_to_string_array_dict : tracked _ read_string_to_string_array_dict t_read_string_to_string_array_dict
| tk_string_set so : tracked _ (read_string_set so) (t_read_string_set so)
| tk_string_to_string_set_dict so : tracked _ (read_string_to_string_set_dict so) (t_read_string_to_string_set_dict so)
| tk_byte_array : tracked _ read_byte_array t_read_byte_array
| tk_generic_value f : tracked _ (read_generic_value f) (t_read_generic_value f)
| tk_enum n : tracked _ (read_enum n) (t_read_enum n)
| tk_version : tracked _ read_version t_read_version
| tk_double : tracked _ read_double t_read_double
| tk_float : tracked _ read_float t_read_float
| tk_double_parser : tracked _ read_double_parser t_read_double_parser
| tk_single_parser : tracked _ read_single_parser t_read_single_parser
| tk_integer_parser : tracked _ read_integer_parser t_read_integer_parser
| tk_long_parser : tracked _ read_long_parser t_read_long_parser
| tk_validator : tracked _ read_validator t_read_validator
| tk_bsv : tracked _ read_bsv t_read_bsv
| tk_time_value : tracked _ read_time_value t_read_time_value
| tk_bs_parser : tracked _ read_bs_parser t_read_bs_parser
| tk_tv_parser : tracked _ read_tv_parser t_read_tv_parser
| tk_header : tracked _ read_header t_read_header
| tk_ctx so : tracked _ (read_ctx so) (t_read_ctx so)
| tk_outbound so req o h : tracked _ (read_outbound so req o h) (t_read_outbound so req o h)
| tk_task : tracked _ read_task t_read_task
| tk_transport_request : tracked _ read_transport_request t_read_transport_request
| tk_ack : tracked _ read_ack t_read_ack
| tk_addr : tracked _ read_addr t_read_addr
| tk_role : tracked _ read_role t_read_role
| tk_node : tracked _ read_node t_read_node
| tk_dep : tracked _ read_dep t_read_dep
| tk_ext_node : tracked _ read_ext_node t_read_ext_node
| tk_init_request : tracked _ read_init_request t_read_init_request
| tk_init_response : tracked _ read_init_response t_read_init_response
| tk_handshake_response : tracked _ read_handshake_response t_read_handshake_response
| tk_tcp_handshake_request : tracked _ read_tcp_handshake_request t_read_tcp_handshake_request
| tk_tcp_handshake_response : tracked _ read_tcp_handshake_response t_read_tcp_handshake_response
| tk_ext_transport_request : tracked _ read_ext_transport_request t_read_ext_transport_request
| tk_register_request : tracked _ read_register_request t_read_register_request
| tk_rest_request : tracked _ read_rest_request t_read_rest_request
| tk_rest_response so : tracked _ (read_rest_response so) (t_read_rest_response so)
| tk_exec_response : tracked _ read_exec_response t_read_exec_response
| tk_settings f d : tracked _ (fun s =>
    match read_settings f d s with (Ok s', d') => Ok (d', s') | (Raise e, _) => Raise e end) (t_read_settings f d).

(** what a reader does, without the position after an exception *)
Definition without_position {A} (x : res A * bytes) : res (A * bytes) :=
  match x with (Ok a, s) => Ok (a, s) | (Raise e, _) => Raise e end.
Definition follows {A} (r : reader A) (t : tracker A) : Prop := forall s, r s = without_position (t s).
Lemma fol_ret A (a : A) : follows (rret a) (tret a). Proof. intros s. reflexivity. Qed.
Lemma fol_fail A e : follows (@rfail A e) (tfail e). Proof. intros s. reflexivity. Qed.
Lemma fol_lift A (x : res A) : follows (rlift x) (tlift x). Proof. intros s. destruct x; reflexivity. Qed.
Lemma fol_bind A B (r : reader A) t (k : A -> reader B) k' : follows r t -> (forall a, follows (k a) (k' a)) -> follows (rbind r k) (tbind t k').
Proof. intros H K s. unfold rbind, tbind. rewrite H. destruct (t s) as [[a|e] s']; cbn; [apply K|reflexivity]. Qed.
Lemma fol_if A (b : bool) (r r' : reader A) t t' : follows r t -> follows r' t' -> follows (if b then r else r') (if b then t else t').
Proof. destruct b; auto. Qed.
Lemma fol_n A (r : reader A) t n : follows r t -> follows (read_n r n) (t_n t n).
Proof. intros H. induction n as [|n IH]; [apply fol_ret|]. apply fol_bind; [exact H|intros a]. apply fol_bind; [exact IH|intros l]. apply fol_ret. Qed.
Lemma fol_bytes n : follows (read_bytes n) (t_read_bytes n).
Proof. intros s. unfold read_bytes, t_read_bytes. destruct (bio_read n s). reflexivity. Qed.

(** A tracked reader moves forward, whatever it ends with; and if it leaves anything, it did not
    look at what it left. *)
Definition stays {A} (t : tracker A) : Prop := forall s x s', t s = (x, s') ->
  exists p, s = p ++ s' /\ (s' <> [] -> forall u, t (p ++ u) = (x, u)).
Lemma st_ret A (a : A) : stays (tret a). Proof. intros s x s' [= <- <-]. exists []. split; auto. Qed.
Lemma st_fail A e : stays (@tfail A e). Proof. intros s x s' [= <- <-]. exists []. split; auto. Qed.
Lemma st_lift A (y : res A) : stays (tlift y). Proof. intros s x s' [= <- <-]. exists []. split; auto. Qed.
Lemma st_bind A B (t : tracker A) (k : A -> tracker B) : stays t -> (forall a, stays (k a)) -> stays (tbind t k).
Proof.
  intros H K s x s' E. unfold tbind in E. destruct (t s) as [[a|e] s1] eqn:T.
  - apply H in T as (p1 & -> & L1). apply K in E as (p2 & -> & L2).
    exists (p1 ++ p2). split; [rewrite app_assoc; reflexivity|]. intros N u.
    assert (N1 : p2 ++ s' <> []) by (destruct p2; [exact N|discriminate]).
    rewrite <- app_assoc. unfold tbind. rewrite (L1 N1). apply L2, N.
  - injection E as <- <-. apply H in T as (p & -> & L). exists p. split; [reflexivity|]. intros N u. unfold tbind. rewrite L by exact N. reflexivity.
Qed.
Lemma st_if A (b : bool) (t t' : tracker A) : stays t -> stays t' -> stays (if b then t else t').
Proof. destruct b; auto. Qed.
Lemma st_n A (t : tracker A) n : stays t -> stays (t_n t n).
Proof. intros H. induction n as [|n IH]; [apply st_ret|]. apply st_bind; [exact H|intros a]. apply st_bind; [exact IH|intros l]. apply st_ret. Qed.
Lemma st_bytes n : stays (t_read_bytes n).
Proof.
  intros s x s' E. unfold t_read_bytes in E. injection E as <- <-.
  destruct (local_read_bytes n s (fst (bio_read n s)) (snd (bio_read n s))) as (p & E & L).
  { unfold read_bytes. destruct (bio_read n s); reflexivity. }
  exists p. split; [exact E|]. intros N u. specialize (L N u). unfold read_bytes in L. unfold t_read_bytes.
  apply Ok_inj in L. rewrite L. reflexivity.
Qed.

Create HintDb trk.
#[local] Hint Resolve fol_ret fol_fail fol_lift fol_bytes fol_n st_ret st_fail st_lift st_bytes st_n : trk.
Ltac trk :=
  repeat first
    [ progress (cbv zeta)
    | solve [auto with trk]
    | apply fol_bind; [|intros ?] | apply st_bind; [|intros ?]
    | apply fol_if | apply st_if | apply fol_n | apply st_n
    | match goal with |- follows (match ?x with _ => _ end) _ => destruct x | |- stays (match ?x with _ => _ end) => destruct x end ].
Lemma fol_byte  : follows read_byte t_read_byte. Proof. unfold read_byte, t_read_byte. trk. Qed.
Lemma st_byte  : stays t_read_byte. Proof. unfold t_read_byte. trk. Qed.
#[local] Hint Resolve fol_byte st_byte : trk.
Lemma fol_int  : follows read_int t_read_int. Proof. unfold read_int, t_read_int. trk. Qed.
Lemma st_int  : stays t_read_int. Proof. unfold t_read_int. trk. Qed.
#[local] Hint Resolve fol_int st_int : trk.
Lemma fol_short  : follows read_short t_read_short. Proof. unfold read_short, t_read_short. trk. Qed.
Lemma st_short  : stays t_read_short. Proof. unfold t_read_short. trk. Qed.
#[local] Hint Resolve fol_short st_short : trk.
Lemma fol_long  : follows read_long t_read_long. Proof. unfold read_long, t_read_long. trk. Qed.
Lemma st_long  : stays t_read_long. Proof. unfold t_read_long. trk. Qed.
#[local] Hint Resolve fol_long st_long : trk.
Lemma fol_boolean  : follows read_boolean t_read_boolean. Proof. unfold read_boolean, t_read_boolean. trk. Qed.
Lemma st_boolean  : stays t_read_boolean. Proof. unfold t_read_boolean. trk. Qed.
#[local] Hint Resolve fol_boolean st_boolean : trk.
Lemma fol_optional_boolean  : follows read_optional_boolean t_read_optional_boolean. Proof. unfold read_optional_boolean, t_read_optional_boolean. trk. Qed.
Lemma st_optional_boolean  : stays t_read_optional_boolean. Proof. unfold t_read_optional_boolean. trk. Qed.
#[local] Hint Resolve fol_optional_boolean st_optional_boolean : trk.
Lemma fol_v_int  : follows read_v_int t_read_v_int. Proof. unfold read_v_int, t_read_v_int. trk. Qed.
Lemma st_v_int  : stays t_read_v_int. Proof. unfold t_read_v_int. trk. Qed.
#[local] Hint Resolve fol_v_int st_v_int : trk.
Lemma fol_optional_int  : follows read_optional_int t_read_optional_int. Proof. unfold read_optional_int, t_read_optional_int. trk. Qed.
Lemma st_optional_int  : stays t_read_optional_int. Proof. unfold t_read_optional_int. trk. Qed.
#[local] Hint Resolve fol_optional_int st_optional_int : trk.
Lemma fol_v_long  : follows read_v_long t_read_v_long. Proof. unfold read_v_long, t_read_v_long. trk. Qed.
Lemma st_v_long  : stays t_read_v_long. Proof. unfold t_read_v_long. trk. Qed.
#[local] Hint Resolve fol_v_long st_v_long : trk.
Lemma fol_z_long  : follows read_z_long t_read_z_long. Proof. unfold read_z_long, t_read_z_long. trk. Qed.
Lemma st_z_long  : stays t_read_z_long. Proof. unfold t_read_z_long. trk. Qed.
#[local] Hint Resolve fol_z_long st_z_long : trk.
Lemma fol_optional_v_long  : follows read_optional_v_long t_read_optional_v_long. Proof. unfold read_optional_v_long, t_read_optional_v_long. trk. Qed.
Lemma st_optional_v_long  : stays t_read_optional_v_long. Proof. unfold t_read_optional_v_long. trk. Qed.
#[local] Hint Resolve fol_optional_v_long st_optional_v_long : trk.
Lemma fol_optional_long  : follows read_optional_long t_read_optional_long. Proof. unfold read_optional_long, t_read_optional_long. trk. Qed.
Lemma st_optional_long  : stays t_read_optional_long. Proof. unfold t_read_optional_long. trk. Qed.
#[local] Hint Resolve fol_optional_long st_optional_long : trk.
Lemma fol_array_size  : follows read_array_size t_read_array_size. Proof. unfold read_array_size, t_read_array_size. trk. Qed.
Lemma st_array_size  : stays t_read_array_size. Proof. unfold t_read_array_size. trk. Qed.
#[local] Hint Resolve fol_array_size st_array_size : trk.
Lemma fol_string  : follows read_string t_read_string. Proof. unfold read_string, t_read_string. trk. Qed.
Lemma st_string  : stays t_read_string. Proof. unfold t_read_string. trk. Qed.
#[local] Hint Resolve fol_string st_string : trk.
Lemma fol_optional_string  : follows read_optional_string t_read_optional_string. Proof. unfold read_optional_string, t_read_optional_string. trk. Qed.
Lemma st_optional_string  : stays t_read_optional_string. Proof. unfold t_read_optional_string. trk. Qed.
#[local] Hint Resolve fol_optional_string st_optional_string : trk.
Lemma fol_string_array  : follows read_string_array t_read_string_array. Proof. unfold read_string_array, t_read_string_array. trk. Qed.
Lemma st_string_array  : stays t_read_string_array. Proof. unfold t_read_string_array. trk. Qed.
#[local] Hint Resolve fol_string_array st_string_array : trk.
Lemma fol_optional_string_array  : follows read_optional_string_array t_read_optional_string_array. Proof. unfold read_optional_string_array, t_read_optional_string_array. trk. Qed.
Lemma st_optional_string_array  : stays t_read_optional_string_array. Proof. unfold t_read_optional_string_array. trk. Qed.
#[local] Hint Resolve fol_optional_string_array st_optional_string_array : trk.
Lemma fol_pair V (r : reader V) t : follows r t -> follows (read_pair r) (t_read_pair t).
Proof. intros H. unfold read_pair, t_read_pair. trk. Qed.
Lemma st_pair V (t : tracker V) : stays t -> stays (t_read_pair t).
Proof. intros H. unfold t_read_pair. trk. Qed.
#[local] Hint Resolve fol_pair st_pair : trk.
Lemma fol_dict V (r : reader V) t : follows r t -> follows (read_dict r) (t_read_dict t).
Proof. intros H. unfold read_dict, t_read_dict. trk. Qed.
Lemma st_dict V (t : tracker V) : stays t -> stays (t_read_dict t).
Proof. intros H. unfold t_read_dict. trk. Qed.
#[local] Hint Resolve fol_dict st_dict : trk.
Lemma fol_string_to_string_dict  : follows read_string_to_string_dict t_read_string_to_string_dict. Proof. unfold read_string_to_string_dict, t_read_string_to_string_dict. trk. Qed.
Lemma st_string_to_string_dict  : stays t_read_string_to_string_dict. Proof. unfold t_read_string_to_string_dict. trk. Qed.
#[local] Hint Resolve fol_string_to_string_dict st_string_to_string_dict : trk.
Lemma fol_string_to_string_array_dict  : follows read_string_to_string_array_dict t_read_string_to_string_array_dict. Proof. unfold read_string_to_string_array_dict, t_read_string_to_string_array_dict. trk. Qed.
Lemma st_string_to_string_array_dict  : stays t_read_string_to_string_array_dict. Proof. unfold t_read_string_to_string_array_dict. trk. Qed.
#[local] Hint Resolve fol_string_to_string_array_dict st_string_to_string_array_dict : trk.
Lemma fol_string_set so : follows (read_string_set so) (t_read_string_set so). Proof. unfold read_string_set, t_read_string_set. trk. Qed.
Lemma st_string_set so : stays (t_read_string_set so). Proof. unfold t_read_string_set. trk. Qed.
#[local] Hint Resolve fol_string_set st_string_set : trk.
Lemma fol_string_to_string_set_dict so : follows (read_string_to_string_set_dict so) (t_read_string_to_string_set_dict so). Proof. unfold read_string_to_string_set_dict, t_read_string_to_string_set_dict. trk. Qed.
Lemma st_string_to_string_set_dict so : stays (t_read_string_to_string_set_dict so). Proof. unfold t_read_string_to_string_set_dict. trk. Qed.
#[local] Hint Resolve fol_string_to_string_set_dict st_string_to_string_set_dict : trk.
Lemma fol_byte_array  : follows read_byte_array t_read_byte_array. Proof. unfold read_byte_array, t_read_byte_array. trk. Qed.
Lemma st_byte_array  : stays t_read_byte_array. Proof. unfold t_read_byte_array. trk. Qed.
#[local] Hint Resolve fol_byte_array st_byte_array : trk.
Lemma fol_generic_value f : follows (read_generic_value f) (t_read_generic_value f).
Proof. induction f as [|f IH]; cbn [read_generic_value t_read_generic_value]; trk. Qed.
Lemma st_generic_value f : stays (t_read_generic_value f).
Proof. induction f as [|f IH]; cbn [t_read_generic_value]; trk. Qed.
#[local] Hint Resolve fol_generic_value st_generic_value : trk.
Lemma fol_enum n : follows (read_enum n) (t_read_enum n). Proof. unfold read_enum, t_read_enum. trk. Qed.
Lemma st_enum n : stays (t_read_enum n). Proof. unfold t_read_enum. trk. Qed.
#[local] Hint Resolve fol_enum st_enum : trk.
Lemma fol_version  : follows read_version t_read_version. Proof. unfold read_version, t_read_version. trk. Qed.
Lemma st_version  : stays t_read_version. Proof. unfold t_read_version. trk. Qed.
#[local] Hint Resolve fol_version st_version : trk.
Lemma fol_double  : follows read_double t_read_double. Proof. unfold read_double, t_read_double. trk. Qed.
Lemma st_double  : stays t_read_double. Proof. unfold t_read_double. trk. Qed.
#[local] Hint Resolve fol_double st_double : trk.
Lemma fol_float  : follows read_float t_read_float. Proof. unfold read_float, t_read_float. trk. Qed.
Lemma st_float  : stays t_read_float. Proof. unfold t_read_float. trk. Qed.
#[local] Hint Resolve fol_float st_float : trk.
Lemma fol_double_parser  : follows read_double_parser t_read_double_parser. Proof. unfold read_double_parser, t_read_double_parser. trk. Qed.
Lemma st_double_parser  : stays t_read_double_parser. Proof. unfold t_read_double_parser. trk. Qed.
#[local] Hint Resolve fol_double_parser st_double_parser : trk.
Lemma fol_single_parser  : follows read_single_parser t_read_single_parser. Proof. unfold read_single_parser, t_read_single_parser. trk. Qed.
Lemma st_single_parser  : stays t_read_single_parser. Proof. unfold t_read_single_parser. trk. Qed.
#[local] Hint Resolve fol_single_parser st_single_parser : trk.
Lemma fol_integer_parser  : follows read_integer_parser t_read_integer_parser. Proof. unfold read_integer_parser, t_read_integer_parser. trk. Qed.
Lemma st_integer_parser  : stays t_read_integer_parser. Proof. unfold t_read_integer_parser. trk. Qed.
#[local] Hint Resolve fol_integer_parser st_integer_parser : trk.
Lemma fol_long_parser  : follows read_long_parser t_read_long_parser. Proof. unfold read_long_parser, t_read_long_parser. trk. Qed.
Lemma st_long_parser  : stays t_read_long_parser. Proof. unfold t_read_long_parser. trk. Qed.
#[local] Hint Resolve fol_long_parser st_long_parser : trk.
Lemma fol_validator  : follows read_validator t_read_validator. Proof. unfold read_validator, t_read_validator. trk. Qed.
Lemma st_validator  : stays t_read_validator. Proof. unfold t_read_validator. trk. Qed.
#[local] Hint Resolve fol_validator st_validator : trk.
Lemma fol_bsv  : follows read_bsv t_read_bsv. Proof. unfold read_bsv, t_read_bsv. trk. Qed.
Lemma st_bsv  : stays t_read_bsv. Proof. unfold t_read_bsv. trk. Qed.
#[local] Hint Resolve fol_bsv st_bsv : trk.
Lemma fol_time_value  : follows read_time_value t_read_time_value. Proof. unfold read_time_value, t_read_time_value. trk. Qed.
Lemma st_time_value  : stays t_read_time_value. Proof. unfold t_read_time_value. trk. Qed.
#[local] Hint Resolve fol_time_value st_time_value : trk.
Lemma fol_bs_parser  : follows read_bs_parser t_read_bs_parser. Proof. unfold read_bs_parser, t_read_bs_parser. trk. Qed.
Lemma st_bs_parser  : stays t_read_bs_parser. Proof. unfold t_read_bs_parser. trk. Qed.
#[local] Hint Resolve fol_bs_parser st_bs_parser : trk.
Lemma fol_tv_parser  : follows read_tv_parser t_read_tv_parser. Proof. unfold read_tv_parser, t_read_tv_parser. trk. Qed.
Lemma st_tv_parser  : stays t_read_tv_parser. Proof. unfold t_read_tv_parser. trk. Qed.
#[local] Hint Resolve fol_tv_parser st_tv_parser : trk.
Lemma fol_header  : follows read_header t_read_header. Proof. unfold read_header, t_read_header. trk. Qed.
Lemma st_header  : stays t_read_header. Proof. unfold t_read_header. trk. Qed.
#[local] Hint Resolve fol_header st_header : trk.
Lemma fol_ctx so : follows (read_ctx so) (t_read_ctx so). Proof. unfold read_ctx, t_read_ctx. trk. Qed.
Lemma st_ctx so : stays (t_read_ctx so). Proof. unfold t_read_ctx. trk. Qed.
#[local] Hint Resolve fol_ctx st_ctx : trk.
Lemma fol_outbound so req o h : follows (read_outbound so req o h) (t_read_outbound so req o h). Proof. unfold read_outbound, t_read_outbound. trk. Qed.
Lemma st_outbound so req o h : stays (t_read_outbound so req o h). Proof. unfold t_read_outbound. trk. Qed.
#[local] Hint Resolve fol_outbound st_outbound : trk.
Lemma fol_task  : follows read_task t_read_task. Proof. unfold read_task, t_read_task. trk. Qed.
Lemma st_task  : stays t_read_task. Proof. unfold t_read_task. trk. Qed.
#[local] Hint Resolve fol_task st_task : trk.
Lemma fol_transport_request  : follows read_transport_request t_read_transport_request. Proof. unfold read_transport_request, t_read_transport_request. trk. Qed.
Lemma st_transport_request  : stays t_read_transport_request. Proof. unfold t_read_transport_request. trk. Qed.
#[local] Hint Resolve fol_transport_request st_transport_request : trk.
Lemma fol_ack  : follows read_ack t_read_ack. Proof. unfold read_ack, t_read_ack. trk. Qed.
Lemma st_ack  : stays t_read_ack. Proof. unfold t_read_ack. trk. Qed.
#[local] Hint Resolve fol_ack st_ack : trk.
Lemma fol_addr  : follows read_addr t_read_addr. Proof. unfold read_addr, t_read_addr. trk. Qed.
Lemma st_addr  : stays t_read_addr. Proof. unfold t_read_addr. trk. Qed.
#[local] Hint Resolve fol_addr st_addr : trk.
Lemma fol_role  : follows read_role t_read_role. Proof. unfold read_role, t_read_role. trk. Qed.
Lemma st_role  : stays t_read_role. Proof. unfold t_read_role. trk. Qed.
#[local] Hint Resolve fol_role st_role : trk.
Lemma fol_node  : follows read_node t_read_node. Proof. unfold read_node, t_read_node. trk. Qed.
Lemma st_node  : stays t_read_node. Proof. unfold t_read_node. trk. Qed.
#[local] Hint Resolve fol_node st_node : trk.
Lemma fol_dep  : follows read_dep t_read_dep. Proof. unfold read_dep, t_read_dep. trk. Qed.
Lemma st_dep  : stays t_read_dep. Proof. unfold t_read_dep. trk. Qed.
#[local] Hint Resolve fol_dep st_dep : trk.
Lemma fol_ext_node  : follows read_ext_node t_read_ext_node. Proof. unfold read_ext_node, t_read_ext_node. trk. Qed.
Lemma st_ext_node  : stays t_read_ext_node. Proof. unfold t_read_ext_node. trk. Qed.
#[local] Hint Resolve fol_ext_node st_ext_node : trk.
Lemma fol_init_request  : follows read_init_request t_read_init_request. Proof. unfold read_init_request, t_read_init_request. trk. Qed.
Lemma st_init_request  : stays t_read_init_request. Proof. unfold t_read_init_request. trk. Qed.
#[local] Hint Resolve fol_init_request st_init_request : trk.
Lemma fol_init_response  : follows read_init_response t_read_init_response. Proof. unfold read_init_response, t_read_init_response. trk. Qed.
Lemma st_init_response  : stays t_read_init_response. Proof. unfold t_read_init_response. trk. Qed.
#[local] Hint Resolve fol_init_response st_init_response : trk.
Lemma fol_handshake_response  : follows read_handshake_response t_read_handshake_response. Proof. unfold read_handshake_response, t_read_handshake_response. trk. Qed.
Lemma st_handshake_response  : stays t_read_handshake_response. Proof. unfold t_read_handshake_response. trk. Qed.
#[local] Hint Resolve fol_handshake_response st_handshake_response : trk.
Lemma fol_tcp_handshake_request  : follows read_tcp_handshake_request t_read_tcp_handshake_request. Proof. unfold read_tcp_handshake_request, t_read_tcp_handshake_request. trk. Qed.
Lemma st_tcp_handshake_request  : stays t_read_tcp_handshake_request. Proof. unfold t_read_tcp_handshake_request. trk. Qed.
#[local] Hint Resolve fol_tcp_handshake_request st_tcp_handshake_request : trk.
Lemma fol_tcp_handshake_response  : follows read_tcp_handshake_response t_read_tcp_handshake_response. Proof. unfold read_tcp_handshake_response, t_read_tcp_handshake_response. trk. Qed.
Lemma st_tcp_handshake_response  : stays t_read_tcp_handshake_response. Proof. unfold t_read_tcp_handshake_response. trk. Qed.
#[local] Hint Resolve fol_tcp_handshake_response st_tcp_handshake_response : trk.
Lemma fol_ext_transport_request  : follows read_ext_transport_request t_read_ext_transport_request. Proof. unfold read_ext_transport_request, t_read_ext_transport_request. trk. Qed.
Lemma st_ext_transport_request  : stays t_read_ext_transport_request. Proof. unfold t_read_ext_transport_request. trk. Qed.
#[local] Hint Resolve fol_ext_transport_request st_ext_transport_request : trk.
Lemma fol_register_request  : follows read_register_request t_read_register_request. Proof. unfold read_register_request, t_read_register_request. trk. Qed.
Lemma st_register_request  : stays t_read_register_request. Proof. unfold t_read_register_request. trk. Qed.
#[local] Hint Resolve fol_register_request st_register_request : trk.
Lemma fol_rest_request  : follows read_rest_request t_read_rest_request. Proof. unfold read_rest_request, t_read_rest_request. trk. Qed.
Lemma st_rest_request  : stays t_read_rest_request. Proof. unfold t_read_rest_request. trk. Qed.
#[local] Hint Resolve fol_rest_request st_rest_request : trk.
Lemma fol_rest_response so : follows (read_rest_response so) (t_read_rest_response so). Proof. unfold read_rest_response, t_read_rest_response. trk. Qed.
Lemma st_rest_response so : stays (t_read_rest_response so). Proof. unfold t_read_rest_response. trk. Qed.
#[local] Hint Resolve fol_rest_response st_rest_response : trk.
Lemma fol_exec_response  : follows read_exec_response t_read_exec_response. Proof. unfold read_exec_response, t_read_exec_response. trk. Qed.
Lemma st_exec_response  : stays t_read_exec_response. Proof. unfold t_read_exec_response. trk. Qed.
#[local] Hint Resolve fol_exec_response st_exec_response : trk.

Lemma st_settings f d : stays (t_read_settings f d).
Proof.
  assert (L : forall n d, stays (t_settings_loop f n d)) by (induction n as [|n IH]; intros; cbn [t_settings_loop]; trk).
  unfold t_read_settings. trk.
Qed.
Lemma fol_settings f d : follows (fun s =>
  match read_settings f d s with (Ok s', d') => Ok (d', s') | (Raise e, _) => Raise e end) (t_read_settings f d).
Proof.
  assert (L : forall n d s, match read_settings_loop f n d s with (Ok s', d') => Ok (d', s') | (Raise e, _) => Raise e end =
    without_position (t_settings_loop f n d s)).
  { induction n as [|n IH]; intros d0 s; cbn [read_settings_loop t_settings_loop]; [reflexivity|].
    unfold rbind, tbind. rewrite fol_string. destruct (t_read_string s) as [[k|e] s1]; cbn; [|reflexivity].
    rewrite fol_generic_value. destruct (t_read_generic_value f s1) as [[v|e] s2]; cbn; [apply IH|reflexivity]. }
  intros s. unfold read_settings, t_read_settings, tbind. rewrite fol_v_int. destruct (t_read_v_int s) as [[n|e] s1]; cbn; [apply L|reflexivity].
Qed.

(** The tracked readers are the readers of the other theorems: same values, same exceptions, and the
    same position after reading. *)
Theorem C108_readers : forall A (r : reader A) t, tracked A r t -> forall s,
  (forall a s', r s = Ok (a, s') <-> t s = (Ok a, s')) /\ (forall e, r s = Raise e <-> exists s', t s = (Raise e, s')).
Proof.
  intros A r t H s. assert (F : follows r t) by (destruct H; auto with trk; apply fol_settings).
  rewrite (F s). destruct (t s) as [[a|e] s1]; cbn; split.
  - intros a' s'. split; intros E; [apply Ok_inj, pair_equal_spec in E as [<- <-]; reflexivity|].
    apply pair_equal_spec in E as [E <-]. apply Ok_inj in E as <-. reflexivity.
  - intros e. split; [discriminate|]. intros [s' E]. discriminate E.
  - intros a' s'. split; intros E; discriminate E.
  - intros e'. split; [intros [= <-]; eauto|]. intros [s' E]. injection E as <- <-. reflexivity.
Qed.
Print Assumptions C108_readers.

(** C108: whatever a reader raises, the input has moved forward only, and unless it came to the end
    of the input, it raises the same, and stops at the same place, whatever follows. *)
Theorem C108_errors : forall A (r : reader A) t, tracked A r t -> forall s e s', t s = (Raise e, s') ->
  exists p, s = p ++ s' /\ (s' <> [] -> forall u, t (p ++ u) = (Raise e, u)).
Proof. intros A r t H s e s'. assert (F : stays t) by (destruct H; auto with trk; apply st_settings). apply F. Qed.
Print Assumptions C108_errors.
(** a REST request with a method that does not exist: one byte behind the parent task *)
Example C108_case : tracked _ read_rest_request t_read_rest_request /\
  t_read_rest_request [x00; x63; x01; x61] = (Raise EValue, [x01; x61]).
Proof. split; [constructor|vm_compute; reflexivity]. Qed.

(** ** C109: going on after an error *)
(** [t] raises [e] on [bs], whatever follows, and goes on behind [bs]. *)
Definition skips {A} (e : exn) (t : tracker A) (bs : bytes) : Prop := forall s, t (bs ++ s) = (Raise e, s).
(** C109, full statement for a collection: an array of strings, one of which is not UTF-8, is
    passed over. *)
Definition C109_statement : Prop := forall l bss cnt,
  zlen l <= 2 ^ 31 -> w_vint false (zlen l) cnt -> Forall2 (w_bytes false) l bss ->
  (exists e, In e l /\ forall x, ~ is_utf8 x e) -> skips EUnicode t_read_string_array (cnt ++ concat bss).

Lemma t_ok A (r : reader A) t s a s' : tracked A r t -> r s = Ok (a, s') -> t s = (Ok a, s').
Proof. intros H. apply C108_readers, H. Qed.
Lemma tbind_step A B (t : tracker A) (k : A -> tracker B) s a s' : t s = (Ok a, s') -> tbind t k s = k a s'.
Proof. intros H. unfold tbind. rewrite H. reflexivity. Qed.
Lemma tbind_stop A B (t : tracker A) (k : A -> tracker B) s e s' : t s = (Raise e, s') -> tbind t k s = (Raise e, s').
Proof. intros H. unfold tbind. rewrite H. reflexivity. Qed.
Lemma t_byte b s : t_read_byte (b :: s) = (Ok (sbyte b), s).
Proof. apply (t_ok _ read_byte); [constructor|apply read_byte_cons]. Qed.
Lemma t_vint k bs s : w_vint false k bs -> t_read_v_int (bs ++ s) = (Ok k, s).
Proof. intros H. apply (t_ok _ read_v_int); [constructor|]. apply (v_int_reads false _ _ _ I H). Qed.
Lemma skips_string e bs : w_bytes false e bs -> (forall x, ~ is_utf8 x e) -> skips EUnicode t_read_string bs.
Proof.
  intros H Hx s. unfold t_read_string. destruct H as [He H]. parts_in H. rewrite app_nil_r, <- !app_assoc. unfold exactly in P0. subst a0.
  rewrite (tbind_step _ _ _ _ _ (zlen e) (e ++ s)) by (apply (t_ok _ read_array_size); [constructor|apply (array_size_reads false (zlen e) a (e ++ s) He P)]).
  rewrite (tbind_step _ _ _ _ _ e s) by (apply (t_ok _ (read_bytes (zlen e))); [constructor|apply read_bytes_app]).
  unfold tlift. destruct (utf8_decode e) as [x|er] eqn:D; [|rewrite (utf8_decode_raise _ _ D); reflexivity].
  exfalso. apply (Hx x). apply is_utf8_encode, utf8_encode_decode, D.
Qed.

(** C109, what holds for single values: each malformed value is passed over, the next one can be
    read.  Missing: collections. *)
Theorem C109_values_partial :
  (* booleans other than 0 and 1 *)
  (forall b, 1 < b2z b -> skips EGeneric t_read_boolean [b]) /\
  (* numbers that are no member of the enumeration *)
  (forall n k bs, w_vint false k bs -> n <= k -> skips EValue (t_read_enum n) bs) /\
  (* sizes over 2^31 *)
  (forall k bs, w_vint false k bs -> 2 ^ 31 < k ->
     skips EGeneric t_read_array_size bs /\ skips EGeneric t_read_string bs /\ skips EGeneric t_read_string_array bs /\ skips EGeneric t_read_byte_array bs) /\
  (* vInts of more than five bytes; vLongs of more than ten, or over 64 bits *)
  (forall l, zlen l = 5 -> Forall (fun b => 128 <= b2z b) l -> skips EGeneric t_read_v_int l) /\
  (forall l b, zlen l = 9 -> Forall (fun b => 128 <= b2z b) l -> 1 < b2z b -> skips EGeneric t_read_v_long (l ++ [b])) /\
  (* strings that are not UTF-8 *)
  (forall e bs, w_bytes false e bs -> (forall x, ~ is_utf8 x e) -> skips EUnicode t_read_string bs) /\
  (* type bytes of generic values that are not supported *)
  (forall limit b, ~ In b [x00; x01; x02; x05; x06; x07; x0b; x10; xff] -> skips EGeneric (t_read_generic_value (S limit)) [b]).
Proof.
  assert (C : forall b, 128 <= b2z b -> Z.land (sbyte b) 128 =? 0 = false).
  { intros b Hb. destruct b; vm_compute in Hb |- *; try reflexivity; contradiction Hb; reflexivity. }
  split; [|split; [|split; [|split; [|split; [|split]]]]].
  - intros b Hb s. unfold t_read_boolean. cbn [app]. rewrite (tbind_step _ _ _ _ _ _ _ (t_byte b s)). destruct b; try reflexivity; vm_compute in Hb; discriminate.
  - intros n k bs H Hk s. unfold t_read_enum. rewrite (tbind_step _ _ _ _ _ _ _ (t_vint _ _ _ H)).
    replace ((0 <=? k) && (k <? n)) with false by lia. reflexivity.
  - intros k bs H Hk. assert (A : forall s, t_read_array_size (bs ++ s) = (Raise EGeneric, s)).
    { intros s. unfold t_read_array_size. rewrite (tbind_step _ _ _ _ _ _ _ (t_vint _ _ _ H)).
      destruct (Z.ltb_spec (2 ^ 31) k); [reflexivity|lia]. }
    split; [|split; [|split]]; intros s; [apply A|..];
      unfold t_read_string, t_read_string_array, t_read_byte_array; apply tbind_stop, A.
  - intros l L F s. destruct l as [|b1 [|b2 [|b3 [|b4 [|b5 [|b6 l]]]]]]; try (vm_compute in L; discriminate).
    2:{ rewrite !zlen_cons in L. pose proof (zlen_nonneg _ l). lia. }
    repeat (apply Forall_cons_iff in F as [? F]). clear F L. cbn [app]. unfold t_read_v_int.
    do 4 (rewrite (tbind_step _ _ _ _ _ _ _ (t_byte _ _)); cbv zeta; rewrite C by assumption).
    rewrite (tbind_step _ _ _ _ _ _ _ (t_byte _ _)), C by assumption. reflexivity.
  - intros l b L F Hb s. destruct l as [|b1 [|b2 [|b3 [|b4 [|b5 [|b6 [|b7 [|b8 [|b9 [|b10 l]]]]]]]]]]; try (vm_compute in L; discriminate).
    2:{ rewrite !zlen_cons in L. pose proof (zlen_nonneg _ l). lia. }
    repeat (apply Forall_cons_iff in F as [? F]). clear F L. cbn [app]. unfold t_read_v_long.
    do 9 (rewrite (tbind_step _ _ _ _ _ _ _ (t_byte _ _)); cbv zeta; rewrite C by assumption).
    rewrite (tbind_step _ _ _ _ _ _ _ (t_byte _ _)). rewrite sbyte_val. pose proof (b2z_range b).
    match goal with |- context [negb (?x =? 0) && negb (?x =? 1)] => replace (negb (x =? 0) && negb (x =? 1)) with true by (destruct (Z.ltb_spec (b2z b) 128); lia) end.
    reflexivity.
  - exact skips_string.
  - intros limit b Hb s. cbn [t_read_generic_value app].
    rewrite (tbind_step _ _ _ _ _ _ _ (t_byte b s)).
    destruct b; try reflexivity; exfalso; apply Hb; repeat (first [left; reflexivity|right]).
Qed.
Print Assumptions C109_values_partial.
Example C109_case : t_read_string [x02; xc0; x80; x01; x61] = (Raise EUnicode, [x01; x61]) /\ t_read_string [x01; x61] = (Ok [97], []) /\
  t_read_v_int [xff; xff; xff; xff; xff; x07] = (Raise EGeneric, [x07]).
Proof. repeat split. Qed.

Lemma good_string x bs : w_string false x bs -> forall u, t_read_string (bs ++ u) = (Ok x, u).
Proof. intros H u. apply (t_ok _ read_string); [constructor|]. apply (string_reads false); [exact I|exact H]. Qed.
Lemma strings_stop b u : t_read_string (b ++ u) = (Raise EUnicode, u) -> forall k xs bss,
  Forall2 (w_string false) xs bss -> (List.length xs < k)%nat -> t_n t_read_string k (concat bss ++ b ++ u) = (Raise EUnicode, u).
Proof.
  intros B. induction k as [|k IH]; intros xs bss F L; [lia|]. cbn [t_n]. destruct F as [|x bs xs bss F1 F2].
  - cbn [concat app]. apply tbind_stop, B.
  - cbn [concat]. rewrite <- app_assoc, (tbind_step _ _ _ _ _ _ _ (good_string _ _ F1 _)). apply tbind_stop, (IH xs); [exact F2|cbn in L; lia].
Qed.
Lemma pairs_stop b u : t_read_string (b ++ u) = (Raise EUnicode, u) -> forall k xs bss,
  Forall2 (w_string false) xs bss -> (List.length xs < 2 * k)%nat -> t_n (t_read_pair t_read_string) k (concat bss ++ b ++ u) = (Raise EUnicode, u).
Proof.
  intros B. induction k as [|k IH]; intros xs bss F L; [lia|]. cbn [t_n].
  destruct F as [|x bs xs bss F1 F2]; [cbn [concat app]; apply tbind_stop, tbind_stop, B|].
  destruct F2 as [|y bs' xs bss F2 F3].
  - cbn [concat app]. rewrite app_nil_r. apply tbind_stop. unfold t_read_pair. rewrite (tbind_step _ _ _ _ _ _ _ (good_string _ _ F1 _)). apply tbind_stop, B.
  - cbn [concat]. rewrite <- !app_assoc. rewrite (tbind_step _ _ _ _ _ (x, y) (concat bss ++ b ++ u)).
    + apply tbind_stop, (IH xs); [exact F3|cbn in L; lia].
    + unfold t_read_pair. rewrite (tbind_step _ _ _ _ _ _ _ (good_string _ _ F1 _)), (tbind_step _ _ _ _ _ _ _ (good_string _ _ F2 _)). reflexivity.
Qed.
(** C109, what holds for collections: reading stops behind the first string that is not UTF-8; the
    strings that follow it in the array or dict (the start of [u]) are not passed over.  The array
    announces [n] strings, the dict [n] keys and values; [xs] come before the malformed one. *)
Theorem C109_collections_partial : forall xs bss e b n cnt u,
  Forall2 (w_string false) xs bss -> w_bytes false e b -> (forall x, ~ is_utf8 x e) -> w_vint false n cnt ->
  (zlen xs < n <= 2 ^ 31 -> t_read_string_array (cnt ++ concat bss ++ b ++ u) = (Raise EUnicode, u)) /\
  (zlen xs < 2 * n -> t_read_string_to_string_dict (cnt ++ concat bss ++ b ++ u) = (Raise EUnicode, u)).
Proof.
  intros xs bss e b n cnt u F B N V. pose proof (skips_string e b B N u) as S. pose proof (zlen_nonneg _ xs) as P. split; intros L.
  - unfold t_read_string_array, t_read_array_size.
    rewrite (tbind_step _ _ _ _ _ n (concat bss ++ b ++ u)).
    2:{ rewrite (tbind_step _ _ _ _ _ _ _ (t_vint _ _ _ V)). destruct (Z.ltb_spec (2 ^ 31) n); [lia|reflexivity]. }
    destruct (Z.eqb_spec n 0); [lia|]. apply (strings_stop b u S _ xs); [exact F|]. unfold zlen in *. lia.
  - unfold t_read_string_to_string_dict, t_read_dict.
    rewrite (tbind_step _ _ _ _ _ _ _ (t_vint _ _ _ V)). destruct (Z.eqb_spec n 0); [lia|].
    apply tbind_stop, (pairs_stop b u S _ xs); [exact F|]. unfold zlen in *. lia.
Qed.
Print Assumptions C109_collections_partial.
(** an array of three strings, the second malformed: the third is what is read next *)
Example C109_collections_case : t_read_string_array [x03; x01; x61; x01; xff; x01; x62; x07] = (Raise EUnicode, [x01; x62; x07]) /\
  t_read_string_to_string_dict [x02; x01; x61; x01; xff; x01; x62; x00] = (Raise EUnicode, [x01; x62; x00]).
Proof. split; reflexivity. Qed.
Lemma not_utf8_ff : forall x, ~ is_utf8 x [xff].
Proof. intros x H. apply is_utf8_encode in H. apply utf8_decode_encode in H. discriminate H. Qed.
Theorem C109_collections_refuted : ~ C109_statement.
Proof.
  intros H. specialize (H [[xff]; [x61]] [[x01; xff]; [x01; x61]] [x02]).
  assert (V : w_vint false 2 [x02]) by (split; [apply (leb_last x02); reflexivity|split; [vm_compute; discriminate|exact I]]).
  assert (W : forall b, w_bytes false [b] [x01; b]).
  { intros b. split; [vm_compute; discriminate|]. apply (parts_cons _ _ [x01] [b]).
    - split; [apply (leb_last x01); reflexivity|split; [vm_compute; discriminate|exact I]].
    - apply (parts_cons _ _ [b] []); [reflexivity|constructor]. }
  specialize (H ltac:(vm_compute; discriminate) V ltac:(repeat constructor; try apply W; vm_compute; discriminate)
    (ex_intro _ [xff] (conj (or_introl eq_refl) not_utf8_ff)) []).
  vm_compute in H. discriminate H.
Qed.
Print Assumptions C109_collections_refuted.

(** ** C107: writers *)

(** Every writer of the model with its tracked version. *)
Inductive emits : forall A : Type, (A -> res bytes) -> (A -> emit) -> Prop :=
| em_byte : emits _ write_byte t_write_byte
| em_int : emits _ write_int t_write_int
| em_long : emits _ write_long t_write_long
| em_v_int : emits _ write_v_int t_write_v_int
| em_v_long : emits _ write_v_long t_write_v_long
| em_z_long : emits _ write_z_long t_write_z_long
| em_byte_array : emits _ write_byte_array t_write_byte_array
| em_string : emits _ write_string t_write_string
| em_boolean : emits _ write_boolean t_write_boolean
| em_string_array : emits _ write_string_array t_write_string_array
| em_string_set : emits _ write_string_set t_write_string_set
| em_string_to_string_dict : emits _ write_string_to_string_dict t_write_string_to_string_dict
| em_string_to_string_array_dict : emits _ write_string_to_string_array_dict t_write_string_to_string_array_dict
| em_string_to_string_set_dict : emits _ write_string_to_string_set_dict t_write_string_to_string_set_dict
| em_generic_value : emits _ write_generic_value t_write_generic_value
| em_enum : emits _ write_enum t_write_enum
| em_version : emits _ write_version t_write_version
| em_double : emits _ write_double t_write_double
| em_float : emits _ write_float t_write_float
| em_double_parser : emits _ write_double_parser t_write_double_parser
| em_single_parser : emits _ write_single_parser t_write_single_parser
| em_settings : emits _ write_settings t_write_settings
| em_integer_parser : emits _ write_integer_parser t_write_integer_parser
| em_long_parser : emits _ write_long_parser t_write_long_parser
| em_validator : emits _ write_validator t_write_validator
| em_bsv : emits _ write_bsv t_write_bsv
| em_time_value : emits _ write_time_value t_write_time_value
| em_bs_parser : emits _ write_bs_parser t_write_bs_parser
| em_tv_parser : emits _ write_tv_parser t_write_tv_parser
| em_header : emits _ write_header t_write_header
| em_ctx : emits _ write_ctx t_write_ctx
| em_outbound : emits _ write_outbound t_write_outbound
| em_opt_long : emits _ write_opt_long t_write_opt_long
| em_task : emits _ write_task t_write_task
| em_transport_request : emits _ write_transport_request t_write_transport_request
| em_ack : emits _ write_ack t_write_ack
| em_addr : emits _ write_addr t_write_addr
| em_role : emits _ write_role t_write_role
| em_node : emits _ write_node t_write_node
| em_dep : emits _ write_dep t_write_dep
| em_ext_node : emits _ write_ext_node t_write_ext_node
| em_init_request : emits _ write_init_request t_write_init_request
| em_init_response : emits _ write_init_response t_write_init_response
| em_handshake_response : emits _ write_handshake_response t_write_handshake_response
| em_tcp_handshake_request : emits _ write_tcp_handshake_request t_write_tcp_handshake_request
| em_tcp_handshake_response : emits _ write_tcp_handshake_response t_write_tcp_handshake_response
| em_ext_transport_request : emits _ write_ext_transport_request t_write_ext_transport_request
| em_register_request : emits _ write_register_request t_write_register_request
| em_opt_enum : emits _ write_opt_enum t_write_opt_enum
| em_rest_request : emits _ write_rest_request t_write_rest_request
| em_rest_response : emits _ write_rest_response t_write_rest_response
| em_exec_response : emits _ write_exec_response t_write_exec_response.

Definition wfol (r : res bytes) (m : emit) : Prop := r = match m with (Ok _, b) => Ok b | (Raise e, _) => Raise e end.
Lemma wf_put b : wfol (Ok b) (put b). Proof. reflexivity. Qed.
Lemma wf_stop e : wfol (Raise e) (stop e). Proof. reflexivity. Qed.
Lemma wf_once r : wfol r (once r). Proof. destruct r; reflexivity. Qed.
Lemma wf_cat l m : Forall2 wfol l m -> wfol (wcat l) (tcat m).
Proof.
  induction 1 as [|r [[[]|e] b] l m H _ IH]; [reflexivity|..]; unfold wfol in *; subst r; cbn; [|reflexivity].
  rewrite IH. destruct (tcat m) as [[[]|e] b']; reflexivity.
Qed.
Lemma wf_map A (w : A -> res bytes) t l : (forall a, wfol (w a) (t a)) -> Forall2 wfol (map w l) (map t l).
Proof. intros H. induction l; constructor; auto. Qed.
Lemma wf_if (b : bool) r r' m m' : wfol r m -> wfol r' m' -> wfol (if b then r else r') (if b then m else m').
Proof. destruct b; auto. Qed.
Create HintDb wtrk.
#[local] Hint Resolve wf_put wf_stop wf_once : wtrk.
Ltac wtrk :=
  repeat first
    [ progress (cbv zeta)
    | solve [auto with wtrk]
    | apply wf_cat | apply Forall2_cons | apply Forall2_nil | apply wf_map; intros ?
    | apply wf_if
    | match goal with |- wfol (bind ?x _) (match ?x with _ => _ end) => destruct x; cbn [bind] end
    | match goal with |- wfol (match ?x with _ => _ end) _ => destruct x end ].
Lemma wf_byte a : wfol (write_byte a) (t_write_byte a). Proof. unfold write_byte, t_write_byte. wtrk. Qed.
#[local] Hint Resolve wf_byte : wtrk.
Lemma wf_int a : wfol (write_int a) (t_write_int a). Proof. unfold write_int, t_write_int. wtrk. Qed.
#[local] Hint Resolve wf_int : wtrk.
Lemma wf_long a : wfol (write_long a) (t_write_long a). Proof. unfold write_long, t_write_long. wtrk. Qed.
#[local] Hint Resolve wf_long : wtrk.
Lemma wf_v_int a : wfol (write_v_int a) (t_write_v_int a). Proof. unfold write_v_int, t_write_v_int. wtrk. Qed.
#[local] Hint Resolve wf_v_int : wtrk.
Lemma wf_v_long a : wfol (write_v_long a) (t_write_v_long a). Proof. unfold write_v_long, t_write_v_long. wtrk. Qed.
#[local] Hint Resolve wf_v_long : wtrk.
Lemma wf_z_long a : wfol (write_z_long a) (t_write_z_long a). Proof. unfold write_z_long, t_write_z_long. wtrk. Qed.
#[local] Hint Resolve wf_z_long : wtrk.
Lemma wf_byte_array a : wfol (write_byte_array a) (t_write_byte_array a). Proof. unfold write_byte_array, t_write_byte_array. wtrk. Qed.
#[local] Hint Resolve wf_byte_array : wtrk.
Lemma wf_string a : wfol (write_string a) (t_write_string a). Proof. unfold write_string, t_write_string. wtrk. Qed.
#[local] Hint Resolve wf_string : wtrk.
Lemma wf_boolean a : wfol (write_boolean a) (t_write_boolean a). Proof. unfold write_boolean, t_write_boolean. wtrk. Qed.
#[local] Hint Resolve wf_boolean : wtrk.
Lemma wf_string_array a : wfol (write_string_array a) (t_write_string_array a). Proof. unfold write_string_array, t_write_string_array. wtrk. Qed.
#[local] Hint Resolve wf_string_array : wtrk.
Lemma wf_string_set a : wfol (write_string_set a) (t_write_string_set a). Proof. unfold write_string_set, t_write_string_set. wtrk. Qed.
#[local] Hint Resolve wf_string_set : wtrk.
Lemma wf_string_to_string_dict a : wfol (write_string_to_string_dict a) (t_write_string_to_string_dict a). Proof. unfold write_string_to_string_dict, t_write_string_to_string_dict. wtrk. Qed.
#[local] Hint Resolve wf_string_to_string_dict : wtrk.
Lemma wf_string_to_string_array_dict a : wfol (write_string_to_string_array_dict a) (t_write_string_to_string_array_dict a). Proof. unfold write_string_to_string_array_dict, t_write_string_to_string_array_dict. wtrk. Qed.
#[local] Hint Resolve wf_string_to_string_array_dict : wtrk.
Lemma wf_string_to_string_set_dict a : wfol (write_string_to_string_set_dict a) (t_write_string_to_string_set_dict a). Proof. unfold write_string_to_string_set_dict, t_write_string_to_string_set_dict. wtrk. Qed.
#[local] Hint Resolve wf_string_to_string_set_dict : wtrk.
Lemma wf_generic_value : forall a, wfol (write_generic_value a) (t_write_generic_value a).
Proof.
  fix IH 1. intros [|b|x|i|b|l|]; cbn [write_generic_value t_write_generic_value]; try (clear IH; solve [wtrk]).
  apply wf_cat, Forall2_cons; [apply wf_byte|]. apply Forall2_cons; [|apply Forall2_nil]. apply wf_cat, Forall2_cons; [apply wf_v_int|].
  induction l as [|v l IHl]; constructor; [apply IH|exact IHl].
Qed.
#[local] Hint Resolve wf_generic_value : wtrk.
Lemma wf_enum a : wfol (write_enum a) (t_write_enum a). Proof. unfold write_enum, t_write_enum. wtrk. Qed.
#[local] Hint Resolve wf_enum : wtrk.
Lemma wf_version a : wfol (write_version a) (t_write_version a). Proof. unfold write_version, t_write_version. wtrk. Qed.
#[local] Hint Resolve wf_version : wtrk.
Lemma wf_double a : wfol (write_double a) (t_write_double a). Proof. unfold write_double, t_write_double. wtrk. Qed.
#[local] Hint Resolve wf_double : wtrk.
Lemma wf_float a : wfol (write_float a) (t_write_float a). Proof. unfold write_float, t_write_float. wtrk. Qed.
#[local] Hint Resolve wf_float : wtrk.
Lemma wf_double_parser a : wfol (write_double_parser a) (t_write_double_parser a). Proof. unfold write_double_parser, t_write_double_parser. wtrk. Qed.
#[local] Hint Resolve wf_double_parser : wtrk.
Lemma wf_single_parser a : wfol (write_single_parser a) (t_write_single_parser a). Proof. unfold write_single_parser, t_write_single_parser. wtrk. Qed.
#[local] Hint Resolve wf_single_parser : wtrk.
Lemma wf_settings a : wfol (write_settings a) (t_write_settings a). Proof. unfold write_settings, t_write_settings. wtrk. Qed.
#[local] Hint Resolve wf_settings : wtrk.
Lemma wf_integer_parser a : wfol (write_integer_parser a) (t_write_integer_parser a). Proof. unfold write_integer_parser, t_write_integer_parser. wtrk. Qed.
#[local] Hint Resolve wf_integer_parser : wtrk.
Lemma wf_long_parser a : wfol (write_long_parser a) (t_write_long_parser a). Proof. unfold write_long_parser, t_write_long_parser. wtrk. Qed.
#[local] Hint Resolve wf_long_parser : wtrk.
Lemma wf_validator a : wfol (write_validator a) (t_write_validator a). Proof. unfold write_validator, t_write_validator. wtrk. Qed.
#[local] Hint Resolve wf_validator : wtrk.
Lemma wf_bsv a : wfol (write_bsv a) (t_write_bsv a). Proof. unfold write_bsv, t_write_bsv. wtrk. Qed.
#[local] Hint Resolve wf_bsv : wtrk.
Lemma wf_time_value a : wfol (write_time_value a) (t_write_time_value a). Proof. unfold write_time_value, t_write_time_value. wtrk. Qed.
#[local] Hint Resolve wf_time_value : wtrk.
Lemma wf_bs_parser a : wfol (write_bs_parser a) (t_write_bs_parser a). Proof. unfold write_bs_parser, t_write_bs_parser. wtrk. Qed.
#[local] Hint Resolve wf_bs_parser : wtrk.
Lemma wf_tv_parser a : wfol (write_tv_parser a) (t_write_tv_parser a). Proof. unfold write_tv_parser, t_write_tv_parser. wtrk. Qed.
#[local] Hint Resolve wf_tv_parser : wtrk.
Lemma wf_header a : wfol (write_header a) (t_write_header a). Proof. unfold write_header, t_write_header. wtrk. Qed.
#[local] Hint Resolve wf_header : wtrk.
Lemma wf_ctx a : wfol (write_ctx a) (t_write_ctx a). Proof. unfold write_ctx, t_write_ctx. wtrk. Qed.
#[local] Hint Resolve wf_ctx : wtrk.
Lemma wf_outbound a : wfol (write_outbound a) (t_write_outbound a). Proof. unfold write_outbound, t_write_outbound. wtrk. Qed.
#[local] Hint Resolve wf_outbound : wtrk.
Lemma wf_opt_long a : wfol (write_opt_long a) (t_write_opt_long a). Proof. unfold write_opt_long, t_write_opt_long. wtrk. Qed.
#[local] Hint Resolve wf_opt_long : wtrk.
Lemma wf_task a : wfol (write_task a) (t_write_task a). Proof. unfold write_task, t_write_task. wtrk. Qed.
#[local] Hint Resolve wf_task : wtrk.
Lemma wf_transport_request a : wfol (write_transport_request a) (t_write_transport_request a). Proof. unfold write_transport_request, t_write_transport_request. wtrk. Qed.
#[local] Hint Resolve wf_transport_request : wtrk.
Lemma wf_ack a : wfol (write_ack a) (t_write_ack a). Proof. unfold write_ack, t_write_ack. wtrk. Qed.
#[local] Hint Resolve wf_ack : wtrk.
Lemma wf_addr a : wfol (write_addr a) (t_write_addr a). Proof. unfold write_addr, t_write_addr. wtrk. Qed.
#[local] Hint Resolve wf_addr : wtrk.
Lemma wf_role a : wfol (write_role a) (t_write_role a). Proof. unfold write_role, t_write_role. wtrk. Qed.
#[local] Hint Resolve wf_role : wtrk.
Lemma wf_node a : wfol (write_node a) (t_write_node a). Proof. unfold write_node, t_write_node. wtrk. Qed.
#[local] Hint Resolve wf_node : wtrk.
Lemma wf_dep a : wfol (write_dep a) (t_write_dep a). Proof. unfold write_dep, t_write_dep. wtrk. Qed.
#[local] Hint Resolve wf_dep : wtrk.
Lemma wf_ext_node a : wfol (write_ext_node a) (t_write_ext_node a). Proof. unfold write_ext_node, t_write_ext_node. wtrk. Qed.
#[local] Hint Resolve wf_ext_node : wtrk.
Lemma wf_init_request a : wfol (write_init_request a) (t_write_init_request a). Proof. unfold write_init_request, t_write_init_request. wtrk. Qed.
#[local] Hint Resolve wf_init_request : wtrk.
Lemma wf_init_response a : wfol (write_init_response a) (t_write_init_response a). Proof. unfold write_init_response, t_write_init_response. wtrk. Qed.
#[local] Hint Resolve wf_init_response : wtrk.
Lemma wf_handshake_response a : wfol (write_handshake_response a) (t_write_handshake_response a). Proof. unfold write_handshake_response, t_write_handshake_response. wtrk. Qed.
#[local] Hint Resolve wf_handshake_response : wtrk.
Lemma wf_tcp_handshake_request a : wfol (write_tcp_handshake_request a) (t_write_tcp_handshake_request a). Proof. unfold write_tcp_handshake_request, t_write_tcp_handshake_request. wtrk. Qed.
#[local] Hint Resolve wf_tcp_handshake_request : wtrk.
Lemma wf_tcp_handshake_response a : wfol (write_tcp_handshake_response a) (t_write_tcp_handshake_response a). Proof. unfold write_tcp_handshake_response, t_write_tcp_handshake_response. wtrk. Qed.
#[local] Hint Resolve wf_tcp_handshake_response : wtrk.
Lemma wf_ext_transport_request a : wfol (write_ext_transport_request a) (t_write_ext_transport_request a). Proof. unfold write_ext_transport_request, t_write_ext_transport_request. wtrk. Qed.
#[local] Hint Resolve wf_ext_transport_request : wtrk.
Lemma wf_register_request a : wfol (write_register_request a) (t_write_register_request a). Proof. unfold write_register_request, t_write_register_request. wtrk. Qed.
#[local] Hint Resolve wf_register_request : wtrk.
Lemma wf_opt_enum a : wfol (write_opt_enum a) (t_write_opt_enum a). Proof. unfold write_opt_enum, t_write_opt_enum. wtrk. Qed.
#[local] Hint Resolve wf_opt_enum : wtrk.
Lemma wf_rest_request a : wfol (write_rest_request a) (t_write_rest_request a). Proof. unfold write_rest_request, t_write_rest_request. wtrk. Qed.
#[local] Hint Resolve wf_rest_request : wtrk.
Lemma wf_rest_response a : wfol (write_rest_response a) (t_write_rest_response a). Proof. unfold write_rest_response, t_write_rest_response. wtrk. Qed.
#[local] Hint Resolve wf_rest_response : wtrk.
Lemma wf_exec_response a : wfol (write_exec_response a) (t_write_exec_response a). Proof. unfold write_exec_response, t_write_exec_response. wtrk. Qed.
#[local] Hint Resolve wf_exec_response : wtrk.

(** The tracked writers are the writers of the other theorems: they write the same when they end well,
    and raise the same exceptions. *)
Theorem C107_writers : forall A w t, emits A w t -> forall a,
  (forall b, w a = Ok b <-> t a = (Ok tt, b)) /\ (forall e, w a = Raise e <-> exists b, t a = (Raise e, b)).
Proof.
  intros A w t H a. assert (F : wfol (w a) (t a)) by (destruct H; auto with wtrk).
  unfold wfol in F. rewrite F. destruct (t a) as [[[]|e] b0]; split.
  - intros b. split; [intros [= <-]; reflexivity|intros [= <-]; reflexivity].
  - intros e. split; [discriminate|]. intros [b E]. discriminate E.
  - intros b. split; intros E; discriminate E.
  - intros e'. split; [intros [= <-]; eauto|]. intros [b E]. injection E as <- <-. reflexivity.
Qed.
Print Assumptions C107_writers.

(** C107, full statement: a writer that raises has written nothing. *)
Definition C107_statement : Prop := forall A w t, emits A w t -> forall a e b, t a = (Raise e, b) -> b = [].
Theorem C107_refuted : ~ C107_statement.
Proof.
  intros H. specialize (H _ _ _ em_string_array [[97]; [0xD800]] EUnicode [x02; x01; x61] eq_refl). discriminate H.
Qed.
Print Assumptions C107_refuted.

Lemma once_none r e b : once r = (Raise e, b) -> b = [] /\ r = Raise e.
Proof. destruct r; [discriminate|]. intros [= <- <-]. auto. Qed.
Lemma vint_none i e b : t_write_v_int i = (Raise e, b) -> b = [] /\ e = EOverflow /\ i < -128.
Proof.
  intros E. unfold t_write_v_int in E. destruct (Z.ltb_spec i 128).
  - unfold t_write_byte in E. apply once_none in E as [-> E]. unfold to_bytes_signed in E. cbn in E.
    destruct (Z.leb_spec (-128) i); cbn in E; [destruct (Z.ltb_spec i 128); [discriminate|lia]|]. injection E as <-. auto.
  - apply once_none in E as [_ E]. exfalso. destruct (write_v_int_leb i ltac:(lia)) as (bs & W & _). unfold write_v_int in W.
    destruct (Z.ltb_spec i 128); [lia|]. congruence.
Qed.
Lemma vint_len A (l : list A) : exists b, t_write_v_int (zlen l) = (Ok tt, b) /\ write_v_int (zlen l) = Ok b.
Proof.
  destruct (write_v_int_leb (zlen l) (zlen_nonneg _ l)) as (b & W & _). exists b. split; [|exact W]. apply (C107_writers _ _ _ em_v_int), W.
Qed.
Lemma string_none s e b : t_write_string s = (Raise e, b) <-> b = [] /\ e = EUnicode /\ forall x, ~ is_utf8 s x.
Proof.
  unfold t_write_string. destruct (utf8_encode s) as [x|e'] eqn:U.
  - split.
    + destruct (vint_len _ x) as (c & E & _). cbn [tcat]. rewrite E. destruct (0 <? zlen x); discriminate.
    + intros (_ & _ & N). exfalso. apply (N x), is_utf8_encode, U.
  - assert (E : e' = EUnicode) by (exact (utf8_encode_raise _ _ U)). split.
    + intros [= <- <-]. split; [reflexivity|]. split; [exact E|]. intros x H. apply is_utf8_encode in H. congruence.
    + intros (-> & -> & _). subst e'. reflexivity.
Qed.
(** C107, what holds for single values: nothing has been written when a writer of a number or of a
    string raises.  Missing: the same of collections and of what contains several values. *)
Theorem C107_values_partial : forall e b,
  (forall i, t_write_byte i = (Raise e, b) -> b = []) /\ (forall i, t_write_int i = (Raise e, b) -> b = []) /\
  (forall i, t_write_long i = (Raise e, b) -> b = []) /\ (forall i, t_write_v_int i = (Raise e, b) -> b = []) /\
  (forall i, t_write_v_long i = (Raise e, b) -> b = []) /\ (forall i, t_write_z_long i = (Raise e, b) -> b = []) /\
  (forall i, t_write_enum i = (Raise e, b) -> b = []) /\ (forall v, t_write_version v = (Raise e, b) -> b = []) /\
  (forall x, t_write_float x = (Raise e, b) -> b = []) /\ (forall x, t_write_double x <> (Raise e, b)) /\
  (forall x, t_write_boolean x <> (Raise e, b)) /\ (forall x, t_write_byte_array x <> (Raise e, b)) /\
  (forall s, t_write_string s = (Raise e, b) -> b = []) /\
  (forall v, 0 <= tv_unit v <= 6 -> t_write_time_value v = (Raise e, b) -> b = []).
Proof.
  intros e b. repeat split.
  - intros i H. apply once_none in H. tauto.
  - intros i H. apply once_none in H. tauto.
  - intros i H. apply once_none in H. tauto.
  - intros i H. apply vint_none in H. tauto.
  - intros i H. apply vint_none in H. tauto.
  - intros i H. unfold t_write_z_long in H. cbv zeta in H. destruct (0 <? _); [injection H as _ <-; reflexivity|]. apply vint_none in H. tauto.
  - intros i H. apply vint_none in H. tauto.
  - intros i H. apply vint_none in H. tauto.
  - intros x H. unfold t_write_float in H. apply once_none in H. tauto.
  - intros x H. discriminate H.
  - intros [|] H; discriminate H.
  - intros x H. unfold t_write_byte_array in H. cbn [tcat] in H. destruct (vint_len _ x) as (c & E & _). rewrite E in H. discriminate H.
  - intros s H. apply string_none in H. tauto.
  - intros v U H. unfold t_write_time_value in H. cbn [tcat] in H. destruct (t_write_z_long (tv_dur v)) as [[[]|e'] b'] eqn:Z.
    + assert (B : exists x, t_write_byte (tv_unit v) = (Ok tt, x)).
      { unfold t_write_byte, to_bytes_signed. destruct ((- 2 ^ (8 * Z.of_nat 1 - 1) <=? tv_unit v) && (tv_unit v <? 2 ^ (8 * Z.of_nat 1 - 1))) eqn:Q; [eexists; reflexivity|cbn in Q; lia]. }
      destruct B as [x B]. rewrite B in H. discriminate H.
    + injection H as <- <-. unfold t_write_z_long in Z. cbv zeta in Z. destruct (0 <? _); [injection Z as _ <-; reflexivity|]. apply vint_none in Z. tauto.
Qed.
Print Assumptions C107_values_partial.
Example C107_case : t_write_int 2147483648 = (Raise EOverflow, []) /\ t_write_string [97; 0xD800] = (Raise EUnicode, []) /\
  t_write_v_int (-129) = (Raise EOverflow, []) /\ t_write_z_long (2 ^ 63) = (Raise EValue, []).
Proof. repeat split. Qed.

Lemma tcat_app l1 b1 l2 : tcat l1 = (Ok tt, b1) -> tcat (l1 ++ l2) = (fst (tcat l2), b1 ++ snd (tcat l2)).
Proof.
  revert b1. induction l1 as [|[[[]|e] b] l1 IH]; intros b1 H; cbn [tcat app] in *.
  - injection H as <-. destruct (tcat l2); reflexivity.
  - destruct (tcat l1) as [r1 b'] eqn:E. injection H as -> <-. rewrite (IH _ eq_refl). cbn [fst snd]. rewrite app_assoc. reflexivity.
  - discriminate.
Qed.
(** the writers of [w], one after the other, stop at the first that raises *)
Lemma tcat_map A (w : A -> res bytes) t l e b : (forall a, wfol (w a) (t a)) ->
  tcat (map t l) = (Raise e, b) <->
  exists l1 x l2 b1 b2, l = l1 ++ x :: l2 /\ wcat (map w l1) = Ok b1 /\ t x = (Raise e, b2) /\ b = b1 ++ b2.
Proof.
  intros F. assert (G : forall l1 b1, wcat (map w l1) = Ok b1 <-> tcat (map t l1) = (Ok tt, b1)).
  { intros l1 b1. pose proof (wf_cat _ _ (wf_map A w t l1 F)) as W. unfold wfol in W. rewrite W.
    destruct (tcat (map t l1)) as [[[]|e'] b']; split; intros E; try discriminate; [apply Ok_inj in E as <-; reflexivity|].
    apply pair_equal_spec in E as [_ <-]. reflexivity. }
  split.
  - revert b. induction l as [|a l IH]; intros b H; cbn [map tcat] in H; [discriminate|].
    destruct (t a) as [[[]|e'] ba] eqn:T.
    + destruct (tcat (map t l)) as [r bl] eqn:E. injection H as -> <-. destruct (IH _ eq_refl) as (l1 & x & l2 & b1 & b2 & -> & E1 & E2 & ->).
      exists (a :: l1), x, l2, (ba ++ b1), b2. repeat split; [|exact E2|rewrite app_assoc; reflexivity].
      apply G. cbn [map tcat]. rewrite T. apply G in E1. rewrite E1. reflexivity.
    + injection H as -> ->. exists [], a, l, [], b. repeat split. exact T.
  - intros (l1 & x & l2 & b1 & b2 & -> & E1 & E2 & ->). rewrite map_app. rewrite (tcat_app _ b1) by (apply G, E1).
    cbn [map tcat]. rewrite E2. reflexivity.
Qed.
Lemma counted A (l0 : list A) m e b : tcat (t_write_v_int (zlen l0) :: m) = (Raise e, b) <->
  exists c b', write_v_int (zlen l0) = Ok c /\ tcat m = (Raise e, b') /\ b = c ++ b'.
Proof.
  destruct (vint_len _ l0) as (c & E & W). cbn [tcat]. rewrite E. destruct (tcat m) as [r b'] eqn:T. cbn [fst snd]. split.
  - intros H. injection H as -> <-. exists c, b'. auto.
  - intros (c' & b2 & W' & H & ->). rewrite W in W'. apply Ok_inj in W' as <-. injection H as -> ->. reflexivity.
Qed.
Lemma wcat_cons r c m b : r = Ok c -> wcat (r :: m) = Ok b <-> exists b', wcat m = Ok b' /\ b = c ++ b'.
Proof.
  intros ->. cbn [wcat bind]. destruct (wcat m) as [x|]; cbn [bind]; split; try discriminate.
  - intros E. apply Ok_inj in E as <-. eauto.
  - intros (b' & E & ->). apply Ok_inj in E as <-. reflexivity.
  - intros (b' & E & _). discriminate E.
Qed.
(** count, then strings *)
Lemma left_strings A (l0 : list A) l e b : tcat (t_write_v_int (zlen l0) :: map t_write_string l) = (Raise e, b) <->
  e = EUnicode /\ exists l1 x l2, l = l1 ++ x :: l2 /\ (forall y, ~ is_utf8 x y) /\ wcat (write_v_int (zlen l0) :: map write_string l1) = Ok b.
Proof.
  rewrite counted. split.
  - intros (c & b' & C & H & ->). apply (tcat_map _ write_string _ _ _ _ wf_string) in H as (l1 & x & l2 & b1 & b2 & -> & E1 & E2 & ->).
    apply string_none in E2 as (-> & -> & N). split; [reflexivity|]. exists l1, x, l2. split; [reflexivity|]. split; [exact N|].
    apply (wcat_cons _ _ _ _ C). exists b1. rewrite app_nil_r. auto.
  - intros (-> & l1 & x & l2 & -> & N & W). destruct (vint_len _ l0) as (c & _ & C). destruct (proj1 (wcat_cons _ _ _ _ C) W) as (b1 & E1 & Eb). rewrite Eb.
    exists c, b1. split; [exact C|]. split; [|reflexivity]. apply (tcat_map _ write_string _ _ _ _ wf_string).
    exists l1, x, l2, b1, []. rewrite app_nil_r. repeat split; [exact E1|]. apply string_none. auto.
Qed.
Lemma tcat_flat (ms : list (list emit)) : tcat (map tcat ms) = tcat (concat ms).
Proof.
  induction ms as [|m ms IH]; [reflexivity|]. cbn [map concat]. destruct (tcat m) as [[[]|e] b] eqn:E.
  - rewrite (tcat_app _ _ _ E). cbn [tcat]. rewrite IH. reflexivity.
  - cbn [tcat]. clear IH. revert b E. induction m as [|[[[]|e'] b'] m IH]; intros b E; cbn [tcat app] in *; [discriminate| |exact (eq_sym E)].
    destruct (tcat m) as [r bm] eqn:M. injection E as -> <-. rewrite <- (IH _ eq_refl). reflexivity.
Qed.
Lemma dict_flat (d : sdict pystr) : tcat (map (fun kv => tcat [t_write_string (fst kv); t_write_string (snd kv)]) d) =
  tcat (map t_write_string (flat_map (fun kv => [fst kv; snd kv]) d)).
Proof.
  rewrite <- (map_map (fun kv : pystr * pystr => [t_write_string (fst kv); t_write_string (snd kv)]) tcat), tcat_flat. f_equal.
  induction d as [|kv d IH]; [reflexivity|]. cbn. rewrite IH. reflexivity.
Qed.
(** C107, what holds for collections: a writer of a collection that raises has written the number of
    elements and the elements in front of the first one that cannot be written, and of that one what
    its own writer leaves, which is nothing for strings, keys and values of dicts ([flat_map] lists
    them as they are written), and the byte of the type for generic values.  Missing: that this is
    nothing. *)
Theorem C107_collections_partial : forall e b,
  (forall l, t_write_string_array l = (Raise e, b) <-> e = EUnicode /\ exists l1 x l2, l = l1 ++ x :: l2 /\
     (forall y, ~ is_utf8 x y) /\ wcat (write_v_int (zlen l) :: map write_string l1) = Ok b) /\
  (forall l, t_write_string_set l = (Raise e, b) <-> e = EUnicode /\ exists l1 x l2, l = l1 ++ x :: l2 /\
     (forall y, ~ is_utf8 x y) /\ wcat (write_v_int (zlen l) :: map write_string l1) = Ok b) /\
  (forall d, t_write_string_to_string_dict d = (Raise e, b) <-> e = EUnicode /\ exists l1 x l2,
     flat_map (fun kv => [fst kv; snd kv]) d = l1 ++ x :: l2 /\
     (forall y, ~ is_utf8 x y) /\ wcat (write_v_int (zlen d) :: map write_string l1) = Ok b) /\
  (forall d, t_write_string_to_string_array_dict d = (Raise e, b) <-> exists d1 k v d2 b1 b2,
     d = d1 ++ (k, v) :: d2 /\
     wcat (write_v_int (zlen d) :: map (fun kv => wcat [write_string (fst kv); write_string_array (snd kv)]) d1) = Ok b1 /\
     tcat [t_write_string k; t_write_string_array v] = (Raise e, b2) /\ b = b1 ++ b2) /\
  (forall d, t_write_settings d = (Raise e, b) <-> exists d1 k v d2 b1 b2,
     d = d1 ++ (k, v) :: d2 /\
     wcat (write_v_int (zlen d) :: map (fun kv => wcat [write_string (fst kv); write_generic_value (snd kv)]) d1) = Ok b1 /\
     tcat [t_write_string k; t_write_generic_value v] = (Raise e, b2) /\ b = b1 ++ b2) /\
  (forall v, t_write_generic_value v = (Raise e, b) <->
     (exists i, v = VInt i /\ ~ (- 2 ^ 63 <= i < 2 ^ 63) /\ e = EOverflow /\ b = [x02]) \/
     (exists s, v = VStr s /\ (forall y, ~ is_utf8 s y) /\ e = EUnicode /\ b = [x00]) \/
     (exists l1 x l2 b1 b2, v = VList (l1 ++ x :: l2) /\
        wcat (write_v_int (zlen (l1 ++ x :: l2)) :: map write_generic_value l1) = Ok b1 /\
        t_write_generic_value x = (Raise e, b2) /\ b = x07 :: b1 ++ b2)).
Proof.
  assert (D : forall V (wv : V -> res bytes) tv, (forall v, wfol (wv v) (tv v)) -> forall e b (d : sdict V),
    tcat (t_write_v_int (zlen d) :: map (fun kv => tcat [t_write_string (fst kv); tv (snd kv)]) d) = (Raise e, b) <->
    exists d1 k v d2 b1 b2, d = d1 ++ (k, v) :: d2 /\
      wcat (write_v_int (zlen d) :: map (fun kv => wcat [write_string (fst kv); wv (snd kv)]) d1) = Ok b1 /\
      tcat [t_write_string k; tv v] = (Raise e, b2) /\ b = b1 ++ b2).
  { intros V wv tv F e b d. rewrite counted. destruct (vint_len _ d) as (c & _ & C).
    assert (F' : forall kv : pystr * V, wfol (wcat [write_string (fst kv); wv (snd kv)]) (tcat [t_write_string (fst kv); tv (snd kv)])).
    { intros kv. apply wf_cat. repeat constructor; [apply wf_string|apply F]. }
    split.
    - intros (c' & b' & C' & H & ->). rewrite C in C'. apply Ok_inj in C' as <-.
      apply (tcat_map _ _ _ _ _ _ F') in H as (l1 & [k v] & l2 & b1 & b2 & E & E1 & E2 & ->).
      exists l1, k, v, l2, (c ++ b1), b2. split; [exact E|]. split; [apply (wcat_cons _ _ _ _ C); eauto|]. split; [exact E2|apply app_assoc].
    - intros (d1 & k & v & d2 & b1 & b2 & E & W & E2 & ->). destruct (proj1 (wcat_cons _ _ _ _ C) W) as (b3 & E1 & ->).
      exists c, (b3 ++ b2). split; [exact C|]. split; [|symmetry; apply app_assoc]. apply (tcat_map _ _ _ _ _ _ F').
      exists d1, (k, v), d2, b3, b2. auto. }
  intros e b. split; [|split; [|split; [|split; [|split]]]].
  - intros l. apply left_strings.
  - intros l. apply left_strings.
  - intros d. unfold t_write_string_to_string_dict.
    assert (E : tcat (t_write_v_int (zlen d) :: map (fun kv => tcat [t_write_string (fst kv); t_write_string (snd kv)]) d) =
      tcat (t_write_v_int (zlen d) :: map t_write_string (flat_map (fun kv => [fst kv; snd kv]) d))).
    { cbn [tcat]. rewrite dict_flat. reflexivity. }
    rewrite E. apply left_strings.
  - intros d. apply (D _ _ _ wf_string_array).
  - intros d. apply (D _ _ _ wf_generic_value).
  - assert (T : forall z x m, t_write_byte z = (Ok tt, [x]) -> tcat [t_write_byte z; m] = (Raise e, b) <-> exists b', m = (Raise e, b') /\ b = x :: b').
    { intros z x [[[]|e'] b'] Z; cbn [tcat]; rewrite Z; cbn; split; try discriminate.
      - intros (b2 & H & _). discriminate H.
      - intros H. injection H as -> <-. eauto.
      - intros (b2 & H & ->). injection H as -> ->. reflexivity. }
    intros v. destruct v as [|x|s|i|x|l|x s]; cbn [t_write_generic_value].
    + split; [discriminate|]. intros [(i & E & _)|[(s & E & _)|(l1 & x & l2 & b1 & b2 & E & _)]]; discriminate E.
    + split; [destruct x; discriminate|]. intros [(i & E & _)|[(s & E & _)|(l1 & x' & l2 & b1 & b2 & E & _)]]; discriminate E.
    + rewrite (T 0 x00 _ eq_refl). split.
      * intros (b' & E & ->). apply string_none in E as (-> & -> & N). right. left. exists s. auto.
      * intros [(i & E & _)|[(s' & E & N & -> & ->)|(l1 & x' & l2 & b1 & b2 & E & _)]]; try discriminate E. injection E as <-.
        exists []. split; [|reflexivity]. apply string_none. auto.
    + rewrite (T 2 x02 _ eq_refl). unfold t_write_long, to_bytes_signed.
      set (q := (- 2 ^ (8 * Z.of_nat 8 - 1) <=? i) && (i <? 2 ^ (8 * Z.of_nat 8 - 1))). assert (Q : q = true <-> - 2 ^ 63 <= i < 2 ^ 63).
      { subst q. rewrite andb_true_iff, Z.leb_le, Z.ltb_lt. reflexivity. } clearbody q. split.
      * intros (b' & E & ->). left. exists i. destruct q; [discriminate E|]. injection E as <- <-. split; [reflexivity|]. split; [|auto].
        intros H. apply Q in H. discriminate H.
      * intros [(i' & E & N & -> & ->)|[(s' & E & _)|(l1 & x' & l2 & b1 & b2 & E & _)]]; try discriminate E. assert (i' = i) by congruence. subst i'.
        destruct q; [exfalso; apply N, Q; reflexivity|]. exists []. auto.
    + rewrite (T 6 x06 _ eq_refl). split.
      * intros (b' & E & _). exfalso. apply (C107_values_partial e b') in E. exact E.
      * intros [(i & E & _)|[(s & E & _)|(l1 & x' & l2 & b1 & b2 & E & _)]]; discriminate E.
    + rewrite (T 7 x07 _ eq_refl). split.
      * intros (b' & E & ->). right. right. apply counted in E as (c & b0 & C & H & ->).
        apply (tcat_map _ _ _ _ _ _ wf_generic_value) in H as (l1 & x & l2 & b1 & b2 & -> & E1 & E2 & ->).
        exists l1, x, l2, (c ++ b1), b2. split; [reflexivity|]. split; [apply (wcat_cons _ _ _ _ C); eauto|]. split; [exact E2|].
        rewrite <- app_assoc. reflexivity.
      * intros [(i & E & _)|[(s & E & _)|(l1 & x' & l2 & b1 & b2 & E & W & E2 & ->)]]; try discriminate E. injection E as ->.
        exists (b1 ++ b2). split; [|reflexivity]. destruct (vint_len _ (l1 ++ x' :: l2)) as (c & _ & C).
        destruct (proj1 (wcat_cons _ _ _ _ C) W) as (b3 & E1 & ->). apply counted. exists c, (b3 ++ b2). split; [exact C|]. split; [|symmetry; apply app_assoc].
        apply (tcat_map _ _ _ _ _ _ wf_generic_value). exists l1, x', l2, b3, b2. auto.
    + split; [discriminate|]. intros [(i & E & _)|[(s' & E & _)|(l1 & x' & l2 & b1 & b2 & E & _)]]; discriminate E.
Qed.
Print Assumptions C107_collections_partial.
(** the list [["a", 2^63]]: the types and sizes, and "a", but not the number *)
Example C107_collections_case : t_write_generic_value (VList [VList [VStr [97]; VInt (2 ^ 63)]]) =
    (Raise EOverflow, [x07; x01; x07; x02; x00; x01; x61; x02]) /\
  t_write_string_to_string_dict [([97], [98]); ([99], [0xD800])] = (Raise EUnicode, [x02; x01; x61; x01; x62; x01; x63]) /\
  write_onto [x01; x02] (t_write_generic_value (VStr [0xDC00])) = (Raise EUnicode, [x01; x02; x00]).
Proof. repeat split. Qed.
