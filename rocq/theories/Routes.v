(** * REST routing (rest/extension_rest_handlers.py, rest/named_route.py,
    api/action_extension.py) *)
From Coq Require Import ZArith List Bool String.
From Verif Require Import Py Stream Rest.
Import ListNotations.
Open Scope Z_scope.

(** newline *)
Definition LF : Z := 10.
(** space *)
Definition SPACE : Z := 32.
(** ! *)
Definition BANG : Z := 33.
(** an asterisk *)
Definition STAR : Z := 42.
(** a question mark *)
Definition QMARK : Z := 63.
(** [[] *)
Definition LBRACK : Z := 91.
(** []] *)
Definition RBRACK : Z := 93.
(** an opening brace *)
Definition LBRACE : Z := 123.
(** a closing brace *)
Definition RBRACE : Z := 125.

(** named_route.py:16-30 NamedRoute; [nr_method] is a RestMethod member *)
Record named_route := mkRoute { nr_method : Z; nr_path : pystr; nr_name : pystr }.
(** rest_method.py:12: method.name *)
Definition mname (m : Z) : pystr := nth (Z.to_nat m) method_names [].
(** named_route.py:27 key *)
Definition route_key (r : named_route) : pystr := mname (nr_method r) ++ [SPACE] ++ nr_path r.
(** named_route.py:29-30 __str__ *)
Definition route_str (r : named_route) : pystr :=
  mname (nr_method r) ++ [SPACE] ++ nr_path r ++ [SPACE] ++ nr_name r.

(** ** extension_rest_handlers.py:32: re.sub(r"\{(.+?)\}", "*", key).
    After an opening brace the group takes at least one character other than newline and
    as few as possible up to a closing brace; without a match the brace is kept. *)

(** characters up to the first closing brace, none of them a newline; the result counts
    the closing brace *)
Fixpoint close_at (l : pystr) : option nat :=
  match l with
  | [] => None
  | c :: t =>
      if c =? RBRACE then Some 1%nat
      else if c =? LF then None
      else option_map S (close_at t)
  end.
(** how many characters after the opening brace the match covers *)
Definition brace_match (l : pystr) : option nat :=
  match l with
  | [] => None
  | c :: t => if c =? LF then None else option_map S (close_at t)
  end.
(** [skip] characters are part of a match already replaced *)
Fixpoint sub_names (skip : nat) (l : pystr) : pystr :=
  match l with
  | [] => []
  | c :: t =>
      match skip with
      | S k => sub_names k t
      | O =>
          if c =? LBRACE then
            match brace_match t with
            | Some n => STAR :: sub_names n t
            | None => c :: sub_names 0 t
            end
          else c :: sub_names 0 t
      end
  end.
(** extension_rest_handlers.py:32: the sub of re *)
Definition wildcard_key (key : pystr) : pystr := sub_names 0 key.

(** ** fnmatch.fnmatch(name, pattern) on a POSIX system (normcase is the identity there;
    on Windows it would fold case). *)
Inductive gtok :=
| GLit (c : Z)             (* a character that stands for itself *)
| GAny                     (* ? : any one character *)
| GStar                    (* * : any string *)
| GClass (stuff : pystr).  (* [stuff] : one character of the class *)

(** extent of a character class after its opening bracket (fnmatch.translate): an initial !
    and then an initial ] are part of it; the content, without the closing bracket *)
Fixpoint upto_rbrack (l : pystr) : option pystr :=
  match l with
  | [] => None
  | c :: t => if c =? RBRACK then Some [] else option_map (cons c) (upto_rbrack t)
  end.
(** fnmatch.translate: extent of a class after its ! *)
Definition class_after_bang (l : pystr) : option pystr :=
  match l with
  | c :: t => if c =? RBRACK then option_map (cons c) (upto_rbrack t) else upto_rbrack l
  | [] => None
  end.
(** fnmatch.translate: extent of a class *)
Definition class_extent (l : pystr) : option pystr :=
  match l with
  | c :: t => if c =? BANG then option_map (cons c) (class_after_bang t) else class_after_bang l
  | [] => None
  end.

(** fnmatch.translate: the tokens of a pattern *)
Fixpoint gtoks (skip : nat) (l : pystr) : list gtok :=
  match l with
  | [] => []
  | c :: t =>
      match skip with
      | S k => gtoks k t
      | O =>
          if c =? STAR then GStar :: gtoks 0 t
          else if c =? QMARK then GAny :: gtoks 0 t
          else if c =? LBRACK then
            match class_extent t with
            | Some stuff => GClass stuff :: gtoks (S (List.length stuff)) t
            | None => GLit c :: gtoks 0 t
            end
          else GLit c :: gtoks 0 t
      end
  end.

(** What the inside of brackets means depends on the Python version, so it is an oracle:
    [None] if compiling the translated expression raises re.error, otherwise the set of
    characters. *)
Definition class_oracle := pystr -> option (Z -> bool).

(** fnmatch: re.compile accepts all classes of the pattern *)
Fixpoint classes_ok (cls : class_oracle) (p : list gtok) : bool :=
  match p with
  | [] => true
  | GClass s :: t => match cls s with Some _ => classes_ok cls t | None => false end
  | _ :: t => classes_ok cls t
  end.
(** fnmatch: a character against a class *)
Definition class_has (cls : class_oracle) (s : pystr) (c : Z) : bool :=
  match cls s with Some f => f c | None => false end.

(** fnmatch: a name against the tokens of a pattern *)
Fixpoint gmatch (cls : class_oracle) (p : list gtok) : pystr -> bool :=
  match p with
  | [] => fun s => match s with [] => true | _ => false end
  | GLit x :: p' => fun s => match s with c :: t => (c =? x) && gmatch cls p' t | [] => false end
  | GAny :: p' => fun s => match s with _ :: t => gmatch cls p' t | [] => false end
  | GClass st :: p' =>
      fun s => match s with c :: t => class_has cls st c && gmatch cls p' t | [] => false end
  | GStar :: p' =>
      fix star (s : pystr) : bool :=
        gmatch cls p' s || match s with [] => false | _ :: t => star t end
  end.
(** Python: fnmatch.fnmatch on POSIX *)
Definition fnmatch (cls : class_oracle) (name pat : pystr) : res bool :=
  let p := gtoks 0 pat in
  if classes_ok cls p then Ok (gmatch cls p name) else Raise ERegex.

(** ** extension_rest_handlers.py:20-25: an ordered dict from wildcard keys to handlers
    (identified by a number) and the list of named routes *)
Record registry := mkReg { rg_map : sdict nat; rg_named : list pystr }.
(** extension_rest_handlers.py:20-25: no handlers *)
Definition empty_registry : registry := mkReg [] [].

(** extension_rest_handlers.py:29-38, the loop over the routes of one handler.  Routes
    registered before an exception stay registered. *)
Fixpoint register_routes (g : registry) (h : nat) (rs : list named_route)
  : registry * option exn :=
  match rs with
  | [] => (g, None)
  | r :: t =>
      let key := wildcard_key (route_key r) in
      match dict_get streqb key (rg_map g) with
      | Some _ => (g, Some EGeneric)
      | None => register_routes (mkReg (dict_set streqb key h (rg_map g))
                                       (rg_named g ++ [route_str r])) h t
      end
  end.
(** extension_rest_handlers.py:27-38 register *)
Definition register (g : registry) (h : nat) (rs : list named_route) : registry * option exn :=
  register_routes g h rs.

(** action_extension.py:30-33 __init__: handler number i has routes (nth i); the first
    exception aborts the construction *)
Fixpoint register_all (g : registry) (h : nat) (hs : list (list named_route)) : res registry :=
  match hs with
  | [] => Ok g
  | rs :: t => match register g h rs with
               | (g', None) => register_all g' (S h) t
               | (_, Some e) => Raise e
               end
  end.
(** action_extension.py:30-33 __init__ *)
Definition new_action_extension (hs : list (list named_route)) : res registry :=
  register_all empty_registry 0 hs.

(** extension_rest_handlers.py:44-49: first glob match in insertion order *)
Fixpoint first_glob (cls : class_oracle) (route : pystr) (m : sdict nat) : res nat :=
  match m with
  | [] => Raise EGeneric
  | (key, h) :: t => b <- fnmatch cls route key ;; if b then Ok h else first_glob cls route t
  end.
(** extension_rest_handlers.py:40-49 handle: which handler is called *)
Definition find_handler (cls : class_oracle) (m : sdict nat) (route : pystr) : res nat :=
  match dict_get streqb route m with
  | Some h => Ok h
  | None => first_glob cls route m
  end.
