(** * Nodes and requests as objects: which containers they share

    Messages.v describes a node or a request by its contents.  The constructors keep the containers
    they are given, and a default argument is one object for the whole process. *)
From Coq Require Import String ZArith List Bool.
From Coq Require Import Strings.Byte.
From Verif Require Import Py Stream Version Frame Proto Messages Rest Routes Settings Host.
Import ListNotations.
Open Scope list_scope.
Open Scope Z_scope.

(** The containers: an attributes dict, a roles set (in iteration order; simplified: [add] puts a new
    role at the end), a list of dependencies, a TaskId *)
Inductive box :=
| Attrs (d : sdict pystr) | Roles (s : list role) | Deps (l : list dependency) | Task (t : task_id).
(** The attribute of the object that holds it *)
Inductive kind := KAttrs | KRoles | KDeps | KTask.
(** Which container a constructor was given *)
Inductive given (A : Type) :=
| Default            (* the argument was left out *)
| Own (a : A)        (* a new one with these contents *)
| Of (i : nat).      (* the one that object i holds *)
Arguments Default {A}. Arguments Own {A}. Arguments Of {A}.

(** The rest of an object: a DiscoveryNode (its attributes and roles are not used), a
    DiscoveryExtensionNode, a TransportRequest *)
Inductive fields := FNode (n : node) | FExt (n : node) (min : version) | FRequest.
(** An object; its containers are numbered in order of creation *)
Record thing := mkThing {
  th_fields : fields; th_attrs : option nat; th_roles : option nat; th_deps : option nat; th_task : option nat }.
(** which container the attribute holds, if the object has the attribute *)
Definition ref_of (k : kind) (t : thing) : option nat :=
  match k with KAttrs => th_attrs t | KRoles => th_roles t | KDeps => th_deps t | KTask => th_task t end.
(** the process *)
Record store := mkStore { boxes : list box; things : list thing }.

(** The default arguments, evaluated once when the module is imported:
    discovery_node.py:31 and :32, discovery_extension_node.py:24 and :27, transport_request.py:17 *)
Definition D_ATTRS := 0%nat.
Definition D_ROLES := 1%nat.            (* discovery_node.py:32 *)
Definition D_EXT_ATTRS := 2%nat.        (* discovery_extension_node.py:24 *)
Definition D_DEPS := 3%nat.             (* discovery_extension_node.py:27 *)
Definition D_TASK := 4%nat.             (* transport_request.py:17 *)
(** the process after its imports *)
Definition new_store : store := mkStore [Attrs []; Roles []; Attrs []; Deps []; Task default_task] [].

(** What the program does next *)
Inductive act :=
| MakeNode (uuid : bytes) (name id : pystr) (eph host hostaddr : option pystr) (addr : taddr)
    (attrs : given (sdict pystr)) (roles : given (list role)) (v : option version)
    (* DiscoveryNode(...), with a non-empty id and an address *)
| MakeExtNode (uuid : bytes) (name id : pystr) (addr : taddr) (attrs : given (sdict pystr))
    (v min : option version) (deps : given (list dependency))
    (* DiscoveryExtensionNode(...), with a non-empty id and an address *)
| ReadNode (n : node)              (* DiscoveryNode().read_from(...), with these contents *)
| ReadExtNode (x : ext_node)       (* DiscoveryExtensionNode().read_from(...) *)
| MakeRequest (t : given task_id)  (* TransportRequest(...) *)
| ReadRequest (t : task_id)        (* TransportRequest().read_from(...) *)
| SetAttribute (i : nat) (k v : pystr)           (* object i: o.attributes[k] = v *)
| AddRole (i : nat) (r : role)                   (* o.roles.add(r) *)
| AddDependency (i : nat) (d : dependency)       (* o.dependencies.append(d) *)
| SetTask (i : nat) (t : task_id).               (* o.parent_task_id.node_id = ...; o.parent_task_id.id = ... *)

(** [l[i] = x] *)
Fixpoint put {A} (i : nat) (x : A) (l : list A) : list A :=
  match l, i with
  | [], _ => []
  | _ :: t, O => x :: t
  | y :: t, S j => y :: put j x t
  end.

(** Evaluating an argument: the containers there are then, and the number of the one the attribute
    will hold.  None: object i does not exist or has no such attribute (AttributeError). *)
Definition resolve (ts : list thing) (k : kind) (g : option (nat * given box)) (bs : list box) : option (list box * option nat) :=
  match g with
  | None => Some (bs, None)
  | Some (d, Default) => Some (bs, Some d)
  | Some (_, Own b) => Some (bs ++ [b], Some (List.length bs))
  | Some (_, Of i) =>
      match nth_error ts i with
      | None => None
      | Some t => match ref_of k t with None => None | Some r => Some (bs, Some r) end
      end
  end.
(** a new object; with each attribute it has the number of the default and what was given *)
Definition make (h : store) (f : fields) (ga gr gd gt : option (nat * given box)) : store :=
  match resolve (things h) KAttrs ga (boxes h) with
  | None => h
  | Some (b1, a) =>
      match resolve (things h) KRoles gr b1 with
      | None => h
      | Some (b2, r) =>
          match resolve (things h) KDeps gd b2 with
          | None => h
          | Some (b3, d) =>
              match resolve (things h) KTask gt b3 with
              | None => h
              | Some (b4, t) => mkStore b4 (things h ++ [mkThing f a r d t])
              end
          end
      end
  end.
(** the contents as a container *)
Definition as_box {A} (c : A -> box) (g : given A) : given box :=
  match g with Default => Default | Own a => Own (c a) | Of i => Of i end.
(** a method of the container that object i holds in attribute k; an error changes nothing *)
Definition change (h : store) (i : nat) (k : kind) (f : box -> box) : store :=
  match nth_error (things h) i with
  | None => h
  | Some t =>
      match ref_of k t with
      | None => h
      | Some r => match nth_error (boxes h) r with None => h | Some b => mkStore (put r (f b) (boxes h)) (things h) end
      end
  end.
(** d[k] = v *)
Definition set_attr (k v : pystr) (b : box) : box := match b with Attrs d => Attrs (dict_set streqb k v d) | b => b end.
(** s.add(r) *)
Definition add_role (r : role) (b : box) : box := match b with Roles s => Roles (role_add s r) | b => b end.
(** l.append(d) *)
Definition add_dep (d : dependency) (b : box) : box := match b with Deps l => Deps (l ++ [d]) | b => b end.
(** the two assignments *)
Definition set_task (t : task_id) (b : box) : box := match b with Task _ => Task t | b => b end.

(** one step of the program *)
Definition act_step (h : store) (o : act) : store :=
  match o with
  | MakeNode uuid name id eph host ha addr a r v =>   (* discovery_node.py:23-46 *)
      make h (FNode (new_node uuid name id eph host ha addr [] [] v))
        (Some (D_ATTRS, as_box Attrs a)) (Some (D_ROLES, as_box Roles r)) None None
  | MakeExtNode uuid name id addr a v m d =>
      (* discovery_extension_node.py:19-37: the roles are not passed on; a left out version is
         Version(), which is true *)
      make h (FExt (new_node uuid name id None None None addr [] []
                      (Some (match v with Some v => v | None => version_of_id 0 end)))
                (match m with Some m => m | None => version_of_id 0 end))
        (Some (D_EXT_ATTRS, as_box Attrs a)) (Some (D_ROLES, Default)) (Some (D_DEPS, as_box Deps d)) None
  | ReadNode n =>   (* discovery_node.py:48-61: a new dict and a new set *)
      make h (FNode n) (Some (D_ATTRS, Own (Attrs (n_attrs n)))) (Some (D_ROLES, Own (Roles (n_roles n)))) None None
  | ReadExtNode x =>   (* discovery_extension_node.py:39-46: and a new list *)
      make h (FExt (x_node x) (x_min x)) (Some (D_EXT_ATTRS, Own (Attrs (n_attrs (x_node x)))))
        (Some (D_ROLES, Own (Roles (n_roles (x_node x))))) (Some (D_DEPS, Own (Deps (x_deps x)))) None
  | MakeRequest t => make h FRequest None None None (Some (D_TASK, as_box Task t))   (* transport_request.py:17-19 *)
  | ReadRequest t => make h FRequest None None None (Some (D_TASK, Own (Task t)))    (* transport_request.py:21-24 *)
  | SetAttribute i k v => change h i KAttrs (set_attr k v)
  | AddRole i r => change h i KRoles (add_role r)
  | AddDependency i d => change h i KDeps (add_dep d)
  | SetTask i t => change h i KTask (set_task t)
  end.
(** one after the other *)
Definition act_run (h : store) (os : list act) : store := fold_left act_step os h.

(** the container that object i holds in attribute k *)
Definition held_by (h : store) (i : nat) (k : kind) : option box :=
  match nth_error (things h) i with
  | None => None
  | Some t => match ref_of k t with None => None | Some r => nth_error (boxes h) r end
  end.
(** what the object's write_to writes (discovery_node.py:63-77, discovery_extension_node.py:48-54,
    transport_request.py:26-29); None if there is no object i *)
Definition with_containers (n : node) (d : sdict pystr) (s : list role) : node :=
  mkNode (n_name n) (n_id n) (n_eph n) (n_host n) (n_hostaddr n) (n_addr n) d s (n_version n).
(** the object's write_to *)
Definition written (h : store) (i : nat) : option (res bytes) :=
  match nth_error (things h) i with
  | None => None
  | Some t =>
      match th_fields t, held_by h i KAttrs, held_by h i KRoles, held_by h i KDeps, held_by h i KTask with
      | FNode n, Some (Attrs d), Some (Roles s), _, _ => Some (write_node (with_containers n d s))
      | FExt n m, Some (Attrs d), Some (Roles s), Some (Deps l), _ =>
          Some (write_ext_node (mkExtNode (with_containers n d s) m l))
      | FRequest, _, _, _, Some (Task t) => Some (write_transport_request t)
      | _, _, _, _, _ => None
      end
  end.

(** transport_handshake_request_handler.py:34-49 in that process: the node is made without
    attributes *)
Definition handshake_node (h : store) (ev : env) (uuid : bytes) : node :=
  new_node uuid (py "hello-world") (py "hello-world") None None None
    (new_addr 0x7F000001 1234 None)
    (match nth_error (boxes h) D_ATTRS with Some (Attrs d) => d | _ => [] end)
    (e_roles ev [CLUSTER_MANAGER_ROLE; DATA_ROLE; INGEST_ROLE; REMOTE_CLUSTER_CLIENT_ROLE])
    None.
