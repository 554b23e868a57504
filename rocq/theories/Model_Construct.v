(** The options of a component that the engine asks a provider to construct:
    provider/server.py:162-176, 402-416, and how the component is registered
    with them. *)
From Verif Require Import Base PyVal Model_Output Model_Rpc.
From Verif Require Model_Urn Model_Deps.
From Verif Require Import Model_Options Model_Resource Model_Request.
Open Scope string_scope.

(** The fields of a ConstructRequest (sdk/proto/provider.proto) that are about
    options; an absent parent is the empty text. *)
Record construct_request : Type := mkConstruct {
  cq_type : string;
  cq_name : string;
  cq_parent : string;
  cq_aliases : list string;
  cq_dependencies : list string;
  cq_protect : bool;
  cq_providers : dict string
}.

(** Provider objects, by identity: the URN and id they will have. *)
Definition objects : Type := list (fut (string * option string)).
(** Registered packages (runtime/rpc.py:1157-1184; C39): by package, what
    [construct_provider(name, type, urn)] returns: the package of the object,
    its URN and id. *)
Definition packages : Type := string -> option (string -> string -> string -> string * fut (string * option string)).

(** provider/server.py:402-416 [_create_provider_resource]. *)
Definition create_provider (reg : packages) (h : objects) (ref : string) : res (provider * objects) :=
  let+ ui := Model_Urn.parse_resource_reference ref in
  let+ parts := Model_Urn.parse_urn (fst ui) in
  match reg (Model_Urn.u_tname parts) with
  | Some make =>
      let o := make (Model_Urn.u_name parts) (Model_Urn.u_typ parts) (fst ui) in
      Ok (mkProvider (fst o) (length h), (h ++ [snd o])%list)
  | None =>
      let+ p := Model_Deps.dependency_provider ref in
      Ok (mkProvider (Model_Deps.pv_package p) (length h), (h ++ [Done (Model_Deps.pv_urn p, Model_Deps.pv_id p)])%list)
  end.
Fixpoint create_providers (reg : packages) (h : objects) (d : dict string) : res (dict provider * objects) :=
  match d with
  | [] => Ok ([], h)
  | (k, ref) :: d' =>
      let+ p := create_provider reg h ref in
      let+ ps := create_providers reg (snd p) d' in
      Ok ((k, fst p) :: fst ps, snd ps)
  end.

(** provider/server.py:364-365 [_empty_as_none]. *)
Definition empty_as_none (s : string) : option string := if String.eqb s "" then None else Some s.
(** [not x] for a text or None. *)
Definition falsy (o : option string) : bool :=
  match o with Some s => String.eqb s "" | None => true end.

(** provider/server.py:162-176 [_construct_options]: the options, apart from
    the parent, a DependencyResource. *)
Record component_options : Type := mkComponentOptions { co_opts : ropts; co_parent : option string }.
Definition construct_options (reg : packages) (h : objects) (r : construct_request) : res (component_options * objects) :=
  let parent := if falsy (empty_as_none (cq_parent r)) then Some (cq_parent r) else None in
  let+ ps := create_providers reg h (cq_providers r) in
  Ok (mkComponentOptions
        (mkRopts 0 None (Some (VList (map (fun u => VRes (RDep u)) (cq_dependencies r)))) (Some (cq_protect r))
           None (Some (PMap (fst ps))) None None None (Some (map VStr (cq_aliases r))) None None None None None None None None None)
        parent, snd ps).

(** resource.py:799-943: a component constructed with these options.  A
    DependencyResource has no transformations (resource.py:823-826, 859-861). *)
Definition new_component (tf : nat -> transformation) (w : world) (t name : string) (props : inputs) (o : component_options)
    : res (world * nat * request) :=
  match co_parent o with
  | None => construct tf w t name false props (co_opts o)
  | Some _ =>
      if String.eqb t "" then Err (Exn "TypeError" "Missing resource type argument")
      else if String.eqb name "" then Err (Exn "TypeError" "Missing resource name argument (for URN creation)")
      else Err (Exn "AttributeError" "'DependencyResource' object has no attribute '_transformations'")
  end.

(** resource.py:118-167 and 928: the aliases of a component without a parent;
    here aliases are URNs. *)
Definition alias_urns (o : ropts) : list string :=
  flat_map (fun v => match v with VStr u => [u] | _ => [] end) (match ro_aliases o with Some l => l | None => [] end).
Definition component_aliases (project stack t name : string) (o : ropts) : list (fut (option string)) :=
  match Model_Urn.all_aliases project stack (map Model_Urn.AliasUrn (alias_urns o)) name t None with
  | Ok us => map (fun u => Done (Some u)) us
  | Err e => [Fail e]
  end.
