(** Programs that changed since they were last deployed: the URNs and aliases
    of their resources (resource.py, runtime/resource.py), and how the engine
    (Go: pkg/resource/deploy) matches them with what is deployed. *)
From Verif Require Import Base Model_Urn.
Open Scope string_scope.

(** The stack and the project a program runs in. *)
Record env : Type := mkEnv { v_stack : string; v_project : string }.

(** sdk/go/common/resource/urn.go:56-69 [NewURN]. *)
Definition new_urn (v : env) (parent_type type_ name : string) : string :=
  let typ := if String.eqb parent_type "" then type_ else parent_type ++ "$" ++ type_ in
  "urn:pulumi:" ++ v_stack v ++ "::" ++ v_project v ++ "::" ++ typ ++ "::" ++ name.
(** urn.go:80-84 [URNName], 97-99 [QualifiedType], 102-107 [Type]: both
    panic on other strings than URNs, which do not get here. *)
Definition qualified_type (u : string) : string := nth 2 (split_cc (sdrop 11 u)) "".
Definition type_of (u : string) : string := slast (split_c "$" (qualified_type u)).
(** deployment.go:396-405 [generateURN]. *)
Definition generate_urn (v : env) (parent type_ name : string) : string :=
  new_urn v (if String.eqb parent "" || String.eqb (type_of parent) "pulumi:pulumi:Stack" then "" else qualified_type parent) type_ name.

(** The stack's own resource, runtime/stack.py:141-143. *)
Definition stack_name_of (v : env) : string := v_project v ++ "-" ++ v_stack v.
Definition stack_urn (v : env) : string := generate_urn v "" "pulumi:pulumi:Stack" (stack_name_of v).

(* ------------------------------------------------------------------ *)

(** step_generator.go:37-69: the URNs that have been registered; those that
    exist already and are kept, updated or replaced; the old URNs that were
    found by an alias, with the new ones. *)
Record gen : Type := mkGen { n_urns : list string; n_kept : list string; n_aliased : dict string }.
Definition new_gen (v : env) : gen := mkGen [stack_urn v] [stack_urn v] [].

(** What the engine takes a resource to be: one that exists, or a new one. *)
Inductive taken : Type := Existing (old : string) | Fresh.

(** The request to register a resource: what matters here. *)
Record declared : Type := mkDeclared { q_type : string; q_name : string; q_parent : string; q_aliases : list string }.

(** step_generator.go:115-148 [checkParent], 151-163 [generateURN], 341-375
    [generateSteps].  [olds]: the URNs of the deployed resources.
    Simplifications: no targets and no plans are given, the old resources are
    neither external nor marked for deletion, and the request is valid
    otherwise. *)
Definition register (v : env) (olds : list string) (g : gen) (r : declared) : res (gen * string * taken) :=
  if negb (String.eqb (q_parent r) "") && negb (smem (q_parent r) (n_urns g))
  then Err (Exn "error" ("could not find parent resource " ++ q_parent r))
  else
    let urn := generate_urn v (q_parent r) (q_type r) (q_name r) in
    if smem urn (n_urns g) then Err (Exn "error" ("Duplicate resource URN '" ++ urn ++ "'"))
    else
      let urns := urn :: n_urns g in
      match find (fun u => smem u olds) (urn :: q_aliases r) with
      | None => Ok (mkGen urns (n_kept g) (n_aliased g), urn, Fresh)
      | Some u =>
          if String.eqb u urn then Ok (mkGen urns (urn :: n_kept g) (n_aliased g), urn, Existing u)
          else if dmem (n_aliased g) u then Err (Exn "error" ("Duplicate resource alias '" ++ u ++ "'"))
          else Ok (mkGen urns (urn :: n_kept g) (dset (n_aliased g) u urn), urn, Existing u)
      end.

(** step_generator.go:905-955 [GenerateDeletes]. *)
Definition deletes (olds : list string) (g : gen) : list string :=
  filter (fun u => negb (smem u (n_kept g)) && negb (dmem (n_aliased g) u)) (rev olds).

(* ------------------------------------------------------------------ *)

(** A resource a program declares: its name, type, the parent given in its
    options (none, the stack, or a resource declared earlier) and the aliases
    given. *)
Inductive given_parent : Type := Top | Stack | Under (i : nat).
Record decl : Type := mkDecl { k_name : string; k_type : string; k_parent : given_parent; k_aliases : list alias }.

(** resource.py:928: [opts.parent] as [all_aliases] sees it; [infos] are the
    resources declared so far. *)
Definition parent_info_of (v : env) (infos : list parent_info) (p : given_parent) : res (option parent_info) :=
  match p with
  | Top => Ok None
  | Stack => Ok (Some (mkParent (stack_name_of v) (stack_urn v) []))
  | Under i => match nth_error infos i with
               | Some x => Ok (Some x)
               | None => Err (Exn "NameError" "not declared yet")
               end
  end.

(** resource.py:928 and runtime/resource.py:132-141, 174-182, 561-588: declaring
    a resource and registering it.  The resource's URN is the one the engine
    answers with. *)
Record running : Type := mkRunning { x_infos : list parent_info; x_gen : gen; x_taken : list taken }.
Definition declare (v : env) (olds : list string) (x : running) (d : decl) : res running :=
  let+ parent := parent_info_of v (x_infos x) (k_parent d) in
  let+ aliases := all_aliases (v_project v) (v_stack v) (k_aliases d) (k_name d) (k_type d) parent in
  let parent_urn := match parent with Some p => p_urn p | None => stack_urn v end in
  let+ a := register v olds (x_gen x) (mkDeclared (k_type d) (k_name d) parent_urn (unique_aliases aliases)) in
  let '(g, urn, t) := a in
  Ok (mkRunning (x_infos x ++ [mkParent (k_name d) urn aliases]) g (x_taken x ++ [t]))%list.

Fixpoint declare_all (v : env) (olds : list string) (x : running) (ds : list decl) : res running :=
  match ds with
  | [] => Ok x
  | d :: ds' => let+ x' := declare v olds x d in declare_all v olds x' ds'
  end.

(** A whole deployment: the resources declared, what each was taken to be, and
    the URNs of the resources deleted. *)
Record deployed : Type := mkDeployed { y_infos : list parent_info; y_taken : list taken; y_deleted : list string }.
Definition deploy (v : env) (olds : list string) (ds : list decl) : res deployed :=
  let+ x := declare_all v olds (mkRunning [] (new_gen v) []) ds in
  Ok (mkDeployed (x_infos x) (x_taken x) (deletes olds (x_gen x))).
(** The URNs of the resources there are afterwards, besides the stack's. *)
Definition urns_of (y : deployed) : list string := map p_urn (y_infos y).
