(** resource.py: constructing a resource (transformations, inherited options,
    provider selection). *)
From Verif Require Import Base PyVal Model_Urn Model_Options.
Open Scope string_scope.

(** What the constructor leaves on a resource object (resource.py:862-928), with
    the options it was given and those it registered with. *)
Record resource : Type := mkResource {
  s_type : string;
  s_custom : bool;
  s_given : ropts;
  s_opts : ropts;
  s_transformations : list nat;
  s_protect : bool;
  s_provider : option provider;
  s_providers : dict provider
}.
(** Resources by address, and the root stack resource (settings.py
    [get_root_resource]). *)
Record world : Type := mkWorld { w_resources : list resource; w_root : option nat }.
Definition wget (w : world) (n : nat) : option resource := nth_error (w_resources w) n.

Definition inputs : Type := dict pyval.
(** resource.py:856-880: a transformation maps type, name, properties and
    options to new properties and options, to None, or raises. *)
Definition transformation : Type := string -> string -> inputs -> ropts -> res (option (inputs * ropts)).

Definition opt_nat_eqb (a b : option nat) : bool :=
  match a, b with
  | None, None => true
  | Some x, Some y => Nat.eqb x y
  | _, _ => false
  end.
Definition reparented : exn :=
  Exn "Exception" "Transformations cannot currently be used to change the `parent` of a resource.".
Fixpoint run_transformations (tf : nat -> transformation) (t name : string) (ts : list nat) (props : inputs) (opts : ropts)
    : res (inputs * ropts) :=
  match ts with
  | [] => Ok (props, opts)
  | x :: ts' =>
      let+ r := tf x t name props opts in
      match r with
      | None => run_transformations tf t name ts' props opts
      | Some (props', opts') =>
          if negb (opt_nat_eqb (ro_parent opts') (ro_parent opts)) then Err reparented
          else run_transformations tf t name ts' props' opts'
      end
  end.

(** resource.py:905-908: the package of a type with three components. *)
Definition type_package (t : string) : option string :=
  match split_c ":" t with [p; _; _] => Some p | _ => None end.

(** resource.py:1038-1054 [get_provider]. *)
Definition get_provider (r : resource) (t : string) : option provider :=
  match type_package t with Some pkg => dget (s_providers r) pkg | None => None end.

Definition or_else {A} (a b : option A) : option A := match a with Some _ => a | None => b end.
(** [pkg] is truthy. *)
Definition pkg_of (pkg : option string) : option string :=
  match pkg with Some p => if String.eqb p "" then None else Some p | None => None end.

(** resource.py:945-998 [_get_providers]; [inherited] is [self._providers] before
    the call, [parent] is [opts.parent].  Warnings are not modelled. *)
Definition get_providers (t : string) (pkg : option string) (opts : ropts) (inherited : dict provider) (parent : option resource)
    : option provider * dict provider :=
  let opts_providers := match ro_providers opts with
                        | Some (PList l) => fold_left (fun d p => dset d (p_package p) p) l []
                        | Some (PMap d) => d
                        | None => []
                        end in
  let ambient := match pkg_of pkg with Some p => dget opts_providers p | None => None end in
  let parent_provider := match parent with Some r => get_provider r t | None => None end in
  let provider := or_else (ro_provider opts) (or_else ambient parent_provider) in
  let opts_providers' := match pkg_of pkg, ro_provider opts with
                         | Some p, Some q => if dmem opts_providers p then opts_providers else dset opts_providers p q
                         | _, _ => opts_providers
                         end in
  (provider, dupdate inherited opts_providers').

Definition set_provider (o : ropts) (protect : option bool) (p : option provider) : ropts :=
  mkRopts (ro_merge o) (ro_parent o) (ro_depends_on o) protect p (ro_providers o) (ro_delete_before_replace o)
    (ro_ignore_changes o) (ro_version o) (ro_aliases o) (ro_additional_secret_outputs o) (ro_id o) (ro_import o)
    (ro_custom_timeouts o) (ro_transformations o) (ro_urn o) (ro_replace_on_changes o) (ro_plugin_download_url o)
    (ro_retain_on_delete o).

(** What the constructor asks the engine for (resource.py:930-943). *)
Inductive request : Type :=
| RGet (urn : string) (props : inputs)
| RRead (t name : string) (props : inputs) (opts : ropts)
| RRegister (t name : string) (custom : bool) (props : inputs) (opts : ropts).

Definition wrong_provider : exn := Exn "ValueError" "Attempted to register resource with a provider for another package".
Definition is_some {A} (o : option A) : bool := match o with Some _ => true | None => false end.

(** resource.py:799-943 [Resource.__init__] (not a dependency resource).  The
    result is the world with the new resource, its address and the request.
    Not modelled here: input-type properties ([Model_Types.v]), aliases
    ([Model_Urn.v]), the parent's set of children ([Model_Deps.v]).
    [opts.parent] is an address in the world. *)
Definition construct (tf : nat -> transformation) (w : world) (t name : string) (custom : bool) (props : inputs) (given : ropts)
    : res (world * nat * request) :=
  if String.eqb t "" then Err (Exn "TypeError" "Missing resource type argument")
  else if String.eqb name "" then Err (Exn "TypeError" "Missing resource name argument (for URN creation)")
  else
    let parent := match or_else (ro_parent given) (w_root w) with Some p => wget w p | None => None end in
    let parent_transformations := match parent with Some r => s_transformations r | None => [] end in
    let ts := (match ro_transformations given with Some l => l | None => [] end ++ parent_transformations)%list in
    let+ po := run_transformations tf t name ts props given in
    let (props', opts) := po : inputs * ropts in
    let opts_parent := match ro_parent opts with Some p => wget w p | None => None end in
    let protect := match opts_parent with
                   | Some r => or_else (ro_protect opts) (Some (s_protect r))
                   | None => ro_protect opts
                   end in
    let inherited := match opts_parent with Some r => s_providers r | None => [] end in
    let pkg := type_package t in
    let (prov, provs) := get_providers t pkg opts inherited opts_parent in
    let opts' := set_provider opts protect prov in
    let self_provider := if custom then prov else None in
    if match self_provider with
       | Some p => match pkg with Some k => negb (String.eqb (p_package p) k) | None => true end
       | None => false
       end
    then Err wrong_provider
    else
      let self := mkResource t custom given opts' ts (match protect with Some b => b | None => false end) self_provider provs in
      let w' := mkWorld (w_resources w ++ [self])%list (w_root w) in
      let n := length (w_resources w) in
      match ro_urn opts' with
      | Some u => Ok (w', n, RGet u props')
      | None =>
          if is_some (ro_id opts') then
            (if custom then Ok (w', n, RRead t name props' opts')
             else Err (Exn "Exception" "Cannot read an existing resource unless it has a custom provider"))
          else Ok (w', n, RRegister t name custom props' opts')
      end.

(** runtime/stack.py:136-158 [Stack.__init__] up to running the program: the
    stack resource becomes the root. *)
Definition new_stack (tf : nat -> transformation) (w : world) (name : string) : res world :=
  match w_root w with
  | Some _ => Err (Exn "Exception" "Only one root Pulumi Stack may be active at once")
  | None =>
      let+ r := construct tf w "pulumi:pulumi:Stack" name false [] (new_ropts 0) in
      let '(w', n, _) := r in
      Ok (mkWorld (w_resources w') (Some n))
  end.

Fixpoint rset (l : list resource) (n : nat) (r : resource) : list resource :=
  match l, n with
  | [], _ => []
  | _ :: l', 0 => r :: l'
  | x :: l', S n' => x :: rset l' n' r
  end.
(** runtime/stack.py:258-270 [register_stack_transformation]. *)
Definition register_stack_transformation (w : world) (x : nat) : res world :=
  match w_root w with
  | None => Err (Exn "Exception" "The root stack resource was referenced before it was initialized.")
  | Some n =>
      match wget w n with
      | None => Ok w
      | Some r => Ok (mkWorld (rset (w_resources w) n (mkResource (s_type r) (s_custom r) (s_given r) (s_opts r)
                        (s_transformations r ++ [x])%list (s_protect r) (s_provider r) (s_providers r))) (w_root w))
      end
  end.
