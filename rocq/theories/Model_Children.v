(** The children of resources (resource.py:888-896 [_childResources]) and what
    a construction leaves behind when it raises. *)
From Verif Require Import Base PyVal Model_Options Model_Resource.
From Verif Require Model_Deps.
Open Scope string_scope.

(** An object in a set of children: a resource (by address), or the object of
    a constructor that raised, with its class and a number of its own. *)
Inductive kid : Type :=
| Made (n : nat)
| Broken (component : bool) (i : nat).

(** The resources, which of them are remote components (resource.py:1119
    [_remote]), the members of the sets of children in order of insertion, and
    the number of objects whose constructor raised. *)
Record family : Type := mkFamily {
  fm_world : world;
  fm_remote : list nat;
  fm_children : list (nat * kid);
  fm_broken : nat
}.

(** resource.py:896 [opts.parent._childResources.add(self)]; a new object is not
    in the set. *)
Definition add_child (l : list (nat * kid)) (parent : option nat) (k : kid) : list (nat * kid) :=
  match parent with Some p => (l ++ [(p, k)])%list | None => l end.

(** resource.py:799-943 [Resource.__init__], with its effect on the parent's set
    of children also when it raises.  [aliases] is the exception that
    computing the aliases raises (line 928), if any.  Simplification: if the
    aliases and the check of the id (line 935) both fail, the exception
    of the latter is given. *)
Definition attempt (tf : nat -> transformation) (aliases : option exn) (f : family) (t name : string) (custom remote : bool)
    (props : inputs) (given : ropts) : family * res (nat * request) :=
  let w := fm_world f in
  if String.eqb t "" then (f, Err (Exn "TypeError" "Missing resource type argument"))
  else if String.eqb name "" then (f, Err (Exn "TypeError" "Missing resource name argument (for URN creation)"))
  else
    let parent := match or_else (ro_parent given) (w_root w) with Some p => wget w p | None => None end in
    let parent_transformations := match parent with Some r => s_transformations r | None => [] end in
    let ts := (match ro_transformations given with Some l => l | None => [] end ++ parent_transformations)%list in
    match run_transformations tf t name ts props given with
    | Err e => (f, Err e)
    | Ok po =>
        let opts := snd po in
        match (let+ r := construct tf w t name custom props given in
               match aliases with Some e => Err e | None => Ok r end) with
        | Ok (w', n, q) =>
            (mkFamily w' (if remote then n :: fm_remote f else fm_remote f)
               (add_child (fm_children f) (ro_parent opts) (Made n)) (fm_broken f), Ok (n, q))
        | Err e =>
            (mkFamily w (fm_remote f) (add_child (fm_children f) (ro_parent opts) (Broken (negb custom) (fm_broken f)))
               (S (fm_broken f)), Err e)
        end
    end.

(** runtime/resource.py:802 [isinstance(res, ComponentResource) and not
    res._remote]. *)
Definition is_local (f : family) (n : nat) : bool :=
  match wget (fm_world f) n with Some r => negb (s_custom r) && negb (nmem n (fm_remote f)) | None => false end.
(** The members of the set of children of [n]. *)
Definition children_of (f : family) (n : nat) : list kid :=
  map snd (filter (fun pk => Nat.eqb (fst pk) n) (fm_children f)).

(** The objects as [_add_dependency] (runtime/resource.py:767-811) sees them;
    [urns] is what awaiting the URN of a resource gives.  An object whose
    constructor raised has no attribute [_remote] (components) and no entry
    "urn" (resource.py:1006).  The first argument bounds the depth, which
    is less than the number of resources. *)
Fixpoint object (fuel : nat) (urns : nat -> res (option string)) (f : family) (k : kid) : Model_Deps.rsrc :=
  match k with
  | Broken c i => Model_Deps.Rsrc (2 * i + 1) false
      (Err (if c then Exn "AttributeError" "object has no attribute '_remote'" else Exn "KeyError" "urn")) []
  | Made n => Model_Deps.Rsrc (2 * n) (is_local f n) (urns n)
      (match fuel with 0 => [] | S fuel' => map (object fuel' urns f) (children_of f n) end)
  end.
Definition object_of (urns : nat -> res (option string)) (f : family) (n : nat) : Model_Deps.rsrc :=
  object (length (w_resources (fm_world f))) urns f (Made n).
