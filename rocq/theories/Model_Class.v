(** The properties of a resource class or of an input or output type and its
    base classes: _types.py:346-505, 584-614, 769-947, and the translations of
    names that use them (runtime/resource.py:299-349, runtime/rpc.py:1003-1050). *)
From Verif Require Import Base PyVal Model_Annot.
Open Scope string_scope.

(** A class attribute: [pulumi.property("name")], a Python property whose
    getter is marked with [@pulumi.getter(name=...)] and its return annotation
    (None: none), or anything else. *)
Inductive attr : Type :=
| PProperty (name : string)
| PGetter (name : string) (ret : option ann)
| PPlain.

(** One class statement: its annotations, its other attributes, and whether it
    was decorated with @input_type or @output_type. *)
Record base : Type := mkBase { b_anns : list (string * ann); b_attrs : list (string * attr); b_marked : bool }.

(** A class: the reversed __mro__, so the class itself is last. *)
Definition class : Type := list base.
Definition own (c : class) : base := last c (mkBase [] [] false).

(** [getattr(cls, n)]: the most derived class wins. *)
Definition getattr (c : class) (n : string) : option attr :=
  fold_left (fun r b => match dget (b_attrs b) n with Some a => Some a | None => r end) c None.

(** _types.py:447-454 [_py_properties]. *)
Definition py_properties (c : class) : list (string * (string * option ann)) :=
  flat_map (fun b => flat_map (fun na => match snd na with PGetter p r => [(fst na, (p, r))] | _ => [] end) (b_attrs b)) c.

(** _types.py:876-886 [_names_from_annotations] and 346-367
    [_properties_from_annotations]: only the class itself. *)
Definition annotated (c : class) : list (string * (string * option ann)) :=
  map (fun na => (fst na, (match getattr c (fst na) with Some (PProperty p) => p | _ => fst na end, Some (snd na)))) (b_anns (own c)).

Definition by_py (l : list (string * (string * option ann))) : list (string * string) :=
  map (fun x => (fst x, fst (snd x))) l.
Definition by_pulumi (l : list (string * (string * option ann))) : list (string * string) :=
  map (fun x => (fst (snd x), fst x)) l.
(** _types.py:800-814, 863-873: the types by Pulumi name. *)
Fixpoint types_of (l : list (string * (string * option ann))) (acc : dict ann) : res (dict ann) :=
  match l with
  | [] => Ok acc
  | (_, (p, None)) :: l' => types_of l' acc
  | (_, (p, Some a)) :: l' =>
      let+ t := unwrap_type a in
      types_of l' (match t with AOutput => acc | _ => dset acc p t end)
  end.

(** _types.py:936-947, 922-933, 908-919: resources. *)
Definition resource_py_to_pulumi (c : class) : dict string :=
  dupdate (dupdate [] (by_py (annotated c))) (dupdate [] (by_py (py_properties c))).
Definition resource_pulumi_to_py (c : class) : dict string :=
  dupdate (dupdate [] (by_pulumi (annotated c))) (dupdate [] (by_pulumi (py_properties c))).
Definition resource_types (c : class) : res (dict ann) :=
  let+ a := types_of (annotated c) [] in
  let+ p := types_of (py_properties c) [] in
  Ok (dupdate a p).

(** [table.get(k) or k]. *)
Definition lookup (d : dict string) (k : string) : string :=
  match dget d k with Some p => if String.eqb p "" then k else p | None => k end.
(** runtime/resource.py:314-332: additional_secret_outputs. *)
Definition secret_outputs (c : class) (l : list string) : list string := map (lookup (resource_py_to_pulumi c)) l.
(** runtime/rpc.py:1012-1016, 1020: the attribute an output becomes. *)
Definition attribute_of (c : class) (k : string) : string := lookup (resource_pulumi_to_py c) k.

(** _types.py:370-389, 457-468, 537-555: decorating a class turns its
    annotations into properties; once only. *)
Definition is_marked (c : class) : bool := existsb b_marked c.
Definition decorate (c : class) : res class :=
  if is_marked c then Err (Exn "AssertionError" "Cannot apply @input_type and @output_type more than once.")
  else
    let kept := filter (fun na => match snd na with PProperty _ => negb (existsb (String.eqb (fst na)) (map fst (b_anns (own c)))) | _ => true end)
                  (b_attrs (own c)) in
    let made := map (fun x => (fst x, PGetter (fst (snd x)) (snd (snd x)))) (annotated c) in
    Ok (removelast c ++ [mkBase (b_anns (own c)) (dupdate kept made) true])%list.

(** _types.py:490-498, 501-506: input and output types. *)
Definition type_py_to_pulumi (c : class) : res (dict string) :=
  if is_marked c then Ok (dupdate [] (by_py (py_properties c))) else Err (Exn "AssertionError" "").
Definition type_types (c : class) : res (dict ann) :=
  if is_marked c then types_of (py_properties c) [] else Err (Exn "AssertionError" "").
(** runtime/resource.py:299-311, 335-349: ignore_changes, replace_on_changes;
    [c] is the class of the resource's arguments. *)
Definition ignore_changes (c : class) (l : list string) : res (list string) :=
  let+ d := type_py_to_pulumi c in Ok (map (lookup d) l).
