(** Independent specifications for URNs (C29-C32, C65). *)
From Verif Require Import Base.
Open Scope string_scope.

(** The separator occurs in [s]. *)
Definition has_sep (s : string) : Prop := exists x y, s = x ++ "::" ++ y.
Definition ends_in_colon (s : string) : Prop := exists x, s = x ++ ":".
Definition starts_with_colon (s : string) : Prop := exists x, s = ":" ++ x.

(** Can stand before a separator. *)
Definition piece (s : string) : Prop := ~ has_sep s /\ ~ ends_in_colon s.
(** Can stand after the last separator and be found from the right. *)
Definition last_piece (s : string) : Prop := ~ has_sep s /\ ~ starts_with_colon s.

(** The URN of a resource. *)
Definition urn_of (stack project qtype name : string) : string :=
  "urn:pulumi:" ++ stack ++ "::" ++ project ++ "::" ++ qtype ++ "::" ++ name.

(** A stack name a URN can carry. *)
Definition stack_name (s : string) : Prop := piece s /\ s <> "" /\ ~ starts_with_colon s.

Definition has_char (c : ascii) (s : string) : Prop := exists x y, s = x ++ String c y.

(** Structured URNs: the types of the ancestors (outermost first), the own
    type and the name. *)
Record surn : Type := mkSurn {
  s_stack : string; s_project : string; s_ancestors : list string; s_type : string; s_name : string
}.
Definition qualified (ancestors : list string) (type_ : string) : string :=
  fold_right (fun a rest => a ++ "$" ++ rest) type_ ancestors.
Definition render (u : surn) : string :=
  urn_of (s_stack u) (s_project u) (qualified (s_ancestors u) (s_type u)) (s_name u).
Definition good_surn (u : surn) : Prop :=
  stack_name (s_stack u) /\ piece (s_project u) /\
  Forall (fun t => piece t /\ ~ has_char "$" t) (s_type u :: s_ancestors u) /\
  last_piece (s_name u).

(** A resource with the given type and name under the parent [u]. *)
Definition child_of (u : surn) (type_ name : string) : surn :=
  mkSurn (s_stack u) (s_project u) (s_ancestors u ++ [s_type u])%list type_ name.

(** The child's name when its parent is renamed. *)
Fixpoint strip (p s : string) : option string :=
  match p, s with
  | "", _ => Some s
  | String a p', String b s' => if Ascii.eqb a b then strip p' s' else None
  | _, "" => None
  end.
Definition renamed (old_parent new_parent child : string) : string :=
  match strip old_parent child with Some suffix => new_parent ++ suffix | None => child end.

(** Aliases as users write them: a URN, or an object whose missing fields are
    those of the resource itself. *)
Inductive sparent : Type := SameParent | NoParentAtAll | UnderUrn (u : surn).
Inductive salias : Type :=
| ByUrn (u : surn)
| ByParts (name type_ : option string) (parent : sparent) (project stack : option string).

Definition or_default {A} (o : option A) (d : A) : A := match o with Some x => x | None => d end.

Definition alias_denotes (project stack name type_ : string) (parent : option surn) (a : salias) : surn :=
  match a with
  | ByUrn u => u
  | ByParts n t p pr st =>
      let at_root := mkSurn (or_default st stack) (or_default pr project) [] (or_default t type_) (or_default n name) in
      let under u := child_of u (or_default t type_) (or_default n name) in
      match p with
      | NoParentAtAll => at_root
      | UnderUrn u => under u
      | SameParent => match parent with Some u => under u | None => at_root end
      end
  end.

(** What the resource would be called under the parent alias [pa]. *)
Definition under_parent_alias (parent_name : string) (pa : surn) (type_ name : string) : surn :=
  child_of pa type_ (renamed parent_name (s_name pa) name).

Definition expected_aliases (project stack name type_ : string) (own : list salias)
    (parent : option (string * surn * list surn)) : list surn :=
  match parent with
  | None => map (alias_denotes project stack name type_ None) own
  | Some (pname, purn, paliases) =>
      let mine := map (alias_denotes project stack name type_ (Some purn)) own in
      (mine ++ flat_map (fun pa =>
         under_parent_alias pname pa type_ name ::
         map (fun u => under_parent_alias pname pa (s_type u) (s_name u)) mine) paliases)%list
  end.
