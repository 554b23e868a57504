(** URNs and provider references: urn.py, resource.py. *)
From Verif Require Import Base.

(** Python string operations. *)

(** [s.split("::")], as (first piece, further pieces). *)
Fixpoint split2 (s : string) : string * list string :=
  match s with
  | EmptyString => (EmptyString, [])
  | String a r =>
      match r with
      | String b r2 =>
          if Ascii.eqb a ":" && Ascii.eqb b ":"
          then let p := split2 r2 in (EmptyString, fst p :: snd p)
          else let p := split2 r in (String a (fst p), snd p)
      | EmptyString => (String a EmptyString, [])
      end
  end.
Definition split_cc (s : string) : list string := let p := split2 s in fst p :: snd p.

(** [s.split(c)] for a one-character separator. *)
Fixpoint split1 (c : ascii) (s : string) : string * list string :=
  match s with
  | EmptyString => (EmptyString, [])
  | String a r =>
      let p := split1 c r in
      if Ascii.eqb a c then (EmptyString, fst p :: snd p)
      else (String a (fst p), snd p)
  end.
Definition split_c (c : ascii) (s : string) : list string := let p := split1 c s in fst p :: snd p.

Definition slast (l : list string) : string := List.last l EmptyString.

(** [s.rfind("::")]: the index of the last occurrence, None for -1. *)
Fixpoint rfind_cc (s : string) : option nat :=
  match s with
  | EmptyString => None
  | String a r =>
      match rfind_cc r with
      | Some n => Some (S n)
      | None =>
          match r with
          | String b _ => if Ascii.eqb a ":" && Ascii.eqb b ":" then Some 0 else None
          | EmptyString => None
          end
      end
  end.

(** [s[n:]] and [s[:n]] *)
Fixpoint sdrop (n : nat) (s : string) : string :=
  match n, s with
  | 0, _ => s
  | S n', String _ r => sdrop n' r
  | S _, EmptyString => EmptyString
  end.
Fixpoint stake (n : nat) (s : string) : string :=
  match n, s with
  | 0, _ => EmptyString
  | S n', String a r => String a (stake n' r)
  | S _, EmptyString => EmptyString
  end.

(** urn.py:18-41 [_UrnParts], [_parse_urn].  A URN with fewer than three parts
    raises ValueError. *)
Record urn_parts : Type := mkParts {
  u_name : string; u_typ : string; u_pkg : string; u_mod : string; u_tname : string
}.
Definition parse_urn (urn : string) : res urn_parts :=
  let parts := split_cc urn in
  match nth_error parts 2 with
  | None => Err (Exn "ValueError" "Cannot parse URN")
  | Some qualified =>
      let typ := slast (split_c "$" qualified) in
      let tps := split_c ":" typ in
      Ok {| u_name := match nth_error parts 3 with Some n => n | None => EmptyString end;
            u_typ := typ;
            u_pkg := nth 0 tps EmptyString;
            u_mod := nth 1 tps EmptyString;
            u_tname := nth 2 tps EmptyString |}
  end.

(** resource.py:1256: [u[0 : u.rfind("::")] + "$"]; with no "::" the index
    is -1, so the last character is dropped. *)
Definition urn_prefix (u : string) : string :=
  match rfind_cc u with
  | Some n => stake n u ++ "$"
  | None => stake (String.length u - 1) u ++ "$"
  end%string.

(** resource.py:1237-1268 [create_urn] on resolved inputs.  The parent is a
    URN; without parent the project and stack are used. *)
Inductive urn_parent : Type :=
| ParentUrn (u : string)
| NoParent (project stack : string).
Definition create_urn (name type_ : string) (parent : urn_parent) : string :=
  let prefix := match parent with
                | ParentUrn u => urn_prefix u
                | NoParent project stack => ("urn:pulumi:" ++ stack ++ "::" ++ project ++ "::")%string
                end in
  (prefix ++ type_ ++ "::" ++ name)%string.

(** resource.py:81-108 [inherited_child_alias] on resolved inputs. *)
Definition alias_base_name (u : string) : string :=
  match rfind_cc u with
  | Some n => sdrop (n + 2) u
  | None => sdrop 1 u
  end.
Definition inherited_child_alias (child_name parent_name parent_alias child_type : string) : string :=
  let alias_name :=
    if String.prefix parent_name child_name
    then (alias_base_name parent_alias ++ sdrop (String.length parent_name) child_name)%string
    else child_name in
  create_urn alias_name child_type (ParentUrn parent_alias).

(** resource.py:112-115 [urn_type_and_name]: (name, type). *)
Definition urn_type_and_name (urn : string) : res (string * string) :=
  match nth_error (split_cc urn) 2, nth_error (split_cc urn) 3 with
  | Some q, Some n => Ok (n, slast (split_c "$" q))
  | _, _ => Err (Exn "IndexError" "list index out of range")
  end.

(** resource.py:188-259 [Alias]: [None] stands for an argument that was not
    given; the given parent is a URN or (explicitly) no parent.  resource.py:
    the case of an explicit [name=None] or [type_=None] raises and is not
    represented. *)
Inductive alias_parent : Type := APDefault | APNone | APUrn (u : string).
Inductive alias : Type :=
| AliasUrn (u : string)
| AliasObj (name type_ : option string) (parent : alias_parent) (project stack : option string).

(** resource.py:262-291 [collapse_alias_to_urn] on resolved inputs;
    [cur_project], [cur_stack] are get_project(), get_stack(). *)
Definition collapse_alias (cur_project cur_stack : string) (a : alias)
    (dname dtype : string) (dparent : option string) : string :=
  match a with
  | AliasUrn u => u
  | AliasObj n t p pr st =>
      let project := match pr with Some x => x | None => cur_project end in
      let stack := match st with Some x => x | None => cur_stack end in
      let parent := match p with
                    | APDefault => match dparent with Some u => ParentUrn u | None => NoParent project stack end
                    | APNone => NoParent project stack
                    | APUrn u => ParentUrn u
                    end in
      create_urn (match n with Some x => x | None => dname end)
                 (match t with Some x => x | None => dtype end) parent
  end.

(** resource.py:118-167 [all_aliases] on resolved inputs.  [parent]: the parent
    resource's name, URN and (already computed) aliases. *)
Record parent_info : Type := mkParent { p_name : string; p_urn : string; p_aliases : list string }.

Fixpoint rmap_all {A B} (f : A -> res B) (l : list A) : res (list B) :=
  match l with
  | [] => Ok []
  | x :: l' => let+ y := f x in let+ ys := rmap_all f l' in Ok (y :: ys)
  end.

Definition all_aliases (cur_project cur_stack : string) (child_aliases : list alias)
    (child_name child_type : string) (parent : option parent_info) : res (list string) :=
  let dparent := option_map p_urn parent in
  let own := map (fun a => collapse_alias cur_project cur_stack a child_name child_type dparent) child_aliases in
  match parent with
  | None => Ok own
  | Some p =>
      let+ inherited := rmap_all (fun pa =>
          let+ combos := rmap_all (fun u =>
              let+ nt := urn_type_and_name u in
              Ok (inherited_child_alias (fst nt) (p_name p) pa (snd nt))) own in
          Ok (inherited_child_alias child_name (p_name p) pa child_type :: combos)) (p_aliases p) in
      Ok (own ++ concat inherited)
  end.

(** runtime/resource.py:174-182 [prepare_resource]: aliases, made unique, in
    order of first occurrence. *)
Fixpoint dedup (seen : list string) (l : list string) : list string :=
  match l with
  | [] => []
  | x :: l' => if smem x seen then dedup seen l' else x :: dedup (x :: seen) l'
  end.
Definition unique_aliases (l : list string) : list string := dedup [] l.

(** runtime/resource.py:150-152, 162-165 [prepare_resource]: the reference sent
    for a provider with the given URN and id (None or empty: not known), and
    resource.py:1271-1278 [_parse_resource_reference] ([rindex] raises when there is no "::"). *)
Definition provider_ref (urn id : string) : string := (urn ++ "::" ++ id)%string.
Definition parse_resource_reference (ref : string) : res (string * string) :=
  match rfind_cc ref with
  | Some n => Ok (stake n ref, sdrop (n + 2) ref)
  | None => Err (Exn "ValueError" "substring not found")
  end.
