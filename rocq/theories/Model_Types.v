(** _types.py: classes decorated with @input_type and @output_type *)
From Verif Require Import Base PyVal.
Open Scope string_scope.

(** _types.py:318-331 [_Property]: the Python name, the Pulumi name and the
    default ([None]: MISSING). *)
Record prop : Type := mkProp { p_python : string; p_pulumi : string; p_default : option pyval }.

(** How the class gets its __init__: from _types.py:391-404 (properties declared
    by annotations), or written like the code generator writes it, one
    [pulumi.set(__self__, "name", name)] per property, under [if name is not
    None] when the parameter's default is None. *)
Inductive init_style : Type := IAnnotations | ISetCalls.

(** A decorated class without base classes of its own (simplification:
    _types.py:447-454 also walks the bases).  [d_translate]: its
    [_translate_property] method, if any, as a function. *)
Record decl : Type := mkDecl {
  d_input : bool;
  d_props : list prop;
  d_translate : option (string -> string);
  d_init : init_style }.

(** What an object stores: itself for a dict subclass, else its [__dict__]. *)
Definition storage : Type := dict pyval.

(** _types.py:563-571: the table from Python to Pulumi names. *)
Definition name_table (D : decl) : dict string :=
  fold_left (fun t p => if String.eqb (p_python p) (p_pulumi p) then t else dset t (p_python p) (p_pulumi p)) (d_props D) [].

(** _types.py:617-630 [_translate_name]. *)
Definition translate_name (D : decl) (name : string) : string :=
  match d_translate D with
  | Some tr =>
      tr (match dget (name_table D) name with
          | Some n => if String.eqb n "" then name else n
          | None => name
          end)
  | None => name
  end.
Definition slot (D : decl) (name : string) : string := if d_input D then name else translate_name D name.

Definition missing_name : exn := Exn "TypeError" "Missing name argument".
(** _types.py:633-662 [get], 665-688 [set]. *)
Definition tget (D : decl) (o : storage) (name : string) : res pyval :=
  if String.eqb name "" then Err missing_name
  else Ok (match dget o (slot D name) with Some v => v | None => VNone end).
Definition tset (D : decl) (o : storage) (name : string) (v : pyval) : res storage :=
  if String.eqb name "" then Err missing_name else Ok (dset o (slot D name) v).

(** _types.py:1094-1110: a parameter without default may not follow one with. *)
Fixpoint defaults_last (seen : bool) (ps : list prop) : res unit :=
  match ps with
  | [] => Ok tt
  | p :: ps' =>
      match p_default p with
      | Some _ => defaults_last true ps'
      | None => if seen then Err (Exn "TypeError" "non-default argument follows default argument") else defaults_last seen ps'
      end
  end.
(** _types.py:324-328: names are not empty; the decorator itself. *)
Definition declare (D : decl) : res unit :=
  if existsb (fun p => String.eqb (p_pulumi p) "") (d_props D) then Err missing_name
  else match d_init D with IAnnotations => defaults_last false (d_props D) | ISetCalls => Ok tt end.

(** The value of a parameter: given by keyword, or its default. *)
Definition param (args : dict pyval) (p : prop) : res pyval :=
  match dget args (p_python p) with
  | Some v => Ok v
  | None => match p_default p with
            | Some v => Ok v
            | None => Err (Exn "TypeError" "missing a required keyword-only argument")
            end
  end.
Definition none_default (p : prop) : bool := match p_default p with Some VNone => true | _ => false end.
(** _types.py:1045-1077 [_property_init]: one assignment of __init__. *)
Definition init_one (D : decl) (o : storage) (p : prop) (v : pyval) : res storage :=
  if none_default p && is_none v then Ok o
  else match d_init D with
       | IAnnotations =>
           Ok (dset o (match d_translate D with
                       | Some tr => if d_input D then p_python p else tr (p_pulumi p)
                       | None => p_python p end) v)
       | ISetCalls => tset D o (p_python p) v
       end.
Fixpoint init_all (D : decl) (args : dict pyval) (ps : list prop) (o : storage) : res storage :=
  match ps with
  | [] => Ok o
  | p :: ps' =>
      let+ v := param args p in
      let+ o := init_one D o p v in
      init_all D args ps' o
  end.
(** Calling the class: keyword arguments only. *)
Definition construct (D : decl) (args : dict pyval) : res storage :=
  if forallb (fun kv => smem (fst kv) (map p_python (d_props D))) args then init_all D args (d_props D) []
  else Err (Exn "TypeError" "got an unexpected keyword argument").

(** _types.py:509-525 [input_type_to_dict]. *)
Fixpoint to_dict_from (D : decl) (o : storage) (ps : list prop) (acc : dict pyval) : res (dict pyval) :=
  match ps with
  | [] => Ok acc
  | p :: ps' =>
      let+ v := tget D o (p_python p) in
      to_dict_from D o ps' (if is_none v then acc else dset acc (p_pulumi p) v)
  end.
Definition input_to_dict (D : decl) (o : storage) : res (dict pyval) :=
  if d_input D then to_dict_from D o (d_props D) [] else Err (Exn "AssertionError" "").

(** _types.py:575-581 [output_type_from_dict]. *)
Definition output_from_dict (D : decl) (output : dict pyval) : res storage :=
  if d_input D then Err (Exn "AssertionError" "")
  else construct D (fold_left (fun args p => dset args (p_python p) (match dget output (p_pulumi p) with Some v => v | None => VNone end)) (d_props D) []).

(** Writes after construction. *)
Definition tsets (D : decl) (o : storage) (ws : list (string * pyval)) : res storage :=
  fold_left (fun acc w => let+ o := acc in tset D o (fst w) (snd w)) ws (Ok o).
