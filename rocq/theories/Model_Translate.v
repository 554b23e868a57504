(** Translating what the engine returned into the declared types:
    runtime/rpc.py:786-925 and _types.py:575-581. *)
From Verif Require Import Base PyVal Model_Rpc.
Open Scope string_scope.

(** Declared types of outputs, as [translate_output_properties] tells them
    apart. *)
Inductive oty : Type :=
| OAny
| OOptional (t : oty)   (* Optional[T]; Python flattens nested ones *)
| OClass (cls : nat)    (* a class decorated with @output_type *)
| ODict (e : oty)       (* Dict[str, T], Mapping[str, T] *)
| ODictBare             (* dict, or a dict type not keyed by str *)
| OList (e : oty)       (* List[T], Sequence[T] *)
| OListBare             (* list, List, Sequence *)
| OEnum (cls : nat)     (* a subclass of Enum *)
| OOther.               (* any other type: str, int, float, a resource, ... *)

(** A declared property of an output type, _types.py:447-454. *)
Record ofield : Type := mkOfield { of_py : string; of_pulumi : string; of_ty : option oty }.

(** Translated values: an instance of the output type [cls] with its
    constructor arguments, a member of the enum [cls], an RPC secret, a list,
    a dict, or a value returned without modification. *)
Inductive tval : Type :=
| TLeaf (v : pyval)
| TList (l : list tval)
| TDict (d : list (string * tval))
| TObj (cls : nat) (args : list (string * option tval))
| TEnum (cls : nat) (v : pyval)
| TSecret (v : tval).

(** The declared output types and enums: [o_enum cls v] tells whether [v] is a
    value of a member of the enum. *)
Record ocfg : Type := mkOcfg {
  o_class : nat -> list ofield;
  o_enum : nat -> pyval -> bool;
  o_meta : bool;                     (* transform_using_type_metadata *)
  o_transform : string -> string     (* output_transformer *)
}.

(** rpc.py:836-842 and _types.py:950-963: unwrap Optional, treat Any as no type. *)
Definition norm_oty (t : option oty) : option oty :=
  match t with
  | Some (OOptional t') => match t' with OAny => None | _ => Some t' end
  | Some OAny => None
  | _ => t
  end.

(** _types.py:769-814, 900-905 [output_type_types]: Pulumi names to types. *)
Definition class_types (fs : list ofield) : dict oty :=
  fold_left (fun acc f => match of_ty f with Some t => dset acc (of_pulumi f) t | None => acc end) fs [].

(** rpc.py:143-160 [_get_list_element_type]. *)
Definition list_type (t : option oty) : res (option oty) :=
  match t with
  | None => Ok None
  | Some OListBare => Ok (Some OAny)
  | Some (OList e) => Ok (Some e)
  | Some _ => Err (Exn "AssertionError" "Unexpected type. Expected 'list'")
  end.

(** rpc.py:636-640 on translated values.  Simplification: the name translation
    never produces the reserved signature key. *)
Definition wrap_secret (t : tval) : tval := match t with TSecret _ => t | _ => TSecret t end.

(** Python dict and list comprehensions over recursive calls; [f] is the
    entry's translation, as a function of the type. *)
Definition tr_fn : Type := option oty -> res tval.
Fixpoint tr_entries (key : string -> string) (ty : string -> option oty) (es : list (string * tr_fn))
    (acc : dict tval) : res (dict tval) :=
  match es with
  | [] => Ok acc
  | (k, f) :: es' => let+ v := f (ty k) in tr_entries key ty es' (dset acc (key k) v)
  end.
Fixpoint tr_elems (t : option oty) (fs : list tr_fn) : res (list tval) :=
  match fs with
  | [] => Ok []
  | f :: fs' => let+ v := f t in let+ vs := tr_elems t fs' in Ok (v :: vs)
  end.

(** _types.py:575-581 [output_type_from_dict]: the constructor arguments, by
    Python name. *)
Definition from_dict (fs : list ofield) (d : dict tval) : list (string * option tval) :=
  fold_left (fun acc f => dset acc (of_py f) (dget d (of_pulumi f))) fs [].

(** rpc.py:786-925 [translate_output_properties].  Simplification: numbers are
    integers, so the float to int conversion (rpc.py:922-923) is the
    identity. *)
Fixpoint translate (c : ocfg) (v : pyval) (t0 : option oty) {struct v} : res tval :=
  match v with
  | VDict d =>
      let es := map (fun kv => (fst kv, translate c (snd kv))) d in
      if is_rpc_secret v then
        match dget es "value" with
        | Some f => let+ r := f t0 in Ok (wrap_secret r)
        | None => Err (Exn "KeyError" "value")
        end
      else
        match norm_oty t0 with
        | Some (OClass cls) =>
            let+ vals := tr_entries (fun k => k) (dget (class_types (o_class c cls))) es [] in
            Ok (TObj cls (from_dict (o_class c cls) vals))
        | Some (ODict e) =>
            let+ r := tr_entries (if o_meta c then fun k => k else o_transform c) (fun _ => Some e) es [] in
            Ok (TDict r)
        | Some ODictBare | None =>
            let+ r := tr_entries (o_transform c) (fun _ => None) es [] in Ok (TDict r)
        | Some _ => Err (Exn "AssertionError" "Unexpected type; got a dict")
        end
  | VList l =>
      let+ e := list_type (norm_oty t0) in
      let+ r := tr_elems e (map (translate c) l) in Ok (TList r)
  | VNum _ | VStr _ | VBool _ =>
      match norm_oty t0 with
      | Some (OEnum cls) => if o_enum c cls v then Ok (TEnum cls v) else Err (Exn "ValueError" "not a valid enum value")
      | _ => Ok (TLeaf v)
      end
  | _ => Ok (TLeaf v)
  end.
