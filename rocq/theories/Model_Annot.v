(** Type annotations of properties: the typing module's unions, the aliases
    Input and InputType (output.py:48-50), reading an annotation
    (_types.py:950-1019) and what the two directions of the RPC layer make of
    it (rpc.py:143-160, 246-252, 786-925). *)
From Verif Require Import Base PyVal Model_Rpc Model_Translate.
Open Scope string_scope.

(** The generic types that matter. *)
Inductive origin : Type := GDict | GMapping | GList | GSequence | GAwaitable | GOutput | GOther (n : string).

(** Annotations, after forward references have been resolved. *)
Inductive ann : Type :=
| AAny
| ANone                       (* type(None) *)
| AName (n : string)          (* str, int, a resource class, ... *)
| AOut (cls : nat)            (* a class decorated with @output_type *)
| AIn (cls : nat)             (* a class decorated with @input_type *)
| AEnum (cls : nat)
| ADict                       (* dict *)
| AList                       (* list, List, Sequence *)
| AOutput                     (* Output, without an argument *)
| AGen (o : origin) (args : list ann)
| AUnion (args : list ann).

Definition origin_eq_dec (a b : origin) : {a = b} + {a <> b}.
Proof. decide equality; apply string_dec. Defined.
Fixpoint ann_eq_dec (a b : ann) {struct a} : {a = b} + {a <> b}.
Proof.
  decide equality; try apply string_dec; try apply Nat.eq_dec; try apply origin_eq_dec;
    apply (list_eq_dec ann_eq_dec).
Defined.

(** typing.Union: nested unions are flattened, duplicates removed, keeping the
    first, and a union of one type is that type. *)
Definition flatten (l : list ann) : list ann :=
  flat_map (fun a => match a with AUnion l' => l' | _ => [a] end) l.
Fixpoint dedup (l : list ann) : list ann :=
  match l with
  | [] => []
  | a :: l' => a :: filter (fun b => if ann_eq_dec a b then false else true) (dedup l')
  end.
Definition union (l : list ann) : ann :=
  match dedup (flatten l) with [a] => a | l' => AUnion l' end.
Definition optional (t : ann) : ann := union [t; ANone].
(** output.py:48. *)
Definition input (t : ann) : ann := union [t; AGen GAwaitable [t]; AGen GOutput [t]].
(** output.py:50. *)
Definition input_type (t : ann) : ann := union [t; AGen GMapping [AName "str"; AAny]].

(** _types.py:735-743. *)
Definition is_union (a : ann) : bool := match a with AUnion _ => true | _ => false end.
(** _types.py:746-751; unions have no unions inside. *)
Definition is_optional (a : ann) : bool :=
  match a with
  | ANone => true
  | AUnion l => existsb (fun b => match b with ANone => true | _ => false end) l
  | _ => false
  end.
Definition is_mapping (a : ann) : bool :=
  match a with AGen GDict _ | AGen GMapping _ => true | _ => false end.
Definition is_dict (a : ann) : bool := match a with ADict => true | _ => false end.
(** _types.py:300-301. *)
Definition is_input_class (a : ann) : bool := match a with AIn _ => true | _ => false end.
Definition is_none_type (a : ann) : bool := match a with ANone => true | _ => false end.
(** _types.py:984-990 [isInputType]; the [or] is outside the [and]. *)
Definition looks_input_type (a0 a1 : ann) : bool := is_input_class a0 && is_dict a1 || is_mapping a1.
(** _types.py:992-997 [isInput]. *)
Definition looks_input (a b : ann) : bool :=
  match a, b with AGen GAwaitable _, AGen GOutput _ => true | _, _ => false end.

(** _types.py:950-963 [unwrap_optional_type]. *)
Definition unwrap_optional (a : ann) : res ann :=
  if is_optional a then
    match a with
    | AUnion [a0; a1] => if is_none_type a1 then Ok a0 else Err (Exn "AssertionError" "")
    | _ => Ok a
    end
  else Ok a.

(** _types.py:966-1019 [unwrap_type]. *)
Definition unwrap_type (a : ann) : res ann :=
  let v := match a with AGen GOutput [t] => t | _ => a end in
  match v with
  | AUnion [a0; a1] => if looks_input_type a0 a1 then Ok a0 else unwrap_optional v
  | AUnion [a0; a1; a2] =>
      if looks_input a1 a2 then Ok a0
      else if looks_input_type a0 a1 && is_none_type a2 then Ok a0
      else unwrap_optional v
  | AUnion [a0; a1; a2; a3] =>
      if looks_input a1 a2 && is_none_type a3 then Ok a0
      else if looks_input_type a0 a1 && looks_input a2 a3 then Ok a0
      else unwrap_optional v
  | AUnion [a0; a1; a2; a3; a4] =>
      if looks_input_type a0 a1 && looks_input a2 a3 && is_none_type a4 then Ok a0
      else unwrap_optional v
  | _ => unwrap_optional v
  end.

(** A declared property: Python name, Pulumi name, annotation. *)
Record afield : Type := mkAfield { af_py : string; af_pulumi : string; af_ann : ann }.

(** How [translate_output_properties] sees a type (rpc.py:835-923): it only
    unwraps Optional.  Simplification: a union whose first alternative is None
    counts as any other type, while Python raises for every value. *)
Fixpoint view (a : ann) : oty :=
  match a with
  | AAny => OAny
  | AUnion [t; ANone] => OOptional (view t)
  | AOut cls => OClass cls
  | AEnum cls => OEnum cls
  | ADict => ODictBare
  | AList => OListBare
  | AGen GDict [AName n; e] | AGen GMapping [AName n; e] => if String.eqb n "str" then ODict (view e) else ODictBare
  | AGen GDict _ | AGen GMapping _ => ODictBare
  | AGen GList [e] | AGen GSequence [e] => OList (view e)
  | _ => OOther
  end.

(** _types.py:769-814: the type of a property in the table of its class;
    [Output] without an argument is left out.  Simplification: where reading
    the annotation raises, the model's table has no type; [from_engine] below
    raises. *)
Definition out_field (f : afield) : ofield :=
  mkOfield (af_py f) (af_pulumi f)
    (match unwrap_type (af_ann f) with Ok AOutput => None | Ok t => Some (view t) | Err _ => None end).

(** The declared output types and enums. *)
Record acfg : Type := mkAcfg {
  ac_class : nat -> list afield;
  ac_enum : nat -> pyval -> bool;
  ac_meta : bool;
  ac_transform : string -> string }.
Definition ocfg_of (c : acfg) : ocfg :=
  mkOcfg (fun cls => map out_field (ac_class c cls)) (ac_enum c) (ac_meta c) (ac_transform c).

(** A value of the engine for a property annotated with [a]: _types.py:804-814
    or 863-873, then rpc.py:786-925. *)
Definition from_engine (c : acfg) (a : ann) (v : pyval) : res tval :=
  let+ t := unwrap_type a in
  match t with
  | AOutput => translate (ocfg_of c) v None
  | _ => translate (ocfg_of c) v (Some (view t))
  end.

(** How [serialize_property] sees a type (rpc.py:246-252, 432-467): it unwraps
    at every level.  The first argument bounds the recursion. *)
Fixpoint pview (n : nat) (a : ann) : pty :=
  match n with
  | O => TyOther
  | S n' =>
      match unwrap_type a with
      | Err _ => TyOther
      | Ok t =>
          match t with
          | AAny => TyAny
          | AIn cls => TyInput cls
          | ADict => TyDictBare
          | AList => TyListBare
          | AGen GDict [AName k; e] | AGen GMapping [AName k; e] => if String.eqb k "str" then TyDict (pview n' e) else TyDictBare
          | AGen GDict _ | AGen GMapping _ => TyDictBare
          | AGen GList [e] | AGen GSequence [e] => TyList (pview n' e)
          | _ => TyOther
          end
      end
  end.
Fixpoint asize (a : ann) : nat :=
  match a with
  | AGen _ l | AUnion l => S (fold_right (fun b n => asize b + n) 0 l)
  | _ => 1
  end.
(** _types.py:501-506, 769-814: the type of a property of an input type. *)
Definition in_field (f : afield) : field :=
  mkField (af_py f) (af_pulumi f)
    (match unwrap_type (af_ann f) with Ok AOutput => None | Ok t => Some (pview (asize t) t) | Err _ => None end).
Definition with_classes (c : cfg) (fs : nat -> list afield) : cfg :=
  mkCfg (c_secrets c) (c_refs c) (c_outvals c) (c_transform c) (fun cls => map in_field (fs cls)) (c_res c).

(** A value for an input annotated with [a]: rpc.py:229-490. *)
Definition to_engine (c : cfg) (fs : nat -> list afield) (a : ann) (v : pyval) (keep : bool) : fut (wire * list rsrc) :=
  match unwrap_type a with
  | Err e => Fail e
  | Ok t => ser (with_classes c fs) v (Some (pview (asize t) t)) keep
  end.
