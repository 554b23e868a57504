(** Independent specification for annotations (C91). *)
From Verif Require Import Base PyVal Model_Rpc Model_Translate Spec_Translate Model_Annot.
Open Scope string_scope.

(** Not itself a union, None, an Awaitable or an Output. *)
Definition bare (t : ann) : Prop :=
  match t with
  | ANone | AOutput | AUnion _ | AGen GAwaitable _ | AGen GOutput _ => False
  | _ => True
  end.

(** [optionally a t]: the annotation [a] is t or Optional[t]. *)
Inductive optionally : ann -> ann -> Prop :=
| op_same t : bare t -> optionally t t
| op_opt t : bare t -> optionally (AUnion [t; ANone]) t.

(** [stands_for a t]: the annotation [a] is [t] under the documented wrappers
    Optional, Input and InputType.  The unions are written out, but for
    InputType[Mapping[str, Any]], which is Mapping[str, Any]. *)
Inductive stands_for : ann -> ann -> Prop :=
| st_opt a t : optionally a t -> stands_for a t
| st_input t : bare t -> stands_for (AUnion [t; AGen GAwaitable [t]; AGen GOutput [t]]) t
| st_opt_input t : bare t -> stands_for (AUnion [t; AGen GAwaitable [t]; AGen GOutput [t]; ANone]) t
| st_type t m : bare t -> m = AGen GMapping [AName "str"; AAny] -> stands_for (AUnion [t; m]) t
| st_opt_type t m : bare t -> m = AGen GMapping [AName "str"; AAny] -> stands_for (AUnion [t; m; ANone]) t
| st_input_type t m : bare t -> m = AGen GMapping [AName "str"; AAny] ->
    stands_for (AUnion [t; m; AGen GAwaitable [AUnion [t; m]]; AGen GOutput [AUnion [t; m]]]) t
| st_opt_input_type t m : bare t -> m = AGen GMapping [AName "str"; AAny] ->
    stands_for (AUnion [t; m; AGen GAwaitable [AUnion [t; m]]; AGen GOutput [AUnion [t; m]]; ANone]) t.

Definition dict_like (o : origin) : Prop := o = GDict \/ o = GMapping.
Definition list_like (o : origin) : Prop := o = GList \/ o = GSequence.

(** Types made of names, classes, enums, dicts and lists; [w] says how element
    types may be wrapped. *)
Inductive simple (w : ann -> ann -> Prop) : ann -> Prop :=
| s_any : simple w AAny
| s_name n : simple w (AName n)
| s_out cls : simple w (AOut cls)
| s_in cls : simple w (AIn cls)
| s_enum cls : simple w (AEnum cls)
| s_dict : simple w ADict
| s_list : simple w AList
| s_dict_of o e t : dict_like o -> w e t -> simple w t -> simple w (AGen o [AName "str"; e])
| s_list_of o e t : list_like o -> w e t -> simple w t -> simple w (AGen o [e]).

(** Annotations of outputs: Output, T, Optional[T], Output[T] or
    Output[Optional[T]]. *)
Inductive output_ann : ann -> Prop :=
| oa_bare : output_ann AOutput
| oa_plain a t : optionally a t -> simple optionally t -> output_ann a
| oa_output a t : optionally a t -> simple optionally t -> output_ann (AGen GOutput [a]).

(** A value that is neither a scalar nor a dict or list: None, an unknown, an
    asset, a resource. *)
Definition opaque (v : pyval) : Prop := ~ scalar v /\ (forall d, v <> VDict d) /\ (forall l, v <> VList l).

(** [fits c a v]: the engine's value [v] is one the annotation [a] allows. *)
Inductive fits (c : acfg) : ann -> pyval -> Prop :=
| f_any v : fits c AAny v
| f_untyped v : fits c AOutput v
| f_opaque a v : opaque v -> fits c a v
| f_name n v : scalar v -> fits c (AName n) v
| f_enum cls v : scalar v -> ac_enum c cls v = true -> fits c (AEnum cls) v
| f_dict d : ~ marks_secret d -> fits c ADict (VDict d)
| f_dict_of o t d : dict_like o -> ~ marks_secret d -> Forall (fun kv => fits c t (snd kv)) d -> fits c (AGen o [AName "str"; t]) (VDict d)
| f_list l : fits c AList (VList l)
| f_list_of o t l : list_like o -> Forall (fits c t) l -> fits c (AGen o [t]) (VList l)
| f_class cls d : ~ marks_secret d ->
    (forall k x f, In (k, x) d -> In f (ac_class c cls) -> af_pulumi f = k -> fits c (af_ann f) x) ->
    fits c (AOut cls) (VDict d)
| f_union ts t v : In t ts -> fits c t v -> fits c (AUnion ts) v
| f_output t v : fits c t v -> fits c (AGen GOutput [t]) v
| f_secret a d x : marks_secret d -> In ("value", x) d -> fits c a x -> fits c a (VDict d).

(** [delivered c a r]: what the program sees is of the annotated type. *)
Inductive delivered (c : acfg) : ann -> tval -> Prop :=
| d_any r : delivered c AAny r
| d_untyped r : delivered c AOutput r
| d_opaque a v : opaque v -> delivered c a (TLeaf v)
| d_name n v : scalar v -> delivered c (AName n) (TLeaf v)
| d_enum cls v : ac_enum c cls v = true -> delivered c (AEnum cls) (TEnum cls v)
| d_dict d : delivered c ADict (TDict d)
| d_dict_of o t d : dict_like o -> Forall (fun kv => delivered c t (snd kv)) d -> delivered c (AGen o [AName "str"; t]) (TDict d)
| d_list l : delivered c AList (TList l)
| d_list_of o t l : list_like o -> Forall (delivered c t) l -> delivered c (AGen o [t]) (TList l)
| d_class cls args : map fst args = map af_py (ac_class c cls) ->
    (forall f y, In f (ac_class c cls) -> In (af_py f, Some y) args -> delivered c (af_ann f) y) ->
    delivered c (AOut cls) (TObj cls args)
| d_union ts t r : In t ts -> delivered c t r -> delivered c (AUnion ts) r
| d_output t r : delivered c t r -> delivered c (AGen GOutput [t]) r
| d_secret a r : delivered c a r -> delivered c a (TSecret r).

Definition distinct_names (fs : list afield) : Prop := NoDup (map af_py fs) /\ NoDup (map af_pulumi fs).

(** Inputs: a value without parts. *)
Definition atom (v : pyval) : Prop :=
  match v with
  | VNone | VBool _ | VNum _ | VStr _ | VUnknown | VFileAsset _ | VStringAsset _ | VRemoteAsset _
  | VFileArchive _ | VRemoteArchive _ => True
  | _ => False
  end.
Definition typeless (t : option ann) : Prop := t = None \/ t = Some AAny.

(** [suits fs t v]: [v] is a value for an input of type [t] (None: nothing is
    known).  A dict for an input type is keyed by Python names.  Everywhere an
    awaitable or an Output of such a value will do. *)
Inductive suits (fs : nat -> list afield) : option ann -> pyval -> Prop :=
| su_atom t v : atom v -> suits fs t v
| su_list t l : typeless t \/ t = Some AList -> Forall (suits fs None) l -> suits fs t (VList l)
| su_list_of o e t l : list_like o -> stands_for e t -> Forall (suits fs (Some t)) l -> suits fs (Some (AGen o [e])) (VList l)
| su_dict t d : typeless t \/ t = Some ADict -> Forall (fun kv => suits fs None (snd kv)) d -> suits fs t (VDict d)
| su_dict_of o e t d : dict_like o -> stands_for e t -> Forall (fun kv => suits fs (Some t) (snd kv)) d ->
    suits fs (Some (AGen o [AName "str"; e])) (VDict d)
| su_class cls d :
    (forall k x, In (k, x) d -> exists f t, In f (fs cls) /\ af_py f = k /\ stands_for (af_ann f) t /\ suits fs (Some t) x) ->
    suits fs (Some (AIn cls)) (VDict d)
| su_object t cls vals : typeless t \/ t = Some (AIn cls) ->
    (forall k x, In (k, x) vals -> exists f t, In f (fs cls) /\ af_py f = k /\ stands_for (af_ann f) t /\ suits fs (Some t) x) ->
    suits fs t (VInput cls vals)
| su_await t v : suits fs t v -> suits fs t (VAwait (Done v))
| su_output t rs v known secret : suits fs t v -> suits fs t (VOut (Done rs) (Done v) (Done known) (Done secret)).

(** Input annotations: the wrappers around simple types, also inside. *)
Definition input_ann (a t : ann) : Prop := stands_for a t /\ simple stands_for t.
