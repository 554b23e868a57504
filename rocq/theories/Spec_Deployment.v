(** Specification for C97: who is given a component sees its outputs. *)
From Verif Require Import Base PyVal Model_Rpc Spec_Rpc Model_Engine Spec_Engine Model_Translate Spec_Translate Model_Register Spec_Register Model_Deployment.
From Verif Require Spec_Meaning.
Open Scope string_scope.

(** A property of the looked up resource is [v], secret if [secret], depends on
    the resource itself, and on a preview is known unless it is nothing. *)
Definition has_value (c : rcfg) (l : log) (k : string) (v : tval) (secret : bool) : Prop :=
  exists known ds, In (TProp k, OVal v known secret ds) l /\
    (known = true <-> c_dry c = false \/ v <> TLeaf VNone) /\ (forall x, In x ds <-> x = c_self c).

(** [left_out v s]: an output that is nothing, and not secret. *)
Definition left_out (v : pyval) (s : bool) : Prop := v = VNone /\ s = false.

(** [shows c l props keys val sec]: the looked up resource has every property,
    exactly once: the outputs [keys] with the value [val] gives and the declared
    type, and secret as [sec] says; everything else is nothing.  Keys with two
    leading underscores are not shown. *)
Definition shows (c : rcfg) (l : log) (props keys : list string) (val : string -> pyval) (sec : string -> bool) : Prop :=
  resolved_once false props l /\
  forall k, In k props -> k <> "id" -> k <> "urn" ->
    (forall key, In key keys -> internal_key key = false -> c_translate c key = k -> ~ left_out (val key) (sec key) ->
       exists v, becomes (c_out c) (c_types c key) (val key) v /\ has_value c l k v (sec key)) /\
    ((forall key, In key keys -> c_translate c key = k -> internal_key key = true \/ left_out (val key) (sec key)) ->
       has_value c l k (TLeaf VNone) false).

(** The values have the declared types, and no two outputs have one name. *)
Definition well_typed (c : rcfg) (keys : list string) (val : string -> pyval) : Prop :=
  (forall cls, good_class (o_class (c_out c) cls)) /\ no_clash c keys /\
  forall key, In key keys -> engine_value (c_out c) (val key) /\ exists v, becomes (c_out c) (c_types c key) (val key) v.

(** The program looks the resource up in the deployment [d] with a class that
    has the properties [props], giving no inputs. *)
Definition looks_up (g : get) (c : rcfg) (props : list string) (from : cfg) (urn : string) (d : deployment) : Prop :=
  g = mkGet c false props (Ok []) (asks_for from urn d) /\ NoDup props /\ c_dry c = d_dry (c_deser c).

(** No string in the data is one the protocol gives a meaning of its own, and
    there are no assets in it. *)
Definition plain_data (x : pyval) : Prop :=
  (forall s, In s sentinels -> ~ within (VStr s) x) /\ (forall a, asset_tree a -> ~ within a x).
