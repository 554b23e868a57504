(** Specifications for component providers (C51, C52). *)
From Verif Require Import Base PyVal Model_Output Spec_Output Model_Rpc Spec_Rpc Model_Provider.
Open Scope string_scope.

(** An Output occurs in the value. *)
Definition holds_output (v : pyval) : Prop := exists o, within (VO o) v.
(** The value is a resource, and what is recorded as its dependencies is that
    resource alone. *)
Definition refers (E : penv) (v : pyval) (recorded : list string) : Prop :=
  ((exists r, v = VRes r) \/ (exists c n t w, v = VConstructed c n t w)) /\
  exists u, pv_urn E v = Done (Some u) /\ forall u', In u' recorded <-> u' = u.

(** [received E v recorded secret x]: for an input with value [v], marked secret
    or not, for which the engine recorded the dependencies [recorded], the
    component is given [x]: an Output with that secretness and those
    dependencies, or the value itself. *)
Inductive received (E : penv) (v : pyval) (recorded : list string) (secret : bool) : pyval -> Prop :=
| R_output o rs known :
    secret = true \/ (recorded <> [] /\ ~ holds_output v /\ ~ refers E v recorded) ->
    settled o rs v known secret -> (forall r, In r rs <-> exists u, In u recorded /\ r = RDep u) ->
    (known = true <-> ~ within VUnknown v) ->
    received E v recorded secret (VO o)
| R_itself :
    secret = false -> recorded = [] \/ holds_output v \/ refers E v recorded ->
    received E v recorded secret v.

(** The dependencies of a value, as far as the component can see them: those of
    the Outputs in it, and the resource it is. *)
Inductive sees_dependency (E : penv) (u : string) (x : pyval) : Prop :=
| SD_output rs v k s : within (VOut (Done rs) v k s) x -> In (RDep u) rs -> sees_dependency E u x
| SD_resource : pv_urn E x = Done (Some u) -> sees_dependency E u x.

(** What is recorded for a property. *)
Definition recorded_for {V} (deps : dict (list V)) (k : string) : list V :=
  match dget deps k with Some us => us | None => [] end.
