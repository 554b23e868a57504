(** Specifications for mocks (C49). *)
From Verif Require Import Base PyVal Model_Urn Spec_Urn Model_Rpc Model_Register Model_Mocks.
Open Scope string_scope.

(** The URN of a mocked resource: determined by stack, project, the parent's
    type (its own, without its ancestors'), type and name. *)
Inductive mock_urn_is (E : menv) (type name : string) : string -> string -> Prop :=
| MU_root : mock_urn_is E type name "" (urn_of (m_stack E) (m_project E) type name)
| MU_child stack project ancestors ptype pname :
    stack_name stack -> piece project -> piece (qualified ancestors ptype) -> ~ has_sep pname -> ~ has_char "$" ptype ->
    mock_urn_is E type name (urn_of stack project (qualified ancestors ptype) pname)
      (urn_of (m_stack E) (m_project E) (ptype ++ "$" ++ type) name).

(** [records E ev urn id state msg]: event [ev] makes the monitor register the
    resource [urn]: the user's mock is called with what the request says and
    gives [id] and [state], which is sent as [msg]. *)
Inductive records (E : menv) (ev : mevent) (urn : string) (id : option string) (state : dict pyval) (msg : dict wire) : Prop :=
| Rec_register parent type name object provider import_id custom inputs pd :
    ev_req ev = QRegister parent type name object provider import_id custom -> type <> "pulumi:pulumi:Stack" ->
    mock_urn E parent type name = Ok urn ->
    deserialize_properties (m_dc E) object false false = Ok inputs ->
    ev_new ev (mkMockResource type name inputs provider import_id (Some custom)) = Ok (id, state) ->
    serialize_properties (m_cfg E) None false state = Done (msg, pd) ->
    records E ev urn id state msg
| Rec_read parent type name properties provider pid inputs pd :
    ev_req ev = QRead parent type name properties provider pid ->
    mock_urn E parent type name = Ok urn ->
    deserialize_properties (m_dc E) properties false false = Ok inputs ->
    ev_new ev (mkMockResource type name inputs provider pid None) = Ok (id, state) ->
    serialize_properties (m_cfg E) None false state = Done (msg, pd) ->
    records E ev urn id state msg.

(** The last event of a history that registers [urn]. *)
Definition last_registered (E : menv) (evs : list mevent) (urn : string) (id : option string) (state : dict pyval) : Prop :=
  exists before ev after msg, evs = (before ++ ev :: after)%list /\ records E ev urn id state msg /\
    forall ev', In ev' after -> forall id' state' msg', ~ records E ev' urn id' state' msg'.
Definition never_registered (E : menv) (evs : list mevent) (urn : string) : Prop :=
  forall ev, In ev evs -> forall id state msg, ~ records E ev urn id state msg.

(** The request for the state of a resource. *)
Definition get_request (urn provider : string) : mrequest :=
  QInvoke "pulumi:pulumi:getResource" [("urn", WStr urn)] provider.
