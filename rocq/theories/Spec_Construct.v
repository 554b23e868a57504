(** Independent specification for components constructed by a provider (C93). *)
From Verif Require Import Base PyVal Model_Rpc Model_Cycle Spec_Cycle Spec_Urn Spec_Rpc.
From Verif Require Model_Deps Spec_Deps.
From Verif Require Import Model_Options Spec_Options Model_Resource Spec_Resource Model_Request Spec_Request Model_Construct.
Open Scope string_scope.

(** [ref] refers to a provider for package [pkg], with URN [urn] and id [id]
    (not empty: the engine sends a placeholder for an id that is not known). *)
Definition provider_ref (pkg ref urn id : string) : Prop :=
  exists stack project ancestors name,
    stack_name stack /\ piece project /\ Forall piece ancestors /\ last_piece name /\
    pkg <> "" /\ ~ has_char ":" pkg /\ ~ has_char "$" pkg /\ last_piece id /\ id <> "" /\
    urn = urn_of stack project (qualified ancestors ("pulumi:providers:" ++ pkg)) name /\ ref = urn ++ "::" ++ id.

(** A request of the engine: distinct packages, each with the reference of one
    of its providers; the type and the name are not empty. *)
Record good_request (r : construct_request) : Prop := mkGood {
  gr_type : cq_type r <> "";
  gr_typed : named (cq_type r);
  gr_name : cq_name r <> "";
  gr_distinct : wf_dict (cq_providers r);
  gr_refs : forall pkg ref, dget (cq_providers r) pkg = Some ref -> exists urn id, provider_ref pkg ref urn id
}.

(** The provider for a package is the one the engine referred to, unless the
    package is registered with this process and makes the object itself. *)
Definition not_registered (reg : packages) (r : construct_request) : Prop :=
  forall pkg, In pkg (dkeys (cq_providers r)) -> reg pkg = None.

(** What a registration finds: the objects created for the request, resources
    standing for the URNs it depends on, all of which exist already. *)
Record surroundings (e : env) (g : dep_heap) (self : rid) (h : objects) : Prop := mkSurroundings {
  su_providers : forall i f, nth_error h i = Some f -> e_provider e i = f;
  su_dependencies : forall u, exists i, i <> self /\ e_object e (RDep u) = Model_Deps.Rsrc i false (Ok (Some u)) [];
  su_acyclic : ~ cyclic (Spec_Deps.depends g);
  su_new : forall a, ~ Spec_Deps.depends g a self
}.
