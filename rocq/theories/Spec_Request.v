(** Independent specification of the requests sent for resources (C86). *)
From Verif Require Import Base PyVal Model_Output Model_Rpc Spec_Rpc Model_Cycle Spec_Cycle.
From Verif Require Model_Deps Spec_Deps.
From Verif Require Import Model_Options Spec_Options Model_Resource Spec_Resource Model_Request.
Open Scope string_scope.

(** A resource given for [depends_on]: the object itself, or promised by an
    awaitable or an output; an output may promise nothing.  On a preview an
    output may not be known. *)
Inductive a_resource (dry : bool) : pyval -> Prop :=
| Ar_object r : a_resource dry (VRes r)
| Ar_none : a_resource dry VNone
| Ar_await x : a_resource dry x -> a_resource dry (VAwait (Done x))
| Ar_output rs x s : a_resource dry x -> a_resource dry (VOut (Done rs) (Done x) (Done true) (Done s))
| Ar_unknown rs x s : dry = true -> x = VNone \/ x = VUnknown ->
    a_resource dry (VOut (Done rs) (Done x) (Done false) (Done s)).
(** What may be given: one resource or a list, or one of these promised by an
    awaitable or an output. *)
Inductive resources (dry : bool) : pyval -> Prop :=
| Rs_object r : resources dry (VRes r)
| Rs_list l : Forall (a_resource dry) l -> resources dry (VList l).
Inductive dependencies_given (dry : bool) : pyval -> Prop :=
| Dg_now d : resources dry d -> dependencies_given dry d
| Dg_await d : resources dry d -> dependencies_given dry (VAwait (Done d))
| Dg_output rs d s : resources dry d -> dependencies_given dry (VOut (Done rs) (Done d) (Done true) (Done s))
| Dg_unknown rs d s : dry = true -> d = VNone \/ d = VUnknown ->
    dependencies_given dry (VOut (Done rs) (Done d) (Done false) (Done s)).

(** [declared r v]: giving [v] declares a dependency on [r]: [r] itself is
    given, listed or promised, or a given output depends on it. *)
Inductive declared (r : rsrc) : pyval -> Prop :=
| De_object : declared r (VRes r)
| De_list x l : In x l -> declared r x -> declared r (VList l)
| De_await x : declared r x -> declared r (VAwait (Done x))
| De_depends rs x k s : In r rs -> declared r (VOut (Done rs) x k s)
| De_promised rs x k s : declared r x -> declared r (VOut rs (Done x) k s).

(** The resources a new resource depends on: those declared by its options
    and those that occur in the properties that are sent. *)
Definition depends_explicitly (o : ropts) (r : rsrc) : Prop :=
  exists d, ro_depends_on o = Some d /\ declared r d.
Definition depends_by (c : cfg) (keep : bool) (props : list (string * pyval)) (k : string) (r : rsrc) : Prop :=
  exists v, In (k, v) props /\ ~ sends_nothing c keep v /\ mentions c r v.

(** The URN of the parent: of the resource given, else of the root stack,
    else none; the stack itself has none. *)
Inductive parent_is (e : env) (root : option nat) (ty : string) (o : ropts) : string -> Prop :=
| Pi_given n u : ro_parent o = Some n -> e_urn e n = Done (Some u) -> parent_is e root ty o u
| Pi_root n u : ro_parent o = None -> ty <> "pulumi:pulumi:Stack" -> root = Some n -> e_urn e n = Done (Some u) ->
    parent_is e root ty o u
| Pi_stack : ro_parent o = None -> ty = "pulumi:pulumi:Stack" -> parent_is e root ty o ""
| Pi_none : ro_parent o = None -> root = None -> parent_is e root ty o "".
(** Resources and providers have URNs, and the id of a provider is a text
    unless it is not known. *)
Definition urns_known (e : env) : Prop := forall n u, e_urn e n = Done u -> exists s, u = Some s.

(** The reference of a provider: URN and id, which may not be known. *)
Inductive refers (e : env) (p : provider) : string -> Prop :=
| Rf_known u i : e_provider e (p_id p) = Done (u, Some i) -> i <> "" -> refers e p (u ++ "::" ++ i)
| Rf_unknown u i : e_provider e (p_id p) = Done (u, i) -> i = None \/ i = Some "" ->
    refers e p (u ++ "::" ++ "04da6b54-80e4-46f7-96ec-b56ff0331ba9").
Inductive refers_opt (e : env) : option provider -> string -> Prop :=
| Ro_some p s : refers e p s -> refers_opt e (Some p) s
| Ro_none : refers_opt e None "".

(** The providers sent for the children of a remote component: the one
    selected for the component itself if there is one, else the given ones. *)
Inductive sent_provider (w : world) (ty : string) (o : ropts) : string -> provider -> Prop :=
| Sp_selected p : selected w ty o (Some p) -> sent_provider w ty o (p_package p) p
| Sp_given k p : selected w ty o None -> option_gives o k p -> sent_provider w ty o k p.

(** The name under which the engine knows an output of the resource. *)
Inductive output_named (e : env) : string -> string -> Prop :=
| On_class cls k p : e_typ e = Some cls -> dget (e_names e) k = Some p -> p <> "" -> output_named e k p
| On_same cls k : e_typ e = Some cls -> (dget (e_names e) k = None \/ dget (e_names e) k = Some "") -> output_named e k k
| On_translated k k' : e_typ e = None -> sent_as (e_cfg e) None k k' -> output_named e k k'.

(** Texts and flags that were not given. *)
Definition given_text (o : option string) (s : string) : Prop := o = Some s \/ (o = None /\ s = "").
Definition given_flag (o : option bool) (b : bool) : Prop := o = Some b \/ (o = None /\ b = false).

(** The timeouts asked for. *)
Inductive timeouts_are (e : env) (o : ropts) : option (option string * option string * option string) -> Prop :=
| Ta_none : ro_custom_timeouts o = None -> timeouts_are e o None
| Ta_object n c u d : ro_custom_timeouts o = Some n -> e_timeouts e n = TObject c u d -> timeouts_are e o (Some (c, u, d))
| Ta_dict n t c u d : ro_custom_timeouts o = Some n -> e_timeouts e n = TDict t ->
    dget t "create" = option_map VStr c -> dget t "update" = option_map VStr u -> dget t "delete" = option_map VStr d ->
    timeouts_are e o (Some (c, u, d)).

(** What the variable PULUMI_DISABLE_RESOURCE_REFERENCES means. *)
Definition switched_off (e : env) : Prop :=
  exists s, e_no_references e = Some s /\
    (s = "1" \/ Forall2 (fun c cs => In c cs) (list_ascii_of_string s)
                 [["T"; "t"]; ["R"; "r"]; ["U"; "u"]; ["E"; "e"]]%char).

(** The dependencies of a request.  [g] and [g'] are the dependency graphs
    before and after; [obj] gives the resource object behind a dependency;
    what is left out is exactly what depends on the new resource itself. *)
Record dependencies_say (c : cfg) (typ : option nat) (keep : bool) (obj : rsrc -> Model_Deps.rsrc) (self : rid)
    (props : list (string * pyval)) (o : ropts) (g g' : dep_heap) (deps : list string) (by_property : dict (list string))
    : Prop := mkDs {
  ds_acyclic : ~ cyclic (Spec_Deps.depends g');
  ds_graph : forall a b, Spec_Deps.depends g' a b <-> Spec_Deps.depends g a b \/
    (a = self /\ ~ path (Spec_Deps.depends g') b self /\
     exists r x, (depends_explicitly o r \/ exists k, depends_by c keep props k r) /\
       Spec_Deps.stands_for (obj r) x /\ Model_Deps.rs_id x = b);
  ds_all : NoDup deps /\ forall s, In s deps <->
    exists r x, (depends_explicitly o r \/ exists k, depends_by c keep props k r) /\
      Spec_Deps.stands_for (obj r) x /\ Spec_Deps.has_urn x s /\ Spec_Deps.depends g' self (Model_Deps.rs_id x);
  ds_property : forall k k' v, In (k, v) props -> sent_as c (bag_type typ) k k' ->
    if dget by_property k' then
      ~ sends_nothing c keep v /\
      forall urns, dget by_property k' = Some urns -> NoDup urns /\ forall s, In s urns <->
        exists r x, mentions c r v /\ Spec_Deps.stands_for (obj r) x /\ Spec_Deps.has_urn x s /\
          Spec_Deps.depends g' self (Model_Deps.rs_id x)
    else sends_nothing c keep v;
  ds_only : forall k', In k' (dkeys by_property) -> exists k v, In (k, v) props /\ sent_as c (bag_type typ) k k'
}.

(** Everything a registration waits for resolves. *)
Record ready (e : env) (keep : bool) (props : list (string * pyval)) (o : ropts) : Prop := mkReady {
  rd_classes : forall cls, class_declared (c_class (e_cfg e) cls);
  rd_names : distinct_names (e_cfg e) (bag_type (e_typ e)) (map fst props);
  rd_props : exists st pd, serialize_properties (e_cfg e) (e_typ e) keep props = Done (st, pd);
  rd_urns : forall n, exists u, e_urn e n = Done (Some u);
  rd_providers : forall n, exists u i, e_provider e n = Done (u, i);
  rd_given : forall d, ro_depends_on o = Some d -> dependencies_given (e_dry e) d;
  rd_objects : forall r x, depends_explicitly o r \/ (exists k, depends_by (e_cfg e) keep props k r) ->
    Spec_Deps.stands_for (e_object e r) x -> Spec_Deps.urn_ok x
}.

(** A registration of resource [self] of type [ty] says what the options [o]
    (as the transformations left them) ask for. *)
Record registration_says (e : env) (w : world) (g g' : dep_heap) (self : rid) (ty name : string) (custom remote : bool)
    (props : list (string * pyval)) (o : ropts) (rq : register_request) : Prop := mkSays {
  rs_type : rq_type rq = ty;
  rs_name : rq_name rq = name;
  rs_custom : rq_custom rq = custom;
  rs_remote : rq_remote rq = remote;
  rs_parent : parent_is e (w_root w) ty o (rq_parent rq);
  rs_object : exists pd, serialize_properties (e_cfg e) (e_typ e) remote props = Done (rq_object rq, pd);
  rs_protect : protection w o (rq_protect rq);
  rs_dependencies : dependencies_say (e_cfg e) (e_typ e) remote (e_object e) self props o g g'
    (rq_dependencies rq) (rq_property_dependencies rq);
  rs_provider : if custom then exists p, selected w ty o p /\ refers_opt e p (rq_provider rq) else rq_provider rq = "";
  rs_providers : forall k s, dget (rq_providers rq) k = Some s <-> remote = true /\ exists p, sent_provider w ty o k p /\ refers e p s;
  rs_delete : given_flag (ro_delete_before_replace o) (rq_delete_before_replace rq) /\
    (rq_delete_before_replace_defined rq = true <-> ro_delete_before_replace o <> None);
  rs_ignore : Forall2 (sent_as (e_cfg e) (bag_type (e_typ e))) (items (ro_ignore_changes o)) (rq_ignore_changes rq);
  rs_version : given_text (ro_version o) (rq_version rq);
  rs_url : given_text (ro_plugin_download_url o) (rq_plugin_download_url rq);
  rs_references : rq_accept_resources rq = false <-> switched_off e;
  rs_secrets : Forall2 (output_named e) (items (ro_additional_secret_outputs o)) (rq_additional_secret_outputs rq);
  rs_import : given_text (ro_import o) (rq_import_id rq);
  rs_timeouts : timeouts_are e o (rq_custom_timeouts rq);
  rs_aliases : NoDup (rq_aliases rq) /\ forall s, In s (rq_aliases rq) <-> In (Done (Some s)) (e_aliases e);
  rs_replace : Forall2 (sent_as (e_cfg e) (bag_type (e_typ e))) (items (ro_replace_on_changes o)) (rq_replace_on_changes rq);
  rs_retain : given_flag (ro_retain_on_delete o) (rq_retain_on_delete rq)
}.

(** A request to read a resource. *)
Record reading_says (e : env) (w : world) (g g' : dep_heap) (self : rid) (ty name id : string)
    (props : list (string * pyval)) (o : ropts) (rq : read_request) : Prop := mkReading {
  rd_id : rr_id rq = id;
  rd_type : rr_type rq = ty;
  rd_name : rr_name rq = name;
  rd_parent : parent_is e (w_root w) ty o (rr_parent rq);
  rd_object : exists pd, serialize_properties (e_cfg e) (e_typ e) false props = Done (rr_properties rq, pd);
  rd_dependencies : exists by_property, dependencies_say (e_cfg e) (e_typ e) false (e_object e) self props o g g'
    (rr_dependencies rq) by_property;
  rd_provider : exists p, selected w ty o p /\ refers_opt e p (rr_provider rq);
  rd_version : given_text (ro_version o) (rr_version rq);
  rd_url : given_text (ro_plugin_download_url o) (rr_plugin_download_url rq);
  rd_references : rr_accept_resources rq = false <-> switched_off e;
  rd_secrets : Forall2 (output_named e) (items (ro_additional_secret_outputs o)) (rr_additional_secret_outputs rq)
}.
(** An id given as a text, or promised, or not known yet; a secret promise
    where the engine takes no secrets. *)
Inductive id_given (c : cfg) : pyval -> string -> Prop :=
| Ig_text s : id_given c (VStr s) s
| Ig_await x s : id_given c x s -> id_given c (VAwait (Done x)) s
| Ig_output rs x b s : id_given c x s -> b = false \/ c_secrets c = false ->
    id_given c (VOut (Done rs) (Done x) (Done true) (Done b)) s
| Ig_unknown rs x b : x = VNone \/ x = VUnknown ->
    id_given c (VOut (Done rs) (Done x) (Done false) (Done b)) "04da6b54-80e4-46f7-96ec-b56ff0331ba9".
