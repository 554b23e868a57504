(** Independent specification for resource registration (C24-C26). *)
From Verif Require Import Base PyVal Model_Rpc Model_Translate Model_Register.
Open Scope string_scope.

(** The outputs a resource object has: its URN, its id if it is a custom
    resource, and its properties other than these two. *)
Definition has_output (custom : bool) (props : list string) (t : target) : Prop :=
  t = TUrn \/ (t = TId /\ custom = true) \/ (exists k, t = TProp k /\ In k props /\ k <> "id" /\ k <> "urn").

(** Every output has been resolved, exactly once. *)
Definition resolved_once (custom : bool) (props : list string) (l : log) : Prop :=
  NoDup (map fst l) /\ forall t, In t (map fst l) <-> has_output custom props t.

(** The engine's answer as the caller sees it: without an engine the inputs are
    the outputs; a gRPC error becomes an exception. *)
Inductive engine_answer (sp : dict wire) (mock_urn : string) : option (answer response) -> res response -> Prop :=
| ea_none : engine_answer sp mock_urn None (Ok (mkResponse mock_urn None sp []))
| ea_resp r : engine_answer sp mock_urn (Some (AResp r)) (Ok r)
| ea_gone d : engine_answer sp mock_urn (Some (ARpcError true d)) (Err (Exn "RunError" "Resource monitor has terminated, shutting down"))
| ea_rpc d : engine_answer sp mock_urn (Some (ARpcError false d)) (Err (Exn "Exception" d))
| ea_err e : engine_answer sp mock_urn (Some (AError e)) (Err e).

(** The value of property [k] (its Python name) in the engine's outputs, and
    in the serialised inputs. *)
Definition engine_gives (c : rcfg) (outputs : dict wire) (k : string) (tv : tval) : Prop :=
  exists d key v, deserialize_properties (c_deser c) outputs false false = Ok (VDict d) /\
    In (key, v) d /\ c_translate c key = k /\ translate (c_out c) v (c_types c key) = Ok tv.
Definition input_gives (c : rcfg) (inputs : dict wire) (k : string) (tv : tval) : Prop :=
  exists key w v, In (key, w) inputs /\ c_translate c key = k /\ deser (c_deser c) w false = Ok v /\
    translate (c_out c) v (c_types c key) = Ok tv.
Definition uses_inputs (c : rcfg) : Prop := c_dry c = false \/ c_legacy c = true.

(** The response cannot be decoded: with exception [e], deserialising the
    outputs, or translating one of them or one of the inputs used instead,
    fails. *)
Definition undecodable (c : rcfg) (inputs outputs : dict wire) (e : exn) : Prop :=
  deserialize_properties (c_deser c) outputs false false = Err e \/
  (exists v, deserialize_properties (c_deser c) outputs false false = Ok v /\ (forall d, v <> VDict d) /\
     exists m, e = Exn "AttributeError" m) \/
  (exists d key v, deserialize_properties (c_deser c) outputs false false = Ok (VDict d) /\
     In (key, v) d /\ translate (c_out c) v (c_types c key) = Err e) \/
  (uses_inputs c /\ exists key w, In (key, w) inputs /\
     (deser (c_deser c) w false = Err e \/
      exists v, deser (c_deser c) w false = Ok v /\ translate (c_out c) v (c_types c key) = Err e)).

Definition no_clash (c : rcfg) (keys : list string) : Prop :=
  forall a b, In a keys -> In b keys -> c_translate c a = c_translate c b -> a = b.

(** How one property is resolved from the engine's outputs and the inputs. *)
Definition from_value (tv v : tval) (secret : bool) : Prop :=
  (exists x, tv = TSecret x /\ v = x /\ secret = true) \/ ((forall x, tv <> TSecret x) /\ v = tv /\ secret = false).
Definition resolves_to (c : rcfg) (inputs outputs : dict wire) (k : string) (v : tval) (known secret : bool) : Prop :=
  (forall tv, engine_gives c outputs k tv -> from_value tv v secret) /\
  (forall tv, (forall tv', ~ engine_gives c outputs k tv') -> uses_inputs c -> input_gives c inputs k tv -> from_value tv v secret) /\
  ((forall tv, ~ engine_gives c outputs k tv) -> (~ uses_inputs c \/ forall tv, ~ input_gives c inputs k tv) ->
     v = TLeaf VNone /\ secret = false) /\
  (known = true <-> c_dry c = false \/ v <> TLeaf VNone).
Definition depends (c : rcfg) (deps : dict (list string)) (k : string) (ds : list rsrc) : Prop :=
  forall x, In x ds <-> x = c_self c \/
    exists key urns u, In (key, urns) deps /\ c_translate c key = k /\ In u urns /\ x = RDep u.

(** The outcome of an output that holds a string: the URN is always known, an
    id only when it is not empty. *)
Definition is_urn (c : rcfg) (urn : string) (o : outcome) : Prop := o = OVal (TLeaf (VStr urn)) true false [c_self c].
Definition is_id (c : rcfg) (id : option string) (o : outcome) : Prop :=
  exists known, o = OVal (TLeaf (match id with Some s => VStr s | None => VNone end)) known false [c_self c] /\
    (known = true <-> exists s, id = Some s /\ s <> "").
Definition is_value (o : outcome) : Prop := exists v known secret deps, o = OVal v known secret deps.

(** Property maps without the reserved key, with distinct keys that stay
    distinct under name translation. *)
Definition good_outputs (c : rcfg) (inputs outputs : dict wire) : Prop :=
  wf_dict outputs /\ ~ In "4dabf18193072939515e22adb298388d" (dkeys outputs) /\ no_clash c (dkeys outputs) /\
  wf_dict inputs /\ no_clash c (dkeys inputs).

(** A failure before the engine's answer is used, in a registration or read. *)
Definition fails_early {A B} (prepare : res A) (request : res B) (answer_of : A -> B -> res response -> Prop) (e : exn) : Prop :=
  prepare = Err e \/ exists a, prepare = Ok a /\
    (request = Err e \/ exists b, request = Ok b /\ answer_of a b (Err e)).

(** A getResource result as the engine sends it. *)
Definition usable_result (c : rcfg) (custom : bool) (inputs ret : dict wire) : Prop :=
  (exists urn, In ("urn", urn) ret) /\ (custom = true -> exists id, In ("id", id) ret) /\
  exists state, In ("state", WStruct state) ret /\ forall e, ~ undecodable c inputs state e.
Inductive get_fails : res (dict wire) -> answer invoke_response -> exn -> Prop :=
| gf_prepare e a : get_fails (Err e) a e
| gf_gone sp d : get_fails (Ok sp) (ARpcError true d) (Exn "RunError" "Resource monitor has terminated, shutting down")
| gf_rpc sp d : get_fails (Ok sp) (ARpcError false d) (Exn "Exception" d)
| gf_err sp e : get_fails (Ok sp) (AError e) e
| gf_failed sp reason property fs ret : get_fails (Ok sp) (AResp (mkInvokeResponse ((reason, property) :: fs) ret))
    (Exn "Exception" ("getResource failed: " ++ reason ++ " (" ++ property ++ ")")).

Definition read_fails_early (g : read) (e : exn) : Prop :=
  d_prepare g = Err e \/ exists sp, d_prepare g = Ok sp /\ (d_id g = Err e \/ exists id, d_id g = Ok id /\
    (d_request g = Err e \/ exists m, d_request g = Ok m /\ engine_answer sp m (d_monitor g) (Err e))).

