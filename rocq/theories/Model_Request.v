(** The requests sent to the engine for a resource: runtime/resource.py:96-192
    [prepare_resource], 299-349 and the requests of [register_resource] and
    [read_resource]. *)
From Verif Require Import Base PyVal Model_Output Model_Rpc Model_Cycle.
From Verif Require Model_Deps.
From Verif Require Import Model_Options.
Open Scope string_scope.

(** resource.py:53-78: a CustomTimeouts object, a dict, or something else. *)
Inductive timeouts : Type :=
| TObject (create update delete : option string)
| TDict (d : dict pyval)
| TOther.

(** What a registration finds when it awaits and asks: the mode, how values
    are serialised, the class of the properties, the resource objects behind
    the outputs, the URNs of resources, the URNs and ids of providers, the
    aliases ([res._aliases], resource.py:928), the timeouts objects, the
    names of the properties of the resource's class
    (_types.py:936-947 [resource_py_to_pulumi_names]) and the environment
    variable PULUMI_DISABLE_RESOURCE_REFERENCES. *)
Record env : Type := mkEnv {
  e_dry : bool;
  e_cfg : cfg;
  e_typ : option nat;
  e_object : rsrc -> Model_Deps.rsrc;
  e_urn : nat -> fut (option string);
  e_provider : nat -> fut (string * option string);
  e_aliases : list (fut (option string));
  e_timeouts : nat -> timeouts;
  e_names : dict string;
  e_no_references : option string
}.

(** runtime/resource.py:844-850: the loop over the list.  A value that is not a
    resource makes the registration fail: adding a list or dict to the set, or
    asking another value for its URN. *)
Fixpoint inner_deps (dry : bool) (l : list pyval) (all : list rsrc) : fut (list rsrc) :=
  match l with
  | [] => Done all
  | i :: l' =>
      let inner := from_input dry i in
      let* more := o_res inner in
      let* direct := future inner false in
      match direct with
      | VNone => inner_deps dry l' (all ++ more)%list
      | VRes r => inner_deps dry l' ((all ++ more) ++ [r])%list
      | VList _ | VDict _ => Fail (Exn "TypeError" "unhashable type")
      | _ => Fail (Exn "AttributeError" "object has no attribute 'urn'")
      end
  end.
(** runtime/resource.py:828-850 [_resolve_depends_on_urns] up to the expansion. *)
Definition depends_on (dry : bool) (o : ropts) : fut (list rsrc) :=
  let* l := of_res (depends_on_list o) in
  let outer := from_input_shallow l in
  let* all := o_res outer in
  let* v := future outer false in
  match v with
  | VNone => Done all
  | VList l => inner_deps dry l all
  | _ => Fail (Exn "TypeError" "object is not iterable")
  end.

(** runtime/resource.py:742-764 [convert_providers]. *)
Definition convert_providers (p : option provider) (ps : option providers) : dict provider :=
  match p with
  | Some q => [(p_package q, q)]
  | None =>
      match ps with
      | None => []
      | Some (PMap d) => d
      | Some (PList l) => fold_left (fun acc q => dset acc (p_package q) q) l []
      end
  end.
(** runtime/resource.py:150-152, 162-165: [f"{urn}::{id or UNKNOWN}"]. *)
Definition reference (e : env) (p : provider) : fut string :=
  let* ui := e_provider e (p_id p) in
  Done (Model_Deps.provider_reference (Model_Deps.mkProvider (p_package p) (fst ui) (snd ui))).
Fixpoint references (e : env) (ps : dict provider) : fut (dict string) :=
  match ps with
  | [] => Done []
  | (k, p) :: ps' =>
      let* r := reference e p in
      let* rs := references e ps' in
      Done ((k, r) :: rs)
  end.

(** runtime/resource.py:178-182: aliases in order, each once. *)
Definition same_alias (a b : option string) : bool :=
  match a, b with Some x, Some y => String.eqb x y | None, None => true | _, _ => false end.
Fixpoint await_aliases (l : list (fut (option string))) (acc : list (option string)) : fut (list (option string)) :=
  match l with
  | [] => Done acc
  | f :: l' =>
      let* a := f in
      await_aliases l' (if existsb (same_alias a) acc then acc else (acc ++ [a])%list)
  end.

Record prepared : Type := mkPrepared {
  pr_parent : option string;
  pr_props : dict wire;
  pr_dependencies : list string;
  pr_provider : option string;
  pr_providers : dict string;
  pr_property_dependencies : dict (list string);
  pr_aliases : list (option string)
}.

Section WithOrder.
Variable ord : rid -> list rid -> list rid.

(** runtime/resource.py:132-141. *)
Definition parent_urn (e : env) (root : option nat) (ty : string) (o : ropts) : fut (option string) :=
  match ro_parent o with
  | Some n => e_urn e n
  | None => if String.eqb ty "pulumi:pulumi:Stack" then Done (Some "")
            else match root with Some n => e_urn e n | None => Done (Some "") end
  end.

(** runtime/resource.py:96-192 [prepare_resource]; [g] is the heap of the cycle
    breaker.  Simplification: other resources declare no dependencies in
    between. *)
Definition prepare (e : env) (root : option nat) (g : dep_heap) (self : rid) (ty : string) (custom remote : bool)
    (props : list (string * pyval)) (o : ropts) : fut (dep_heap * prepared) :=
  let* explicit := match ro_depends_on o with
                   | None => Done None
                   | Some _ => let* l := depends_on (e_dry e) o in Done (Some (map (e_object e) l))
                   end in
  let* sp := serialize_properties (e_cfg e) (e_typ e) remote props in
  let* parent := parent_urn e root ty o in
  let* pref := match (if custom then ro_provider o else None) with
               | Some p => let* r := reference e p in Done (Some r)
               | None => Done None
               end in
  let* prefs := if remote then references e (convert_providers (ro_provider o) (ro_providers o)) else Done [] in
  let* gd := of_res (Model_Deps.resource_dependencies ord self g explicit
                       (map (fun kv => (fst kv, map (e_object e) (snd kv))) (snd sp))) in
  let* aliases := await_aliases (e_aliases e) [] in
  Done (fst (fst gd), mkPrepared parent (fst sp) (snd (fst gd)) pref prefs (snd gd) aliases).

(** runtime/resource.py:299-311, 335-349 [_translate_ignore_changes] and
    [_translate_replace_on_changes]: one name. *)
Definition input_name (e : env) (k : string) : string := top_key (e_cfg e) (e_typ e) k.
(** runtime/resource.py:314-332 [_translate_additional_secret_outputs]. *)
Definition output_name (e : env) (k : string) : string :=
  match e_typ e with
  | Some _ => match dget (e_names e) k with Some p => if String.eqb p "" then k else p | None => k end
  | None => transform (e_cfg e) k
  end.
Definition names (f : string -> string) (o : option (list string)) : list string :=
  match o with Some l => map f l | None => [] end.

(** runtime/resource.py:531-554: a field of the message, None if it is not set. *)
Definition timeout_entry (d : dict pyval) (k : string) : res (option string) :=
  match dget d k with
  | None => Ok None
  | Some (VStr s) => Ok (Some s)
  | Some _ => Err (Exn "TypeError" "bad argument type for built-in operation")
  end.
Definition custom_timeouts (e : env) (o : ropts) : res (option (option string * option string * option string)) :=
  match ro_custom_timeouts o with
  | None => Ok None
  | Some n =>
      match e_timeouts e n with
      | TObject c u d => Ok (Some (c, u, d))
      | TDict t =>
          let+ c := timeout_entry t "create" in
          let+ u := timeout_entry t "update" in
          let+ d := timeout_entry t "delete" in
          Ok (Some (c, u, d))
      | TOther => Err (Exn "Exception" "Expected custom_timeouts to be a CustomTimeouts object")
      end
  end.

(** [s.upper()] on a character. *)
Definition up (c : ascii) : ascii :=
  let n := nat_of_ascii c in if Nat.leb 97 n && Nat.leb n 122 then ascii_of_nat (n - 32) else c.
Fixpoint upper (s : string) : string := match s with "" => "" | String c r => String (up c) (upper r) end.
(** runtime/resource.py:406-409, 556-559. *)
Definition accept_resources (e : env) : bool :=
  negb (smem (upper (match e_no_references e with Some s => s | None => "" end)) ["TRUE"; "1"]).

(** A text field of a message: None is the same as the empty string. *)
Definition text (o : option string) : string := match o with Some s => s | None => "" end.
Definition flag (o : option bool) : bool := match o with Some b => b | None => false end.
(** A repeated text field: None in it raises. *)
Fixpoint texts (l : list (option string)) : res (list string) :=
  match l with
  | [] => Ok []
  | Some s :: l' => let+ r := texts l' in Ok (s :: r)
  | None :: _ => Err (Exn "TypeError" "bad argument type for built-in operation")
  end.

(** RegisterResourceRequest, sdk/proto/resource.proto; [acceptSecrets] and
    [supportsPartialValues] are always set. *)
Record register_request : Type := mkRegister {
  rq_type : string;
  rq_name : string;
  rq_parent : string;
  rq_custom : bool;
  rq_object : dict wire;
  rq_protect : bool;
  rq_dependencies : list string;
  rq_provider : string;
  rq_providers : dict string;
  rq_property_dependencies : dict (list string);
  rq_delete_before_replace : bool;
  rq_delete_before_replace_defined : bool;
  rq_ignore_changes : list string;
  rq_version : string;
  rq_plugin_download_url : string;
  rq_accept_resources : bool;
  rq_additional_secret_outputs : list string;
  rq_import_id : string;
  rq_custom_timeouts : option (option string * option string * option string);
  rq_aliases : list string;
  rq_remote : bool;
  rq_replace_on_changes : list string;
  rq_retain_on_delete : bool
}.
(** runtime/resource.py:512-587 [do_register] up to the request. *)
Definition register_request_of (e : env) (root : option nat) (g : dep_heap) (self : rid) (ty name : string)
    (custom remote : bool) (props : list (string * pyval)) (o : ropts) : fut (dep_heap * register_request) :=
  let* gp := prepare e root g self ty custom remote props o in
  let p := snd gp in
  let* ct := of_res (custom_timeouts e o) in
  let* aliases := of_res (texts (pr_aliases p)) in
  Done (fst gp,
    mkRegister ty name (text (pr_parent p)) custom (pr_props p) (flag (ro_protect o)) (pr_dependencies p)
      (text (pr_provider p)) (pr_providers p) (pr_property_dependencies p)
      (flag (ro_delete_before_replace o))
      (match ro_delete_before_replace o with Some _ => true | None => false end)
      (names (input_name e) (ro_ignore_changes o))
      (text (ro_version o)) (text (ro_plugin_download_url o)) (accept_resources e)
      (names (output_name e) (ro_additional_secret_outputs o))
      (text (ro_import o)) ct aliases remote
      (names (input_name e) (ro_replace_on_changes o))
      (flag (ro_retain_on_delete o))).

(** ReadResourceRequest. *)
Record read_request : Type := mkReadRequest {
  rr_id : string;
  rr_type : string;
  rr_name : string;
  rr_parent : string;
  rr_properties : dict wire;
  rr_dependencies : list string;
  rr_provider : string;
  rr_version : string;
  rr_plugin_download_url : string;
  rr_accept_resources : bool;
  rr_additional_secret_outputs : list string
}.
(** runtime/resource.py:388-423 [do_read] up to the request; the id is
    serialised without name translation and without a type. *)
Definition read_id (e : env) (o : ropts) : fut string :=
  match ro_id o with
  | None => Fail (Exn "Exception" "Cannot read resource whose options are lacking an ID value")
  | Some v =>
      let c := e_cfg e in
      let* w := ser (mkCfg (c_secrets c) (c_refs c) (c_outvals c) None (c_class c) (c_res c)) v None false in
      match fst w with
      | WStr s => Done s
      | WNull => Done ""
      | _ => Fail (Exn "TypeError" "bad argument type for built-in operation")
      end
  end.
Definition read_request_of (e : env) (root : option nat) (g : dep_heap) (self : rid) (ty name : string)
    (props : list (string * pyval)) (o : ropts) : fut (dep_heap * read_request) :=
  let* gp := prepare e root g self ty true false props o in
  let p := snd gp in
  let* id := read_id e o in
  Done (fst gp,
    mkReadRequest id ty name (text (pr_parent p)) (pr_props p) (pr_dependencies p) (text (pr_provider p))
      (text (ro_version o)) (text (ro_plugin_download_url o)) (accept_resources e)
      (names (output_name e) (ro_additional_secret_outputs o))).

End WithOrder.
