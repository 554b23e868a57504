(** provider/server.py: inputs and responses of component providers *)
From Verif Require Import Base PyVal Model_Output Model_Rpc.
Open Scope string_scope.

(** The context of (de)serialisation, the URN of a resource given as an input,
    and whether this is a preview. *)
Record penv : Type := mkPenv {
  pv_cfg : cfg;
  pv_dc : dcfg;
  pv_urn : pyval -> fut (option string);
  pv_dry : bool
}.

(** server.py:383-399 [_contains_outputs]. *)
Fixpoint contains_outputs (v : pyval) : bool :=
  match v with
  | VOut _ _ _ _ => true
  | VList l => existsb contains_outputs l
  | VDict d => existsb (fun kv => contains_outputs (snd kv)) d
  | _ => false
  end.

(** [set(urns)]. *)
Definition to_set (l : list string) : list string :=
  fold_left (fun acc s => if smem s acc then acc else (acc ++ [s])%list) l [].

(** known_types.is_resource. *)
Definition is_resource (v : pyval) : bool :=
  match v with VRes _ | VConstructed _ _ _ _ => true | _ => false end.
(** server.py:372-380 [_is_resource_reference]. *)
Definition is_resource_reference (E : penv) (v : pyval) (deps : list string) : fut bool :=
  match is_resource v, deps with
  | true, [d] => let* u := pv_urn E v in Done (match u with Some s => String.eqb d s | None => false end)
  | _, _ => Done false
  end.

(** server.py:137-160 [_select_value]. *)
Definition select_value (E : penv) (v : pyval) (deps : list string) : fut pyval :=
  let is_secret := is_rpc_secret v in
  let* direct :=
    if is_secret then Done false
    else match deps with
         | [] => Done true
         | _ => if contains_outputs v then Done true else is_resource_reference E v deps
         end in
  if direct then Done v
  else Done (VO (new_output (Done (map RDep deps)) (Done (unwrap_rpc_secret v)) (Done true) (Done is_secret))).

(** server.py:118-135 [_construct_inputs] and 243-261 [_call_args] (the latter
    with keep_internal). *)
Fixpoint select_all (E : penv) (deps : dict (list string)) (d : dict pyval) : fut (dict pyval) :=
  match d with
  | [] => Done []
  | (k, v) :: d' =>
      let* x := select_value E v (to_set (match dget deps k with Some us => us | None => [] end)) in
      let* rest := select_all E deps d' in
      Done ((k, x) :: rest)
  end.
Definition component_inputs (E : penv) (keep_internal : bool) (inputs : dict wire) (deps : dict (list string)) : fut (dict pyval) :=
  let* v := of_res (deserialize_properties (pv_dc E) inputs true keep_internal) in
  match v with
  | VDict d => select_all E deps d
  | _ => Fail (Exn "AttributeError" "object has no attribute 'items'")
  end.

(** server.py:189-193, 270-273: the URNs of the resources each property depends
    on; the message type refuses an unknown URN (None). *)
Fixpoint known_urns (l : list (option string)) : fut (list string) :=
  match l with
  | [] => Done []
  | None :: _ => Fail (Exn "TypeError" "bad argument type for built-in operation")
  | Some u :: l' => let* us := known_urns l' in Done (u :: us)
  end.
Fixpoint urn_deps (E : penv) (pd : dict (list rsrc)) : fut (dict (list string)) :=
  match pd with
  | [] => Done []
  | (k, rs) :: pd' =>
      let* us := gather (map (fun r => r_urn (c_res (pv_cfg E) r)) rs) in
      let* us := known_urns us in
      let* rest := urn_deps E pd' in
      Done ((k, us) :: rest)
  end.

(** ConstructResponse and CallResponse; failures are (property, reason). *)
Record construct_response : Type := mkConstructResponse {
  cr_urn : string; cr_state : dict wire; cr_deps : dict (list string) }.
Record call_response : Type := mkProviderCallResponse {
  pr_return : dict wire; pr_deps : dict (list string); pr_failures : list (string * string) }.

(** A string field of a message. *)
Definition string_field (v : pyval) : fut string :=
  match v with
  | VStr s => Done s
  | VNone => Done ""
  | _ => Fail (Exn "TypeError" "bad argument type for built-in operation")
  end.

(** server.py:178-195 [_construct_response]. *)
Definition construct_reply (E : penv) (urn : pyval) (state : dict pyval) : fut construct_response :=
  let* u := future (from_input (pv_dry E) urn) false in
  let* sp := serialize_properties (pv_cfg E) None false
               (filter (fun kv => negb (smem (fst kv) ["id"; "urn"])) state) in
  let* deps := urn_deps E (snd sp) in
  let* u := string_field u in
  Done (mkConstructResponse u (fst sp) deps).

(** server.py:263-285 [_call_response]. *)
Definition call_reply (E : penv) (outputs : dict pyval) (failures : option (list (string * string))) : fut call_response :=
  let* sp := serialize_properties (pv_cfg E) None false outputs in
  let* deps := urn_deps E (snd sp) in
  Done (mkProviderCallResponse (fst sp) deps (match failures with Some l => l | None => [] end)).
