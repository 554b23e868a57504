(** Refreshing a stack (Go: pkg/resource/deploy, sdk/go/common/resource/plugin). *)
From Verif Require Import Base.
Open Scope string_scope.
Open Scope list_scope.

(** sdk/go/common/resource/properties.go [PropertyValue]: what matters here; [Plain] is any value
    that is no secret, array or object.  Objects have each key once, since they are Go maps. *)
Inductive value : Type :=
| Plain (s : string)
| Secret (v : value)
| Arr (l : list value)
| Obj (l : list (string * value)).
Definition props := list (string * value).
(** sdk/go/common/resource/resource_state.go:26-52 [State].  [r_kind] is true for the types of
    providers, [r_provider] the URN and the ID of the reference, [r_props] the dependencies of
    single properties, [r_secret] the names of outputs that are to be secret; [r_rest] stands
    for the aliases, timeouts and so on. *)
Record res : Type := mkRes {
  r_urn : string; r_kind : bool; r_custom : bool; r_delete : bool; r_pending : bool; r_id : string;
  r_inputs : props; r_outputs : props; r_parent : string; r_deps : list string;
  r_props : list (string * list string); r_errors : list string; r_provider : option (string * string);
  r_secret : list string; r_rest : string }.
Definition is_in (u : string) (l : list string) : bool := existsb (String.eqb u) l.

(** The value at a key: Go's maps. *)
Fixpoint look {A} (k : string) (l : list (string * A)) : option A :=
  match l with [] => None | (k', v) :: l' => if String.eqb k k' then Some v else look k l' end.
Definition is_secret (v : value) : bool := match v with Secret _ => true | _ => false end.
(** properties.go:160-168, 392-410 [ContainsSecrets]. *)
Fixpoint contains_secrets (v : value) : bool :=
  match v with
  | Plain _ => false
  | Secret _ => true
  | Arr l => existsb contains_secrets l
  | Obj l => existsb (fun kv => contains_secrets (snd kv)) l
  end.
(** provider_plugin.go:438-454 [annotateSecrets], for one value of the first map with the one
    at the same key of the second. *)
Fixpoint annotate_value (new old : value) : value :=
  match new with
  | Obj n =>
      match old with
      | Obj o => Obj (map (fun kv => (fst kv, match look (fst kv) o with Some w => annotate_value (snd kv) w | None => snd kv end)) n)
      | _ => if contains_secrets old then Secret new else new
      end
  | Secret _ => new
  | _ => if contains_secrets old then Secret new else new
  end.
Definition annotate (news olds : props) : props :=
  map (fun kv => (fst kv, match look (fst kv) olds with Some w => annotate_value (snd kv) w | None => snd kv end)) news.

(** What a provider answers when it is asked to read a resource.  [Found]: the ID, the state and
    the inputs, if any; [Unhealthy]: the same inside of an error that says that the resource
    failed to initialize, with the reasons; [Fails]: any other error, also before the call.
    [None] in place of properties: they cannot be decoded. *)
Inductive reply : Type :=
| Found (id : string) (state : option props) (inputs : option (option props))
| Unhealthy (id : string) (state : option props) (inputs : option (option props)) (reasons : list string)
| Fails.
(** provider.go [ReadResult]; [None]: nil. *)
Record read_result : Type := mkRead { d_id : string; d_outputs : option props; d_inputs : option props }.
Inductive trouble : Type := NoTrouble | InitTrouble (reasons : list string) | OtherTrouble.
Definition nothing_read : read_result := mkRead "" None None.

(** provider_plugin.go:903-960 [Read], 1605-1628 [parseError]: the result, whether the status is
    StatusPartialFailure, and the error.  [accepts]: whether the provider accepts secrets.  Left
    out: providers whose configuration is not known, as in previews. *)
Definition unmarshal (accepts : bool) (r : res) (id : string) (state : option props) (inputs : option (option props))
    (partial : bool) (t : trouble) : read_result * bool * trouble :=
  if String.eqb id "" then (nothing_read, partial, NoTrouble)
  else
    match state, inputs with
    | None, _ => (nothing_read, partial, OtherTrouble)
    | Some _, Some None => (nothing_read, partial, OtherTrouble)
    | Some s, None => (mkRead id (Some (if accepts then s else annotate s (r_outputs r))) None, partial, t)
    | Some s, Some (Some i) =>
        (mkRead id (Some (if accepts then s else annotate s (r_outputs r)))
                   (Some (if accepts then i else annotate i (r_inputs r))), partial, t)
    end.
Definition provider_read (accepts : bool) (r : res) (a : reply) : read_result * bool * trouble :=
  match a with
  | Fails => (nothing_read, false, OtherTrouble)
  | Found id s i => unmarshal accepts r id s i false NoTrouble
  | Unhealthy id s i reasons => unmarshal accepts r id s i true (InitTrouble reasons)
  end.

(** step.go:729-793 [RefreshStep.Apply]: the new state, nil for a resource that is gone, and
    whether the step failed. *)
Definition new_state (r : res) (d : read_result) (errors : list string) : option res :=
  match d_outputs d with
  | None => None
  | Some o =>
      Some (mkRes (r_urn r) (r_kind r) (r_custom r) (r_delete r) (r_pending r)
              (if negb (String.eqb (d_id d) "") && negb (String.eqb (d_id d) (r_id r)) then d_id d else r_id r)
              (match d_inputs d with Some i => i | None => r_inputs r end) o (r_parent r) (r_deps r)
              (r_props r) errors (r_provider r) (r_secret r) (r_rest r))
  end.
Definition apply_step (accepts : bool) (r : res) (a : reply) : option res * bool :=
  if negb (r_custom r) || r_kind r || r_pending r then (Some r, false)
  else
    match provider_read accepts r a with
    | (d, partial, t) =>
        match t with
        | NoTrouble => (new_state r d [], false)
        | InitTrouble reasons => if partial then (new_state r d reasons, false) else (Some r, true)
        | OtherTrouble => if partial then (new_state r d [], true) else (Some r, true)
        end
    end.

(** step_executor.go:317-328, in [executeStep]. *)
Definition hide_outputs (r : res) : res :=
  mkRes (r_urn r) (r_kind r) (r_custom r) (r_delete r) (r_pending r) (r_id r) (r_inputs r)
    (map (fun kv => (fst kv, if is_in (fst kv) (r_secret r) && negb (String.eqb (fst kv) "id") && negb (is_secret (snd kv))
                             then Secret (snd kv) else snd kv)) (r_outputs r))
    (r_parent r) (r_deps r) (r_props r) (r_errors r) (r_provider r) (r_secret r) (r_rest r).
(** step_executor.go:245-274 [executeChain], 289-383 [executeStep].  [None]: the refresh was
    cancelled before this step. *)
Definition execute (accepts : bool) (r : res) (a : option reply) : option res * bool :=
  match a with
  | None => (Some r, false)
  | Some a => let (n, failed) := apply_step accepts r a in (option_map hide_outputs n, failed)
  end.

(** deployment_executor.go:628-670: the loop of [rebuildBaseState].  Resources are the places in
    the list, for the pointers of the code. *)
Definition with_deps (r : res) (deps : list string) : res :=
  mkRes (r_urn r) (r_kind r) (r_custom r) (r_delete r) (r_pending r) (r_id r) (r_inputs r) (r_outputs r)
    (r_parent r) deps (r_props r) (r_errors r) (r_provider r) (r_secret r) (r_rest r).
Fixpoint repair (referenceable : list string) (l : list (option res)) : list res :=
  match l with
  | [] => []
  | None :: l' => repair referenceable l'
  | Some r :: l' => with_deps r (filter (fun d => is_in d referenceable) (r_deps r)) :: repair (r_urn r :: referenceable) l'
  end.
(** The keys of [olds]. *)
Definition live (l : list res) : list string := map r_urn (filter (fun r => negb (r_delete r)) l).
(** deployment_executor.go:678-732 [undangleParentResources]. *)
Definition with_parent (r : res) (parent : string) : res :=
  mkRes (r_urn r) (r_kind r) (r_custom r) (r_delete r) (r_pending r) (r_id r) (r_inputs r) (r_outputs r)
    parent (r_deps r) (r_props r) (r_errors r) (r_provider r) (r_secret r) (r_rest r).
Fixpoint undangle (undeleted : list string) (available : list (string * string)) (l : list res) : list res :=
  match l with
  | [] => []
  | r :: l' =>
      let p := if is_in (r_parent r) undeleted then r_parent r
               else match look (r_parent r) available with Some p => p | None => "" end in
      with_parent r p :: undangle undeleted ((r_urn r, p) :: available) l'
  end.
(** deployment_executor.go:597-676 [rebuildBaseState]. *)
Definition rebuild (l : list (option res)) : list res :=
  let rs := repair [] l in undangle (live rs) [] rs.

(** deployment_executor.go:549-595 [refresh] with 47-58 [createTargetMap] and 63-99
    [checkTargets]; [answers] and [accepts]: for the resource at each place.  The result is the
    record that pkg/backend/snapshot.go:456-471, 662-690 saves at the end, and whether the refresh
    failed. *)
Definition targeted (targets : list string) (r : res) : bool :=
  match targets with [] => true | _ => is_in (r_urn r) targets end.
Fixpoint steps (targets : list string) (accepts : nat -> bool) (answers : nat -> option reply) (i : nat) (l : list res)
    : list (option res * bool) :=
  match l with
  | [] => []
  | r :: l' =>
      (if targeted targets r then execute (accepts i) r (answers i) else (Some r, false))
      :: steps targets accepts answers (S i) l'
  end.
Definition refresh (targets : list string) (accepts : nat -> bool) (answers : nat -> option reply) (l : list res) : list res * bool :=
  if negb (forallb (fun t => is_in t (live l)) targets) then (l, true)
  else let s := steps targets accepts answers 0 l in (rebuild (map fst s), existsb snd s).

(** snapshot.go:125-182: the loop of [VerifyIntegrity], which the next operation begins with
    (pkg/backend/filestate/state.go:155-162); [urns], [provs]: the URNs and the providers so
    far.  Left out: what the texts of URNs and references must look like. *)
Definition same_reference (p q : string * string) : bool := String.eqb (fst p) (fst q) && String.eqb (snd p) (snd q).
Fixpoint verify (urns : list string) (provs : list (string * string)) (l : list res) : bool :=
  match l with
  | [] => true
  | r :: l' =>
      let provs' := if r_kind r then (r_urn r, r_id r) :: provs else provs in
      match r_provider r with None => true | Some ref => existsb (same_reference ref) provs' end
      && (String.eqb (r_parent r) "" || is_in (r_parent r) urns)
      && forallb (fun d => is_in d urns) (r_deps r)
      && negb (is_in (r_urn r) urns && negb (r_delete r))
      && verify (r_urn r :: urns) provs' l'
  end.
