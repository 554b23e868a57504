(** Specifications for engine events (C62, C71). *)
From Verif Require Import Base PyVal Model_Cmd Spec_Cmd Model_Events.
Open Scope string_scope.

(** What the CLI has written. *)
Fixpoint written (ops : list wop) : string :=
  match ops with [] => "" | Write c :: ops' => c ++ written ops' | Poll :: ops' => written ops' end.
(** Complete lines. *)
Fixpoint text_of (ls : list string) : string :=
  match ls with [] => "" | l :: ls' => l ++ nl ++ text_of ls' end.
Definition whole (s : string) : Prop := exists ls, Forall one_line ls /\ s = text_of ls.
(** Whenever the watcher looks, the CLI is between two lines. *)
Definition at_line_ends (ops : list wop) : Prop := forall before after, ops = (before ++ Poll :: after)%list -> whole (written before).

(** The line holds the JSON document of the event. *)
Definition holds_event (loads : string -> res pyval) (line : string) (ev : eval) : Prop :=
  exists v, loads (line ++ nl) = Ok v /\ event_from_json v = Ok ev.
Definition cancel_event (ev : eval) : Prop := exists o, attr ev "cancel_event" = Some (EObj "CancelEvent" o).
(** The events up to the first cancel event, which ends the log. *)
Inductive up_to_cancel : list eval -> list eval -> Prop :=
| UC_none : up_to_cancel [] []
| UC_cancel ev evs : cancel_event ev -> up_to_cancel (ev :: evs) [ev]
| UC_next ev evs out : ~ cancel_event ev -> up_to_cancel evs out -> up_to_cancel (ev :: evs) (ev :: out).

(* ------------------------------------------------------------------ *)
(** Events as the CLI has them: sdk/go/common/apitype/events.go. *)
Record go_state : Type := mkGoState {
  gs_type : string; gs_urn : string; gs_custom : bool; gs_delete : bool; gs_id : string; gs_parent : string; gs_protect : bool;
  gs_inputs : dict pyval; gs_outputs : dict pyval; gs_provider : string; gs_init_errors : list string }.
Record go_step : Type := mkGoStep {
  gp_op : string; gp_urn : string; gp_type : string; gp_old : option go_state; gp_new : option go_state;
  gp_keys : list string; gp_diffs : list string; gp_detailed : list (string * (string * bool)); gp_logical : bool; gp_provider : string }.
Inductive go_payload : Type :=
| GoCancel
| GoStdout (message color : string)
| GoDiagnostic (urn prefix message color severity : string) (stream : Z) (ephemeral : bool)
| GoPrelude (config : dict string)
| GoSummary (corrupt : bool) (seconds : Z) (changes : dict Z) (packs : dict string)
| GoPre (step : go_step) (planning : bool)
| GoOutputs (step : go_step) (planning : bool)
| GoFailed (step : go_step) (status steps : Z)
| GoPolicy (urn message color name pack version tag level : string).
Record go_event : Type := mkGoEvent { ge_sequence : Z; ge_timestamp : Z; ge_payload : go_payload }.

(** Go's JSON encoding of these structs, field by field; "omitempty" fields are left out
    when empty. *)
Definition strs (l : list string) : pyval := VList (map VStr l).
Definition omit_str (k s : string) : dict pyval := if String.eqb s "" then [] else [(k, VStr s)].
Definition omit_bool (k : string) (b : bool) : dict pyval := if b then [(k, VBool b)] else [].
Definition omit_num (k : string) (n : Z) : dict pyval := if Z.eqb n 0 then [] else [(k, VNum n)].
Definition omit_strs (k : string) (l : list string) : dict pyval := match l with [] => [] | _ => [(k, strs l)] end.
Definition go_state_json (s : go_state) : pyval :=
  VDict ([("type", VStr (gs_type s)); ("urn", VStr (gs_urn s))] ++ omit_bool "custom" (gs_custom s) ++ omit_bool "delete" (gs_delete s) ++
         [("id", VStr (gs_id s)); ("parent", VStr (gs_parent s))] ++ omit_bool "protect" (gs_protect s) ++
         [("inputs", VDict (gs_inputs s)); ("outputs", VDict (gs_outputs s)); ("provider", VStr (gs_provider s))] ++
         omit_strs "initErrors" (gs_init_errors s))%list.
Definition go_state_opt (o : option go_state) : pyval := match o with Some s => go_state_json s | None => VNone end.
Definition go_diff_json (d : string * bool) : pyval := VDict [("diffKind", VStr (fst d)); ("inputDiff", VBool (snd d))].
Definition go_step_json (s : go_step) : pyval :=
  VDict ([("op", VStr (gp_op s)); ("urn", VStr (gp_urn s)); ("type", VStr (gp_type s));
          ("old", go_state_opt (gp_old s)); ("new", go_state_opt (gp_new s))] ++
         omit_strs "keys" (gp_keys s) ++ omit_strs "diffs" (gp_diffs s) ++
         match gp_detailed s with [] => [] | l => [("detailedDiff", VDict (map (fun kd => (fst kd, go_diff_json (snd kd))) l))] end ++
         omit_bool "logical" (gp_logical s) ++ [("provider", VStr (gp_provider s))])%list.
Definition go_payload_json (p : go_payload) : dict pyval :=
  match p with
  | GoCancel => [("cancelEvent", VDict [])]
  | GoStdout m c => [("stdoutEvent", VDict [("message", VStr m); ("color", VStr c)])]
  | GoDiagnostic urn prefix m c sev stream eph =>
      [("diagnosticEvent", VDict (omit_str "urn" urn ++ omit_str "prefix" prefix ++
         [("message", VStr m); ("color", VStr c); ("severity", VStr sev)] ++ omit_num "streamID" stream ++ omit_bool "ephemeral" eph)%list)]
  | GoPrelude config => [("preludeEvent", VDict [("config", VDict (map (fun kv => (fst kv, VStr (snd kv))) config))])]
  | GoSummary corrupt seconds changes packs =>
      [("summaryEvent", VDict [("maybeCorrupt", VBool corrupt); ("durationSeconds", VNum seconds);
         ("resourceChanges", VDict (map (fun kv => (fst kv, VNum (snd kv))) changes));
         ("PolicyPacks", VDict (map (fun kv => (fst kv, VStr (snd kv))) packs))])]
  | GoPre st planning => [("resourcePreEvent", VDict (("metadata", go_step_json st) :: omit_bool "planning" planning))]
  | GoOutputs st planning => [("resOutputsEvent", VDict (("metadata", go_step_json st) :: omit_bool "planning" planning))]
  | GoFailed st status steps => [("resOpFailedEvent", VDict [("metadata", go_step_json st); ("status", VNum status); ("steps", VNum steps)])]
  | GoPolicy urn m c name pack version tag level =>
      [("policyEvent", VDict (omit_str "resourceUrn" urn ++
         [("message", VStr m); ("color", VStr c); ("policyName", VStr name); ("policyPackName", VStr pack);
          ("policyPackVersion", VStr version); ("policyPackVersionTag", VStr tag); ("enforcementLevel", VStr level)])%list)]
  end.
Definition go_json (e : go_event) : pyval :=
  VDict (("sequence", VNum (ge_sequence e)) :: ("timestamp", VNum (ge_timestamp e)) :: go_payload_json (ge_payload e)).

(* ------------------------------------------------------------------ *)
(** What the program should see.  Things the event does not have are None. *)
Definition is (o : eval) (name : string) (v : pyval) : Prop := attr o name = Some (EV v).
Definition or_none (present : bool) (v : pyval) : pyval := if present then v else VNone.
Definition some_str (s : string) : pyval := if String.eqb s "" then VNone else VStr s.
Definition some_num (n : Z) : pyval := if Z.eqb n 0 then VNone else VNum n.
Definition some_bool (b : bool) : pyval := if b then VBool true else VNone.
Definition some_strs (l : list string) : pyval := match l with [] => VNone | _ => strs l end.

Definition shows_state (s : go_state) (o : eval) : Prop :=
  is o "type" (VStr (gs_type s)) /\ is o "urn" (VStr (gs_urn s)) /\ is o "id" (VStr (gs_id s)) /\ is o "parent" (VStr (gs_parent s)) /\
  is o "provider" (VStr (gs_provider s)) /\ is o "custom" (some_bool (gs_custom s)) /\ is o "delete" (some_bool (gs_delete s)) /\
  is o "protect" (some_bool (gs_protect s)) /\ is o "inputs" (VDict (gs_inputs s)) /\ is o "outputs" (VDict (gs_outputs s)) /\
  is o "init_errors" (some_strs (gs_init_errors s)).
Definition shows_opt (s : option go_state) (o : option eval) : Prop :=
  match s with None => o = Some (EV VNone) | Some s => exists x, o = Some x /\ shows_state s x end.
(** The diffs are objects of the class [PropertyDiff], by path. *)
Definition shows_diffs (l : list (string * (string * bool))) (o : option eval) : Prop :=
  match l with
  | [] => o = Some (EV VNone)
  | _ => exists attrs, o = Some (EObj "dict" attrs) /\
      Forall2 (fun x y => fst x = fst y /\ is (snd y) "diff_kind" (VStr (fst (snd x))) /\ is (snd y) "input_diff" (VBool (snd (snd x)))) l attrs
  end.
Definition shows_step_but_diff (s : go_step) (o : eval) : Prop :=
  is o "op" (VStr (gp_op s)) /\ is o "urn" (VStr (gp_urn s)) /\ is o "type" (VStr (gp_type s)) /\ is o "provider" (VStr (gp_provider s)) /\
  shows_opt (gp_old s) (attr o "old") /\ shows_opt (gp_new s) (attr o "new") /\
  is o "keys" (some_strs (gp_keys s)) /\ is o "diffs" (some_strs (gp_diffs s)) /\ is o "logical" (some_bool (gp_logical s)).
Definition shows_step (s : go_step) (o : eval) : Prop := shows_step_but_diff s o /\ shows_diffs (gp_detailed s) (attr o "detailed_diff").
Definition shows_payload (p : go_payload) (o : eval) : Prop :=
  match p with
  | GoCancel => True
  | GoStdout m c => is o "message" (VStr m) /\ is o "color" (VStr c)
  | GoDiagnostic urn prefix m c sev stream eph =>
      is o "urn" (some_str urn) /\ is o "prefix" (some_str prefix) /\ is o "message" (VStr m) /\ is o "color" (VStr c) /\
      is o "severity" (VStr sev) /\ is o "ephemeral" (some_bool eph) /\ is o "stream_id" (some_num stream)
  | GoPrelude config => is o "config" (VDict (map (fun kv => (fst kv, VStr (snd kv))) config))
  | GoSummary corrupt seconds changes packs =>
      is o "maybe_corrupt" (VBool corrupt) /\ is o "duration_seconds" (VNum seconds) /\
      is o "resource_changes" (VDict (map (fun kv => (fst kv, VNum (snd kv))) changes)) /\
      is o "policy_packs" (VDict (map (fun kv => (fst kv, VStr (snd kv))) packs))
  | GoPre st planning | GoOutputs st planning =>
      (exists m, attr o "metadata" = Some m /\ shows_step st m) /\ is o "planning" (some_bool planning)
  | GoFailed st status steps =>
      (exists m, attr o "metadata" = Some m /\ shows_step st m) /\ is o "status" (VNum status) /\ is o "steps" (VNum steps)
  | GoPolicy urn m c name pack version tag level =>
      is o "resource_urn" (some_str urn) /\ is o "message" (VStr m) /\ is o "color" (VStr c) /\ is o "policy_name" (VStr name) /\
      is o "policy_pack_name" (VStr pack) /\ is o "policy_pack_version" (VStr version) /\ is o "policy_pack_version_tag" (VStr tag) /\
      is o "enforcement_level" (VStr level)
  end.
Definition payload_attr (p : go_payload) : string :=
  match p with
  | GoCancel => "cancel_event" | GoStdout _ _ => "stdout_event" | GoDiagnostic _ _ _ _ _ _ _ => "diagnostic_event"
  | GoPrelude _ => "prelude_event" | GoSummary _ _ _ _ => "summary_event" | GoPre _ _ => "resource_pre_event"
  | GoOutputs _ _ => "res_outputs_event" | GoFailed _ _ _ => "res_op_failed_event" | GoPolicy _ _ _ _ _ _ _ _ => "policy_event"
  end.
Definition payload_attrs : list string :=
  ["cancel_event"; "stdout_event"; "diagnostic_event"; "prelude_event"; "summary_event"; "resource_pre_event"; "res_outputs_event";
   "res_op_failed_event"; "policy_event"].
(** The object shows the event: its number and time, its payload under the attribute for it, and
    None under the others. *)
Definition shows_event (e : go_event) (o : eval) : Prop :=
  is o "sequence" (VNum (ge_sequence e)) /\ is o "timestamp" (VNum (ge_timestamp e)) /\
  (exists cls attrs, attr o (payload_attr (ge_payload e)) = Some (EObj cls attrs) /\ shows_payload (ge_payload e) (EObj cls attrs)) /\
  (forall n, In n payload_attrs -> n <> payload_attr (ge_payload e) -> is o n VNone).

(** The operations of deploy.StepOp (pkg/resource/deploy/step.go:1046-1060). *)
Definition step_ops : list string :=
  ["same"; "create"; "update"; "delete"; "replace"; "create-replacement"; "delete-replaced"; "read"; "read-replacement"; "refresh";
   "discard"; "discard-replaced"; "remove-pending-replace"; "import"; "import-replacement"].
Definition steps_of (p : go_payload) : list go_step :=
  match p with GoPre s _ | GoOutputs s _ | GoFailed s _ _ => [s] | _ => [] end.
(** Events that do not use the fields that get lost. *)
Definition without_lost_fields (p : go_payload) : Prop :=
  (forall s, In s (steps_of p) -> gp_detailed s = []) /\
  match p with GoDiagnostic _ _ _ _ _ stream _ => stream = 0%Z | GoPolicy urn _ _ _ _ _ _ _ => urn = "" | _ => True end.
