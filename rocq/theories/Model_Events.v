(** automation/events.py, and the event log watcher of automation/_stack.py *)
From Verif Require Import Base PyVal Model_Cmd.
Open Scope string_scope.

(** Python objects of the classes of events.py: the class and the attributes.  An enum
    member is represented by its value. *)
Inductive eval : Type :=
| EV (v : pyval)
| EObj (cls : string) (attrs : list (string * eval)).

(** [bool(v)]. *)
Definition truth (v : pyval) : bool :=
  match v with
  | VNone => false
  | VBool b => b
  | VNum n => negb (Z.eqb n 0)
  | VStr s => negb (String.eqb s "")
  | VList l => match l with [] => false | _ => true end
  | VDict d => match d with [] => false | _ => true end
  | _ => true
  end.

(** [data.get(key, default)]; anything but a dict has no [get]. *)
Definition as_dict (v : pyval) : res (dict pyval) :=
  match v with VDict d => Ok d | _ => Err (Exn "AttributeError" "object has no attribute 'get'") end.
Definition get_or (d : dict pyval) (key : string) (default : pyval) : pyval :=
  match dget d key with Some v => v | None => default end.
Definition attr_or (name : string) (d : dict pyval) (key : string) (default : pyval) : string * eval :=
  (name, EV (get_or d key default)).

(** [cls( **data)] for a constructor with the parameters [names], all required. *)
Definition keyword_call (cls : string) (names : list string) (v : pyval) : res eval :=
  match v with
  | VDict d =>
      if forallb (fun k => smem k names) (dkeys d) && forallb (fun n => dmem d n) names
      then Ok (EObj cls (map (fun n => attr_or n d n VNone) names))
      else Err (Exn "TypeError" "__init__()")
  | _ => Err (Exn "TypeError" "argument after ** must be a mapping")
  end.

(** events.py:83-85, 215-217 *)
Definition stdout_from_json : pyval -> res eval := keyword_call "StdoutEngineEvent" ["message"; "color"].
Definition prelude_from_json : pyval -> res eval := keyword_call "PreludeEvent" ["config"].

(** events.py:129-139 *)
Definition diagnostic_from_json (v : pyval) : res eval :=
  let+ d := as_dict v in
  Ok (EObj "DiagnosticEvent"
    [attr_or "message" d "message" (VStr ""); attr_or "color" d "color" (VStr ""); attr_or "severity" d "severity" (VStr "");
     attr_or "stream_id" d "streamId" VNone; attr_or "ephemeral" d "ephemeral" VNone; attr_or "urn" d "urn" VNone;
     attr_or "prefix" d "prefix" VNone]).

(** events.py:186-197 *)
Definition policy_from_json (v : pyval) : res eval :=
  let+ d := as_dict v in
  Ok (EObj "PolicyEvent"
    [attr_or "message" d "message" (VStr ""); attr_or "color" d "color" (VStr ""); attr_or "policy_name" d "policyName" (VStr "");
     attr_or "policy_pack_name" d "policyPackName" (VStr ""); attr_or "policy_pack_version" d "policyPackVersion" (VStr "");
     attr_or "policy_pack_version_tag" d "policyPackVersionTag" (VStr "");
     attr_or "enforcement_level" d "enforcementLevel" (VStr ""); attr_or "resource_urn" d "resource_urn" VNone]).

(** events.py:252-259 *)
Definition summary_from_json (v : pyval) : res eval :=
  let+ d := as_dict v in
  Ok (EObj "SummaryEvent"
    [attr_or "maybe_corrupt" d "maybeCorrupt" (VBool false); attr_or "duration_seconds" d "durationSeconds" (VNum 0);
     attr_or "resource_changes" d "resourceChanges" (VDict []); attr_or "policy_packs" d "PolicyPacks" (VDict [])]).

(** events.py:366-380 *)
Definition state_from_json (v : pyval) : res eval :=
  let+ d := as_dict v in
  Ok (EObj "StepEventStateMetadata"
    [attr_or "type" d "type" (VStr ""); attr_or "urn" d "urn" (VStr ""); attr_or "id" d "id" (VStr "");
     attr_or "parent" d "parent" (VStr ""); attr_or "provider" d "provider" (VStr ""); attr_or "custom" d "custom" VNone;
     attr_or "delete" d "delete" VNone; attr_or "protect" d "protect" VNone; attr_or "inputs" d "inputs" VNone;
     attr_or "outputs" d "outputs" VNone; attr_or "init_errors" d "initErrors" VNone]).

(** [X.from_json(v) if v else None] *)
Definition if_truth (from_json : pyval -> res eval) (v : pyval) : res eval :=
  if truth v then from_json v else Ok (EV VNone).

(** events.py:23-42 [OpType], an enum of strings. *)
Definition op_types : list string :=
  ["same"; "create"; "update"; "delete"; "replace"; "create-replacement"; "delete-replaced"; "read"; "read-replacement";
   "refresh"; "discard"; "discard-replaced"; "remove-pending-replace"; "import"; "import-replacement"].
Definition op_type (v : pyval) : res eval :=
  match v with
  | VStr s => if smem s op_types then Ok (EV (VStr s)) else Err (Exn "ValueError" "is not a valid OpType")
  | _ => Err (Exn "ValueError" "is not a valid OpType")
  end.

(** events.py:436-452 *)
Definition step_from_json (v : pyval) : res eval :=
  let+ d := as_dict v in
  let+ op := op_type (get_or d "op" (VStr "")) in
  let+ old := if_truth state_from_json (get_or d "old" VNone) in
  let+ new := if_truth state_from_json (get_or d "new" VNone) in
  Ok (EObj "StepEventMetadata"
    [("op", op); attr_or "urn" d "urn" (VStr ""); attr_or "type" d "type" (VStr ""); attr_or "provider" d "provider" (VStr "");
     ("old", old); ("new", new); attr_or "keys" d "keys" VNone; attr_or "diffs" d "diffs" VNone;
     attr_or "detailed_diff" d "detailed_diff" VNone; attr_or "logical" d "logical" VNone]).

(** events.py:464-470, 482-488, 502-509 *)
Definition pre_from_json (v : pyval) : res eval :=
  let+ d := as_dict v in
  let+ m := step_from_json (get_or d "metadata" (VDict [])) in
  Ok (EObj "ResourcePreEvent" [("metadata", m); attr_or "planning" d "planning" VNone]).
Definition outputs_from_json (v : pyval) : res eval :=
  let+ d := as_dict v in
  let+ m := step_from_json (get_or d "metadata" (VDict [])) in
  Ok (EObj "ResOutputsEvent" [("metadata", m); attr_or "planning" d "planning" VNone]).
Definition failed_from_json (v : pyval) : res eval :=
  let+ d := as_dict v in
  let+ m := step_from_json (get_or d "metadata" (VDict [])) in
  Ok (EObj "ResOpFailedEvent" [("metadata", m); attr_or "status" d "status" (VNum 0); attr_or "steps" d "steps" (VNum 0)]).

(** events.py:557-594 [EngineEvent.from_json] *)
Definition event_from_json (v : pyval) : res eval :=
  let+ d := as_dict v in
  let+ out := if_truth stdout_from_json (get_or d "stdoutEvent" VNone) in
  let+ diag := if_truth diagnostic_from_json (get_or d "diagnosticEvent" VNone) in
  let+ prel := if_truth prelude_from_json (get_or d "preludeEvent" VNone) in
  let+ summ := if_truth summary_from_json (get_or d "summaryEvent" VNone) in
  let+ pre := if_truth pre_from_json (get_or d "resourcePreEvent" VNone) in
  let+ outs := if_truth outputs_from_json (get_or d "resOutputsEvent" VNone) in
  let+ fail := if_truth failed_from_json (get_or d "resOpFailedEvent" VNone) in
  let+ pol := if_truth policy_from_json (get_or d "policyEvent" VNone) in
  Ok (EObj "EngineEvent"
    [attr_or "sequence" d "sequence" (VNum 0); attr_or "timestamp" d "timestamp" (VNum 0);
     ("cancel_event", if dmem d "cancelEvent" then EObj "CancelEvent" [] else EV VNone);
     ("stdout_event", out); ("diagnostic_event", diag); ("prelude_event", prel); ("summary_event", summ);
     ("resource_pre_event", pre); ("res_outputs_event", outs); ("res_op_failed_event", fail); ("policy_event", pol)]).

Fixpoint find_attr (l : list (string * eval)) (name : string) : option eval :=
  match l with [] => None | (n, v) :: l' => if String.eqb n name then Some v else find_attr l' name end.
Definition attr (o : eval) (name : string) : option eval :=
  match o with EObj _ l => find_attr l name | EV _ => None end.
(** [if event.cancel_event]: objects of these classes are true. *)
Definition is_cancel (o : eval) : bool :=
  match attr o "cancel_event" with Some (EObj _ _) => true | Some (EV v) => truth v | None => false end.

(* ------------------------------------------------------------------ *)
(** [f.readline()], text mode: up to and including the next line end, or to the end of
    what has been written so far.  Simplification: the text contains no carriage
    returns (JSON escapes them), and writes do not split characters. *)
Fixpoint readline (s : string) : string * string :=
  match s with
  | EmptyString => ("", "")
  | String c s' =>
      if Ascii.eqb c newline then (String c "", s')
      else let (l, r) := readline s' in (String c l, r)
  end.

(** What happens: the CLI appends to the file; the watcher goes once round its loop. *)
Inductive wop : Type := Write (chunk : string) | Poll.

Inductive wstatus : Type := Watching | Stopped | Died (e : exn).
Record watcher : Type := mkW { w_unread : string; w_delivered : list eval; w_status : wstatus }.

Section Watch.
  (** json.loads, of a line. *)
  Variable loads : string -> res pyval.

  (** _stack.py:815-830, the body of the loop; callbacks do not raise. *)
  Definition poll (w : watcher) : watcher :=
    match w_status w with
    | Watching =>
        let (line, rest) := readline (w_unread w) in
        match line with
        | EmptyString => w
        | _ =>
            match (let+ v := loads line in event_from_json v) with
            | Err e => mkW rest (w_delivered w) (Died e)
            | Ok ev => mkW rest (w_delivered w ++ [ev])%list (if is_cancel ev then Stopped else Watching)
            end
        end
    | _ => w
    end.
  Definition wstep (w : watcher) (o : wop) : watcher :=
    match o with
    | Write chunk => mkW (w_unread w ++ chunk) (w_delivered w) (w_status w)
    | Poll => poll w
    end.
  (** The log file exists, empty, when the watcher opens it (_stack.py:803-812). *)
  Definition watch (ops : list wop) : watcher := fold_left wstep ops (mkW "" [] Watching).
End Watch.
