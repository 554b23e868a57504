(** automation/_local_workspace.py and _stack.py: opening a workspace, creating and
    selecting stacks *)
From Verif Require Import Base PyVal Model_Urn Model_Semver Model_Cmd.
Open Scope string_scope.

(* ------------------------------------------------------------------ *)
(** The version check. *)

(** [str.strip()]. *)
Fixpoint lstrip (s : string) : string :=
  match s with
  | EmptyString => EmptyString
  | String c s' => if is_space c then lstrip s' else s
  end.
Definition strip (s : string) : string := rstrip (lstrip s).

(** _local_workspace.py:371-376 [_get_pulumi_version], after the command: [IndexError]
    for an empty output. *)
Definition version_text (out : string) : res string :=
  match strip out with
  | EmptyString => Err (Exn "IndexError" "string index out of range")
  | String c s => Ok (if Ascii.eqb c "v" then s else String c s)
  end.

Definition invalid_version (m : string) : exn := Exn "InvalidVersionError" m.
(** _local_workspace.py:608-638 [_parse_and_validate_pulumi_version]; [parse] is
    [VersionInfo.parse], [None] for its ValueError. *)
Definition parse_and_validate (parse : string -> option version) (minimum : version) (current : string) (opt_out : bool) : res (option version) :=
  let v := parse current in
  if opt_out then Ok v
  else match v with
       | None => Err (invalid_version "Could not parse the Pulumi CLI version.")
       | Some v =>
           if N.ltb (v_major minimum) (v_major v) then Err (invalid_version "Major version mismatch.")
           else if version_gtb minimum v then Err (invalid_version "Minimum version requirement failed.")
           else Ok (Some v)
       end.

Definition skip_var : string := "PULUMI_AUTOMATION_API_SKIP_VERSION_CHECK".
(** _minimum_version.py:17. *)
Definition minimum_version : version := mkVersion 3 1 0 [] "".

(** What creating a workspace gives. *)
Inductive opened : Type :=
| Opened (v : option version)             (* the value of [pulumi_version] *)
| NotRun (o : outcome)                    (* the version command failed *)
| Refused (e : exn).
(** _local_workspace.py:86-117 [LocalWorkspace.__init__], without the settings it may save;
    [env] is the process's environment. *)
Definition open_workspace (parse : string -> option version) (pulumi : program) (env : dict string) (env_vars : option (dict string)) : opened :=
  match run_cmd pulumi [VStr "version"] None with
  | (_, _, Returned r) =>
      match version_text (cm_stdout r) with
      | Err e => Refused e
      | Ok t =>
          let opt_out := dmem env skip_var || match env_vars with Some d => dmem d skip_var | None => false end in
          match parse_and_validate parse minimum_version t opt_out with
          | Ok v => Opened v
          | Err e => Refused e
          end
      end
  | (_, _, o) => NotRun o
  end.

(* ------------------------------------------------------------------ *)
(** Creating and selecting stacks. *)

(** The CLI with its backend's state: what a command does to the state, and
    prints. *)
Definition cli (S : Type) : Type := S -> list string -> S * (string * string * Z).

(** _local_workspace.py:378-383 [_run_pulumi_cmd_sync], without a callback. *)
Definition run_cli {S} (c : cli S) (s : S) (args : list pyval) : S * outcome :=
  match run_cmd (fun ws => snd (c s ws)) args None with
  | (Some ws, _, o) => (fst (c s ws), o)
  | (None, _, o) => (s, o)
  end.
(** _local_workspace.py:268-272 [create_stack]. *)
Definition create_stack {S} (c : cli S) (provider : option string) (s : S) (name : string) : S * outcome :=
  run_cli c s ([VStr "stack"; VStr "init"; VStr name] ++
    match provider with Some ((String _ _) as p) => [VStr "--secrets-provider"; VStr p] | _ => [] end)%list.
(** _local_workspace.py:274-275 [select_stack]. *)
Definition select_stack {S} (c : cli S) (s : S) (name : string) : S * outcome :=
  run_cli c s [VStr "stack"; VStr "select"; VStr name].

Inductive init_mode : Type := Create | Select | CreateOrSelect.
(** _stack.py:165-191 [Stack.__init__].  [Returned] means that there is a Stack. *)
Definition stack_init {S} (c : cli S) (provider : option string) (s : S) (name : string) (mode : init_mode) : S * outcome :=
  match mode with
  | Create => create_stack c provider s name
  | Select => select_stack c s name
  | CreateOrSelect =>
      match create_stack c provider s name with
      | (s', Raised StackAlreadyExistsError _) => select_stack c s' name
      | other => other
      end
  end.
