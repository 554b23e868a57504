(** Getting the configuration of the last update back: `pulumi config refresh`
    (pkg/cmd/pulumi/config.go), GetLatestConfiguration (pkg/backend/filestate/backend.go)
    and refresh_config (automation/_local_workspace.py) *)
From Verif Require Import Base PyVal Model_Urn Model_Cmd Model_StackInit Model_Json Model_WsConfig Spec_WsConfig Model_Host Model_ConfigFile Model_Lock Model_Save.
From Verif Require Model_Files.
Open Scope string_scope.
Open Scope list_scope.

Section Refresh.
  (** States with resources, and what is recorded about updates besides their configuration. *)
  Variables S V : Type.
  Variable has_resources : S -> bool.
  Variable to_json : pyval -> string.
  Variable of_json : string -> res pyval.
  (** backend/updates.go [UpdateInfo]: the field Config, as it is written to JSON
      (map.go:351-358 [Map.MarshalJSON]), and the rest. *)
  Definition record : Type := (V * cfile)%type.
  (** The settings files, and the bucket of the backend. *)
  Record world : Type := mkWorld { w_files : files; w_bucket : bucket (Model_Files.content S record) }.

  (** backend.go:554-700 [apply]: the update runs with what is in the settings file
      (config.go:923-957 [getStackConfiguration]) and records it.  Simplification: an
      update whose settings file cannot be read does nothing. *)
  Definition update_stack (e : Model_Files.env S) (w : world) (name : string) (ss : list S) (v : V) : world * bool :=
    match dget (w_files w) name with
    | Some f =>
        match (let+ cfg := load_config to_json f in save_config of_json cfg) with
        | Ok r => let (b, ok) := Model_Files.update e (w_bucket w) name ss (v, r) in (mkWorld (w_files w) b, ok)
        | Err _ => (w, false)
        end
    | None => (w, false)
    end.

  (** What happens before a refresh: somebody writes settings files, by hand or with the
      calls of the API; stacks are created, updated and removed. *)
  Inductive action : Type :=
  | Edited (fs : files)
  | Created (e : Model_Files.env S) (name : string)
  | Updated (e : Model_Files.env S) (name : string) (ss : list S) (v : V)
  | Removed (e : Model_Files.env S) (name : string).
  Definition act (w : world) (a : action) : world * bool :=
    match a with
    | Edited fs => (mkWorld fs (w_bucket w), true)
    | Created e n => let (b, ok) := Model_Files.create e (w_bucket w) n in (mkWorld (w_files w) b, ok)
    | Updated e n ss v => update_stack e w n ss v
    | Removed e n => let (b, ok) := Model_Files.remove has_resources e (w_bucket w) n in (mkWorld (w_files w) b, ok)
    end.
  Definition act_all (w : world) (l : list action) : world := fold_left (fun w a => fst (act w a)) l w.

  (** _stack.py:299-314 [up], the end: the command, then outputs() (_stack.py:617-622) and
      info() (_stack.py:674-683), which are commands of their own; [others1] and [others2] is
      what happens before them.  None: up() raises.  Simplifications: outputs() is one
      command, and gives the state that it reads the outputs of; what is shown of secrets is in
      [Model_WsState]. *)
  Definition up_result (w : world) (e : Model_Files.env S) (name : string) (ss : list S) (v : V) (others1 others2 : list action) : option (option S * V) :=
    let (w1, ok) := act w (Updated e name ss v) in
    if ok then
      let w2 := act_all w1 others1 in
      let w3 := act_all w2 others2 in
      match current (Model_Files.plain_path name) (w_bucket w2), Model_Files.get_history (w_bucket w3) name 1 1 with
      | Some (Model_Files.Checkpoint s), Some (r :: _) => Some (s, fst r)
      | _, _ => None
      end
    else None.

  Variable project : string.
  Variable print_json : pyval -> string.
  Variable order : dict pyval -> dict pyval.
  Variable enc : files -> string -> string -> string -> res string.
  Variable dec : string -> string -> res string.

  Definition refuses (w : world) (err : string) : world * (string * string * Z) := (w, ("", err, 255%Z)).
  (** backend.go:462-474 [GetLatestConfiguration]; map.go:360-378 [Map.UnmarshalJSON]. *)
  Definition latest_configuration (w : world) (name : string) : res (dict cvalue) :=
    match Model_Files.get_history (w_bucket w) name 1 1 with
    | None => Err (Exn "error" "reading history")
    | Some [] => Err (Exn "error" "no previous deployment")
    | Some ((_, r) :: _) => load_config to_json r
    end.
  (** config.go:386-455 [newConfigRefreshCmd], with --force: what else is in the settings file
      (the salt of its ciphertexts) stays.  Other commands as in [cli_files].
      Simplification: without --force is left out. *)
  Definition cli_refresh (e : Model_Files.env S) : cli world := fun w args =>
    match args with
    | "config" :: "refresh" :: rest =>
        match parse_flags ["force"; "non-interactive"] ["stack"] rest with
        | Some (fl, []) =>
            match flag_values fl "stack" with
            | [name] =>
                match Model_Files.get_stack e (w_bucket w) name with
                | None => refuses w ("error: no stack named '" ++ name ++ "' found")%string
                | Some _ =>
                    match (let+ cfg := latest_configuration w name in
                           let+ old := match dget (w_files w) name with Some f => load_config to_json f | None => Ok [] end in
                           save_config of_json cfg) with
                    | Ok f => if flag_given fl "force" then (mkWorld (dset (w_files w) name f) (w_bucket w), ("", "", 0%Z)) else refuses w "not modelled"
                    | Err (Exn _ msg) => refuses w ("error: " ++ msg)%string
                    end
                end
            | _ => refuses w "error: no stack"
            end
        | _ => refuses w "error: usage"
        end
    | _ =>
        let '(fs, out) := cli_files to_json of_json project print_json order enc dec (fun _ _ => None) (w_files w) args in
        (mkWorld fs (w_bucket w), out)
    end.
End Refresh.

(** _local_workspace.py:251-255 [refresh_config]. *)
Definition refresh_config {W} (c : cli W) (w : W) (stack : string) : W * answer unit :=
  let '(w1, r) := command c w [VStr "config"; VStr "refresh"; VStr "--force"; VStr "--stack"; VStr stack] in
  match r with
  | Got _ => let '(w2, r2) := get_all_config c w1 stack in (w2, done r2)
  | CliError k => (w1, CliError k)
  | PyError e => (w1, PyError e)
  end.
Arguments mkWorld {S V}. Arguments w_files {S V}. Arguments w_bucket {S V}. Arguments update_stack {S V}. Arguments act {S V}. Arguments act_all {S V}.
Arguments Edited {S V}. Arguments Created {S V}. Arguments Updated {S V}. Arguments Removed {S V}. Arguments up_result {S V}. Arguments latest_configuration {S V}. Arguments cli_refresh {S V}.
