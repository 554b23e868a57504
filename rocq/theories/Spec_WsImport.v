(** The CLI's export and import commands. *)
From Verif Require Import Base PyVal Model_Urn Model_Cmd Model_StackInit Model_Json Spec_Json Model_WsConfig Spec_WsConfig Model_WsState Spec_WsState Model_WsImport.
Open Scope string_scope.
Open Scope list_scope.

(** The states of the stacks, and the files. *)
Definition stores : Type := (dict pyval * file_texts)%type.
Section Cli.
  (** pkg/cmd/pulumi/stack_export.go:84-103: a state with its secrets in plaintext. *)
  Variable reveal : pyval -> pyval.
  (** stack_import.go:71-126: what becomes of a deployment of some version given for some stack:
      refused, or the state that is stored (secrets encrypted, pending operations removed). *)
  Variable accept : string -> pyval -> pyval -> option pyval.
  Variable read_json : string -> option pyval.
  Variable print_json : pyval -> string.
  Variable trouble : stores -> list string -> option (string * Z).

  (** [trouble] is any other reason for which a command can fail, before it has changed anything.
      Simplification: without a file name the import reads its standard input, here it fails. *)
  Definition cli_deploy : cli stores := fun s args =>
    match trouble s args with
    | Some err => if Z.eqb (snd err) 0 then usage s (fst err) else fails s err
    | None =>
    match args with
    | "stack" :: "export" :: rest =>
        match parse_flags ["show-secrets"; "non-interactive"] ["stack"; "file"; "version"] rest with
        | Some (fl, []) =>
            match flag_values fl "stack", flag_given fl "show-secrets" && negb (flag_given fl "file") && negb (flag_given fl "version") with
            | [name], true =>
                match dget (fst s) name with
                | Some d => say print_json s (VDict [("version", VNum 3); ("deployment", reveal d)])
                | None => usage s ("error: no stack named '" ++ name ++ "' found")%string
                end
            | _, _ => usage s "not modelled"
            end
        | _ => usage s "error: usage"
        end
    | "stack" :: "import" :: rest =>
        match parse_flags ["force"; "non-interactive"] ["stack"; "file"] rest with
        | Some (fl, []) =>
            match flag_values fl "stack", flag_values fl "file", flag_given fl "force" with
            | [name], [file], false =>
                match dget (fst s) name with
                | None => usage s ("error: no stack named '" ++ name ++ "' found")%string
                | Some _ =>
                    match (if String.eqb file "" then None else dget (snd s) file) with
                    | None => usage s "error: could not open file"
                    | Some content =>
                        match read_json content with
                        | Some (VDict d) =>
                            match accept name (or_none (dget d "version")) (or_none (dget d "deployment")) with
                            | Some d' => ((dset (fst s) name d', snd s), (("Import complete." ++ nl)%string, "", 0%Z))
                            | None => usage s "error: importing this file could be dangerous; rerun with --force to proceed anyway"
                            end
                        | _ => usage s "error: invalid character"
                        end
                    end
                end
            | _, _, _ => usage s "not modelled"
            end
        | _ => usage s "error: usage"
        end
    | _ => usage s "error: unknown command"
    end
    end.
End Cli.

(** The CLI reads JSON. *)
Definition reader (read_json : string -> option pyval) : Prop :=
  forall v s, document v s -> plain_data v -> read_json s = Some v.
