(** The outputs of a stack as the CLI shows them (Go: pkg/cmd/pulumi/stack_output.go,
    pkg/backend/display/json.go), which the automation API reads. *)
From Verif Require Import Base PyVal Model_Rpc Model_Engine Model_Cmd Model_StackInit Model_State Model_Reference.
From Verif Require Import Model_WsConfig Spec_WsConfig.
Open Scope string_scope.

(** display/json.go:34-56 [massagePropertyValue]. *)
Fixpoint massage_value (show : bool) (v : pval) : pval :=
  match v with
  | PArr l => PArr (map (massage_value show) l)
  | PObj d => PObj (map (fun kv => (fst kv, massage_value show (snd kv))) d)
  | PSecret e => if show then massage_value show e else PStr "[secret]"
  | _ => v
  end.
(** display/json.go:62-68 [MassageSecrets]. *)
Definition massage_secrets (show : bool) (m : dict pval) : dict pval :=
  map (fun kv => (fst kv, massage_value show (snd kv))) m.

(** sdk/go/common/resource/config/crypt.go:128-137 [NewPanicCrypter]. *)
Definition panic_encrypt (_ : list nat) (_ : string) : res string := Err (Exn "panic" "attempt to encrypt value").

(** stack_output.go:107-122 [getStackOutputs]. *)
Definition shown_outputs (json : wire -> string) (show : bool) (snap : list rstate) : res (dict wire) :=
  match find (fun r => String.eqb (t_type r) "pulumi:pulumi:Stack") snap with
  | None => Ok []
  | Some r => store_properties json panic_encrypt show [] (massage_secrets show (t_outputs r))
  end.

(** The data that is printed as JSON. *)
Fixpoint printed (w : wire) : pyval :=
  match w with
  | WNull => VNone
  | WBool b => VBool b
  | WNum z => VNum z
  | WStr s => VStr s
  | WList l => VList (map printed l)
  | WStruct d => VDict (map (fun kv => (fst kv, printed (snd kv))) d)
  end.

(** stack_output.go:41-93, pkg/cmd/pulumi/util.go:806-814: the command.  [print_json] stands for
    encoding/json with its indentation; [trouble] is any other reason for which the command can
    fail.  Simplifications: without "--json", and for a single output, nothing is modelled;
    entries are printed in the order of the list. *)
Section Cli.
  Variable print_json : pyval -> string.
  Variable trouble : backend -> list string -> option (string * Z).

  Definition gives (b : backend) (v : pyval) : backend * (string * string * Z) := (b, ((print_json v ++ nl)%string, "", 0%Z)).
  Definition refuses (b : backend) (err : string * Z) : backend * (string * string * Z) :=
    (b, ("", fst err, if Z.eqb (snd err) 0 then 255%Z else snd err)).
  Definition output_command (b : backend) (name : string) (show : bool) : backend * (string * string * Z) :=
    match b_stacks b name with
    | None => refuses b ("error: no stack named '" ++ name ++ "' found", 255%Z)
    | Some ss =>
        match (let+ snap := load_deployment (b_unjson b) (b_again b) (b_decrypt b) (b_depth b) ss in shown_outputs (b_json b) show snap) with
        | Ok outs => gives b (printed (WStruct outs))
        | Err e => refuses b (match e with Exn _ m => m end, 255%Z)
        end
    end.
  Definition cli_outputs : cli backend := fun b args =>
    match trouble b args with
    | Some err => refuses b err
    | None =>
    match args with
    | "stack" :: "output" :: rest =>
        match parse_flags ["json"; "show-secrets"; "non-interactive"] ["stack"] rest with
        | Some (fl, []) =>
            match flag_values fl "stack", flag_given fl "json" with
            | [name], true => output_command b name (flag_given fl "show-secrets")
            | _, _ => refuses b ("not modelled", 255%Z)
            end
        | _ => refuses b ("error: usage", 255%Z)
        end
    | _ => refuses b ("error: unknown command", 255%Z)
    end
    end.
End Cli.
