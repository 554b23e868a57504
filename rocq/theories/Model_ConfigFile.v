(** The stack settings file and the way of a configuration value through it:
    sdk/go/common/resource/config/{value,map,key}.go, pkg/cmd/pulumi/config.go,
    pkg/resource/deploy/source_eval.go, sdk/go/common/resource/plugin/langruntime_plugin.go *)
From Verif Require Import Base PyVal Model_Urn Model_Cmd Model_StackInit Model_Json Model_WsConfig Spec_WsConfig Model_Host.
Open Scope string_scope.
Open Scope list_scope.

(** key.go:38-62 [ParseKey] for keys with two colons: <namespace>:config:<name>. *)
Definition legacy_key (s : string) : option string :=
  match split_first ":config:" s with Some (ns, name) => Some (ns ++ ":" ++ name)%string | None => None end.

(** value.go:26-31 [Value]. *)
Record cvalue : Type := mkCvalue { v_text : string; v_secure : bool; v_object : bool }.
(** value.go:33-47 [NewSecureValue], [NewValue]. *)
Definition new_secure_value (v : string) : cvalue := mkCvalue v true false.
Definition new_value (v : string) : cvalue := mkCvalue v false false.

(** value.go:265-274 [isSecureValue]. *)
Definition is_secure_value (v : pyval) : option string :=
  match v with VDict [(k, VStr s)] => if String.eqb k "secure" then Some s else None | _ => None end.
(** value.go:242-263 [hasSecureValue]. *)
Fixpoint has_secure_value (v : pyval) : bool :=
  match v with
  | VDict d =>
      match is_secure_value v with
      | Some _ => true
      | None => (fix go (d : dict pyval) : bool := match d with [] => false | (_, x) :: d' => has_secure_value x || go d' end) d
      end
  | VList l => (fix go (l : list pyval) : bool := match l with [] => false | x :: l' => has_secure_value x || go l' end) l
  | _ => false
  end.
(** value.go:324-356 [decryptObject]. *)
Section Decrypt.
  Variable dec : string -> res string.
  Fixpoint decrypt_object (v : pyval) : res pyval :=
    let decrypt_it x := match is_secure_value x with Some s => let+ t := dec s in Ok (VStr t) | None => decrypt_object x end in
    match v with
    | VDict d =>
        let+ d' := (fix go (d : dict pyval) : res (dict pyval) :=
                      match d with [] => Ok [] | (k, x) :: d1 => let+ y := decrypt_it x in let+ r := go d1 in Ok ((k, y) :: r) end) d in
        Ok (VDict d')
    | VList l =>
        let+ l' := (fix go (l : list pyval) : res (list pyval) :=
                      match l with [] => Ok [] | x :: l1 => let+ y := decrypt_it x in let+ r := go l1 in Ok (y :: r) end) l in
        Ok (VList l')
    | _ => Ok v
    end.
End Decrypt.

(** One settings file: the data under "config:".  All of them: by the name of the stack.
    Simplification: the text of the YAML document is left out; a stack without a file has an
    empty one. *)
Definition cfile : Type := dict pyval.
Definition files : Type := dict cfile.

Section Go.
  Variable to_json : pyval -> string.         (* json.Marshal *)
  Variable of_json : string -> res pyval.     (* json.Unmarshal *)

  (** value.go:53-77 [Value.Value].  Simplification: there is always a decrypter, and it is
      not the one that does nothing. *)
  Definition value_of (dec : string -> res string) (c : cvalue) : res string :=
    if negb (v_secure c) then Ok (v_text c)
    else if v_object c then
      let+ obj := of_json (v_text c) in let+ d := decrypt_object dec obj in Ok (to_json d)
    else dec (v_text c).

  (** value.go:171-204 [unmarshalValue].  Simplification: scalars other than strings are read
      with the text that JSON has for them, and null as the empty text. *)
  Definition unmarshal_value (v : pyval) : res cvalue :=
    match v with
    | VStr s => Ok (mkCvalue s false false)
    | VNum _ | VBool _ => Ok (mkCvalue (to_json v) false false)
    | VNone => Ok (mkCvalue "" false false)
    | VDict _ | VList _ =>
        match is_secure_value v with
        | Some s => Ok (mkCvalue s true false)
        | None => Ok (mkCvalue (to_json v) (has_secure_value v) true)
        end
    | _ => Err (Exn "error" "malformed config value")
    end.
  (** value.go:206-219 [marshalValue]. *)
  Definition marshal_value (c : cvalue) : res pyval :=
    if v_object c then of_json (v_text c)
    else if negb (v_secure c) then Ok (VStr (v_text c))
    else Ok (VDict [("secure", VStr (v_text c))]).

  (** map.go:389-408 [Map.UnmarshalYAML].  Simplification: of several spellings of one key the
      last one counts; in the code it is any. *)
  Fixpoint load_from (acc : dict cvalue) (f : cfile) : res (dict cvalue) :=
    match f with
    | [] => Ok acc
    | (k, y) :: f' =>
        let+ v := unmarshal_value y in
        match parse_key legacy_key k with
        | None => Err (Exn "error" "could not unmarshal map")
        | Some pk => load_from (dset acc pk v) f'
        end
    end.
  Definition load_config : cfile -> res (dict cvalue) := load_from [].
  (** map.go:380-387 [Map.MarshalYAML]. *)
  Fixpoint save_config (cfg : dict cvalue) : res cfile :=
    match cfg with
    | [] => Ok []
    | (k, v) :: cfg' => let+ y := marshal_value v in let+ f := save_config cfg' in Ok ((k, y) :: f)
    end.

  (** map.go:36-47 [Map.Decrypt]. *)
  Fixpoint decrypt_map (dec : string -> res string) (cfg : dict cvalue) : res (dict string) :=
    match cfg with
    | [] => Ok []
    | (k, v) :: cfg' => let+ t := value_of dec v in let+ r := decrypt_map dec cfg' in Ok ((k, t) :: r)
    end.
  (** map.go:60-69 [Map.SecureKeys]. *)
  Definition secure_keys (cfg : dict cvalue) : list string := map fst (filter (fun kv => v_secure (snd kv)) cfg).
  (** map.go:71-80 [Map.HasSecureValue]. *)
  Definition has_secure (cfg : dict cvalue) : bool := existsb (fun kv => v_secure (snd kv)) cfg.

  (** config.go:923-957 [getStackConfiguration]: the configuration and what decrypts it.
      Simplification: a file that cannot be read is an error; the code then asks the backend. *)
  Definition stack_configuration (dec : string -> res string) (f : cfile) : res (dict cvalue * (string -> res string)) :=
    let+ cfg := load_config f in
    Ok (cfg, if has_secure cfg then dec else fun _ => Err (Exn "panic" "attempt to decrypt value")).

  (** source_eval.go:95-135 [Iterate], 194-225 [forkRun] and langruntime_plugin.go:162-185 [Run]:
      the request sent to the language host.  [info] has everything but the configuration. *)
  Definition run_request (dec : string -> string -> res string) (st : files) (info : request) : res request :=
    match dget st (q_stack info) with
    | None => Err (Exn "error" "no stack")
    | Some f =>
        let+ cd := stack_configuration (dec (q_stack info)) f in
        let+ values := decrypt_map (snd cd) (fst cd) in
        Ok (mkRequest (q_project info) (q_stack info) (q_pwd info) (q_program info) (q_args info) values (q_dry info)
              (q_parallel info) (q_monitor info) (secure_keys (fst cd)) (q_organization info))
    end.

  (* ---------------------------------------------------------------- *)
  (** The CLI's configuration commands on the files. *)
  Variable project : string.
  Variable print_json : pyval -> string.
  Variable order : dict pyval -> dict pyval.
  (** What encrypts, given the state, the stack and the key (so that two encryptions of one text
      may differ), and what decrypts. *)
  Variable enc : files -> string -> string -> string -> res string.
  Variable dec : string -> string -> res string.
  Variable trouble : files -> list string -> option string.

  Definition fails (st : files) (err : string) : files * (string * string * Z) := (st, ("", err, 255%Z)).
  Definition failed (st : files) (e : exn) : files * (string * string * Z) := match e with Exn _ msg => fails st msg end.
  (** requireStack and loadProjectStack. *)
  Definition on_file (st : files) (fl : list (string * string)) (f : string -> dict cvalue -> files * (string * string * Z)) :=
    match flag_values fl "stack" with
    | [stack] =>
        match dget st stack with
        | Some file => match load_config file with Ok cfg => f stack cfg | Err e => failed st e end
        | None => fails st ("error: no stack named '" ++ stack ++ "' found")%string
        end
    | _ => fails st "error: no stack"
    end.
  (** saveProjectStack. *)
  Definition save (st : files) (stack : string) (cfg : dict cvalue) : files * (string * string * Z) :=
    match save_config cfg with Ok f => (dset st stack f, ("", "", 0%Z)) | Err e => failed st e end.
  (** config.go:518-540: encrypt the value if needed. *)
  Definition make_value (st : files) (stack k value : string) (secret : bool) : res cvalue :=
    if secret then let+ c := enc st stack k value in Ok (new_secure_value c) else Ok (new_value value).
  (** config.go:604-643: the loops over the pairs. *)
  Fixpoint put_pairs (st : files) (stack : string) (secret : bool) (pairs : list string) (cfg : dict cvalue) : res (dict cvalue) :=
    match pairs with
    | [] => Ok cfg
    | p :: pairs' =>
        match split_pair p with
        | None => Err (Exn "error" "config value must be in the form [key]=[value]")
        | Some (key, value) =>
            match config_key legacy_key project key with
            | None => Err (Exn "error" "invalid configuration key")
            | Some k => let+ v := make_value st stack k value secret in put_pairs st stack secret pairs' (dset cfg k v)
            end
        end
    end.
  Fixpoint remove_values (keys : list string) (cfg : dict cvalue) : res (dict cvalue) :=
    match keys with
    | [] => Ok cfg
    | key :: keys' =>
        match config_key legacy_key project key with
        | None => Err (Exn "error" "invalid configuration key")
        | Some k => remove_values keys' (ddel cfg k)
        end
    end.
  Definition saved (st : files) (stack : string) (r : res (dict cvalue)) : files * (string * string * Z) :=
    match r with Ok cfg => save st stack cfg | Err e => failed st e end.
  (** config.go:844-871 and 779-804: a value as it is printed. *)
  Definition shown_entry (d : string -> res string) (v : cvalue) : res entry :=
    let+ raw := value_of d v in
    if v_object v then let+ o := of_json raw in Ok (mkEntry raw (v_secure v) (Some o))
    else Ok (mkEntry raw (v_secure v) None).
  Fixpoint shown_map (d : string -> res string) (cfg : dict cvalue) : res (dict entry) :=
    match cfg with
    | [] => Ok []
    | (k, v) :: cfg' => let+ e := shown_entry d v in let+ r := shown_map d cfg' in Ok ((k, e) :: r)
    end.

  Definition cli_files : cli files := fun st args =>
    match trouble st args with
    | Some err => fails st err
    | None =>
    match args with
    (* config.go:458-566 *)
    | "config" :: "set" :: rest =>
        match parse_flags ["secret"; "plaintext"; "non-interactive"] ["stack"] rest with
        | Some (fl, [key; value]) =>
            on_file st fl (fun stack cfg =>
              match config_key legacy_key project key with
              | None => fails st "error: invalid configuration key"
              | Some k => saved st stack (let+ v := make_value st stack k value (flag_given fl "secret") in Ok (dset cfg k v))
              end)
        | _ => fails st "error: usage"
        end
    (* config.go:568-649 *)
    | "config" :: "set-all" :: rest =>
        match parse_flags ["non-interactive"] ["stack"; "secret"; "plaintext"] rest with
        | Some (fl, []) =>
            on_file st fl (fun stack cfg =>
              saved st stack (let+ cfg1 := put_pairs st stack false (flag_values fl "plaintext") cfg in
                              put_pairs st stack true (flag_values fl "secret") cfg1))
        | _ => fails st "error: usage"
        end
    (* config.go:286-333 *)
    | "config" :: "rm" :: rest =>
        match parse_flags ["non-interactive"] ["stack"] rest with
        | Some (fl, [key]) => on_file st fl (fun stack cfg => saved st stack (remove_values [key] cfg))
        | _ => fails st "error: usage"
        end
    (* config.go:335-386 *)
    | "config" :: "rm-all" :: rest =>
        match parse_flags ["non-interactive"] ["stack"] rest with
        | Some (fl, key :: keys) => on_file st fl (fun stack cfg => saved st stack (remove_values (key :: keys) cfg))
        | _ => fails st "error: usage"
        end
    (* config.go:829-884 *)
    | "config" :: "get" :: rest =>
        match parse_flags ["json"; "non-interactive"] ["stack"] rest with
        | Some (fl, [key]) =>
            on_file st fl (fun stack cfg =>
              match config_key legacy_key project key with
              | None => fails st "error: invalid configuration key"
              | Some k =>
                  match dget cfg k with
                  | None => fails st ("error: configuration key '" ++ key ++ "' not found for stack '" ++ stack ++ "'")%string
                  | Some v =>
                      match shown_entry (dec stack) v with
                      | Ok e => (st, ((if flag_given fl "json" then print_json (entry_json e) else e_value e) ++ nl, "", 0%Z))%string
                      | Err e => failed st e
                      end
                  end
              end)
        | _ => fails st "error: usage"
        end
    (* config.go:744-827; only the form the API uses: all values, as JSON *)
    | "config" :: rest =>
        match parse_flags ["json"; "show-secrets"; "non-interactive"] ["stack"] rest with
        | Some (fl, []) =>
            on_file st fl (fun stack cfg =>
              if flag_given fl "json" && flag_given fl "show-secrets"
              then match shown_map (dec stack) cfg with
                   | Ok d => (st, (print_json (VDict (order (map (fun kv => (fst kv, entry_json (snd kv))) d))) ++ nl, "", 0%Z))%string
                   | Err e => failed st e
                   end
              else fails st "not modelled")
        | _ => fails st "error: usage"
        end
    | _ => fails st "error: unknown command"
    end
    end.
End Go.
