(** The CLI's configuration commands, and what is expected of the configuration calls. *)
From Verif Require Import Base PyVal Model_Urn Model_Cmd Model_StackInit Model_Json Spec_Json Model_WsConfig.
Open Scope string_scope.
Open Scope list_scope.

(* ------------------------------------------------------------------ *)
(** Command lines: pflag's FlagSet.Parse.  [bools]: flags without a value, [texts]: flags whose
    value is the next word.  Simplification: short flags and flags of the form --flag=value
    are refused; the API uses neither. *)
Definition flag_word (s : string) : bool :=
  match s with String c (String _ _) => Ascii.eqb c "-" | _ => false end.
Definition flag_name (s : string) : option string :=
  match s with
  | String a (String b name) => if Ascii.eqb a "-" && Ascii.eqb b "-" then Some name else None
  | _ => None
  end.
Fixpoint parse_flags (bools texts : list string) (args : list string) : option (list (string * string) * list string) :=
  match args with
  | [] => Some ([], [])
  | w :: rest =>
      if negb (flag_word w) then
        match parse_flags bools texts rest with Some (fl, pos) => Some (fl, w :: pos) | None => None end
      else if String.eqb w "--" then Some ([], rest)
      else match flag_name w with
           | None => None
           | Some name =>
               if smem name bools then
                 match parse_flags bools texts rest with Some (fl, pos) => Some ((name, "") :: fl, pos) | None => None end
               else if smem name texts then
                 match rest with
                 | [] => None
                 | v :: rest' => match parse_flags bools texts rest' with Some (fl, pos) => Some ((name, v) :: fl, pos) | None => None end
                 end
               else None
           end
  end.
Definition flag_given (fl : list (string * string)) (name : string) : bool := smem name (map fst fl).
Definition flag_values (fl : list (string * string)) (name : string) : list string :=
  map snd (filter (fun kv => String.eqb (fst kv) name) fl).

(** pkg/cmd/pulumi/config.go:702-715 [parseConfigKey] with sdk/go/common/resource/config/key.go:38-62
    [ParseKey]; [legacy] decides about keys with two colons. *)
Fixpoint colons (s : string) : nat :=
  match s with EmptyString => 0 | String c s' => (if Ascii.eqb c ":" then 1 else 0) + colons s' end.
Definition parse_key (legacy : string -> option string) (s : string) : option string :=
  if Nat.eqb (colons s) 1 then Some s else if Nat.eqb (colons s) 2 then legacy s else None.
Definition config_key (legacy : string -> option string) (project key : string) : option string :=
  if Nat.eqb (colons key) 0 then parse_key legacy (project ++ ":" ++ key) else parse_key legacy key.
(** config.go:651-674 [parseKeyValuePair]: strings.SplitN(s, sep, 2). *)
Fixpoint split_first (sep s : string) : option (string * string) :=
  if String.prefix sep s then Some ("", sdrop (String.length sep) s)
  else match s with
       | EmptyString => None
       | String c s' => match split_first sep s' with Some (a, b) => Some (String c a, b) | None => None end
       end.
Definition is_quote (c : ascii) : bool := Ascii.eqb c (ascii_of_nat 34) || Ascii.eqb c (ascii_of_nat 39).
Definition split_pair (s : string) : option (string * string) :=
  match s with
  | String c s' => if is_quote c then split_first (String c "=") s' else split_first "=" s
  | EmptyString => None
  end.

(* ------------------------------------------------------------------ *)
(** The state: the configuration of each stack: values with whether they are secret, and, for
    structured ones, what they hold. *)
Record entry : Type := mkEntry { e_value : string; e_secret : bool; e_object : option pyval }.
Definition configs : Type := dict (dict entry).

Section Cli.
  Variable project : string.                       (* the project of the working directory *)
  Variable legacy : string -> option string.
  Variable print_json : pyval -> string.           (* how JSON is laid out *)
  Variable order : dict pyval -> dict pyval.       (* the order keys are printed in *)
  Variable trouble : configs -> list string -> option (string * Z).  (* failures: of the network, encryption... *)

  Definition failure (st : configs) (err : string * Z) : configs * (string * string * Z) := (st, ("", fst err, snd err)).
  Definition refuse (st : configs) (err : string) := failure st (err, 255%Z).
  (** requireStack. *)
  Definition on_stack (st : configs) (fl : list (string * string)) (f : string -> dict entry -> configs * (string * string * Z)) :=
    match flag_values fl "stack" with
    | [stack] => match dget st stack with Some cfg => f stack cfg | None => refuse st ("error: no stack named '" ++ stack ++ "' found")%string end
    | _ => refuse st "error: no stack"
    end.
  Definition entry_json (e : entry) : pyval :=
    VDict ([("value", VStr (e_value e))] ++ match e_object e with Some o => [("objectValue", o)] | None => [] end ++ [("secret", VBool (e_secret e))]).
  Fixpoint set_pairs (secret : bool) (pairs : list string) (cfg : dict entry) : option (dict entry) :=
    match pairs with
    | [] => Some cfg
    | p :: pairs' =>
        match split_pair p with
        | None => None
        | Some (key, value) =>
            match config_key legacy project key with
            | None => None
            | Some k => set_pairs secret pairs' (dset cfg k (mkEntry value secret None))
            end
        end
    end.
  Fixpoint remove_keys (keys : list string) (cfg : dict entry) : option (dict entry) :=
    match keys with
    | [] => Some cfg
    | key :: keys' => match config_key legacy project key with None => None | Some k => remove_keys keys' (ddel cfg k) end
    end.

  Definition cli_config : cli configs := fun st args =>
    match trouble st args with
    | Some err => if Z.eqb (snd err) 0 then refuse st (fst err) else failure st err
    | None =>
    match args with
    (* config.go:458-566 *)
    | "config" :: "set" :: rest =>
        match parse_flags ["secret"; "plaintext"; "non-interactive"] ["stack"] rest with
        | Some (fl, [key; value]) =>
            on_stack st fl (fun stack cfg =>
              match config_key legacy project key with
              | None => refuse st "error: invalid configuration key"
              | Some k => (dset st stack (dset cfg k (mkEntry value (flag_given fl "secret") None)), ("", "", 0%Z))
              end)
        | _ => refuse st "error: usage"
        end
    (* config.go:568-649 *)
    | "config" :: "set-all" :: rest =>
        match parse_flags ["non-interactive"] ["stack"; "secret"; "plaintext"] rest with
        | Some (fl, []) =>
            on_stack st fl (fun stack cfg =>
              match set_pairs false (flag_values fl "plaintext") cfg with
              | None => refuse st "error: invalid configuration key"
              | Some cfg1 =>
                  match set_pairs true (flag_values fl "secret") cfg1 with
                  | None => refuse st "error: invalid configuration key"
                  | Some cfg2 => (dset st stack cfg2, ("", "", 0%Z))
                  end
              end)
        | _ => refuse st "error: usage"
        end
    (* config.go:286-333 *)
    | "config" :: "rm" :: rest =>
        match parse_flags ["non-interactive"] ["stack"] rest with
        | Some (fl, [key]) =>
            on_stack st fl (fun stack cfg =>
              match remove_keys [key] cfg with
              | None => refuse st "error: invalid configuration key"
              | Some cfg' => (dset st stack cfg', ("", "", 0%Z))
              end)
        | _ => refuse st "error: usage"
        end
    (* config.go:335-386 *)
    | "config" :: "rm-all" :: rest =>
        match parse_flags ["non-interactive"] ["stack"] rest with
        | Some (fl, key :: keys) =>
            on_stack st fl (fun stack cfg =>
              match remove_keys (key :: keys) cfg with
              | None => refuse st "error: invalid configuration key"
              | Some cfg' => (dset st stack cfg', ("", "", 0%Z))
              end)
        | _ => refuse st "error: usage"
        end
    (* config.go:829-884 *)
    | "config" :: "get" :: rest =>
        match parse_flags ["json"; "non-interactive"] ["stack"] rest with
        | Some (fl, [key]) =>
            on_stack st fl (fun stack cfg =>
              match config_key legacy project key with
              | None => refuse st "error: invalid configuration key"
              | Some k =>
                  match dget cfg k with
                  | None => refuse st ("error: configuration key '" ++ key ++ "' not found for stack '" ++ stack ++ "'")%string
                  | Some e => (st, ((if flag_given fl "json" then print_json (entry_json e) else e_value e) ++ nl, "", 0%Z))%string
                  end
              end)
        | _ => refuse st "error: usage"
        end
    (* config.go:744-827; only the form the API uses: all values, as JSON *)
    | "config" :: rest =>
        match parse_flags ["json"; "show-secrets"; "non-interactive"] ["stack"] rest with
        | Some (fl, []) =>
            on_stack st fl (fun _ cfg =>
              if flag_given fl "json" && flag_given fl "show-secrets"
              then (st, (print_json (VDict (order (map (fun kv => (fst kv, entry_json (snd kv))) cfg))) ++ nl, "", 0%Z))%string
              else refuse st "not modelled")
        | _ => refuse st "error: usage"
        end
    | _ => refuse st "error: unknown command"
    end
    end.
End Cli.

(** What is assumed of the CLI's printing. *)
Definition prints (print_json : pyval -> string) (order : dict pyval -> dict pyval) : Prop :=
  (forall v, plain_data v -> document v (print_json v)) /\ (forall d, Permutation (order d) d).
(** A state: dicts have distinct keys and hold JSON. *)
Definition fit_state (st : configs) : Prop :=
  NoDup (dkeys st) /\
  forall stack cfg, In (stack, cfg) st -> NoDup (dkeys cfg) /\ forall k e o, In (k, e) cfg -> e_object e = Some o -> plain_data o.

(* ------------------------------------------------------------------ *)
(** The specification.  A memory: the configuration of each stack. *)
Definition memory : Type := string -> string -> option (string * bool).
Definition memory_of (st : configs) : memory := fun stack k =>
  match dget st stack with
  | Some cfg => match dget cfg k with Some e => Some (e_value e, e_secret e) | None => None end
  | None => None
  end.
(** Keys without a colon belong to the project. *)
Definition full_key (project key : string) : string := if Nat.eqb (colons key) 0 then (project ++ ":" ++ key)%string else key.
Definition set_memory (m : memory) (stack k : string) (x : option (string * bool)) : memory :=
  fun stack' k' => if String.eqb stack' stack && String.eqb k' k then x else m stack' k'.
(** What a call should do to the configuration. *)
Definition expected (project : string) (m : memory) (a : call) : memory :=
  match a with
  | SetConfig stack key value secret => set_memory m stack (full_key project key) (Some (value, secret))
  | SetAllConfig stack config => fold_left (fun m kv => set_memory m stack (full_key project (fst kv)) (Some (snd kv))) config m
  | RemoveConfig stack key => set_memory m stack (full_key project key) None
  | RemoveAllConfig stack keys => fold_left (fun m key => set_memory m stack (full_key project key) None) keys m
  end.
(** The calls that returned, in order. *)
Definition returned (l : list (call * answer unit)) : list call :=
  flat_map (fun ar => match snd ar with Got _ => [fst ar] | _ => [] end) l.

(** Keys that are passed on faithfully: at most one colon, and not looking like a flag. *)
Definition proper_key (key : string) : Prop := colons key <= 1 /\ (forall s, key <> String "-" s).
(** In a map, a key may look like a flag, but not contain "=" or begin with a quote. *)
Fixpoint has (c : ascii) (s : string) : bool :=
  match s with EmptyString => false | String d s' => Ascii.eqb c d || has c s' end.
Definition proper_map_key (key : string) : Prop :=
  colons key <= 1 /\ has "=" key = false /\ (forall c s, key = String c s -> is_quote c = false).
Definition proper_call (project : string) (a : call) : Prop :=
  match a with
  | SetConfig _ key _ _ | RemoveConfig _ key => proper_key key
  | SetAllConfig _ config =>
      (forall key x, In (key, x) config -> proper_map_key key) /\ NoDup (map (fun kv => full_key project (fst kv)) config)
  | RemoveAllConfig _ keys => keys <> [] /\ (forall key, In key keys -> proper_key key)
  end.
