(** automation/_local_workspace.py: the configuration calls *)
From Verif Require Import Base PyVal Model_Urn Model_Cmd Model_StackInit Model_Json.
Open Scope string_scope.
Open Scope list_scope.

(** How a call of the Automation API ends. *)
Inductive answer (A : Type) : Type :=
| Got (a : A)
| CliError (k : error_kind)      (* one of errors.py *)
| PyError (e : exn).             (* anything else *)
Arguments Got {A}. Arguments CliError {A}. Arguments PyError {A}.
Definition of_outcome (o : outcome) : answer string :=
  match o with Returned r => Got (cm_stdout r) | Raised k _ => CliError k | Failed e => PyError e end.
Definition abind {A B} (m : answer A) (f : A -> answer B) : answer B :=
  match m with Got a => f a | CliError k => CliError k | PyError e => PyError e end.
Definition answer_of {A} (m : res A) : answer A := match m with Ok a => Got a | Err e => PyError e end.

(** _local_workspace.py:378-383 [_run_pulumi_cmd_sync]: the output of the command. *)
Definition command {S} (c : cli S) (s : S) (args : list pyval) : S * answer string :=
  let '(s', o) := run_cli c s args in (s', of_outcome o).

(** [v[k]]. *)
Definition item (v : pyval) (k : string) : res pyval :=
  match v with
  | VDict d => match dget d k with Some x => Ok x | None => Err (Exn "KeyError" k) end
  | VStr _ => Err (Exn "TypeError" "string indices must be integers")
  | VList _ => Err (Exn "TypeError" "list indices must be integers or slices, not str")
  | _ => Err (Exn "TypeError" "object is not subscriptable")
  end.
(** [for k in v]: for a dict. Simplification: nothing else is iterated over. *)
Definition keys_of (v : pyval) : res (list string) :=
  match v with VDict d => Ok (dkeys d) | _ => Err (Exn "TypeError" "object is not iterable") end.

(** automation/_config.py:20-33 [ConfigValue], as returned: the value and whether it is secret. *)
Record config_value : Type := mkCV { cv_value : pyval; cv_secret : pyval }.

(** _local_workspace.py:198-203 [get_config]. *)
Definition read_value_secret (v : pyval) : res config_value :=
  let+ x := item v "value" in let+ y := item v "secret" in Ok (mkCV x y).
Definition get_config {S} (c : cli S) (s : S) (stack key : string) : S * answer config_value :=
  let '(s', r) := command c s [VStr "config"; VStr "get"; VStr key; VStr "--json"; VStr "--stack"; VStr stack] in
  (s', abind r (fun out => answer_of (let+ v := loads out in read_value_secret v))).

(** _local_workspace.py:205-216 [get_all_config]. *)
Fixpoint read_all_config (j : pyval) (keys : list string) (acc : dict config_value) : res (dict config_value) :=
  match keys with
  | [] => Ok acc
  | k :: keys' => let+ v := item j k in let+ cv := read_value_secret v in read_all_config j keys' (dset acc k cv)
  end.
Definition get_all_config {S} (c : cli S) (s : S) (stack : string) : S * answer (dict config_value) :=
  let '(s', r) := command c s [VStr "config"; VStr "--show-secrets"; VStr "--json"; VStr "--stack"; VStr stack] in
  (s', abind r (fun out => answer_of (let+ j := loads out in let+ ks := keys_of j in read_all_config j ks []))).

Definition done {A} (r : answer A) : answer unit := abind r (fun _ => Got tt).
(** _local_workspace.py:218-232 [set_config].  Simplification: the value is a string, as
    declared. *)
Definition secret_arg (secret : bool) : string := if secret then "--secret" else "--plaintext".
Definition set_config {S} (c : cli S) (s : S) (stack key value : string) (secret : bool) : S * answer unit :=
  let '(s', r) := command c s [VStr "config"; VStr "set"; VStr key; VStr (secret_arg secret); VStr "--stack"; VStr stack;
                               VStr "--non-interactive"; VStr "--"; VStr value] in
  (s', done r).

(** _local_workspace.py:234-241 [set_all_config]. *)
Definition pair_args (kv : string * (string * bool)) : list pyval :=
  let '(key, (value, secret)) := kv in [VStr (secret_arg secret); VStr (key ++ "=" ++ value)%string].
Definition set_all_config {S} (c : cli S) (s : S) (stack : string) (config : dict (string * bool)) : S * answer unit :=
  let '(s', r) := command c s ([VStr "config"; VStr "set-all"; VStr "--stack"; VStr stack] ++ flat_map pair_args config) in
  (s', done r).

(** _local_workspace.py:243-244 [remove_config]. *)
Definition remove_config {S} (c : cli S) (s : S) (stack key : string) : S * answer unit :=
  let '(s', r) := command c s [VStr "config"; VStr "rm"; VStr key; VStr "--stack"; VStr stack] in
  (s', done r).
(** _local_workspace.py:246-249 [remove_all_config]. *)
Definition remove_all_config {S} (c : cli S) (s : S) (stack : string) (keys : list string) : S * answer unit :=
  let '(s', r) := command c s ([VStr "config"; VStr "rm-all"; VStr "--stack"; VStr stack] ++ map VStr keys) in
  (s', done r).

(** The calls that change configuration. *)
Inductive call : Type :=
| SetConfig (stack key value : string) (secret : bool)
| SetAllConfig (stack : string) (config : dict (string * bool))
| RemoveConfig (stack key : string)
| RemoveAllConfig (stack : string) (keys : list string).
Definition make {S} (c : cli S) (s : S) (a : call) : S * answer unit :=
  match a with
  | SetConfig stack key value secret => set_config c s stack key value secret
  | SetAllConfig stack config => set_all_config c s stack config
  | RemoveConfig stack key => remove_config c s stack key
  | RemoveAllConfig stack keys => remove_all_config c s stack keys
  end.
(** A program making calls one after the other, catching exceptions. *)
Fixpoint make_all {S} (c : cli S) (s : S) (l : list call) : S * list (call * answer unit) :=
  match l with
  | [] => (s, [])
  | a :: l' => let '(s1, r) := make c s a in let '(s2, rs) := make_all c s1 l' in (s2, (a, r) :: rs)
  end.
