(** Specifications of the version check (C59) and of opening stacks (C60). *)
From Verif Require Import Base PyVal Model_Semver Spec_Semver Model_Cmd Spec_Cmd Spec_WsSettings Model_StackInit.
Open Scope string_scope.

(** [t] is the version in the output [out]: surrounding white space does not count, nor
    does one leading "v". *)
Inductive all_space : string -> Prop :=
| AS_nil : all_space ""
| AS_cons c s : is_space c = true -> all_space s -> all_space (String c s).
Definition no_space_ends (s : string) : Prop :=
  (forall c r, s = String c r -> is_space c = false) /\ (forall c r, s = r ++ String c "" -> is_space c = false).
Definition names_version (out t : string) : Prop :=
  exists a core b, out = a ++ core ++ b /\ all_space a /\ all_space b /\ no_space_ends core /\ core <> "" /\
    (core = "v" ++ t \/ (core = t /\ forall r, t <> "v" ++ r)).

(** A CLI version the SDK works with. *)
Definition compatible (minimum v : version) : Prop := v_major v = v_major minimum /\ ~ vlt v minimum.

Definition opted_out (env : dict string) (env_vars : option (dict string)) : Prop :=
  In skip_var (dkeys env) \/ exists d, env_vars = Some d /\ In skip_var (dkeys d).

(** The CLI's backend: the stacks there are and the selected one. *)
Record backend : Type := mkBackend { b_stacks : list string; b_selected : option string }.

Definition nl_ : string := String newline "".
(** What [pulumi stack init] and [pulumi stack select] do (pkg/backend/backend.go:52,
    pkg/cmd/pulumi/stack_select.go:86): [init n s s' code stderr].  They may also fail
    for some other reason, changing nothing and printing something else. *)
Inductive does_init (n : string) (s : backend) : backend -> Z -> string -> Prop :=
| DI_new err : ~ In n (b_stacks s) -> does_init n s (mkBackend (n :: b_stacks s) (Some n)) 0 err
| DI_exists code : In n (b_stacks s) -> code <> 0%Z -> does_init n s s code ("error: stack '" ++ n ++ "' already exists" ++ nl_)
| DI_other code err : code <> 0%Z -> ~ says_missing err -> ~ says_exists err -> does_init n s s code err.
Inductive does_select (n : string) (s : backend) : backend -> Z -> string -> Prop :=
| DS_found err : In n (b_stacks s) -> does_select n s (mkBackend (b_stacks s) (Some n)) 0 err
| DS_missing code : ~ In n (b_stacks s) -> code <> 0%Z -> does_select n s s code ("error: no stack named '" ++ n ++ "' found" ++ nl_)
| DS_other code err : code <> 0%Z -> ~ says_missing err -> ~ says_exists err -> does_select n s s code err.

(** A CLI that behaves so, whatever it prints to its standard output; [ok n s] tells whether it has no other failures. *)
Definition stack_command (ws : list string) (verb n : string) : Prop :=
  exists rest, ws = ("stack" :: verb :: n :: rest)%list.
Definition behaves (c : cli backend) : Prop :=
  forall s ws n s' out err code, c s ws = (s', (out, err, code)) ->
    (stack_command ws "init" n -> does_init n s s' code err) /\ (stack_command ws "select" n -> does_select n s s' code err).
(** It fails only because of the stack. *)
Definition reliable (c : cli backend) : Prop :=
  forall s ws n s' out err code, c s ws = (s', (out, err, code)) ->
    (stack_command ws "init" n -> ~ In n (b_stacks s) -> code = 0%Z) /\
    (stack_command ws "init" n -> In n (b_stacks s) -> err = "error: stack '" ++ n ++ "' already exists" ++ nl_) /\
    (stack_command ws "select" n -> In n (b_stacks s) -> code = 0%Z) /\
    (stack_command ws "select" n -> ~ In n (b_stacks s) -> err = "error: no stack named '" ++ n ++ "' found" ++ nl_).

(** Stack names have neither blanks nor line ends. *)
Definition stack_name (n : string) : Prop := free_of " " n /\ free_of newline n.
