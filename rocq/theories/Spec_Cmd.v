(** Specifications for running the CLI (C58, C63). *)
From Verif Require Import Base PyVal Model_Cmd.
Open Scope string_scope.

Definition contains (p s : string) : Prop := exists a b, s = a ++ p ++ b.
Fixpoint has_char (c : ascii) (s : string) : Prop :=
  match s with EmptyString => False | String d s' => c = d \/ has_char c s' end.
Definition one_line (s : string) : Prop := ~ has_char newline s.

(** [p], and later on the same line [q]. *)
Definition contains_line (p q s : string) : Prop := exists a m b, s = a ++ p ++ m ++ q ++ b /\ one_line m.

Definition says_missing (stderr : string) : Prop := contains_line "no stack named" "found" stderr.
Definition says_exists (stderr : string) : Prop := contains_line "stack" "already exists" stderr.
Definition says_conflict (stderr : string) : Prop :=
  contains "[409] Conflict: Another update is currently in progress." stderr.
(** ("Build FAILED." is a regular expression: any character may take the place of the dot.) *)
Definition says_compilation (stdout : string) : Prop :=
  (exists a c b, stdout = a ++ "Build FAILED" ++ String c b /\ c <> newline) \/
  contains "Unable to compile TypeScript" stdout \/ contains ": syntax error:" stdout \/ contains ": undefined:" stdout.
Definition says_inline (stdout : string) : Prop := contains "python inline source runtime error" stdout.
Definition says_runtime (stdout : string) : Prop :=
  contains "failed with an unhandled exception" stdout \/ contains "panic: runtime error" stdout \/
  contains "an unhandled error occurred:" stdout.

(** The error for a failed command: the first of these that applies. *)
Definition classified (stderr stdout : string) (k : error_kind) : Prop :=
  match k with
  | StackNotFoundError => says_missing stderr
  | StackAlreadyExistsError => ~ says_missing stderr /\ says_exists stderr
  | ConcurrentUpdateError => ~ says_missing stderr /\ ~ says_exists stderr /\ says_conflict stderr
  | CompilationError =>
      ~ says_missing stderr /\ ~ says_exists stderr /\ ~ says_conflict stderr /\ says_compilation stdout
  | InlineSourceRuntimeError =>
      ~ says_missing stderr /\ ~ says_exists stderr /\ ~ says_conflict stderr /\ ~ says_compilation stdout /\ says_inline stdout
  | RuntimeError =>
      ~ says_missing stderr /\ ~ says_exists stderr /\ ~ says_conflict stderr /\ ~ says_compilation stdout /\
      ~ says_inline stdout /\ says_runtime stdout
  | CommandError =>
      ~ says_missing stderr /\ ~ says_exists stderr /\ ~ says_conflict stderr /\ ~ says_compilation stdout /\
      ~ says_inline stdout /\ ~ says_runtime stdout
  end.

(** [lines_of s ls]: the lines of [s], without line ends. *)
Inductive lines_of : string -> list string -> Prop :=
| LO_empty : lines_of "" []
| LO_last s : one_line s -> s <> "" -> lines_of s [s]
| LO_line s rest ls : one_line s -> lines_of rest ls -> lines_of (s ++ nl ++ rest) (s :: ls).

(** [t] is [s] without the white space at its end. *)
Inductive trimmed : string -> string -> Prop :=
| TR_done s : (forall t c, s = t ++ String c "" -> is_space c = false) -> trimmed s s
| TR_space s c t : is_space c = true -> trimmed s t -> trimmed (s ++ String c "") t.

(** The callback, if there is one, raises for none of these lines. *)
Definition never_raises (cb : option (string -> option exn)) (ts : list string) : Prop :=
  forall f t, cb = Some f -> In t ts -> f t = None.
