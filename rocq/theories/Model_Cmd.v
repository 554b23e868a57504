(** automation/_cmd.py and automation/errors.py: running the CLI *)
From Verif Require Import Base PyVal Model_Urn.
Open Scope string_scope.

Definition newline : ascii := ascii_of_nat 10.
Definition nl : string := String newline "".

(* ------------------------------------------------------------------ *)
(** Regular expressions and substrings. *)

(** [p in s]. *)
Fixpoint occurs (p s : string) : bool :=
  String.prefix p s || match s with EmptyString => false | String _ s' => occurs p s' end.
(** [.*b] at the start of [s]; a dot is any character but a newline. *)
Fixpoint dots_then (b s : string) : bool :=
  String.prefix b s ||
  match s with
  | EmptyString => false
  | String c s' => if Ascii.eqb c newline then false else dots_then b s'
  end.
(** [re.search("a.*b", s)]. *)
Fixpoint search_dots (a b s : string) : bool :=
  (String.prefix a s && dots_then b (sdrop (String.length a) s)) ||
  match s with EmptyString => false | String _ s' => search_dots a b s' end.
(** [re.search("a.", s)]. *)
Definition dot (s : string) : bool :=
  match s with EmptyString => false | String c _ => negb (Ascii.eqb c newline) end.
Fixpoint search_dot (a s : string) : bool :=
  (String.prefix a s && dot (sdrop (String.length a) s)) ||
  match s with EmptyString => false | String _ s' => search_dot a s' end.

(** _cmd.py:25-35 [CommandResult]. *)
Record command_result : Type := mkResult { cm_stdout : string; cm_stderr : string; cm_code : Z }.

(** The exceptions of errors.py:22-60. *)
Inductive error_kind : Type :=
| StackNotFoundError | StackAlreadyExistsError | ConcurrentUpdateError
| CompilationError | InlineSourceRuntimeError | RuntimeError | CommandError.

(** errors.py:67-77. *)
Definition not_found_regex (s : string) : bool := search_dots "no stack named" "found" s.
Definition already_exists_regex (s : string) : bool := search_dots "stack" "already exists" s.
Definition conflict_text : string := "[409] Conflict: Another update is currently in progress.".
Definition inline_source_error_text : string := "python inline source runtime error".
Definition runtime_error_regex (s : string) : bool :=
  occurs "failed with an unhandled exception" s || occurs "panic: runtime error" s || occurs "an unhandled error occurred:" s.
Definition compilation_error_regex (s : string) : bool :=
  search_dot "Build FAILED" s || occurs "Unable to compile TypeScript" s || occurs ": syntax error:" s || occurs ": undefined:" s.

(** errors.py:80-95 [create_command_error]. *)
Definition create_command_error (r : command_result) : error_kind :=
  if not_found_regex (cm_stderr r) then StackNotFoundError
  else if already_exists_regex (cm_stderr r) then StackAlreadyExistsError
  else if occurs conflict_text (cm_stderr r) then ConcurrentUpdateError
  else if compilation_error_regex (cm_stdout r) then CompilationError
  else if occurs inline_source_error_text (cm_stdout r) then InlineSourceRuntimeError
  else if runtime_error_regex (cm_stdout r) then RuntimeError
  else CommandError.

(* ------------------------------------------------------------------ *)
(** Running the CLI. *)

(** [str.isspace] for the ASCII range; simplification: other white space is not
    stripped. *)
Definition is_space (c : ascii) : bool :=
  let n := nat_of_ascii c in (Nat.leb 9 n && Nat.leb n 13) || (Nat.leb 28 n && Nat.leb n 32).
(** [str.rstrip()]. *)
Fixpoint rstrip (s : string) : string :=
  match s with
  | EmptyString => EmptyString
  | String c s' => match rstrip s' with
                   | EmptyString => if is_space c then EmptyString else String c EmptyString
                   | t => String c t
                   end
  end.

(** [process.stdout.readline()], repeatedly, until the end: the lines of the
    output with their line ends. *)
Fixpoint readlines (s : string) : list string :=
  match s with
  | EmptyString => []
  | String c s' =>
      if Ascii.eqb c newline then String c EmptyString :: readlines s'
      else match readlines s' with
           | [] => [String c EmptyString]
           | l :: ls => String c l :: ls
           end
  end.

(** How a command ends. *)
Inductive outcome : Type :=
| Returned (r : command_result)
| Raised (k : error_kind) (r : command_result)     (* from errors.py *)
| Failed (e : exn).                                (* anything else *)

(** _cmd.py:56-66: each line is stripped, reported and kept.  The callback may
    raise; the lines reported so far are returned as well. *)
Fixpoint report (cb : option (string -> option exn)) (ls : list string) : list string * res (list string) :=
  match ls with
  | [] => ([], Ok [])
  | l :: ls' =>
      let text := rstrip l in
      match (match cb with Some f => f text | None => None end) with
      | Some e => ([text], Err e)
      | None =>
          let '(calls, r) := report cb ls' in
          ((match cb with Some _ => text :: calls | None => [] end),
           match r with Ok chunks => Ok (text :: chunks) | Err e => Err e end)
      end
  end.

(** [sep.join(l)]. *)
Fixpoint join (sep : string) (l : list string) : string :=
  match l with
  | [] => ""
  | [s] => s
  | s :: l' => s ++ sep ++ join sep l'
  end.

(** _cmd.py:44-48: every command is run non-interactively. *)
Definition is_word (w : string) (v : pyval) : bool := match v with VStr s => String.eqb s w | _ => false end.
Definition non_interactive (args : list pyval) : list pyval :=
  if existsb (is_word "--non-interactive") args then args else (args ++ [VStr "--non-interactive"])%list.
Fixpoint words (l : list pyval) : option (list string) :=
  match l with
  | [] => Some []
  | VStr s :: l' => option_map (cons s) (words l')
  | _ :: _ => None
  end.

(** What the program "pulumi" does when run with a list of words: output, error
    output and exit code.  Simplifications: the output is valid UTF-8, and all of
    it has been written when the pipe is closed. *)
Definition program : Type := list string -> string * string * Z.

(** _cmd.py:38-80 [_run_pulumi_cmd]: what is run, what is reported to the
    callback and how it ends.  [Popen] refuses arguments that are not strings. *)
Definition run_cmd (pulumi : program) (args : list pyval) (cb : option (string -> option exn)) :
  option (list string) * list string * outcome :=
  match words (non_interactive args) with
  | None => (None, [], Failed (Exn "TypeError" "expected str, bytes or os.PathLike object, not int"))
  | Some ws =>
      let '(out, err, code) := pulumi ws in
      let '(calls, chunks) := report cb (readlines out) in
      (Some ws, calls,
       match chunks with
       | Err e => Failed e
       | Ok chunks =>
           let r := mkResult (join nl chunks) err code in
           if Z.eqb code 0 then Returned r else Raised (create_command_error r) r
       end)
  end.
