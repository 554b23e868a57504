(** How a program is started and how its end is reported: the language host
    (Go: sdk/python/cmd/pulumi-language-python/main.go, sdk/python/python.go)
    and the script that runs the program (cmd/pulumi-language-python-exec). *)
From Coq Require Import DecimalString.
From Verif Require Import Base PyVal Model_Argv Model_Json Model_Config Model_Settings Model_RpcManager.
Open Scope string_scope.
Open Scope list_scope.

(** language.proto [RunRequest]; protobuf does not distinguish an empty map or
    list from a missing one, which Go reads as nil. *)
Record request : Type := mkRequest {
  q_project : string; q_stack : string; q_pwd : string; q_program : string; q_args : list string;
  q_config : dict string; q_dry : bool; q_parallel : Z; q_monitor : string; q_secret_keys : list string;
  q_organization : string }.
(** main.go:186-201 [pythonLanguageHost]: as far as it is passed on. *)
Record host : Type := mkHost { h_engine : string; h_tracing : string; h_virtualenv : string }.

(* ------------------------------------------------------------------ *)
(** The language host. *)

(** main.go:738-772 [constructArguments]. *)
Definition maybe_append (k v : string) : list string :=
  if String.eqb v "" then [] else ["--" ++ k; v]%string.
Definition construct_arguments (h : host) (r : request) : list string :=
  maybe_append "monitor" (q_monitor r) ++ maybe_append "engine" (h_engine h) ++
  maybe_append "project" (q_project r) ++ maybe_append "stack" (q_stack r) ++ maybe_append "pwd" (q_pwd r) ++
  maybe_append "dry_run" (if q_dry r then "true" else "false") ++
  maybe_append "parallel" (str_int (q_parallel r)) ++ maybe_append "tracing" (h_tracing h) ++
  maybe_append "organization" (q_organization r) ++
  [if String.eqb (q_program r) "" then "." else q_program r] ++ q_args r.

(** Go's encoding/json: the text of a string.  Simplification: characters
    above 255 are not modelled (nor are they in Model_Json.v). *)
Definition go_escape (c : ascii) : string :=
  let n := nat_of_ascii c in
  if Nat.eqb n 34 then String backslash (String quote "")
  else if Nat.eqb n 92 then String backslash (String backslash "")
  else if Nat.eqb n 10 then String backslash "n"
  else if Nat.eqb n 13 then String backslash "r"
  else if Nat.eqb n 9 then String backslash "t"
  else if Nat.ltb n 32 || Nat.eqb n 60 || Nat.eqb n 62 || Nat.eqb n 38
  then String backslash (String "u" (String "0" (String "0" (String (hex_digit (n / 16)) (String (hex_digit (n mod 16)) "")))))
  else String c "".
Fixpoint go_escapes (s : string) : string :=
  match s with EmptyString => "" | String c s' => (go_escape c ++ go_escapes s')%string end.
Definition go_quoted (s : string) : string := String quote (go_escapes s ++ String quote "")%string.
Fixpoint go_commas (l : list string) : string :=
  match l with [] => "" | [t] => t | t :: l' => (t ++ "," ++ go_commas l')%string end.

(** main.go:774-787 [constructConfig]; the entries are written in the order of
    their keys, which is left open here. *)
Definition construct_config (r : request) : string :=
  match q_config r with
  | [] => ""
  | d => ("{" ++ go_commas (map (fun kv => (go_quoted (fst kv) ++ ":" ++ go_quoted (snd kv))%string) d) ++ "}")%string
  end.
(** main.go:789-803 [constructConfigSecretKeys]. *)
Definition construct_secret_keys (r : request) : string :=
  match q_secret_keys r with
  | [] => "[]"
  | l => ("[" ++ go_commas (map go_quoted l) ++ "]")%string
  end.

(** strings.EqualFold, for ASCII. *)
Definition lower (c : ascii) : ascii :=
  let n := nat_of_ascii c in if Nat.leb 65 n && Nat.leb n 90 then ascii_of_nat (n + 32) else c.
Fixpoint equal_fold (a b : string) : bool :=
  match a, b with
  | EmptyString, EmptyString => true
  | String x a', String y b' => Ascii.eqb (lower x) (lower y) && equal_fold a' b'
  | _, _ => false
  end.
(** python.go:180-213 [ActivateVirtualEnv], 310-315; not on Windows.
    Simplification: the path is joined without cleaning. *)
Definition venv_bin (dir : string) : string := (dir ++ "/bin")%string.
Fixpoint activate (env : list (string * string)) (dir : string) : list (string * string) * bool :=
  match env with
  | [] => ([], false)
  | (k, v) :: env' =>
      let (l, has) := activate env' dir in
      if equal_fold k "PATH" then ((k, (venv_bin dir ++ ":" ++ v)%string) :: l, true)
      else if equal_fold k "PYTHONHOME" then (l, has)
      else ((k, v) :: l, has)
  end.
Definition activate_virtualenv (env : list (string * string)) (dir : string) : list (string * string) :=
  let (l, has) := activate env dir in if has then l else l ++ [("PATH", venv_bin dir)].

(** main.go:647-707 [Run]: the program started, and its arguments and
    environment.  The virtual environment's path is given resolved.  Of a
    variable that occurs twice the last value counts (os/exec). *)
Record spawned : Type := mkSpawned { p_python : option string; p_argv : list string; p_env : dict string }.
Definition spawn (environ : list (string * string)) (h : host) (r : request) : spawned :=
  let config := construct_config r in
  let keys := construct_secret_keys r in
  let env := if String.eqb (h_virtualenv h) "" then environ else activate_virtualenv environ (h_virtualenv h) in
  let env := if String.eqb config "" then env else env ++ [("PULUMI_CONFIG", config)] in
  let env := if String.eqb keys "" then env else env ++ [("PULUMI_CONFIG_SECRET_KEYS", keys)] in
  mkSpawned (if String.eqb (h_virtualenv h) "" then None else Some (venv_bin (h_virtualenv h) ++ "/python")%string)
    (construct_arguments h r) (dupdate [] env).

(* ------------------------------------------------------------------ *)
(** [argparse], for the parser of pulumi-language-python-exec:54-67.  Library
    code, described by its source (CPython 3.7-3.11). *)
Definition long_options : list string :=
  ["--help"; "--project"; "--stack"; "--parallel"; "--dry_run"; "--pwd"; "--monitor"; "--engine"; "--tracing"; "--organization"].
Inductive token : Type :=
| TArg (s : string)                              (* an argument *)
| TDashes                                        (* the first "--" *)
| TOpt (name : string) (explicit : option string)
| THelp (explicit : bool)                        (* -h, --help; with a value *)
| TUnknown (s : string)                          (* looks like an option but is none *)
| TAmbiguous.
Fixpoint contains_char (c : ascii) (s : string) : bool :=
  match s with EmptyString => false | String x s' => Ascii.eqb x c || contains_char c s' end.
(** [s.split('=', 1)] *)
Fixpoint split_equals (s : string) : string * option string :=
  match s with
  | EmptyString => ("", None)
  | String x s' => if Ascii.eqb x "=" then ("", Some s')
                   else let (a, b) := split_equals s' in (String x a, b)
  end.
Definition digit (c : ascii) : bool := let n := nat_of_ascii c in Nat.leb 48 n && Nat.leb n 57.
Fixpoint all_chars (p : ascii -> bool) (s : string) : bool :=
  match s with EmptyString => true | String c s' => p c && all_chars p s' end.
(** After the minus sign: digits, or digits (or none), a point and digits. *)
Fixpoint after_point (s : string) : bool :=
  match s with
  | EmptyString => false
  | String c s' => if Ascii.eqb c "." then negb (String.eqb s' "") && all_chars digit s' else digit c && after_point s'
  end.
Definition number_like (s : string) : bool := (negb (String.eqb s "") && all_chars digit s) || after_point s.
Definition option_token (name : string) (explicit : option string) : token :=
  if String.eqb name "--help" || String.eqb name "-h" then THelp (match explicit with None => false | Some _ => true end)
  else TOpt name explicit.
(** [_parse_optional] and [_get_option_tuples]. *)
Definition parse_optional (s : string) : token :=
  match s with
  | EmptyString => TArg s
  | String c rest =>
      if negb (Ascii.eqb c "-") then TArg s
      else if smem s long_options || String.eqb s "-h" then option_token s None
      else if String.eqb rest "" then TArg s
      else
        let (name, explicit) := split_equals s in
        if match explicit with Some _ => smem name long_options || String.eqb name "-h" | None => false end
        then option_token name explicit
        else if String.prefix "--" s then
          match filter (String.prefix name) long_options with
          | [full] => option_token full explicit
          | _ :: _ :: _ => TAmbiguous
          | [] => if contains_char " " s then TArg s else TUnknown s
          end
        else if String.prefix "-h" s
        then match rest with String _ more => THelp (negb (all_chars (Ascii.eqb "h") more)) | EmptyString => THelp false end
        else if number_like rest then TArg s
        else if contains_char " " s then TArg s
        else TUnknown s
  end.
Fixpoint tokens (l : list string) : list token :=
  match l with
  | [] => []
  | s :: l' => if String.eqb s "--" then TDashes :: map TArg l' else parse_optional s :: tokens l'
  end.

(** [_parse_known_args]: options take one argument each; PROGRAM and ARGS are
    taken together from the first run of arguments that has one. *)
Record parsed : Type := mkParsed { a_options : dict string; a_positional : option (string * list string); a_extra : bool }.
Inductive parse_result : Type := ParseError | ParseHelp | Parsed (options : dict string) (program : string) (args : list string).
Fixpoint remove_dashes (l : list string) : list string :=
  match l with [] => [] | s :: l' => if String.eqb s "--" then l' else s :: remove_dashes l' end.
(** The end of a run of arguments: [true] marks the "--". *)
Definition consume_positionals (run : list (bool * string)) (a : parsed) : parsed :=
  match run with
  | [] => a
  | _ =>
      match a_positional a with
      | Some _ => mkParsed (a_options a) (a_positional a) true
      | None =>
          match run with
          | (false, p) :: (true, _) :: rest => mkParsed (a_options a) (Some (p, remove_dashes (map snd rest))) (a_extra a)
          | (false, p) :: rest => mkParsed (a_options a) (Some (p, remove_dashes (map snd rest))) (a_extra a)
          | (true, _) :: (false, p) :: rest => mkParsed (a_options a) (Some (p, remove_dashes (map snd rest))) (a_extra a)
          | _ => mkParsed (a_options a) None true
          end
      end
  end.
Fixpoint parse_tokens (ts : list token) (run : list (bool * string)) (a : parsed) : parse_result :=
  match ts with
  | [] =>
      let a := consume_positionals run a in
      match a_positional a with
      | Some (p, args) => if a_extra a then ParseError else Parsed (a_options a) p args
      | None => ParseError
      end
  | TArg s :: ts' => parse_tokens ts' (run ++ [(false, s)]) a
  | TDashes :: ts' => parse_tokens ts' (run ++ [(true, "--")]) a
  | THelp explicit :: _ => if explicit then ParseError else ParseHelp
  | TOpt name (Some v) :: ts' =>
      let a := consume_positionals run a in
      parse_tokens ts' [] (mkParsed (dset (a_options a) name v) (a_positional a) (a_extra a))
  | TOpt name None :: TArg v :: ts' =>
      let a := consume_positionals run a in
      parse_tokens ts' [] (mkParsed (dset (a_options a) name v) (a_positional a) (a_extra a))
  | TOpt _ None :: _ => ParseError
  | TUnknown _ :: ts' =>
      let a := consume_positionals run a in
      parse_tokens ts' [] (mkParsed (a_options a) (a_positional a) true)
  | TAmbiguous :: _ => ParseError
  end.
Definition parse_args (argv : list string) : parse_result :=
  let ts := tokens argv in
  if existsb (fun t => match t with TAmbiguous => true | _ => false end) ts then ParseError
  else parse_tokens ts [] (mkParsed [] None false).

(* ------------------------------------------------------------------ *)
(** pulumi-language-python-exec. *)

(** [int(text)] for the texts that the host sends. *)
Definition py_int_text (s : string) : res Z :=
  match NilEmpty.int_of_string s with
  | Some i => Ok (Z.of_int i)
  | None => Err (Exn "ValueError" "invalid literal for int() with base 10")
  end.
Definition opt_value (o : option string) : pyval := match o with Some s => VStr s | None => VNone end.

(** What the running program finds. *)
Record view : Type := mkView {
  w_settings : sstate; w_config : cstate; w_env : dict string;
  w_program : string; w_argv : list string; w_chdir : option string }.

(** The library functions that [runtime.get_config] uses. *)
Definition exec_builtins : builtins :=
  mkB (fun _ => Err (Exn "ValueError" "")) (fun _ => Err (Exn "ValueError" ""))
      (fun v => match v with VStr s => loads s | _ => Err (Exn "TypeError" "the JSON object must be str") end).

(** runtime/config.py:38-50 [set_all_config], for parsed documents.
    Simplification: keys that are not strings are an error. *)
Fixpoint all_str (l : list pyval) : res (list string) :=
  match l with
  | [] => Ok []
  | VStr s :: l' => let+ r := all_str l' in Ok (s :: r)
  | _ :: _ => Err (Exn "TypeError" "unhashable type")
  end.
Definition set_parsed (config keys : pyval) : res cstate :=
  match config, keys with
  | VDict d, VList l => let+ ks := all_str l in
      Ok (mkCS [[]; fold_left (fun acc kv => dset acc (fst kv) (snd kv)) d []] [mkCtx 1 ks])
  | VDict _, _ => Err (Exn "TypeError" "object is not iterable")
  | _, _ => Err (Exn "AttributeError" "object has no attribute 'items'")
  end.
(** runtime/config.py:53-60, 79-86. *)
Definition read_env (env : dict string) (k : string) (default : pyval) : res pyval :=
  match dget env k with Some t => loads t | None => Ok default end.

(** pulumi-language-python-exec:54-109: up to running the program.  [chdir]
    tells the directories there are.  Not modelled: a missing or older SDK
    (lines 12-25, 75-78, 92-100). *)
Inductive start : Type :=
| Exits (code : Z)          (* argparse ends the process *)
| Crashes (e : exn)         (* an exception outside of any try *)
| Starts (w : view).
Definition exec_start (legacy : bool) (chdir : string -> bool) (p : spawned) : start :=
  match parse_args (p_argv p) with
  | ParseError => Exits 2
  | ParseHelp => Exits 0
  | Parsed opts program args =>
      let prepared :=
        let+ config := read_env (p_env p) "PULUMI_CONFIG" (VDict []) in
        let+ keys := read_env (p_env p) "PULUMI_CONFIG_SECRET_KEYS" (VList []) in
        let+ cs := set_parsed config keys in
        let+ parallel := match dget opts "--parallel" with
                         | Some t => py_int_text t
                         | None => Err (Exn "TypeError" "int() argument must be a string") end in
        let get k := opt_value (dget opts k) in
        let settings := mkSargs (get "--project") (get "--stack") (get "--monitor")
                          (match dget opts "--engine" with Some s => if String.eqb s "" then VNone else VStr s | None => VNone end)
                          (VNum parallel) (VBool (match dget opts "--dry_run" with Some s => String.eqb s "true" | None => false end))
                          VNone (get "--organization") in
        let+ _ := match dget opts "--pwd" with
        | Some d => if chdir d then Ok tt else Err (Exn "FileNotFoundError" d)
        | None => Ok tt end in
        Ok (mkView (settings_init legacy (simport legacy) 0 settings) cs (p_env p) program (program :: args) (dget opts "--pwd")) in
      match prepared with Ok w => Starts w | Err e => Crashes e end
  end.

(* ------------------------------------------------------------------ *)
(** The end of the program. *)

(** The argument of [sys.exit]. *)
Inductive exit_arg : Type := ANone | AInt (n : Z) | AOther (text : string).
(** How the code of the program ends: it returns, raises an exception, calls
    [sys.exit], or is interrupted. *)
Inductive ending : Type := Returned | Raised (e : exn) | Exited (a : exit_arg) | Interrupted.
(** What the operating system reports of the process. *)
Inductive status : Type := Code (n : Z) | Signaled.
(** What the user is shown: messages logged by the script, and what Python
    prints for an exception that ends the process. *)
Inductive shown : Type := Logged (m : string) | Printed (m : string).

(** Python: the end of a process whose main module raised.  [sys.exit(n)] ends
    it with the low eight bits of [n]. *)
Definition sys_exit (a : exit_arg) : status * list shown :=
  match a with
  | ANone => (Code 0, [])
  | AInt n => (Code (n mod 256), [])
  | AOther m => (Code 1, [Printed m])
  end.
Definition exn_text (e : exn) : string := match e with Exn cls m => (cls ++ ": " ++ m)%string end.

(** stack.py:47-54 [run_pulumi_func], 120-126 [run_in_stack]: the program ends
    with [e], then the RPCs are waited for; [p] is where [wait_for_rpcs]
    (Model_RpcManager.v) is. *)
Definition run_pulumi_func (p : phase) (e : ending) : option ending :=
  match p with
  | PReturned => Some e
  | PRaised x | PTaskRaised x => Some (Raised x)
  | _ => None
  end.

(** asyncio ([Task.__step]): [sys.exit] called in another task, for example in
    the function given to [apply], leaves the event loop at once, in whatever
    state the RPCs are. *)
Definition exited_in_task (s : mstate) (a : exit_arg) : ending := Exited a.

(** pulumi-language-python-exec:150-170.  [e] is what [run_in_stack] (stack.py:
    47-54, 120-126) ended with.  Not modelled: that logging itself fails. *)
Definition exec_end (e : ending) : status * list shown :=
  match e with
  | Returned => (Code 0, [])
  | Raised (Exn cls m) =>
      if String.eqb cls "RunError" then (Code 1, [Logged m])
      else (Code 32, [Logged ("Program failed with an unhandled exception:" ++ m)%string])
  | Exited a => sys_exit a
  | Interrupted => (Signaled, [Printed "KeyboardInterrupt"])
  end.
(** The whole script. *)
Definition exec_run (s : start) (e : ending) : status * list shown :=
  match s with
  | Exits n => (Code n, [Printed "usage"])
  | Crashes x => (Code 1, [Printed (exn_text x)])
  | Starts _ => exec_end e
  end.

(** main.go:708-735: the response to the engine. *)
Record response : Type := mkResponse { e_error : string; e_bail : bool }.
Definition respond (s : status) : response :=
  match s with
  | Code n => if Z.eqb n 0 then mkResponse "" false
              else if Z.eqb n 32 then mkResponse "" true
              else mkResponse ("Program exited with non-zero exit code: " ++ str_int n) false
  | Signaled => mkResponse ("Program exited with non-zero exit code: " ++ str_int (-1)) false
  end.
