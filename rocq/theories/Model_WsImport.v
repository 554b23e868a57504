(** automation/_local_workspace.py: exporting and importing the state of stacks *)
From Verif Require Import Base PyVal Model_Urn Model_Cmd Model_Argv Model_StackInit Model_Json Model_WsConfig.
Open Scope string_scope.
Open Scope list_scope.

(* ------------------------------------------------------------------ *)
(** [json.dump(v, file, indent=4)]: what is written.  Library code, described by its
    documentation and source; [pad] is the indentation reached. *)
Definition four : string := "    ".
Fixpoint lines (pad : string) (l : list string) : string :=
  match l with [] => "" | [t] => (nl ++ pad ++ t)%string | t :: l' => (nl ++ pad ++ t ++ "," ++ lines pad l')%string end.
Fixpoint dumps_indent (pad : string) (v : pyval) {struct v} : res string :=
  match v with
  | VNone => Ok "null"
  | VBool b => Ok (if b then "true" else "false")
  | VNum z => Ok (str_int z)
  | VStr s => Ok (quoted s)
  | VList [] => Ok "[]"
  | VList l =>
      let+ ts := res_all (map (dumps_indent (pad ++ four)) l) in Ok ("[" ++ lines (pad ++ four) ts ++ nl ++ pad ++ "]")%string
  | VDict [] => Ok "{}"
  | VDict d =>
      let+ ts := res_all (map (fun kv => let+ t := dumps_indent (pad ++ four) (snd kv) in Ok (quoted (fst kv) ++ ": " ++ t)%string) d) in
      Ok ("{" ++ lines (pad ++ four) ts ++ nl ++ pad ++ "}")%string
  | _ => not_serializable
  end.

(* ------------------------------------------------------------------ *)
(** _workspace.py:88-101 [Deployment]. *)
Record deployment : Type := mkDeployment { d_version : pyval; d_deployment : pyval }.
Definition or_none (o : option pyval) : pyval := match o with Some v => v | None => VNone end.
(** _local_workspace.py:346 [Deployment] called with the parsed object as keyword arguments. *)
Definition make_deployment (v : pyval) : res deployment :=
  match v with
  | VDict d =>
      if forallb (fun k => smem k ["version"; "deployment"]) (dkeys d)
      then Ok (mkDeployment (or_none (dget d "version")) (or_none (dget d "deployment")))
      else Err (Exn "TypeError" "got an unexpected keyword argument")
  | _ => Err (Exn "TypeError" "argument after ** must be a mapping")
  end.

(** The CLI's state comes with the files it can read. *)
Definition file_texts : Type := dict string.

(** _local_workspace.py:341-346 [export_stack]. *)
Definition export_stack {S} (c : cli S) (s : S) (name : string) : S * answer deployment :=
  let '(s', r) := command c s [VStr "stack"; VStr "export"; VStr "--show-secrets"; VStr "--stack"; VStr name] in
  (s', abind r (fun out => answer_of (let+ v := loads out in make_deployment v))).

(** _local_workspace.py:348-354 [import_stack].  [temp] is the name tempfile chooses given the
    files there are; [state.__dict__] has the two attributes.  Simplification: when the state
    cannot be written as JSON, the part of it that was written is left out. *)
Definition import_stack {S} (temp : file_texts -> string) (c : cli (S * file_texts)) (s : S * file_texts) (name : string) (st : deployment)
  : (S * file_texts) * answer unit :=
  let file := temp (snd s) in
  match dumps_indent "" (VDict [("version", d_version st); ("deployment", d_deployment st)]) with
  | Err e => ((fst s, dset (snd s) file ""), PyError e)
  | Ok text =>
      let '(s', r) := command c (fst s, dset (snd s) file text) [VStr "stack"; VStr "import"; VStr "--file"; VStr file; VStr "--stack"; VStr name] in
      match r with
      | Got _ =>
          if dmem (snd s') file then ((fst s', ddel (snd s') file), Got tt)
          else (s', PyError (Exn "FileNotFoundError" file))
      | CliError k => (s', CliError k)
      | PyError e => (s', PyError e)
      end
  end.
