(** The stacks of a backend that keeps them in files (Go: pkg/backend/filestate). *)
From Verif Require Import Base Model_Rpc Model_Lock Model_Save.
Open Scope string_scope.
Open Scope list_scope.

(** Go: strings.TrimSuffix where the suffix is there. *)
Fixpoint strip_suffix (suf s : string) : option string :=
  if String.eqb s suf then Some ""
  else match s with String c s' => match strip_suffix suf s' with Some r => Some (String c r) | None => None end | "" => None end.
Fixpoint strip_prefix (p s : string) : option string :=
  match p, s with
  | "", _ => Some s
  | String a p', String b s' => if Ascii.eqb a b then strip_prefix p' s' else None
  | _, _ => None
  end.
Fixpoint has_slash (s : string) : bool :=
  match s with "" => false | String c s' => Ascii.eqb c "/"%char || has_slash s' end.
(** Go: filepath.Join of a directory in .pulumi and a name without slashes. *)
Definition join_name (dir name : string) : string :=
  if String.eqb name "." then (".pulumi/" ++ dir)%string
  else if String.eqb name ".." then ".pulumi"
  else (".pulumi/" ++ dir ++ "/" ++ name)%string.
(** state.go:352-364: the path without ".gz". *)
Definition plain_path (name : string) : string := (join_name "stacks" name ++ ".json")%string.
(** state.go:397-405. *)
Definition history_dir (name : string) : string := join_name "history" name.
Definition backup_dir (name : string) : string := join_name "backups" name.

Section Files.
  (** States with resources, and what is recorded about updates. *)
  Variables S U : Type.
  Variable has_resources : S -> bool.
  (** Contents of files: checkpoints, which have no state before the first update,
      and records of updates. *)
  Inductive content : Type := Checkpoint (s : option S) | Record_of (u : U).
  Notation files := (bucket content).

  (** bucket.go:67-89 [listBucket].  Simplifications: what is in subdirectories
      is left out; listing works. *)
  Definition under (dir key : string) : bool :=
    match strip_prefix (dir ++ "/")%string key with Some rest => negb (has_slash rest) | None => false end.
  Definition list_bucket (b : files) (dir : string) : list string := sort_strings (filter (under dir) (dkeys b)).

  (** What a command finds: the setting PULUMI_SELF_MANAGED_STATE_GZIP; the results of
      the operations on the bucket, by phases and steps; the times; and which states
      it can read (DeserializeCheckpoint with the secrets managers at hand, and
      VerifyIntegrity). *)
  Record env : Type := mkEnv { e_gzip : bool; e_io : nat -> nat -> io; e_clock : nat -> nat; e_stamp : string; e_readable : S -> bool }.

  (** state.go:132-165 [getStack], 167-180 [getCheckpoint]. *)
  Definition get_stack (e : env) (b : files) (name : string) : option (option S) :=
    match current (plain_path name) b with
    | Some (Checkpoint None) => Some None
    | Some (Checkpoint (Some s)) => if e_readable e s then Some (Some s) else None
    | _ => None
    end.
  (** state.go:182-272 [saveStack]. *)
  Definition save (e : env) (phase : nat) (b : files) (name : string) (s : option S) : files * bool :=
    let ops := save_stack (plain_path name) (e_io e phase) (e_clock e) (e_gzip e) (Checkpoint s) in (perform_all b ops, succeeded ops).
  Definition one (e : env) (phase step : nat) (b : files) (o : op content) : files := perform b (o, e_io e phase step, e_clock e step).
  Definition fine (e : env) (phase step : nat) : bool := match e_io e phase step with Fine => true | Fault _ => false end.

  (** backend.go:305-341 [CreateStack]: only a stack that can be read exists.
      Simplification: tags and the validation of names are left out; other than
      [Lock] and [Unlock], which are in [Model_Lock]. *)
  Definition create (e : env) (b : files) (name : string) : files * bool :=
    match get_stack e b name with
    | Some _ => (b, false)
    | None => save e 0 b name None
    end.

  (** state.go:523-552 [addToHistory]. *)
  Definition ext (e : env) : string := if e_gzip e then "json.gz" else "json".
  Definition history_prefix (name stamp : string) : string := (history_dir name ++ "/" ++ name ++ "-" ++ stamp)%string.
  Definition add_to_history (e : env) (phase : nat) (b : files) (name : string) (u : U) : files * bool :=
    let b1 := one e phase 0 b (Write (history_prefix name (e_stamp e) ++ ".history." ++ ext e)%string (Record_of u)) in
    if fine e phase 0 then
      (one e phase 1 b1 (Copy (history_prefix name (e_stamp e) ++ ".checkpoint." ++ ext e)%string (stack_path (plain_path name) b1)), fine e phase 1)
    else (b1, false).
  (** state.go:318-350 [backupStack]. *)
  Definition backup_stack (e : env) (phase : nat) (b : files) (name : string) : files * bool :=
    match dget b (stack_path (plain_path name) b) with
    | Some (c, _) =>
        let tail := if String.eqb (stack_path (plain_path name) b) (plain_path name) then ".json" else ".json.gz" in
        (one e phase 0 b (Write (backup_dir name ++ "/" ++ name ++ "." ++ e_stamp e ++ tail)%string c), fine e phase 0)
    | None => (b, false)
    end.
  (** The saves of an update, one after another; one that fails is the last. *)
  Fixpoint saves (e : env) (phase : nat) (b : files) (name : string) (ss : list S) : files * bool :=
    match ss with
    | [] => (b, true)
    | s :: ss' => let (b1, ok) := save e phase b name (Some s) in if ok then saves e (Datatypes.S phase) b1 name ss' else (b1, false)
    end.
  (** backend.go:554-700 [apply]: [ss] are the states that the update saves.
      Simplification: the engine fails only if a state cannot be saved. *)
  Definition update (e : env) (b : files) (name : string) (ss : list S) (u : U) : files * bool :=
    match get_stack e b name with
    | None => (b, false)
    | Some _ =>
        let (b1, ok1) := saves e 0 b name ss in
        let (b2, ok2) := add_to_history e (List.length ss) b1 name u in
        let (b3, ok3) := backup_stack e (Datatypes.S (List.length ss)) b2 name in
        (b3, ok1 && ok2 && ok3)
    end.

  (** bucket.go:97-112 [removeAllByPrefix]: failures are ignored. *)
  Fixpoint delete_all (e : env) (phase step : nat) (b : files) (keys : list string) : files :=
    match keys with [] => b | k :: ks => delete_all e phase (Datatypes.S step) (one e phase step b (Delete k)) ks end.
  (** backend.go:384-404 [RemoveStack], state.go:285-295 [removeStack];
      stack_rm.go:63-86.  Simplification: the stack's settings file and the current
      stack are left out. *)
  Definition remove (e : env) (b : files) (name : string) : files * bool :=
    match get_stack e b name with
    | None => (b, false)
    | Some s =>
        if match s with Some s' => has_resources s' | None => false end then (b, false)
        else
          let b1 := perform_all b (backup_target (e_io e 0) (e_clock e) 0 (stack_path (plain_path name) b) false) in
          (delete_all e 1 0 b1 (list_bucket b1 (history_dir name)), true)
    end.

  (** backend.go:843-880 [getLocalStacks]. *)
  Definition stack_name (file : string) : option string :=
    let file := match strip_suffix ".gz" file with Some f => f | None => file end in
    match strip_suffix ".json" file with
    | Some n => Some n
    | None => match strip_suffix ".yaml" file with Some n => Some n | None => strip_suffix ".yml" file end
    end.
  Definition object_name (dir key : string) : string := match strip_prefix (dir ++ "/")%string key with Some f => f | None => key end.
  Fixpoint some_of {A B} (f : A -> option B) (l : list A) : list B :=
    match l with [] => [] | x :: l' => match f x with Some y => y :: some_of f l' | None => some_of f l' end end.
  Definition local_stacks (b : files) : list string :=
    some_of (fun k => stack_name (object_name ".pulumi/stacks" k)) (list_bucket b ".pulumi/stacks").
  (** backend.go:357-382 [ListStacks]: no lock is taken; [later i] are the files when
      the [i]-th stack is read. *)
  Fixpoint read_stacks (later : nat -> files) (i : nat) (names : list string) : option (list (string * option S)) :=
    match names with
    | [] => Some []
    | n :: ns => match current (plain_path n) (later i) with
                 | Some (Checkpoint s) => match read_stacks later (Datatypes.S i) ns with Some l => Some ((n, s) :: l) | None => None end
                 | _ => None
                 end
    end.
  Definition list_stacks (b : files) (later : nat -> files) : option (list (string * option S)) := read_stacks later 0 (local_stacks b).

  (** state.go:409-474 [getHistory].  [page] is 1 or more. *)
  Definition is_history (key : string) : bool :=
    match strip_suffix ".history.json" key, strip_suffix ".history.json.gz" key with None, None => false | _, _ => true end.
  Fixpoint read_records (b : files) (keys : list string) : option (list U) :=
    match keys with
    | [] => Some []
    | k :: ks => match dget b k with
                 | Some (Record_of u, _) => match read_records b ks with Some l => Some (u :: l) | None => None end
                 | _ => None
                 end
    end.
  Definition get_history (b : files) (name : string) (page_size page : nat) : option (list U) :=
    let entries := filter is_history (rev (list_bucket b (history_dir name))) in
    let entries := if Nat.ltb 0 page_size then firstn page_size (skipn ((page - 1) * page_size) entries) else entries in
    read_records b entries.

  Inductive command : Type := Create (name : string) | Update (name : string) (ss : list S) (u : U) | Remove (name : string).
  Definition run_command (e : env) (b : files) (c : command) : files * bool :=
    match c with Create n => create e b n | Update n ss u => update e b n ss u | Remove n => remove e b n end.
  Fixpoint run_all (b : files) (cs : list (env * command)) : files * list bool :=
    match cs with
    | [] => (b, [])
    | (e, c) :: cs' => let (b1, ok) := run_command e b c in let (b2, oks) := run_all b1 cs' in (b2, ok :: oks)
    end.
End Files.
Arguments Checkpoint {S U}. Arguments Record_of {S U}. Arguments mkEnv {S}. Arguments e_gzip {S}. Arguments e_io {S}. Arguments e_clock {S}. Arguments e_stamp {S}. Arguments e_readable {S}.
Arguments list_bucket {S U}. Arguments get_stack {S U}. Arguments save {S U}. Arguments one {S U}. Arguments fine {S}. Arguments create {S U}. Arguments ext {S}.
Arguments add_to_history {S U}. Arguments backup_stack {S U}. Arguments saves {S U}. Arguments update {S U}. Arguments delete_all {S U}. Arguments remove {S U}.
Arguments local_stacks {S U}. Arguments read_stacks {S U}. Arguments list_stacks {S U}. Arguments read_records {S U}. Arguments get_history {S U}.
Arguments Create {S U}. Arguments Update {S U}. Arguments Remove {S U}. Arguments run_command {S U}. Arguments run_all {S U}.
