(** automation/_local_workspace.py: opening stacks of inline and local programs *)
From Verif Require Import Base PyVal Model_WsSettings.
Open Scope string_scope.
Open Scope list_scope.

(** _local_workspace.py:45-70 [LocalWorkspaceOptions]; programs are numbered. *)
Record options : Type := mkOptions {
  o_dir : option string; o_home : option string; o_program : option nat; o_env : option (dict string);
  o_provider : option string; o_project : option project_settings; o_stacks : option (dict stack_settings) }.
(** _local_workspace.py:55-63: [LocalWorkspaceOptions()]. *)
Definition no_options : options := mkOptions None None None None None None None.
(** _local_workspace.py:96-117: the attributes of a [LocalWorkspace]. *)
Record workspace : Type := mkWorkspace {
  ws_dir : string; ws_home : option string; ws_program : option nat; ws_env : dict string; ws_provider : option string }.

(** The objects of class [LocalWorkspaceOptions] the user has, which the SDK may change, and the
    files of every directory. *)
Record memory : Type := mkMemory { m_options : list options; m_dirs : dict files }.
Fixpoint set_nth {A} (l : list A) (n : nat) (x : A) : list A :=
  match l, n with
  | [], _ => []
  | _ :: l', O => x :: l'
  | y :: l', S n' => y :: set_nth l' n' x
  end.

Section Open.
  (** The directory of the process; the name [tempfile.mkdtemp] chooses; the version check of
      _local_workspace.py:104-111 in a directory with environment variables: modelled in
      Model_StackInit, here either passed or an exception. *)
  Variable cwd : string.
  Variable temp : dict files -> string.
  Variable check : string -> option (dict string) -> res unit.

  (** _local_workspace.py:115-117: the stack settings are saved one after the other. *)
  Definition save_stacks (fs : files) (o : option (dict stack_settings)) : files :=
    match o with Some l => fold_left (fun fs kv => save_stack_settings fs (fst kv) (snd kv)) l fs | None => fs end.
  (** _local_workspace.py:86-117 [LocalWorkspace.__init__]: the directories, and the workspace or
      an exception.  The version command runs in the directory and raises when there is none. *)
  Definition local_workspace (dirs : dict files) (o : options) : dict files * res workspace :=
    let '(dirs1, dir) :=
      match o_dir o with
      | Some ((String _ _) as d) => (dirs, d)
      | _ => (dset dirs (temp dirs) [], temp dirs)
      end in
    match dget dirs1 dir with
    | None => (dirs1, Err (Exn "FileNotFoundError" "No such file or directory"))
    | Some fs =>
        match check dir (o_env o) with
        | Err e => (dirs1, Err e)
        | Ok _ =>
            let '(fs1, e) := match o_project o with Some p => save_project_settings fs p | None => (fs, None) end in
            match e with
            | Some e => (dset dirs1 dir fs1, Err e)
            | None =>
                (dset dirs1 dir (save_stacks fs1 (o_stacks o)),
                 Ok (mkWorkspace dir (o_home o) (o_program o) (match o_env o with Some d => d | None => [] end) (o_provider o)))
            end
        end
    end.

  (** _local_workspace.py:597-598 [default_project]. *)
  Definition default_project (name : string) : project_settings :=
    mkProject name (PStr "python") (Some cwd) None None None None None None None.
  (** _local_workspace.py:556-577 [_inline_source_stack_helper]: what becomes of the options.
      FileNotFoundError, and only that, is caught. *)
  Definition inline_options (dirs : dict files) (o : options) (program : nat) (project : string) : options * option exn :=
    let o1 := mkOptions (o_dir o) (o_home o) (Some program) (o_env o) (o_provider o) (o_project o) (o_stacks o) in
    let o2 := mkOptions (o_dir o) (o_home o) (Some program) (o_env o) (o_provider o) (Some (default_project project)) (o_stacks o) in
    match o_project o with
    | Some _ => (o1, None)
    | None =>
        match o_dir o with
        | Some ((String _ _) as d) =>
            match dget dirs d with
            | None => (o2, None)
            | Some fs =>
                match load_project_settings fs with
                | Ok _ => (o1, None)
                | Err (Exn c m) => if String.eqb c "FileNotFoundError" then (o2, None) else (o1, Some (Exn c m))
                end
            end
        | _ => (o2, None)
        end
    end.
  (** _local_workspace.py:584-594 [_local_source_stack_helper]. *)
  Definition local_options (o : options) (dir : string) : options :=
    mkOptions (Some dir) (o_home o) (o_program o) (o_env o) (o_provider o) (o_project o) (o_stacks o).

  (** The arguments of create_stack, select_stack and create_or_select_stack: the project's name,
      the program, the directory and the options, an object of the user or None. *)
  Record call : Type := mkCall { c_project : option string; c_program : option nat; c_dir : option string; c_options : option nat }.
  (** _local_workspace.py:386-390, 441-447, 494-500, 547-553, 580-581.  Simplification: the step
      that follows, initializing the stack in the workspace, is in Model_StackInit. *)
  Definition open_stack (m : memory) (c : call) : memory * res workspace :=
    let o := match c_options c with Some r => nth r (m_options m) no_options | None => no_options end in
    let keep o' := match c_options c with Some r => set_nth (m_options m) r o' | None => m_options m end in
    match c_program c, c_project c with
    | Some program, Some project =>
        let '(o', e) := inline_options (m_dirs m) o program project in
        match e with
        | Some e => (mkMemory (keep o') (m_dirs m), Err e)
        | None => let '(dirs, r) := local_workspace (m_dirs m) o' in (mkMemory (keep o') dirs, r)
        end
    | _, _ =>
        match c_dir c with
        | Some dir =>
            let o' := local_options o dir in
            let '(dirs, r) := local_workspace (m_dirs m) o' in (mkMemory (keep o') dirs, r)
        | None => (m, Err (Exn "ValueError" "unexpected args"))
        end
    end.
  (** A program that makes calls one after the other, whether or not they raise. *)
  Definition open_stacks (m : memory) (cs : list call) : memory := fold_left (fun m c => fst (open_stack m c)) cs m.
End Open.
