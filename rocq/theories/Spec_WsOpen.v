(** What is expected of opening a stack. *)
From Verif Require Import Base PyVal Model_WsSettings Spec_WsSettings Model_WsOpen.
Open Scope string_scope.

(** The project settings that a directory has. *)
Definition project_in (dirs : dict files) (dir : string) (p : project_settings) : Prop :=
  exists fs, dget dirs dir = Some fs /\ load_project_settings fs = Ok p.
(** A directory without a project file. *)
Definition no_project (dirs : dict files) (dir : string) : Prop :=
  forall fs e, dget dirs dir = Some fs -> In e [".yaml"; ".yml"; ".json"] -> ~ In ("Pulumi" ++ e) (dkeys fs).
(** A directory that is given: the empty string stands for none. *)
Definition given (o : option string) (d : string) : Prop := o = Some d /\ d <> "".

(** The workspace and directories [dirs'] after a call for options as the user wrote them and the
    directories [dirs] there were. *)
Record as_asked (cwd : string) (o : options) (dirs : dict files) (c : call) (dirs' : dict files) (ws : workspace) : Prop := {
  (** An inline program: it is run, in the directory of the options or in a new one. *)
  asked_program : forall p n, c_program c = Some p -> c_project c = Some n -> ws_program ws = Some p;
  asked_dir : forall p n, c_program c = Some p -> c_project c = Some n ->
    (forall d, given (o_dir o) d -> ws_dir ws = d) /\ ((forall d, ~ given (o_dir o) d) -> ~ In (ws_dir ws) (dkeys dirs));
  (** A local program: that of the directory. *)
  asked_local : forall d, (c_program c = None \/ c_project c = None) -> c_dir c = Some d -> ws_dir ws = d /\ ws_program ws = o_program o;
  (** The project: that of the options, that of the directory, or a new one with the name given. *)
  asked_project : forall p, o_project o = Some p -> project_in dirs' (ws_dir ws) p;
  asked_project_there : forall p, o_project o = None -> project_in dirs (ws_dir ws) p -> project_in dirs' (ws_dir ws) p;
  asked_project_new : forall p n, c_program c = Some p -> c_project c = Some n -> o_project o = None -> no_project dirs (ws_dir ws) ->
    project_in dirs' (ws_dir ws) (mkProject n (PStr "python") (Some cwd) None None None None None None None);
  (** The settings of the stacks of the options. *)
  asked_stacks : forall l name s, o_stacks o = Some l -> In (name, s) l -> exists fs, dget dirs' (ws_dir ws) = Some fs /\ load_stack_settings fs name = Ok s;
  (** Nothing else changes in the directory. *)
  asked_other_stacks : forall fs name, dget dirs (ws_dir ws) = Some fs ->
    (forall l n s a, o_stacks o = Some l -> In (n, s) l -> last_component n a -> ~ last_component name a) ->
    exists fs', dget dirs' (ws_dir ws) = Some fs' /\ load_stack_settings fs' name = load_stack_settings fs name;
  asked_files : forall fs file, dget dirs (ws_dir ws) = Some fs -> (forall x, file <> "Pulumi" ++ x) ->
    exists fs', dget dirs' (ws_dir ws) = Some fs' /\ dget fs' file = dget fs file;
  (** Everything else. *)
  asked_rest : ws_home ws = o_home o /\ ws_provider ws = o_provider o /\ ws_env ws = match o_env o with Some d => d | None => [] end;
  asked_others : forall d, d <> ws_dir ws -> dget dirs' d = dget dirs d
}.

(** Options that can be saved: project settings made of strings, and settings, of stacks with
    different last components, of the kind that is kept. *)
Definition savable (o : options) : Prop :=
  (forall p, o_project o = Some p -> strings_only p /\ exists r, pj_runtime p = PStr r /\ In r ["nodejs"; "python"; "go"; "dotnet"]) /\
  (forall l, o_stacks o = Some l ->
     (forall n s n' s' a, In (n, s) l -> In (n', s') l -> last_component n a -> last_component n' a -> (n, s) = (n', s')) /\
     (forall n s, In (n, s) l -> wf_settings s /\ kept s)).
