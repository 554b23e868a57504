(** C83-C85: starting a program and reporting its end. *)
From Verif Require Import Base PyVal Model_Config Spec_Config Model_Settings Model_RpcManager Spec_RpcManager Model_Host Spec_Host Proof_Host.
Open Scope string_scope.
Open Scope list_scope.

(** C83, in part.  Every request is carried out: the program is started, and it
    finds the project, stack, organization, addresses, parallelism, preview
    mode, arguments, directory, configuration and secret keys of the request,
    and no other configuration.
    Missing: texts that start with a minus sign, an empty configuration where
    the surrounding environment has one, the key named like the variable that
    holds the secret keys, and characters above 255 in the configuration. *)
Theorem C83_run_partial : forall legacy chdir environ h r,
  Forall plain [q_monitor r; h_engine h; q_project r; q_stack r; q_pwd r; h_tracing h; q_organization r] ->
  Forall plain (q_program r :: q_args r) ->
  NoDup (map fst (q_config r)) ->
  (q_pwd r = "" \/ chdir (q_pwd r) = true) ->
  (q_config r <> [] \/ ~ In "PULUMI_CONFIG" (map fst environ)) ->
  exists w, exec_start legacy chdir (spawn environ h r) = Starts w /\ asked environ h r w /\ nothing_else environ r w.
Proof. exact run_ok. Qed.
Print Assumptions C83_run_partial.

Definition sample (stack : string) (args : list string) (config : dict string) : request :=
  mkRequest "shop" stack "/work" "." args config false 16 "127.0.0.1:4000" ["shop:password"] "acme".
Definition sample_host : host := mkHost "127.0.0.1:4001" "" "/work/venv".
Example C83_example :
  let r := sample "dev" ["one"; "two words"] [("shop:password", "a<b&""c"""); ("shop:size", "3")] in
  let environ := [("PATH", "/usr/bin"); ("PULUMI_CONFIG", "{}"); ("HOME", "/root")] in
  Forall plain [q_monitor r; h_engine sample_host; q_project r; q_stack r; q_pwd r; h_tracing sample_host; q_organization r] /\
  Forall plain (q_program r :: q_args r) /\ NoDup (map fst (q_config r)) /\ q_config r <> [] /\
  p_argv (spawn environ sample_host r) = ["--monitor"; "127.0.0.1:4000"; "--engine"; "127.0.0.1:4001"; "--project"; "shop"; "--stack"; "dev";
    "--pwd"; "/work"; "--dry_run"; "false"; "--parallel"; "16"; "--organization"; "acme"; "."; "one"; "two words"] /\
  exists w, exec_start false (fun _ => true) (spawn environ sample_host r) = Starts w /\
    sget (w_settings w) 0 KStack = VStr "dev" /\ sget (w_settings w) 0 KParallel = VNum 16 /\
    w_argv w = ["."; "one"; "two words"] /\
    get_config exec_builtins (w_env w) (w_config w) 0 "shop:password" = Ok (VStr "a<b&""c""") /\
    is_config_secret (w_config w) 0 "shop:password" = true /\ is_config_secret (w_config w) 0 "shop:size" = false.
Proof.
  cbn zeta. split; [|split; [|split; [|split; [|split]]]].
  - repeat constructor; intros rest; discriminate.
  - repeat constructor; intros rest; discriminate.
  - cbn. repeat constructor; cbn; intuition discriminate.
  - discriminate.
  - reflexivity.
  - eexists. split; [vm_compute; reflexivity|]. repeat split; vm_compute; reflexivity.
Qed.

(** C83 is false.  A stack whose name starts with a minus sign cannot be run;
    arguments of the program that look like options change the stack and the
    preview mode and do not reach the program; "--" is taken away; with an empty
    configuration the program has the surrounding one; and one key reads as the
    list of the secret keys. *)
Theorem C83_refuted :
  exec_start false (fun _ => true) (spawn [] sample_host (sample "-dev" [] [])) = Exits 2 /\
  (exists w, exec_start false (fun _ => true) (spawn [] sample_host (sample "dev" ["--stack"; "prod"; "--dry"; "true"] [])) = Starts w /\
     sget (w_settings w) 0 KStack = VStr "prod" /\ sget (w_settings w) 0 KDryRun = VBool true /\ w_argv w = ["."]) /\
  (exists w, exec_start false (fun _ => true) (spawn [] sample_host (sample "dev" ["--"; "-x"] [])) = Starts w /\ w_argv w = ["."; "-x"]) /\
  exec_start false (fun _ => true) (spawn [] sample_host (sample "dev" ["-x"] [])) = Exits 2 /\
  (exists w, exec_start false (fun _ => true) (spawn [("PULUMI_CONFIG", "{""shop:size"":""9""}")] sample_host (sample "dev" [] [])) = Starts w /\
     get_config exec_builtins (w_env w) (w_config w) 0 "shop:size" = Ok (VStr "9")) /\
  (exists w, exec_start false (fun _ => true) (spawn [] sample_host (sample "dev" [] [])) = Starts w /\
     get_config exec_builtins (w_env w) (w_config w) 0 "secret:keys" = Ok (VStr "[""shop:password""]")).
Proof.
  split; [vm_compute; reflexivity|]. split; [eexists; split; [vm_compute; reflexivity|repeat split; vm_compute; reflexivity]|].
  split; [eexists; split; [vm_compute; reflexivity|repeat split; vm_compute; reflexivity]|].
  split; [vm_compute; reflexivity|].
  split; eexists; (split; [vm_compute; reflexivity|repeat split; vm_compute; reflexivity]).
Qed.
Print Assumptions C83_refuted.

(** C84, in part.  In every schedule of the RPCs: success is reported exactly if
    all RPCs that were started have succeeded, no task failed and the program
    ended well; what is reported is the end of the program, or the failure of
    an RPC or a task; the message of an exception is logged; the engine is told
    that the user has seen the reason only if something was logged; and a
    program that could not be started is reported as failed.
    Missing: programs that end themselves with a code that is not between 0 and
    255, or is 32; [sys.exit] in another task; the help option. *)
Theorem C84_ending_reported_partial :
  (forall s' w e, wait_ends s' -> (forall n, e = Exited (AInt n) -> (0 <= n < 256)%Z /\ n <> 32%Z) ->
     exists e', run_pulumi_func (m_phase s') e = Some e' /\
       (e' = e \/ exists x, e' = Raised x /\ ((exists i, failed s' i x) \/ m_phase s' = PTaskRaised x)) /\
       (success (respond (fst (exec_run (Starts w) e'))) <->
          (forall i, started s' i -> succeeded s' i) /\ (forall x, m_phase s' <> PTaskRaised x) /\ ended_well e) /\
       (forall cls m, e' = Raised (Exn cls m) -> exists before, In (Logged (before ++ m)) (snd (exec_run (Starts w) e'))) /\
       (e_bail (respond (fst (exec_run (Starts w) e'))) = true -> exists t, In (Logged t) (snd (exec_run (Starts w) e')))) /\
  (forall legacy chdir p e, (forall w, exec_start legacy chdir p <> Starts w) -> exec_start legacy chdir p <> Exits 0 ->
     e_error (respond (fst (exec_run (exec_start legacy chdir p) e))) <> "" /\
     exists t, In (Printed t) (snd (exec_run (exec_start legacy chdir p) e))).
Proof.
  split; [exact end_reported|]. intros legacy chdir p e N1 N2. destruct (exec_start legacy chdir p) as [n|x|w] eqn:E.
  - destruct (start_code _ _ _ _ E) as [-> | ->]; [|congruence]. split; [discriminate|eexists; left; reflexivity].
  - split; [discriminate|eexists; left; reflexivity].
  - now destruct (N1 w).
Qed.
Print Assumptions C84_ending_reported_partial.

Ltac go := match goal with |- clos_refl_trans_1n _ _ _ _ => eapply rt1n_trans end.
(** A program that returned, all of whose RPCs succeeded, and one with an RPC
    that failed. *)
Example C84_example : exists s1 s2 w, wait_ends s1 /\ wait_ends s2 /\
  (exists e', run_pulumi_func (m_phase s1) Returned = Some e' /\ respond (fst (exec_run (Starts w) e')) = mkResponse "" false) /\
  (exists e', run_pulumi_func (m_phase s2) Returned = Some e' /\ respond (fst (exec_run (Starts w) e')) = mkResponse "" true /\
     snd (exec_run (Starts w) e') = [Logged "Program failed with an unhandled exception:no bucket"]).
Proof.
  eexists _, _, (mkView (simport false) cinit [] "" [] None). split; [|split; [|split]].
  - eexists. split; [|split; [apply st_tasks|]].
    + unfold reachable. go; [apply st_start|]. go; [apply st_begin; reflexivity|]. cbn. go; [apply (st_pop _ _ [] 0); reflexivity|]. cbn.
      go; [apply (st_finish _ _ 0 (Ok 4)); reflexivity|]. cbn. go; [eapply (st_wrap _ _ 0); reflexivity|]. cbn.
      go; [apply (st_awaited _ _ 0 4); reflexivity|]. cbn. apply rt1n_refl.
    + reflexivity.
    + cbn. repeat split; try discriminate. auto.
  - eexists. split; [|split; [apply (st_failed _ _ 0 (Exn "Exception" "no bucket"))|]].
    + unfold reachable. go; [apply st_start|]. go; [apply st_begin; reflexivity|]. cbn. go; [apply (st_pop _ _ [] 0); reflexivity|]. cbn.
      go; [apply (st_finish _ _ 0 (Err (Exn "Exception" "no bucket"))); reflexivity|]. cbn. go; [eapply (st_wrap _ _ 0); reflexivity|]. cbn. apply rt1n_refl.
    + reflexivity.
    + reflexivity.
    + cbn. repeat split; try discriminate. left. eauto.
  - eexists. split; reflexivity.
  - eexists. split; [reflexivity|]. split; reflexivity.
Qed.

(** C84 is false: [sys.exit(256)] is a success; [sys.exit(32)] tells the engine
    that the user has seen the reason, and nothing was shown; [sys.exit()] in a
    function given to [apply] is a success although an RPC is outstanding; and
    so is a program that was not run because one of its arguments is "--help". *)
Theorem C84_refuted :
  success (respond (fst (exec_end (Exited (AInt 256))))) /\
  (e_bail (respond (fst (exec_end (Exited (AInt 32))))) = true /\ snd (exec_end (Exited (AInt 32))) = []) /\
  (exists s, reachable true s /\ nth_error (m_status s) 0 = Some None /\
     success (respond (fst (exec_end (exited_in_task s ANone))))) /\
  (forall e, success (respond (fst (exec_run (exec_start false (fun _ => true) (spawn [] sample_host (sample "dev" ["--help"] []))) e)))).
Proof.
  split; [now split|]. split; [now split|]. split.
  - eexists. split; [|split]; [unfold reachable; go; [apply st_start|]; apply rt1n_refl|reflexivity|now split].
  - intros e. replace (exec_start false (fun _ => true) (spawn [] sample_host (sample "dev" ["--help"] []))) with (Exits 0) by (vm_compute; reflexivity). now split.
Qed.
Print Assumptions C84_refuted.

(** C85, in part.  With a virtual environment the program is run by its
    interpreter, its directory of programs comes first in PATH, PYTHONHOME is
    not set, and all other variables keep their values.
    Missing: variables named like PATH or PYTHONHOME but for the case. *)
Theorem C85_virtualenv_partial : forall environ h r,
  h_virtualenv h <> "" ->
  p_python (spawn environ h r) = Some (h_virtualenv h ++ "/bin/python")%string /\
  (forall old, last_value environ "PATH" old ->
     In "PATH" (map fst environ) \/ (forall k, In k (map fst environ) -> ~ same_letters k "PATH") ->
     dget (p_env (spawn environ h r)) "PATH" =
       Some (h_virtualenv h ++ "/bin" ++ match old with Some v => ":" ++ v | None => "" end)%string) /\
  dget (p_env (spawn environ h r)) "PYTHONHOME" = None /\
  (forall k v, ~ same_letters k "PATH" -> ~ same_letters k "PYTHONHOME" ->
     k <> "PULUMI_CONFIG" -> k <> "PULUMI_CONFIG_SECRET_KEYS" ->
     last_value environ k v -> dget (p_env (spawn environ h r)) k = v).
Proof. exact virtualenv_ok. Qed.
Print Assumptions C85_virtualenv_partial.

(** Without one nothing is changed. *)
Theorem C85_no_virtualenv : forall environ h r,
  h_virtualenv h = "" ->
  p_python (spawn environ h r) = None /\
  (forall k v, k <> "PULUMI_CONFIG" -> k <> "PULUMI_CONFIG_SECRET_KEYS" ->
     last_value environ k v -> dget (p_env (spawn environ h r)) k = v).
Proof. exact no_virtualenv_ok. Qed.
Print Assumptions C85_no_virtualenv.

Example C85_example :
  let environ := [("PATH", "/usr/bin"); ("PYTHONHOME", "/opt"); ("A", "1"); ("A", "2")] in
  h_virtualenv sample_host <> "" /\ last_value environ "PATH" (Some "/usr/bin") /\ In "PATH" (map fst environ) /\
  p_env (spawn environ sample_host (sample "dev" [] [])) =
    [("PATH", "/work/venv/bin:/usr/bin"); ("A", "2"); ("PULUMI_CONFIG_SECRET_KEYS", "[""shop:password""]")].
Proof.
  cbn zeta. split; [discriminate|]. split; [apply (Lv_some _ _ [] "/usr/bin" [("PYTHONHOME", "/opt"); ("A", "1"); ("A", "2")]); [reflexivity|cbn; intuition discriminate]|].
  split; [now left|reflexivity].
Qed.

(** C85 is false on systems that tell the case of variables apart: "Path" is
    taken for PATH, which then stays unset, and "PythonHome" is taken away. *)
Theorem C85_refuted :
  let environ := [("Path", "menu"); ("PythonHome", "spam")] in
  p_env (spawn environ sample_host (sample "dev" [] [])) =
    [("Path", "/work/venv/bin:menu"); ("PULUMI_CONFIG_SECRET_KEYS", "[""shop:password""]")].
Proof. reflexivity. Qed.
Print Assumptions C85_refuted.
