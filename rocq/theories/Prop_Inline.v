(** C61: inline programs. *)
From Verif Require Import Base PyVal Model_Settings Spec_Settings Model_Config Spec_Config Model_Inline Spec_Inline Proof_Inline.
Open Scope string_scope.

(** C61.  After any sequence of runs, each ending in any way, on any of the servers' threads,
    the code of the run in progress, in any of its tasks, sees the settings of its own
    request, no other run's root resource, no other run's RPCs, and no failure but the
    first of its own RPCs.
    It sees its own configuration and secret keys if the request carries some; and
    also without, if it is the first run on its thread and nothing was set directly.
    Partial: what is missing are later runs with no configuration or no secret keys, see
    [C61_refuted]. *)
Theorem C61_runs_partial legacy_env unavailable s a c :
  ireach legacy_env unavailable s -> n_active s = Some a -> In c (a_tasks a) ->
  own_settings (a_req a) (iv_setting (iread s c)) /\
  (iv_root (iread s c) = None \/ iv_root (iread s c) = Some (a_id a)) /\
  (forall i, In i (iv_rpcs (iread s c)) -> i = a_id a) /\
  iv_unhandled (iread s c) = hd_error (a_fails a) /\
  (u_config (a_req a) <> [] \/ (a_first a = true /\ n_direct s = false) ->
     own_config (a_req a) (a_sets a) (iv_config (iread s c))) /\
  (u_config (a_req a) <> [] /\ u_secret_keys (a_req a) <> [] \/ (a_first a = true /\ u_secret_keys (a_req a) = []) ->
     iv_secrets (iread s c) = u_secret_keys (a_req a)).
Proof.
  intros R Ha Hc. pose proof (pinv_reach _ _ _ R) as P. pose proof (pi_act _ _ _ P a Ha) as A.
  assert (M : In c (members a)) by now right.
  unfold iread. cbn [iv_setting iv_root iv_rpcs iv_unhandled iv_config iv_secrets].
  split; [|split; [|split; [|split; [|split]]]].
  - unfold own_settings, sget. rewrite !(ao_set _ _ _ _ _ _ _ _ A c M). unfold run_settings, configured. cbn. repeat split.
    destruct (u_args (a_req a)) as [|e l]; reflexivity.
  - exact (ao_root _ _ _ _ _ _ _ _ A c M).
  - exact (ao_rpcs _ _ _ _ _ _ _ _ A).
  - exact (ao_un _ _ _ _ _ _ _ _ A).
  - intros H k. destruct (ao_loc _ _ _ _ _ _ _ _ A) as (l & B1 & B2 & B3). rewrite (B1 c M).
    assert (D : {u_config (a_req a) = []} + {u_config (a_req a) <> []}) by (destruct (u_config (a_req a)); [now left|right; discriminate]).
    destruct D as [E|N]; [|now apply B2]. destruct H as [H|[H1 H2]]; [contradiction|].
    destruct (pi_direct _ _ _ P H2) as [D1 D2]. rewrite (B3 E H1), D1, (D2 a Ha), E. reflexivity.
  - destruct (ao_sec _ _ _ _ _ _ _ _ A c M) as [S1 S2]. intros [[H1 H2]|[H1 H2]]; [auto|]. rewrite H2. auto.
Qed.
Print Assumptions C61_runs_partial.

(** C61: the response to each run is determined by its own program and its own RPCs:
    the first failure of an RPC, or else how the program ended. *)
Theorem C61_outcome legacy_env unavailable s i fails o e :
  ireach legacy_env unavailable s -> In (i, fails, o, e) (n_ended s) ->
  reported unavailable (match fails with x :: _ => Err x | [] => o end) e.
Proof.
  intros R H. rewrite (pi_ended _ _ _ (pinv_reach _ _ _ R) _ _ _ _ H). unfold respond.
  destruct (match fails with x :: _ => Err x | [] => o end) as [[]|[cls m]]; [constructor|].
  destruct (String.eqb_spec cls "RunError") as [->|]; [constructor|].
  destruct (String.eqb_spec cls "RpcError") as [->|]; [|now constructor].
  destruct (unavailable (Exn "RpcError" m)) eqn:E; now constructor.
Qed.
Print Assumptions C61_outcome.

(** C61: whatever earlier runs left behind, on an idle server every request can be run; and a run
    that ended leaves the RPC manager empty. *)
Theorem C61_idle legacy_env unavailable s : ireach legacy_env unavailable s -> n_active s = None ->
  n_rpcs s = [] /\ n_unhandled s = None /\
  forall c r, In c (n_threads s) -> wf_dict (u_config r) ->
    exists s' a t, istep legacy_env unavailable s s' /\ n_active s' = Some a /\ a_req a = r /\ a_tasks a = [t] /\ iv_root (iread s' t) = None.
Proof.
  intros R H. pose proof (pinv_reach _ _ _ R) as P. destruct (pi_quiet _ _ _ P H) as [Q1 Q2]. split; [exact Q1|]. split; [exact Q2|].
  intros c r Hc Hw. do 3 eexists. split; [now apply (I_run _ _ s c r)|]. repeat split.
  unfold iread, start_run. cbn [iv_root n_roots a_tasks n_conf n_active].
  assert (L : length (s_ctxs (run_config (n_conf s) c r)) = length (upd (n_roots s) c None)).
  { rewrite run_config_len, Proof_Config.upd_length. symmetry. apply (pi_roots _ _ _ P). }
  rewrite L, nth_last. apply Proof_Config.nth_upd_same. rewrite (pi_roots _ _ _ P). now apply (pi_threads _ _ _ P).
Qed.
Print Assumptions C61_idle.

(** C61 as stated is false: a run without configuration sees that of the run before it
    on the same thread; a run with configuration but without secret keys sees that run's
    secret keys. *)
Definition run_a : run_request := mkRun "p" "dev" "m" ["e"] 4 false "org" [("p:key", "one")] ["p:key"].
Definition run_b : run_request := mkRun "p" "prod" "m" [] 4 true "org" [] [].
Definition run_c : run_request := mkRun "q" "prod" "m" [] 4 true "org" [("p:key", "two")] [].
Definition second (r : run_request) : process :=
  let s := process_start false in
  let s := mkProcess (sstep false (n_settings s) SThread) (new_ctx (n_conf s)) (n_roots s ++ [None])%list
        (n_rpcs s) (n_unhandled s) (n_active s) (n_next s) (length (s_ctxs (n_conf s)) :: n_threads s) (n_used s) (n_direct s) (n_ended s) in
  let s := start_run false s 1 run_a in
  let s := match n_active s with Some a => end_run (fun _ => false) s a (Ok tt) | None => s end in
  start_run false s 1 r.
Lemma second_reach r : wf_dict (u_config r) -> ireach false (fun _ => false) (second r).
Proof.
  intros W. pose proof (IR_start false (fun _ => false)) as R.
  eapply IR_step in R; [|apply I_thread]. eapply IR_step in R; [|apply (I_run _ _ _ 1 run_a); [reflexivity|now left|repeat constructor; auto]].
  eapply IR_step in R; [|eapply (I_end _ _ _ _ (Ok tt)); reflexivity]. eapply IR_step in R; [|apply (I_run _ _ _ 1 r); [reflexivity|now left|exact W]].
  exact R.
Qed.
Theorem C61_refuted :
  (exists s a c v, ireach false (fun _ => false) s /\ n_active s = Some a /\ In c (a_tasks a) /\
     u_config (a_req a) = [] /\ a_sets a = [] /\ dget (iv_config (iread s c)) "p:key" = Some v) /\
  (exists s a c, ireach false (fun _ => false) s /\ n_active s = Some a /\ In c (a_tasks a) /\
     u_secret_keys (a_req a) = [] /\ iv_secrets (iread s c) = ["p:key"]).
Proof.
  split.
  - exists (second run_b). do 3 eexists. split; [apply second_reach; constructor|]. split; [reflexivity|]. split; [now left|]. repeat split.
  - exists (second run_c). do 2 eexists. split; [apply second_reach; repeat constructor; auto|]. split; [reflexivity|]. split; [now left|]. repeat split.
Qed.
Print Assumptions C61_refuted.

(** The hypotheses are met: a second run on the same thread, with its own configuration. *)
Example C61_example : exists a, n_active (second run_a) = Some a /\ In 3 (a_tasks a) /\ a_id a = 1 /\ a_first a = false /\
  own_config run_a [] (iv_config (iread (second run_a) 3)) /\ iv_secrets (iread (second run_a) 3) = ["p:key"].
Proof.
  eexists. split; [reflexivity|]. split; [now left|]. split; [reflexivity|]. split; [reflexivity|]. split; [|reflexivity].
  assert (R := second_reach run_a ltac:(repeat constructor; auto)).
  destruct (C61_runs_partial _ _ _ _ 3 R eq_refl ltac:(now left)) as (_ & _ & _ & _ & H & _). apply H. left. discriminate.
Qed.
(** And a run whose program returned although one of its RPCs failed: the response names the failure. *)
Example C61_example_ended : exists s, ireach false (fun _ => false) s /\
  In (0, [Exn "Exception" "denied"], Ok tt, "python inline source runtime error: denied") (n_ended s).
Proof.
  pose proof (IR_start false (fun _ => false)) as R.
  eapply IR_step in R; [|apply I_thread]. eapply IR_step in R; [|apply (I_run _ _ _ 1 run_a); [reflexivity|now left|repeat constructor; auto]].
  eapply IR_step in R; [|eapply (I_rpc_fails _ _ _ _ (Exn "Exception" "denied")); reflexivity].
  eapply IR_step in R; [|eapply (I_end _ _ _ _ (Ok tt)); reflexivity]. eexists. split; [exact R|]. now left.
Qed.
