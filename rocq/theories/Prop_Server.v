(** C50: concurrent Construct and Call requests. *)
From Verif Require Import Base PyVal Model_Settings Model_Config Spec_Settings Model_Server Spec_Server Proof_Server.
Open Scope string_scope.

(** C50 (partial: what is missing is that a request's outcome does not depend
    on other requests, see [C50_refuted]).  Whatever the arrival, cancellation
    and interleaving of requests: at most one request's code is executing;
    whatever a request's code or its background tasks read of the settings and
    the configuration is that request's own, even after other requests have
    started; and a request whose code returned ends successfully unless a
    resource operation failed somewhere in the process. *)
Theorem C50_isolation_partial : forall engine legacy_env s,
  server_run engine legacy_env s ->
  (forall i j, executing s i -> executing s j -> i = j) /\
  (forall i v, In (i, v) (v_seen s) -> exists r, request_is s i r /\ shows engine r v) /\
  (forall i c, runs_in s i c -> exists r, request_is s i r /\ shows engine r (read_view (v_settings s) (v_conf s) c)) /\
  (forall i, In i (v_returned s) ->
     ended s i (Ok tt) \/ exists e j, ended s i (Err e) /\ In (j, e) (v_failed s)).
Proof.
  intros engine env s H. split; [|split; [|split]].
  - apply (run_ok _ _ _ H).
  - intros i v. eapply isolation; eauto.
  - intros i c. eapply can_show; eauto.
  - apply (oo_returned _ (run_outcome _ _ _ H)).
Qed.
Print Assumptions C50_isolation_partial.

(** C50: the lock is never lost.  When no request executes and some request has
    neither started nor ended, one such request can go on: it starts executing,
    or, having been cancelled, ends. *)
Theorem C50_progress : forall engine legacy_env s i,
  server_run engine legacy_env s -> (forall j, ~ executing s j) -> pending s i ->
  exists j s', pending s j /\ server_step engine legacy_env s s' /\
    (executing s' j \/ ended s' j (Err (Exn "CancelledError" ""))).
Proof. intros. eapply progress; eauto. Qed.
Print Assumptions C50_progress.

(** Replaces the state of a run by its value; the settings are forgotten. *)
Ltac tidy R :=
  cbv [enter leave with_waiters] in R;
  cbn [v_locked v_waiters v_handlers v_tasks v_settings v_conf v_unhandled v_seen v_failed v_returned] in R;
  match type of R with
  | server_run _ _ (mkServer ?a ?b ?c ?d ?ss ?cs ?u ?sn _ _) =>
      let x := fresh "ss" in let Q := fresh in remember ss as x eqn:Q; clear Q;
      let a' := eval vm_compute in a in change a with a' in R;
      let b' := eval vm_compute in b in change b with b' in R;
      let d' := eval vm_compute in d in change d with d' in R;
      let cs' := eval vm_compute in cs in change cs with cs' in R
  end;
  cbn [set_handler upd nth_error app h_req h_ctx length s_ctxs] in R.
Ltac next R f :=
  match type of R with
  | server_run ?a ?b ?s => let t := f a b s in let R' := fresh in pose proof (run_step _ _ _ _ R t) as R'; clear R; rename R' into R; tidy R
  end.

(** C50 as stated is false: [RPC_MANAGER.unhandled_exception] is never cleared,
    so once a resource operation of one request has failed, a later request ends
    with that failure although its own code returned and none of its resource
    operations failed. *)
Theorem C50_refuted : forall engine legacy_env e, exists s,
  server_run engine legacy_env s /\ In 1 (v_returned s) /\ ended s 1 (Err e) /\ (forall e', ~ In (1, e') (v_failed s)).
Proof.
  intros engine env e.
  set (r0 := mkRequest "p" "dev" 4 "127.0.0.1:1" false [("p:k", "a")] []).
  set (r1 := mkRequest "p" "prod" 4 "127.0.0.1:2" true [("p:k", "b")] ["p:k"]).
  pose proof (run_start engine env) as R. unfold server_start in R. tidy R.
  assert (W : forall r, r = r0 \/ r = r1 -> wf_dict (rq_config r)) by (intros r [-> | ->]; repeat constructor; simpl; tauto).
  next R ltac:(fun a b s => constr:(v_arrive a b s r0 (W _ (or_introl eq_refl)))).
  next R ltac:(fun a b s => constr:(v_arrive a b s r1 (W _ (or_intror eq_refl)))).
  next R ltac:(fun a b s => constr:(v_acquire a b s 0 (mkHandler r0 1 HNew) (conj eq_refl eq_refl) eq_refl eq_refl)).
  next R ltac:(fun a b s => constr:(v_rpc_fails a b s 0 1 e (or_introl (ex_intro _ (mkHandler r0 1 HRunning) (conj (conj eq_refl eq_refl) eq_refl))))).
  next R ltac:(fun a b s => constr:(v_return a b s 0 (mkHandler r0 1 HRunning) (conj eq_refl eq_refl))).
  next R ltac:(fun a b s => constr:(v_acquire a b s 1 (mkHandler r1 2 HNew) (conj eq_refl eq_refl) eq_refl eq_refl)).
  next R ltac:(fun a b s => constr:(v_return a b s 1 (mkHandler r1 2 HRunning) (conj eq_refl eq_refl))).
  eexists. split; [exact R|]. split; [simpl; auto|]. split.
  - eexists. split; reflexivity.
  - intros e' [H|[]]. discriminate.
Qed.
Print Assumptions C50_refuted.

(** The first request has started a background task and ended; the second one
    executes; a third one waits.  The task still reads its own configuration. *)
Example C50_example : exists s v w,
  server_run "e" false s /\ executing s 1 /\ waiting s 2 /\ In (0, v) (v_seen s) /\
  w = read_view (v_settings s) (v_conf s) 2 /\ dget (vw_config v) "p:k" = Some (VStr "a") /\
  dget (vw_config w) "p:k" = Some (VStr "b").
Proof.
  set (r0 := mkRequest "p" "dev" 4 "127.0.0.1:1" false [("p:k", "a")] []).
  set (r1 := mkRequest "p" "prod" 4 "127.0.0.1:2" true [("p:k", "b")] ["p:k"]).
  pose proof (run_start "e" false) as R. unfold server_start in R. tidy R.
  assert (W : forall r, r = r0 \/ r = r1 -> wf_dict (rq_config r)) by (intros r [-> | ->]; repeat constructor; simpl; tauto).
  next R ltac:(fun a b s => constr:(v_arrive a b s r0 (W _ (or_introl eq_refl)))).
  next R ltac:(fun a b s => constr:(v_arrive a b s r1 (W _ (or_intror eq_refl)))).
  next R ltac:(fun a b s => constr:(v_arrive a b s r0 (W _ (or_introl eq_refl)))).
  next R ltac:(fun a b s => constr:(v_acquire a b s 0 (mkHandler r0 1 HNew) (conj eq_refl eq_refl) eq_refl eq_refl)).
  next R ltac:(fun a b s => constr:(v_queue a b s 1 (mkHandler r1 2 HNew) (conj eq_refl eq_refl) eq_refl)).
  next R ltac:(fun a b s => constr:(v_queue a b s 2 (mkHandler r0 3 HNew) (conj eq_refl eq_refl) eq_refl)).
  next R ltac:(fun a b s => constr:(v_spawn a b s 0 1 (or_introl (ex_intro _ (mkHandler r0 1 HRunning) (conj (conj eq_refl eq_refl) eq_refl))))).
  next R ltac:(fun a b s => constr:(v_return a b s 0 (mkHandler r0 1 HRunning) (conj eq_refl eq_refl))).
  next R ltac:(fun a b s => constr:(v_woken a b s 1 (mkHandler r1 2 HWaiting) (conj eq_refl eq_refl) (or_introl eq_refl))).
  next R ltac:(fun a b s => constr:(v_read a b s 0 4 (or_intror (or_introl eq_refl)))).
  do 3 eexists. split; [exact R|]. split; [|split; [|split; [|split; [|split]]]].
  - eexists. split; reflexivity.
  - eexists. split; reflexivity.
  - left. reflexivity.
  - reflexivity.
  - reflexivity.
  - reflexivity.
Qed.
