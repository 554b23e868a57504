(** C66: nested synchronous waits. *)
From Verif Require Import Base Model_SyncAwait Spec_SyncAwait Proof_SyncAwait.

(** C66.  Whatever the callbacks, other threads and timers do, and however deeply waits are
    nested: the callbacks that have been started, followed by those in the queue, are
    the callbacks that were ever scheduled, in that order and without those
    cancelled.  So none is lost, and none is started twice. *)
Theorem C66_order task_of s : reachable task_of s ->
  l_log s ++ waiting (l_ready s) = filter (fun n => negb (nmem n (l_cancelled s))) (l_spawned s) /\
  NoDup (l_log s ++ waiting (l_ready s)).
Proof.
  intros H. destruct (queue_reachable _ _ H) as (E & N & _). split; [exact E|]. rewrite E. now apply NoDup_filter.
Qed.
Print Assumptions C66_order.

(** No enclosing round ever finds the queue exhausted by an inner one, and entering and
    leaving tasks never raises. *)
Theorem C66_safe task_of s : reachable task_of s -> ~ crashes task_of s.
Proof. intros H. apply inv_safe. now apply inv_reachable. Qed.
Print Assumptions C66_safe.

(** A round, of the loop itself or of a wait at any depth, that comes to its end has run or
    skipped as cancelled each callback that was ready when it began, whatever rounds
    were nested in it. *)
Theorem C66_round task_of S a b :
  l_stack a = Once (length (l_ready a)) :: S -> lstar_above task_of S a b -> l_stack b = S ->
  forall n, In (Real n) (l_ready a) -> In n (l_log b) \/ In n (l_cancelled b).
Proof. intros E H E'. eapply round_ends; eauto. Qed.
Print Assumptions C66_round.

(** A wait that begins in the callback [n] and comes to its end leaves the current task
    as it was and at least as many handles in the queue; the future is done, or the
    loop is being stopped. *)
Theorem C66_wait task_of n S a f b :
  reachable task_of a -> l_stack a = Body n :: S ->
  forall a', lstep task_of a a' -> (exists nt p t, l_stack a' = Wait f nt p t :: Body n :: S) ->
  lstar_above task_of (Body n :: S) a' b -> l_stack b = Body n :: S ->
  l_current b = l_current a /\ length (l_ready a) <= length (l_ready b) /\ (In f (l_done b) \/ l_stopping b = true).
Proof.
  intros R E a' Hs (nt & p & t & E') H Eb.
  assert (Rb : reachable task_of b).
  { assert (Ra : reachable task_of a') by (eapply LS_step; eauto). clear -Ra H. induction H as [|x y z _ IH _ Hs]; [exact Ra|]. exact (LS_step _ _ _ _ (IH Ra) Hs). }
  rewrite (current_body _ _ _ _ (inv_reachable _ _ R) E), (current_body _ _ _ _ (inv_reachable _ _ Rb) Eb). split; [reflexivity|].
  assert (N : nt = length (l_ready a)).
  { assert (X : forall (f g : frame) S, f :: g :: S <> g :: S). { intros f0 g S0 K. apply (f_equal (@length _)) in K. simpl in K. lia. }
    assert (Y : forall (f g : frame) S, f :: g :: S <> S). { intros f0 g S0 K. apply (f_equal (@length _)) in K. simpl in K. lia. }
    destruct Hs; cbn [l_stack l_ready] in *; try discriminate.
    - injection E as _ E2. rewrite E2 in E'. symmetry in E'. now apply Y in E'.
    - now inversion E'.
    - rewrite E in E'. symmetry in E'. now apply X in E'.
    - rewrite E in E'. symmetry in E'. now apply X in E'.
    - rewrite E in E'. symmetry in E'. now apply X in E'.
    - rewrite E in E'. symmetry in E'. now apply X in E'. }
  rewrite <- N. eapply wait_ends; eauto.
Qed.
Print Assumptions C66_wait.

(** The loop can always go on, until it has been stopped. *)
Theorem C66_progress task_of s : reachable task_of s -> (l_stack s = [] -> l_stopping s = false) ->
  exists s', lstep task_of s s' /\ l_stack s' <> l_stack s.
Proof. intros H. apply inv_progress. now apply inv_reachable. Qed.
Print Assumptions C66_progress.

(** Three callbacks are ready.  The first, a step of the task 7, waits for the future 9; the
    second, a step of the task 8 run by the nested round, waits for the future 9,
    too; the third, run by the innermost round, completes it and schedules a fourth,
    which the nested round runs.  Both waits return; the outermost round skips two
    cancelled handles. *)
Definition ex_tasks (n : nat) : option nat := match n with 0 => Some 7 | 1 => Some 8 | _ => None end.
Ltac go R t := let R' := fresh in pose proof (LS_step _ _ _ _ R t) as R'; clear R; rename R' into R; cbn in R.
Definition after_waits : lstate :=
  mkLoop [Body 0; Once 2] [Dead; Dead] [0; 1; 2; 3] [0; 1; 2; 3] [] [9] false (Some 7).
Example C66_example_run : reachable ex_tasks after_waits /\
  exists b, lstar ex_tasks after_waits b /\ l_stack b = [] /\ l_ready b = [] /\ l_log b = [0; 1; 2; 3] /\ l_current b = None.
Proof.
  split.
  - pose proof (LS_refl ex_tasks initial) as R. unfold initial in R at 2.
    assert (N0 : ~ In 0 []) by (simpl; tauto). go R (L_schedule ex_tasks 0 [] [] [] _ [] [] false None N0).
    assert (N1 : ~ In 1 [0]) by (simpl; lia). go R (L_schedule ex_tasks 1 [] [Real 0] [] _ [] [] false None N1).
    assert (N2 : ~ In 2 [0; 1]) by (simpl; lia). go R (L_schedule ex_tasks 2 [] [Real 0; Real 1] [] _ [] [] false None N2).
    go R (L_round ex_tasks [Real 0; Real 1; Real 2] [] [0; 1; 2] [] [] None).
    go R (L_run ex_tasks 2 [] 0 [Real 1; Real 2] [] [0; 1; 2] [] [] false None (Some 7) eq_refl).
    go R (L_wait ex_tasks 0 9 [Once 2] [Real 1; Real 2] [0] [0; 1; 2] [] [] false (Some 7)).
    go R (L_pump ex_tasks 9 2 false (Some 7) [Body 0; Once 2] [Real 1; Real 2] [0] [0; 1; 2] [] [] false None eq_refl eq_refl).
    go R (L_run ex_tasks 1 [Wait 9 2 true (Some 7); Body 0; Once 2] 1 [Real 2] [0] [0; 1; 2] [] [] false None (Some 8) eq_refl).
    go R (L_wait ex_tasks 1 9 [Once 1; Wait 9 2 true (Some 7); Body 0; Once 2] [Real 2] [0; 1] [0; 1; 2] [] [] false (Some 8)).
    go R (L_pump ex_tasks 9 1 false (Some 8) [Body 1; Once 1; Wait 9 2 true (Some 7); Body 0; Once 2] [Real 2] [0; 1] [0; 1; 2] [] [] false None eq_refl eq_refl).
    set (T := [Wait 9 1 true (Some 8); Body 1; Once 1; Wait 9 2 true (Some 7); Body 0; Once 2]) in R.
    go R (L_run ex_tasks 0 T 2 [] [0; 1] [0; 1; 2] [] [] false None None eq_refl).
    go R (L_done ex_tasks 9 (Body 2 :: Once 0 :: T) [] [0; 1; 2] [0; 1; 2] [] [] false None).
    assert (N3 : ~ In 3 [0; 1; 2]) by (simpl; lia). go R (L_schedule ex_tasks 3 (Body 2 :: Once 0 :: T) [] [0; 1; 2] _ [] [9] false None N3).
    go R (L_return ex_tasks 2 (Once 0 :: T) [Real 3] [0; 1; 2] [0; 1; 2; 3] [] [9] false None None eq_refl).
    go R (L_once_ends ex_tasks T [Real 3] [0; 1; 2] [0; 1; 2; 3] [] [9] false None).
    go R (L_resume ex_tasks 9 1 true (Some 8) (tl T) [Real 3] [0; 1; 2] [0; 1; 2; 3] [] [9] false None (Some 8) eq_refl eq_refl).
    go R (L_return ex_tasks 1 (tl (tl T)) [Real 3] [0; 1; 2] [0; 1; 2; 3] [] [9] false (Some 8) None eq_refl).
    go R (L_run ex_tasks 0 (tl (tl (tl T))) 3 [] [0; 1; 2] [0; 1; 2; 3] [] [9] false None None eq_refl).
    go R (L_return ex_tasks 3 (Once 0 :: tl (tl (tl T))) [] [0; 1; 2; 3] [0; 1; 2; 3] [] [9] false None None eq_refl).
    go R (L_once_ends ex_tasks (tl (tl (tl T))) [] [0; 1; 2; 3] [0; 1; 2; 3] [] [9] false None).
    go R (L_resume ex_tasks 9 2 true (Some 7) [Body 0; Once 2] [] [0; 1; 2; 3] [0; 1; 2; 3] [] [9] false None (Some 7) eq_refl eq_refl).
    exact R.
  - pose proof (LS_refl ex_tasks after_waits) as R. unfold after_waits in R at 2.
    go R (L_return ex_tasks 0 [Once 2] [Dead; Dead] [0; 1; 2; 3] [0; 1; 2; 3] [] [9] false (Some 7) None eq_refl).
    go R (L_skip ex_tasks 1 [] [Dead] [0; 1; 2; 3] [0; 1; 2; 3] [] [9] false None).
    go R (L_skip ex_tasks 0 [] [] [0; 1; 2; 3] [0; 1; 2; 3] [] [9] false None).
    go R (L_once_ends ex_tasks [] [] [0; 1; 2; 3] [0; 1; 2; 3] [] [9] false None).
    eexists. split; [exact R|]. repeat split.
Qed.
