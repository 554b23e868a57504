(** Commands that work on one stack at the same time. *)
From Verif Require Import Base PyVal Model_Cmd Spec_Cmd Proof_Cmd Model_Lock Spec_Lock Proof_Lock.
From Verif Require Prop_Cmd.
Open Scope string_scope.
Open Scope list_scope.

(* ------------------------------------------------------------------ *)
(** C111.  For every number of commands on one stack (up, refresh, destroy, import,
    creating and removing it), every order in which their steps happen, all
    failures of the storage, and commands that are interrupted or die at any point,
    unless someone runs "pulumi cancel": at most one of them is at work on the
    stack. *)
Theorem C111_exclusive : forall (D : Type) (run : nat -> D -> list D) d0 es i j, no_cancel es ->
  at_work (w_at (execute run (before_all d0) es) i) -> at_work (w_at (execute run (before_all d0) es) j) -> i = j.
Proof. intros D run d0 es i j C. apply (sf_alone _ (safe_execute run es _ C (safe_start d0))). Qed.
Print Assumptions C111_exclusive.
(** The state of the stack is what it would be if those that got to work had been run
    one after another: each found the state that the one before left, and saved
    what it would then save.  That order is never revised later.  A command that
    succeeded has saved everything; one that was locked out nothing. *)
Theorem C111_one_after_another : forall (D : Type) (run : nat -> D -> list D) d0 es1 es2, no_cancel (es1 ++ es2) ->
  exists h1 h2, explains run d0 (execute run (before_all d0) es1) h1 /\ explains run d0 (execute run (before_all d0) (es1 ++ es2)) (h1 ++ h2).
Proof.
  intros D run d0 es1 es2 C. assert (C1 : no_cancel es1) by (intros i I; apply (C i), in_or_app; auto). assert (C2 : no_cancel es2) by (intros i I; apply (C i), in_or_app; auto).
  destruct (tells_execute run d0 es1 _ [] C1 (safe_start d0) (tells_start run d0)) as [h1 T1]. cbn [app] in T1.
  destruct (tells_execute run d0 es2 _ h1 C2 (safe_execute run es1 _ C1 (safe_start d0)) T1) as [h2 T2]. exists h1, h2. rewrite execute_app. split; now apply tells_explains.
Qed.
Print Assumptions C111_one_after_another.
(** A command that finds no locks, and is left alone, completes. *)
Theorem C111_alone : forall (D : Type) (run : nat -> D -> list D) w i, w_locks w = [] -> w_at w i = Start ->
  exists n, let w' := execute run w (repeat (Go i Fine) n) in
    w_at w' i = Ended Completed /\ w_state w' = List.last (run i (w_state w)) (w_state w) /\ w_locks w' = [] /\ forall j, j <> i -> w_at w' j = w_at w j.
Proof. intros D run w i K E. eexists. now apply execute_alone. Qed.
Print Assumptions C111_alone.
(** When all have ended, without failures of the storage or deaths, no lock is left. *)
Theorem C111_no_lock_left : forall (D : Type) (run : nat -> D -> list D) d0 es,
  (forall e, In e es -> (exists i, e = Go i Fine) \/ (exists i, e = Quit i)) ->
  (forall i, w_at (execute run (before_all d0) es) i = Start \/ exists o, w_at (execute run (before_all d0) es) i = Ended o) ->
  w_locks (execute run (before_all d0) es) = [].
Proof.
  intros D run d0 es F A. assert (S : Forall smooth es). { apply Forall_forall. intros e I. destruct (F e I) as [[i ->]|[i ->]]; exact Logic.I. }
  pose proof (clean_execute run es (before_all d0) S ltac:(intros i [])) as K. destruct (w_locks (execute run (before_all d0) es)) as [|i l]; [reflexivity|].
  specialize (K i (or_introl eq_refl)). destruct (A i) as [E|[o E]]; rewrite E in K; contradiction.
Qed.
Print Assumptions C111_no_lock_left.

(** Commands that add their number to a list, twice; 0 and 1 step by step together,
    then 2, which dies while it works, then 3. *)
Definition ex_run (i : nat) (d : list nat) : list (list nat) := [d ++ [i]; d ++ [i; i]].
Definition ex_events : list event :=
  [Go 0 Fine; Go 1 Fine; Go 0 Fine; Go 0 Fine; Go 1 Fine; Go 0 Fine; Go 1 Fine; Go 0 Fine; Go 1 Fine; Go 0 Fine; Go 0 Fine; Go 0 Fine;
   Go 2 Fine; Go 2 Fine; Go 2 Fine; Go 2 Fine; Go 2 Fine; Crash 2; Go 3 Fine].
Example C111_case :
  no_cancel ex_events /\
  let w := execute ex_run (before_all []) ex_events in
  w_state w = [0; 0; 2] /\ w_locks w = [2] /\ map (w_at w) [0; 1; 2; 3] = [Ended Completed; Ended LockedOut; Crashed; Ended LockedOut] /\
  explains ex_run [] w [(0, [], [[0]; [0; 0]]); (2, [0; 0], [[0; 0; 2]])] /\
  (** With "pulumi cancel" two can be at work, and what one saved can be lost. *)
  let es := repeat (Go 0 Fine) 4 ++ [Cancel 0] ++ repeat (Go 1 Fine) 7 ++ repeat (Go 0 Fine) 3 in
  w_state (execute ex_run (before_all []) es) = [0; 0] /\ w_at (execute ex_run (before_all []) es) 1 = Leaving Completed /\
  at_work (w_at (execute ex_run (before_all []) es) 0).
Proof.
  split; [intros i I; cbn in I; intuition discriminate|]. cbn zeta. split; [reflexivity|]. split; [reflexivity|]. split; [reflexivity|]. split; [|repeat split; reflexivity].
  split.
  - exists [0; 0; 2]. split.
    + change [0; 0; 2] with (List.last [[0; 0; 2]] [0; 0]).
      apply (Ser_next _ ex_run [] [(0, [], [[0]; [0; 0]])] [0; 0] 2 [[0; 0; 2]]); [|repeat constructor].
      change [0; 0] with (List.last [[0]; [0; 0]] []). apply (Ser_next _ ex_run [] [] [] 0 [[0]; [0; 0]]); repeat constructor.
    + left. split; [reflexivity|]. intros [|[|[|[|i]]]]; cbn; discriminate.
  - repeat constructor; cbn; intuition discriminate.
  - intros [|[|[|[|i]]]]; cbn; try discriminate. intros _. exists []. now left.
  - intros [|[|[|[|i]]]]; cbn; try discriminate; intuition discriminate.
Qed.

(* ------------------------------------------------------------------ *)
(** C112.  An operation that is refused because another one is at work on the stack
    changes nothing and raises ConcurrentUpdateError.
    Partial: it changes nothing, and the error says that there is a lock. *)
Theorem C112_refused_partial : forall (D : Type) (run : nat -> D -> list D) d0 es1 i r es2,
  w_at (execute run (before_all d0) (es1 ++ Go i r :: es2)) i = Ended LockedOut ->
  w_state (execute run (before_all d0) (es1 ++ [Go i r])) = w_state (execute run (before_all d0) es1).
Proof.
  intros D run d0 es1 i r es2 E. rewrite execute_app in E. rewrite execute_app. cbn [execute step] in E |- *.
  destruct (go_state run (execute run (before_all d0) es1) i r) as [S|N]; [exact S|exfalso]. apply (committed_execute run es2) in N. rewrite E in N. now apply N.
Qed.
Print Assumptions C112_refused_partial.
(** Where the states are in files the error is never a ConcurrentUpdateError (unless
    there are brackets in the names of users, hosts or files). *)
Theorem C112_refuted : forall number url locks, usual number -> usual url -> Forall usual_lock locks ->
  forall (pulumi : program) args out code, (forall ws, pulumi ws = (out, lock_error number url locks, code)) -> code <> 0%Z ->
  exists r k, snd (run_cmd pulumi (map VStr args) None) = Raised k r /\ k <> ConcurrentUpdateError.
Proof.
  intros number url locks Un Uu Ul pulumi args out code P C. destruct (Prop_Cmd.C58_classified pulumi args None) as (ws & _ & _ & H).
  destruct (H _ _ _ (P ws)) as (ls & ts & _ & _ & H2). destruct H2 as (calls & o & E & _ & K); [intros f t; discriminate|]. destruct (K C) as (k & -> & Cl).
  eexists _, k. rewrite E. split; [reflexivity|]. intros ->. destruct Cl as (_ & _ & Cf). revert Cf. apply usual_conflict. now apply usual_error.
Qed.
Print Assumptions C112_refuted.
Definition ex_lock : lock_file := mkLock ".pulumi/locks/dev/0b3d.json" "ada" "box" "4711" "2026-11-17T06:00:00Z".
Example C112_case :
  usual "1" /\ usual "file:///home/ada" /\ Forall usual_lock [ex_lock] /\
  lock_error "1" "file:///home/ada" [ex_lock] =
    ("error: the stack is currently locked by 1 lock(s). Either wait for the other process(es) to end or delete the lock file with `pulumi cancel`." ++ nl
     ++ "  file:///home/ada/.pulumi/locks/dev/0b3d.json: created by ada@box (pid 4711) at 2026-11-17T06:00:00Z" ++ nl)%string /\
  create_command_error (mkResult "" (lock_error "1" "file:///home/ada" [ex_lock]) 255) = CommandError.
Proof.
  split; [usually|]. split; [usually|]. split; [constructor; [|constructor]; repeat split; usually|]. split; vm_compute; reflexivity.
Qed.
