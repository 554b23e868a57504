(** C89, C90: what a program started when it is said to have ended, and its
    messages. *)
From Verif Require Import Base Model_RpcManager Model_Host Spec_Host Model_Loop Spec_Loop Proof_Loop.
Open Scope string_scope.
Open Scope list_scope.

(** C89, in part.  If the engine is told that the program succeeded (as C84 says
    it is told), then the program itself ended as it is said to have, every RPC it ever
    started has succeeded, and every task that had been started when the runtime last
    looked for unfinished work has ended; it ended well unless it had ended before
    that moment.  So everything it started has succeeded, if nothing failed before,
    and nothing was started after, that moment.
    Missing: tasks that fail while RPCs are outstanding, and tasks started by the last ones. *)
Theorem C89_finished_partial : forall engine urn_of hs s w e e',
  lrun engine urn_of loop_start hs = Some s ->
  run_pulumi_func (m_phase (l_m s)) e = Some e' -> success (respond (fst (exec_run (Starts w) e'))) ->
  e' = e /\
  (forall i, i < rpcs_started hs -> exists v, In (EndRpc i (Ok v)) hs) /\
  exists before after, last_look hs before after /\
    (forall t, t < tasks_started engine before -> exists o, In (EndTask t o) hs /\ (o = Fine \/ In (EndTask t o) before)) /\
    ((forall t o, In (EndTask t o) before -> o = Fine) -> tasks_started engine after = 0 ->
       forall t, t < tasks_started engine hs -> In (EndTask t Fine) hs).
Proof.
  intros engine urn_of hs s w e e' R E S.
  assert (N : ended_normally s /\ e' = e).
  { unfold ended_normally. destruct (m_phase (l_m s)); cbn in E; try discriminate; injection E as <-; auto;
      destruct e0 as [cls m]; cbn in S; destruct (String.eqb cls "RunError"); destruct S as [S1 S2]; discriminate. }
  destruct N as [N ->]. split; [reflexivity|]. destruct (finished _ _ _ _ R N) as [A [before [after [L B]]]]. split; [exact A|].
  exists before, after. split; [exact L|]. split; [exact B|]. intros G Z t Lt. destruct L as [-> _].
  assert (Lt' : t < tasks_started engine before).
  { unfold tasks_started in *. rewrite filter_app, app_length in Lt. cbn in Lt. lia. }
  destruct (B t Lt') as [o [I [->|J]]]; [exact I|]. now rewrite <- (G t o J).
Qed.
Print Assumptions C89_finished_partial.

(** Every task ends at most once: the histories above determine how. *)
Theorem C89_ends_once : forall engine urn_of hs s t o o',
  lrun engine urn_of loop_start hs = Some s -> In (EndTask t o) hs -> In (EndTask t o') hs -> o = o'.
Proof. exact end_once. Qed.
Print Assumptions C89_ends_once.

(** An exception that ends the wait is that of an RPC or of a task. *)
Theorem C89_failure : forall engine urn_of hs s e,
  lrun engine urn_of loop_start hs = Some s -> ended_with s e ->
  (exists i, In (EndRpc i (Err e)) hs) \/ (exists t, In (EndTask t (Failed e)) hs) \/
  (e = Exn "CancelledError" "" /\ exists t, In (EndTask t Cancelled) hs).
Proof. exact failure. Qed.
Print Assumptions C89_failure.

(** The wait cannot last for ever: when everything started has ended, its own
    steps lead to its end. *)
Theorem C89_ends : forall engine urn_of hs s,
  lrun engine urn_of loop_start hs = Some s ->
  (forall i, i < rpcs_started hs -> exists r, In (EndRpc i r) hs) ->
  (forall t, t < tasks_started engine hs -> exists o, In (EndTask t o) hs) ->
  exists hs' s', Forall (fun h => match h with Begin | Pop | Awaited | Look | Woken _ => True | _ => False end) hs' /\
    lrun engine urn_of s hs' = Some s' /\ (ended_normally s' \/ exists e, ended_with s' e).
Proof.
  intros engine urn_of hs s R A B. destruct (ends _ _ _ _ R A B) as [hs' [s' [F [R' S]]]]. exists hs', s'. split; [exact F|]. split; [exact R'|].
  unfold ended_normally, ended_with. destruct (m_phase (l_m s')); try discriminate; eauto.
Qed.
Print Assumptions C89_ends.

(** A resource and an apply on it; the callback registers another resource. *)
Definition good_run : list happening :=
  [StartTask; StartRpc; Begin; Pop; EndRpc 0 (Ok 7); Wrapper; Awaited; Look; StartRpc; EndTask 0 Fine; EndRpc 1 (Ok 8); Woken None;
   Pop; Awaited; Look].
Example C89_example :
  exists s, lrun true (fun _ => "urn") loop_start good_run = Some s /\
    run_pulumi_func (m_phase (l_m s)) Returned = Some Returned /\
    rpcs_started good_run = 2 /\ tasks_started true good_run = 1 /\
    last_look good_run [StartTask; StartRpc; Begin; Pop; EndRpc 0 (Ok 7); Wrapper; Awaited; Look; StartRpc; EndTask 0 Fine; EndRpc 1 (Ok 8); Woken None;
      Pop; Awaited] [].
Proof. eexists. split; [vm_compute; reflexivity|]. split; [reflexivity|]. split; [reflexivity|]. split; [reflexivity|]. split; [reflexivity|intros []]. Qed.

(** C89 is false.  (1) The function given to an [apply] raises while an RPC is
    outstanding: its exception is lost.  (2) The function starts another task (an
    [apply] within the [apply], whose result it does not return): the program ends
    without waiting for it, so whatever it was to create is not created.  In both
    cases the engine is told that the program succeeded. *)
Theorem C89_refuted :
  (exists hs s, lrun true (fun _ => "urn") loop_start hs = Some s /\
     run_pulumi_func (m_phase (l_m s)) Returned = Some Returned /\ (forall w, success (respond (fst (exec_run (Starts w) Returned)))) /\
     In (EndTask 0 (Failed (Exn "ZeroDivisionError" "division by zero"))) hs) /\
  (exists hs s, lrun true (fun _ => "urn") loop_start hs = Some s /\
     run_pulumi_func (m_phase (l_m s)) Returned = Some Returned /\ (forall w, success (respond (fst (exec_run (Starts w) Returned)))) /\
     tasks_started true hs = 2 /\ (forall o, ~ In (EndTask 1 o) hs)).
Proof.
  split.
  - exists [StartTask; StartRpc; Begin; Pop; EndTask 0 (Failed (Exn "ZeroDivisionError" "division by zero")); EndRpc 0 (Ok 7); Wrapper; Awaited; Look].
    eexists. split; [reflexivity|]. repeat split. cbn. auto 10.
  - exists [StartTask; Begin; Look; StartTask; EndTask 0 Fine; Woken None]. eexists. split; [reflexivity|]. repeat split.
    intros o I. cbn in I. repeat (destruct I as [I|I]; [discriminate|]). exact I.
Qed.
Print Assumptions C89_refuted.

(** C90, in part.  At every moment: the engine has been told of each message at
    most once, with its severity, text, stream and kind, and the URN of its resource;
    the messages that are for no resource have all been told, in the order in which
    they were logged.  When the engine is told that the program succeeded, it has been
    told of every message, unless a task had failed before the runtime last looked for
    unfinished work, or a message for a resource was logged after that moment.
    Missing: those messages, and those of programs that fail. *)
Theorem C90_messages_partial : forall urn_of hs s,
  lrun true urn_of loop_start hs = Some s ->
  (exists told rest, Forall2 (stands_for urn_of) (said hs) told /\ Permutation told (map engine_log (l_sent s) ++ rest)) /\
  (exists told, Forall2 (stands_for urn_of) (filter for_no_resource (said hs)) told /\ subsequence told (map engine_log (l_sent s))) /\
  (forall w e e', run_pulumi_func (m_phase (l_m s)) e = Some e' -> success (respond (fst (exec_run (Starts w) e'))) ->
     exists before after, last_look hs before after /\
       ((forall t o, In (EndTask t o) before -> o = Fine) -> (forall m, In (Say m) after -> g_resource m = None) ->
          exists told, Forall2 (stands_for urn_of) (said hs) told /\ Permutation told (map engine_log (l_sent s)))).
Proof.
  intros urn_of hs s R. destruct (messages_ok _ _ _ _ eq_refl R) as [_ [P S]]. split; [|split].
  - exists (map (told urn_of) (said hs)), (map (told urn_of) (unsent (l_tasks s))). split; [apply told_all|exact P].
  - exists (map (told urn_of) (filter for_no_resource (said hs))). split; [apply told_all|exact S].
  - intros w e e' E Su. destruct (C89_finished_partial _ _ _ _ w e e' R E Su) as [_ [_ [before [after [L [B _]]]]]].
    exists before, after. split; [exact L|]. intros G Z. exists (map (told urn_of) (said hs)). split; [apply told_all|].
    destruct L as [L _]. eapply (all_sent true); eauto.
Qed.
Print Assumptions C90_messages_partial.

(** Without an engine, nothing is sent; messages are printed at once, in order,
    with their severity, except debugging messages. *)
Theorem C90_no_engine : forall urn_of hs s,
  lrun false urn_of loop_start hs = Some s ->
  l_sent s = [] /\
  l_printed s = map (fun m => (match g_severity m with Error => "error: " | Warning => "warning: " | _ => "info: " end ++ g_text m)%string)
                  (filter (fun m => match g_severity m with Debug => false | _ => true end) (said hs)).
Proof.
  intros urn_of hs s R. destruct (no_engine _ _ _ _ eq_refl R) as [A [B _]]. split; [exact A|]. rewrite B. clear.
  induction (said hs) as [|m l IH]; [reflexivity|]. cbn. rewrite IH. unfold shown_without_engine. destruct (g_severity m) eqn:E; cbn; rewrite ?E; reflexivity.
Qed.
Print Assumptions C90_no_engine.

Definition hello (r : option nat) : message := mkMessage Warning "hello" r None None.
Example C90_example :
  exists s, lrun true (fun _ => "urn:a") loop_start [Say (hello (Some 0)); Say (hello None); Begin; Look; EndTask 0 Fine; Woken None] = Some s /\
    run_pulumi_func (m_phase (l_m s)) Returned = Some Returned /\
    map engine_log (l_sent s) = [(false, Warning, "", "hello", 0%Z); (false, Warning, "urn:a", "hello", 0%Z)].
Proof. eexists. repeat split. Qed.

(** C90 is false.  A message logged for a resource in the function given to
    [apply] is lost, although the engine is told that the program succeeded; and so is
    one that waits for a resource's URN when an RPC of the program fails. *)
Theorem C90_refuted :
  (exists hs s, lrun true (fun _ => "urn:a") loop_start hs = Some s /\
     run_pulumi_func (m_phase (l_m s)) Returned = Some Returned /\ (forall w, success (respond (fst (exec_run (Starts w) Returned)))) /\
     In (Say (hello (Some 0))) hs /\ l_sent s = []) /\
  (exists hs s e, lrun true (fun _ => "urn:a") loop_start hs = Some s /\ ended_with s e /\
     In (Say (hello (Some 0))) hs /\ l_sent s = []).
Proof.
  split.
  - exists [StartTask; Begin; Look; Say (hello (Some 0)); EndTask 0 Fine; Woken None]. eexists. split; [reflexivity|]. repeat split. cbn. auto 10.
  - exists [Say (hello (Some 0)); StartRpc; Begin; Pop; EndRpc 0 (Err (Exn "RuntimeError" "")); Awaited], (mkL (mkM [] [Some (Err (Exn "RuntimeError" ""))] [0] None [] [0] (PRaised (Exn "RuntimeError" ""))) [(Some (hello (Some 0)), None)] None [] [] []), (Exn "RuntimeError" "").
    split; [reflexivity|]. split; [now left|]. split; [now left|reflexivity].
Qed.
Print Assumptions C90_refuted.
