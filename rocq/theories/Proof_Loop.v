From Verif Require Import Base Model_RpcManager Spec_RpcManager Proof_RpcManager Model_Loop Spec_Loop.
From Coq Require Import Relations.Operators_Properties.
Open Scope string_scope.
Open Scope list_scope.

Lemma set_end_length l : forall t o, length (set_end l t o) = length l.
Proof. induction l as [|[m x] l IH]; intros [|t] o; cbn; auto. Qed.
Lemma set_end_same l : forall t o m x, nth_error l t = Some (m, x) -> nth_error (set_end l t o) t = Some (m, Some o).
Proof. induction l as [|[m' x'] l IH]; intros [|t] o m x E; cbn in *; try discriminate; [congruence|eauto]. Qed.
Lemma set_end_other l : forall t u o, t <> u -> nth_error (set_end l t o) u = nth_error l u.
Proof. induction l as [|[m x] l IH]; intros [|t] [|u] o N; cbn; auto; congruence. Qed.

Section Loop.
  Variable engine : bool.
  Variable urn_of : nat -> string.
  Notation lstep := (lstep engine urn_of).
  Notation lrun := (lrun engine urn_of).

  Lemma lrun_app s hs hs' : lrun s (hs ++ hs') = match lrun s hs with Some s' => lrun s' hs' | None => None end.
  Proof. revert s. induction hs as [|h hs IH]; intros s; cbn; auto. destruct (lstep s h); auto. Qed.

  Lemma lrun_ind (P : list happening -> lstate -> Prop) :
    P [] loop_start ->
    (forall hs h s s', lrun loop_start hs = Some s -> P hs s -> lstep s h = Some s' -> P (hs ++ [h]) s') ->
    forall hs s, lrun loop_start hs = Some s -> P hs s.
  Proof.
    intros H0 HS hs. induction hs as [|h hs IH] using rev_ind; intros s E.
    - injection E as <-. exact H0.
    - rewrite lrun_app in E. destruct (lrun loop_start hs) as [s1|] eqn:E1; [|discriminate]. cbn in E.
      destruct (lstep s1 h) as [s2|] eqn:E2; [|discriminate]. injection E as <-. eauto.
  Qed.

  (** The steps, one by one. *)
  Inductive does (s : lstate) : happening -> lstate -> Prop :=
  | D_say g : does s (Say g) (say engine s g)
  | D_task : does s StartTask (mkL (l_m s) (l_tasks s ++ [(None, None)]) (l_waiting s) (l_cancelled s) (l_sent s) (l_printed s))
  | D_rpc : does s StartRpc (with_m s (mkM (m_rpcs (l_m s) ++ [length (m_status (l_m s))]) (m_status (l_m s) ++ [None]) (m_wake (l_m s))
        (m_unhandled (l_m s)) (m_wrapped (l_m s)) (m_order (l_m s)) (m_phase (l_m s))))
  | D_end_rpc i r : nth_error (m_status (l_m s)) i = Some None ->
      does s (EndRpc i r) (with_m s (mkM (m_rpcs (l_m s)) (sset (m_status (l_m s)) i r) (m_wake (l_m s) ++ [i])
        (m_unhandled (l_m s)) (m_wrapped (l_m s)) (m_order (l_m s) ++ [i]) (m_phase (l_m s))))
  | D_wrapper i wake r : m_wake (l_m s) = i :: wake -> nth_error (m_status (l_m s)) i = Some (Some r) ->
      does s Wrapper (with_m s (wrap (l_m s) i wake r))
  | D_end t o g : nth_error (l_tasks s) t = Some (g, None) ->
      does s (EndTask t o) (mkL (l_m s) (set_end (l_tasks s) t o) (l_waiting s) (l_cancelled s) (l_sent s ++ sent_by urn_of g o) (l_printed s))
  | D_begin : m_phase (l_m s) = PIdle -> does s Begin (with_m s (loop_top true (l_m s)))
  | D_pop l i : m_phase (l_m s) = PSleep -> m_rpcs (l_m s) = l ++ [i] ->
      does s Pop (with_m s (mkM l (m_status (l_m s)) (m_wake (l_m s)) (m_unhandled (l_m s)) (m_wrapped (l_m s)) (m_order (l_m s)) (PAwait i)))
  | D_awaited i v : m_phase (l_m s) = PAwait i -> nth_error (m_status (l_m s)) i = Some (Some (Ok v)) ->
      does s Awaited (with_m s (loop_top true (l_m s)))
  | D_failed i e : m_phase (l_m s) = PAwait i -> nth_error (m_status (l_m s)) i = Some (Some (Err e)) ->
      does s Awaited (with_m s (with_phase (l_m s) (PRaised e)))
  | D_look_none : m_phase (l_m s) = PTasks -> l_waiting s = None -> running_tasks (l_tasks s) = [] ->
      does s Look (with_m s (after_tasks (l_m s)))
  | D_look w : m_phase (l_m s) = PTasks -> l_waiting s = None -> running_tasks (l_tasks s) = w -> w <> [] ->
      does s Look (mkL (l_m s) (l_tasks s) (Some w) (l_cancelled s) (l_sent s) (l_printed s))
  | D_woken w : m_phase (l_m s) = PTasks -> l_waiting s = Some w ->
      (forall t, In t w -> running (l_tasks s) t = false) -> (forall t, In t w -> exception_of (l_tasks s) t = None) ->
      does s (Woken None) (mkL (after_tasks (l_m s)) (l_tasks s) None (l_cancelled s) (l_sent s) (l_printed s))
  | D_task_failed w t e : m_phase (l_m s) = PTasks -> l_waiting s = Some w -> In t w -> exception_of (l_tasks s) t = Some e ->
      does s (Woken (Some t)) (mkL (with_phase (l_m s) (PTaskRaised e)) (l_tasks s) None (filter (running (l_tasks s)) w) (l_sent s) (l_printed s)).

  Lemma task_failed_exn l t : task_failed l t = true -> exists e, exception_of l t = Some e.
  Proof. unfold task_failed, exception_of. destruct (nth_error l t) as [[m [[|e|]|]]|]; try discriminate; eauto. Qed.

  Lemma lstep_does s h s' : lstep s h = Some s' -> stopped (m_phase (l_m s)) = false /\ (looking s = true -> h = Look) /\ does s h s'.
  Proof.
    unfold Model_Loop.lstep. cbv zeta. destruct (stopped (m_phase (l_m s))) eqn:St; [discriminate|]. intros E. split; [reflexivity|].
    destruct (looking s) eqn:L.
    - destruct h; try discriminate. split; [reflexivity|]. unfold looking in L.
      destruct (m_phase (l_m s)) eqn:P; try discriminate. destruct (l_waiting s) eqn:W; try discriminate.
      destruct (running_tasks (l_tasks s)) as [|a w] eqn:R; injection E as <-; [now apply D_look_none|]. rewrite <- R. apply D_look; auto. rewrite R. discriminate.
    - split; [discriminate|]. destruct h.
      + injection E as <-. apply D_say.
      + injection E as <-. apply D_task.
      + injection E as <-. apply D_rpc.
      + destruct (nth_error (m_status (l_m s)) i) as [[x|]|] eqn:N; try discriminate. injection E as <-. now apply D_end_rpc.
      + destruct (m_wake (l_m s)) as [|i wake] eqn:W; try discriminate. destruct (nth_error (m_status (l_m s)) i) as [[x|]|] eqn:N; try discriminate. injection E as <-. now apply D_wrapper.
      + destruct (nth_error (l_tasks s) t) as [[g [x|]]|] eqn:N; try discriminate. injection E as <-. now apply D_end.
      + destruct (m_phase (l_m s)) eqn:P; try discriminate. injection E as <-. now apply D_begin.
      + destruct (m_phase (l_m s)) eqn:P; try discriminate. destruct (rev (m_rpcs (l_m s))) as [|i l] eqn:R; try discriminate. injection E as <-.
        apply D_pop; auto. rewrite <- (rev_involutive (m_rpcs (l_m s))), R. reflexivity.
      + destruct (m_phase (l_m s)) eqn:P; try discriminate. destruct (nth_error (m_status (l_m s)) i) as [[[v|e]|]|] eqn:N; try discriminate; injection E as <-; [eapply D_awaited|eapply D_failed]; eauto.
      + discriminate.
      + destruct (m_phase (l_m s)) eqn:P; try discriminate. destruct (l_waiting s) as [w|] eqn:W; try discriminate.
        destruct (existsb (task_failed (l_tasks s)) w || _) eqn:C; [|discriminate]. destruct t as [t|].
        * destruct (existsb (Nat.eqb t) w) eqn:I; [|discriminate]. destruct (exception_of (l_tasks s) t) as [e|] eqn:X; [|discriminate]. injection E as <-.
          apply existsb_exists in I. destruct I as [t' [I Q]]. apply Nat.eqb_eq in Q. subst t'. eapply D_task_failed; eauto.
        * destruct (existsb _ w) eqn:X in E; [discriminate|]. injection E as <-.
          assert (Y : forall t, In t w -> exception_of (l_tasks s) t = None).
          { intros t I. destruct (exception_of (l_tasks s) t) eqn:Q; auto. exfalso.
            assert (T : existsb (fun t => match exception_of (l_tasks s) t with Some _ => true | None => false end) w = true) by (apply existsb_exists; exists t; rewrite Q; auto). congruence. }
          apply D_woken with (w := w); auto. apply orb_true_iff in C. destruct C as [C|C].
          -- apply existsb_exists in C. destruct C as [t [I F]]. apply task_failed_exn in F. destruct F as [e F]. rewrite (Y t I) in F. discriminate.
          -- intros t I. destruct (running (l_tasks s) t) eqn:R; auto. exfalso.
             assert (T : In t (filter (running (l_tasks s)) w)) by (apply filter_In; auto). destruct (filter (running (l_tasks s)) w); [destruct T|discriminate].
  Qed.

  (** The RPCs behave as in Model_RpcManager. *)
  Lemma does_mstep s h s' : does s h s' -> l_m s' = l_m s \/ mstep true (l_m s) (l_m s').
  Proof.
    intros D. destruct D; cbn; auto.
    - unfold say. destruct engine; [destruct (g_resource g)|]; auto.
    - right. apply st_start.
    - right. now apply st_finish.
    - right. eapply st_wrap; eauto.
    - right. now apply st_begin.
    - right. eapply st_pop; eauto.
    - right. eapply st_awaited; eauto.
    - right. eapply st_failed; eauto.
    - right. now apply st_tasks.
    - right. now apply st_tasks.
    - right. now apply st_task_failed.
  Qed.
  Lemma reachable_step s s' : reachable true s -> mstep true s s' -> reachable true s'.
  Proof.
    unfold reachable. intros R M. apply clos_rt_rt1n. eapply rt_trans; [apply clos_rt1n_rt; exact R|]. now apply rt_step.
  Qed.
  Lemma lrun_reachable hs s : lrun loop_start hs = Some s -> reachable true (l_m s).
  Proof.
    revert hs s. apply lrun_ind; [apply rt1n_refl|]. intros hs h s s' _ R E. apply lstep_does in E. destruct E as [_ [_ D]].
    apply does_mstep in D. destruct D as [->|M]; [exact R|]. eapply reachable_step; eauto.
  Qed.

  (** RPCs and the history. *)
  Lemma wrap_status m i w r : m_status (wrap m i w r) = m_status m.
  Proof. destruct r; reflexivity. Qed.
  Lemma loop_top_status m : m_status (loop_top true m) = m_status m.
  Proof. unfold loop_top. destruct (m_rpcs m); [destruct (m_unhandled m)|]; reflexivity. Qed.
  Lemma after_status m : m_status (after_tasks m) = m_status m.
  Proof. unfold after_tasks. destruct (m_rpcs m); reflexivity. Qed.

  Lemma rpcs_snoc hs h : rpcs_started (hs ++ [h]) = rpcs_started hs + match h with StartRpc => 1 | _ => 0 end.
  Proof. unfold rpcs_started. rewrite filter_app, app_length. destruct h; reflexivity. Qed.
  Lemma tasks_snoc hs h : tasks_started engine (hs ++ [h]) = tasks_started engine hs + if starts_task engine h then 1 else 0.
  Proof. unfold tasks_started. rewrite filter_app, app_length. cbn. destruct (starts_task engine h); reflexivity. Qed.

  Lemma rpc_history hs s : lrun loop_start hs = Some s ->
    length (m_status (l_m s)) = rpcs_started hs /\
    (forall i r, nth_error (m_status (l_m s)) i = Some (Some r) <-> In (EndRpc i r) hs).
  Proof.
    revert hs s. apply lrun_ind.
    - split; [reflexivity|]. intros i r. split; [destruct i; discriminate|intros []].
    - intros hs h s s' R [L E] St. apply lstep_does in St. destruct St as [_ [_ D]]. rewrite rpcs_snoc.
      assert (Same : m_status (l_m s') = m_status (l_m s) -> h <> StartRpc -> (forall i r, h <> EndRpc i r) ->
        length (m_status (l_m s')) = rpcs_started hs + match h with StartRpc => 1 | _ => 0 end /\
        (forall i r, nth_error (m_status (l_m s')) i = Some (Some r) <-> In (EndRpc i r) (hs ++ [h]))).
      { intros -> N1 N2. split; [rewrite L; destruct h; try congruence; lia|]. intros i r. rewrite E, in_app_iff. cbn. split; auto.
        intros [H|[H|[]]]; auto. now contradiction (N2 i r). }
      destruct D; cbn [with_m l_m m_status] in *; try (apply Same; try rewrite ?wrap_status, ?loop_top_status, ?after_status; solve [reflexivity|discriminate|congruence]).
      + apply Same; try discriminate. unfold say. destruct engine; [destruct (g_resource g)|]; reflexivity.
      + split; [rewrite app_length; cbn; lia|]. intros i r. rewrite in_app_iff, <- E. cbn. split.
        * intros H. left. destruct (Nat.lt_ge_cases i (length (m_status (l_m s)))) as [Lt|Ge]; [now rewrite nth_error_app1 in H|].
          rewrite nth_error_app2 in H by exact Ge. destruct (i - length (m_status (l_m s))) as [|[|k]]; discriminate.
        * intros [H|[H|[]]]; [|discriminate]. rewrite nth_error_app1; auto. apply nth_error_Some. congruence.
      + split; [rewrite sset_length; lia|]. intros j x. rewrite in_app_iff, <- E. cbn. destruct (Nat.eq_dec i j) as [->|N].
        * rewrite sset_same by (apply nth_error_Some; congruence). split; [intros [= ->]; auto|]. intros [Q|[Q|[]]]; congruence.
        * rewrite sset_other by exact N. split; auto. intros [Q|[[= ? ?]|[]]]; [exact Q|congruence].
  Qed.

  (** Tasks and the history. *)
  Lemma say_tasks s g : l_tasks (say engine s g) = l_tasks s ++ if starts_task engine (Say g) then [(Some g, None)] else [].
  Proof. unfold say. cbn. destruct engine; [destruct (g_resource g)|]; cbn; now rewrite ?app_nil_r. Qed.

  Lemma task_history hs s : lrun loop_start hs = Some s ->
    length (l_tasks s) = tasks_started engine hs /\
    (forall t o, (exists g, nth_error (l_tasks s) t = Some (g, Some o)) <-> In (EndTask t o) hs).
  Proof.
    revert hs s. apply lrun_ind.
    - split; [reflexivity|]. intros t o. split; [intros [g H]; destruct t; discriminate|intros []].
    - intros hs h s s' R [L E] St. apply lstep_does in St. destruct St as [_ [_ D]]. rewrite tasks_snoc.
      assert (Same : l_tasks s' = l_tasks s -> starts_task engine h = false -> (forall t o, h <> EndTask t o) ->
        length (l_tasks s') = tasks_started engine hs + (if starts_task engine h then 1 else 0) /\
        (forall t o, (exists g, nth_error (l_tasks s') t = Some (g, Some o)) <-> In (EndTask t o) (hs ++ [h]))).
      { intros -> N1 N2. split; [rewrite L, N1; lia|]. intros t o. rewrite E, in_app_iff. cbn. split; auto.
        intros [H|[H|[]]]; auto. now contradiction (N2 t o). }
      assert (More : forall x, l_tasks s' = l_tasks s ++ [(x, None)] -> starts_task engine h = true -> (forall t o, h <> EndTask t o) ->
        length (l_tasks s') = tasks_started engine hs + (if starts_task engine h then 1 else 0) /\
        (forall t o, (exists g, nth_error (l_tasks s') t = Some (g, Some o)) <-> In (EndTask t o) (hs ++ [h]))).
      { intros x -> N1 N2. rewrite N1. split; [rewrite app_length; cbn; lia|]. intros t o. rewrite in_app_iff, <- E. cbn. split.
        - intros [g H]. left. exists g. destruct (Nat.lt_ge_cases t (length (l_tasks s))) as [Lt|Ge]; [now rewrite nth_error_app1 in H|].
          rewrite nth_error_app2 in H by exact Ge. destruct (t - length (l_tasks s)) as [|[|k]]; discriminate.
        - intros [[g H]|[H|[]]]; [|now contradiction (N2 t o)]. exists g. rewrite nth_error_app1; auto. apply nth_error_Some. congruence. }
      destruct D; cbn [with_m l_tasks] in *; try (apply Same; solve [reflexivity|discriminate]).
      + destruct (starts_task engine (Say g)) eqn:S; [eapply More|apply Same]; try reflexivity; try discriminate; rewrite say_tasks, S; [reflexivity|now rewrite app_nil_r].
      + eapply More; try reflexivity; discriminate.
      + split; [rewrite set_end_length; cbn; lia|]. intros u x. rewrite in_app_iff, <- E. cbn. destruct (Nat.eq_dec t u) as [->|N].
        * rewrite (set_end_same _ _ _ _ _ H). split; [intros [g' [= <- ->]]; auto|]. intros [[g' Q]|[Q|[]]]; [congruence|]. injection Q as <-. eauto.
        * rewrite set_end_other by exact N. split; auto. intros [Q|[[= ? ?]|[]]]; [exact Q|congruence].
  Qed.

  Lemma end_once hs s t o o' : lrun loop_start hs = Some s -> In (EndTask t o) hs -> In (EndTask t o') hs -> o = o'.
  Proof. intros R A B. apply (task_history _ _ R) in A, B. destruct A as [g A], B as [g' B]. congruence. Qed.

  Lemma ended_bound hs s t o : lrun loop_start hs = Some s -> In (EndTask t o) hs -> t < tasks_started engine hs.
  Proof. intros R A. destruct (task_history _ _ R) as [L E]. apply E in A. destruct A as [g A]. rewrite <- L. apply nth_error_Some. congruence. Qed.

  Lemma running_spec hs s t : lrun loop_start hs = Some s ->
    running (l_tasks s) t = true <-> t < tasks_started engine hs /\ forall o, ~ In (EndTask t o) hs.
  Proof.
    intros R. destruct (task_history _ _ R) as [L E]. unfold running. rewrite <- L. split.
    - destruct (nth_error (l_tasks s) t) as [[g [x|]]|] eqn:N; try discriminate. intros _. split; [apply nth_error_Some; congruence|].
      intros o A. apply E in A. destruct A as [g' A]. congruence.
    - intros [Lt A]. apply nth_error_Some in Lt. destruct (nth_error (l_tasks s) t) as [[g [x|]]|] eqn:N; try congruence.
      exfalso. apply (A x), E. eauto.
  Qed.
  Lemma running_tasks_spec l t : In t (running_tasks l) <-> running l t = true.
  Proof.
    unfold running_tasks. rewrite filter_In, in_seq. split; [tauto|]. intros H. split; auto. unfold running in H.
    destruct (nth_error l t) eqn:N; [|discriminate]. assert (t < length l) by (apply nth_error_Some; congruence). lia.
  Qed.

  (** What [asyncio.wait] waits for. *)
  Definition waits (hs : list happening) (s : lstate) : Prop :=
    match l_waiting s with
    | None => True
    | Some w => m_phase (l_m s) = PTasks /\ exists before after, last_look hs before after /\
        (forall t, In t w <-> t < tasks_started engine before /\ forall o, ~ In (EndTask t o) before) /\
        (exists s0, lrun loop_start before = Some s0)
    end.
  Lemma not_in_snoc (after : list happening) h : ~ In Look after -> h <> Look -> ~ In Look (after ++ [h]).
  Proof. intros N1 N2 I. apply in_app_iff in I. destruct I as [I|[I|[]]]; auto. Qed.

  Lemma waits_reach hs s : lrun loop_start hs = Some s -> waits hs s.
  Proof.
    revert hs s. apply lrun_ind; [exact I|]. intros hs h s s' R W St. apply lstep_does in St. destruct St as [St [Lk D]].
    assert (Keep : l_waiting s' = l_waiting s -> (m_phase (l_m s) = PTasks -> m_phase (l_m s') = PTasks) -> h <> Look -> waits (hs ++ [h]) s').
    { intros Q Ph N. unfold waits in *. rewrite Q. destruct (l_waiting s) as [w|]; auto. destruct W as [P [before [after [[-> NL] X]]]].
      split; [auto|]. exists before, (after ++ [h]). split; [|exact X]. split; [now rewrite <- app_assoc|now apply not_in_snoc]. }
    destruct D; try (apply Keep; cbn; try discriminate; solve [auto|congruence]).
    - apply Keep; try discriminate; unfold say; destruct engine; try destruct (g_resource g); auto.
    - apply Keep; try discriminate; cbn; auto. now destruct r.
    - unfold waits. cbn. destruct (l_waiting s) eqn:Q; auto. unfold waits in W. rewrite Q in W. destruct W as [W _]. congruence.
    - unfold waits. cbn. split; [assumption|]. exists hs, []. split; [split; [reflexivity|intros []]|]. split; [|eauto].
      intros t. rewrite <- (running_spec hs s t R), <- running_tasks_spec, H1. reflexivity.
    - exact I.
    - exact I.
  Qed.

  (** A normal end. *)
  Lemma returned_how hs s : lrun loop_start hs = Some s -> ended_normally s ->
    exists hs0 h s0, hs = hs0 ++ [h] /\ lrun loop_start hs0 = Some s0 /\ does s0 h s /\ l_tasks s = l_tasks s0 /\ m_phase (l_m s0) <> PReturned /\
      ((h = Look /\ running_tasks (l_tasks s0) = []) \/
       (h = Woken None /\ exists w, l_waiting s0 = Some w /\ (forall t, In t w -> running (l_tasks s0) t = false) /\ (forall t, In t w -> exception_of (l_tasks s0) t = None))).
  Proof.
    intros R N. destruct hs as [|h hs _] using rev_ind; [injection R as <-; discriminate|].
    rewrite lrun_app in R. destruct (lrun loop_start hs) as [s0|] eqn:R0; [|discriminate]. cbn in R.
    destruct (lstep s0 h) as [s1|] eqn:E; [|discriminate]. injection R as <-. apply lstep_does in E. destruct E as [St [_ D]].
    exists hs, h, s0. split; [reflexivity|]. split; [exact R0|]. split; [exact D|]. unfold ended_normally in N.
    assert (P : m_phase (l_m s0) <> PReturned) by (intros Q; rewrite Q in St; discriminate).
    destruct D; cbn [with_m l_m l_tasks m_phase with_phase] in *; try congruence.
    - unfold say in N. destruct engine; [destruct (g_resource g)|]; cbn in N; congruence.
    - destruct r; cbn in N; congruence.
    - unfold loop_top in N. destruct (m_rpcs (l_m s0)); [destruct (m_unhandled (l_m s0))|]; cbn in N; congruence.
    - unfold loop_top in N. destruct (m_rpcs (l_m s0)); [destruct (m_unhandled (l_m s0))|]; cbn in N; congruence.
    - split; [reflexivity|]. split; [exact P|]. left. auto.
    - split; [reflexivity|]. split; [exact P|]. right. split; [reflexivity|]. eauto.
  Qed.

  Lemma finished hs s : lrun loop_start hs = Some s -> ended_normally s ->
    (forall i, i < rpcs_started hs -> exists v, In (EndRpc i (Ok v)) hs) /\
    exists before after, last_look hs before after /\
      (forall t, t < tasks_started engine before -> exists o, In (EndTask t o) hs /\ (o = Fine \/ In (EndTask t o) before)).
  Proof.
    intros R N. pose proof R as R'. apply returned_how in R; auto. destruct R as [hs0 [h [s0 [-> [R0 [D [Tk [Ph How]]]]]]]]. split.
    - destruct (rpc_history _ _ R') as [L E]. intros i Lt. rewrite <- L in Lt.
      assert (S : succeeded (l_m s) i).
      { pose proof (lrun_reachable _ _ R0) as Re. apply does_mstep in D. destruct D as [D|M].
        - unfold ended_normally in N. congruence.
        - eapply wait_ok; eauto. }
      destruct S as [v S]. exists v. now apply E.
    - destruct How as [[-> Run]|[-> [w [W [NR NE]]]]].
      + exists hs0, []. split; [split; [reflexivity|intros []]|]. intros t Lt.
        destruct (running (l_tasks s0) t) eqn:Rt; [apply running_tasks_spec in Rt; rewrite Run in Rt; destruct Rt|].
        destruct (task_history _ _ R0) as [L E]. rewrite <- L in Lt. apply nth_error_Some in Lt. unfold running in Rt.
        destruct (nth_error (l_tasks s0) t) as [[g [o|]]|] eqn:Nt; try congruence. exists o.
        assert (I : In (EndTask t o) hs0) by (apply E; eauto). split; [apply in_app_iff; auto|auto].
      + pose proof (waits_reach _ _ R0) as Ws. unfold waits in Ws. rewrite W in Ws. destruct Ws as [_ [before [after [[Eq NL] [Sp [sb Rb]]]]]].
        exists before, (after ++ [Woken None]). split; [split; [rewrite Eq, <- app_assoc; reflexivity|apply not_in_snoc; [exact NL|discriminate]]|].
        intros t Lt. destruct (in_dec Nat.eq_dec t w) as [I|I].
        * destruct (running (l_tasks s0) t) eqn:Rt; [rewrite NR in Rt by exact I; discriminate|]. pose proof (NE t I) as X.
          destruct (task_history _ _ R0) as [L E].
          assert (Lt' : t < length (l_tasks s0)).
          { rewrite L, Eq. unfold tasks_started in *. rewrite filter_app, app_length. lia. }
          apply nth_error_Some in Lt'. unfold running in Rt. unfold exception_of in X.
          destruct (nth_error (l_tasks s0) t) as [[g [[|e|]|]]|] eqn:Nt; try congruence.
          exists Fine. split; [apply in_app_iff; left; apply E; eauto|auto].
        * destruct (task_history _ _ Rb) as [L E]. pose proof Lt as Lt'. rewrite <- L in Lt. apply nth_error_Some in Lt.
          destruct (nth_error (l_tasks sb) t) as [[g [o|]]|] eqn:Nt; [| |congruence].
          -- exists o. assert (J : In (EndTask t o) before) by (apply E; eauto). split; [|auto]. apply in_app_iff. left. rewrite Eq. apply in_app_iff. auto.
          -- exfalso. apply I, Sp. split; [exact Lt'|]. intros o J. apply E in J. destruct J as [g' J]. congruence.
  Qed.

  (** An exceptional end. *)
  Lemma failure hs s e : lrun loop_start hs = Some s -> ended_with s e ->
    (exists i, In (EndRpc i (Err e)) hs) \/ (exists t, In (EndTask t (Failed e)) hs) \/
    (e = Exn "CancelledError" "" /\ exists t, In (EndTask t Cancelled) hs).
  Proof.
    intros R [N|N].
    - destruct (raised_ok _ _ _ (lrun_reachable _ _ R) N) as [i F]. left. exists i. now apply (rpc_history _ _ R).
    - right. destruct hs as [|h hs _] using rev_ind; [injection R as <-; discriminate|]. pose proof R as R'.
      rewrite lrun_app in R. destruct (lrun loop_start hs) as [s0|] eqn:R0; [|discriminate]. cbn in R.
      destruct (lstep s0 h) as [s1|] eqn:E; [|discriminate]. injection R as <-. apply lstep_does in E. destruct E as [St [_ D]].
      assert (P : m_phase (l_m s0) <> PTaskRaised e) by (intros Q; rewrite Q in St; discriminate).
      destruct D; cbn [with_m l_m l_tasks m_phase with_phase] in *; try congruence.
      + unfold say in N. destruct engine; [destruct (g_resource g)|]; cbn in N; congruence.
      + destruct r; cbn in N; congruence.
      + unfold loop_top in N. destruct (m_rpcs (l_m s0)); [destruct (m_unhandled (l_m s0))|]; cbn in N; congruence.
      + unfold loop_top in N. destruct (m_rpcs (l_m s0)); [destruct (m_unhandled (l_m s0))|]; cbn in N; congruence.
      + unfold after_tasks in N. destruct (m_rpcs (l_m s0)); cbn in N; congruence.
      + unfold after_tasks in N. destruct (m_rpcs (l_m s0)); cbn in N; congruence.
      + injection N as ->. unfold exception_of in H2. destruct (nth_error (l_tasks s0) t) as [[g [[|x|]|]]|] eqn:Nt; try discriminate; injection H2 as <-.
        * left. exists t. apply in_app_iff. left. apply (task_history _ _ R0). eauto.
        * right. split; [reflexivity|]. exists t. apply in_app_iff. left. apply (task_history _ _ R0). eauto.
  Qed.

  (** The wait ends once everything else has. *)
  Definition moves (h : happening) : Prop := match h with Begin | Pop | Awaited | Look | Woken _ => True | _ => False end.
  Definition quiet (s : lstate) : Prop :=
    (forall t, running (l_tasks s) t = false) /\ (forall i, i < length (m_status (l_m s)) -> exists r, nth_error (m_status (l_m s)) i = Some (Some r)) /\
    (forall i, In i (m_rpcs (l_m s)) -> i < length (m_status (l_m s))).
  Definition can_end (s : lstate) : Prop := exists hs' s', Forall moves hs' /\ lrun s hs' = Some s' /\ stopped (m_phase (l_m s')) = true.

  Lemma can_end_step s h s' : moves h -> lstep s h = Some s' -> can_end s' -> can_end s.
  Proof. intros M E [hs' [s2 [F [R S]]]]. exists (h :: hs'), s2. split; [now constructor|]. split; [cbn; now rewrite E|exact S]. Qed.
  Lemma can_end_now s : stopped (m_phase (l_m s)) = true -> can_end s.
  Proof. intros S. exists [], s. auto. Qed.
  Lemma quiet_none l : (forall t, running l t = false) -> running_tasks l = [].
  Proof.
    intros Q. destruct (running_tasks l) as [|t w] eqn:E; auto. assert (I : In t (running_tasks l)) by (rewrite E; now left).
    apply running_tasks_spec in I. rewrite Q in I. discriminate.
  Qed.
  Lemma quiet_filter l w : (forall t, running l t = false) -> filter (running l) w = [].
  Proof. intros Q. induction w as [|t w IH]; cbn; auto. now rewrite Q. Qed.


  Lemma sleep_ends n : forall rpcs st wake u wr ord tasks c snt pr,
    let s := mkL (mkM rpcs st wake u wr ord PSleep) tasks None c snt pr in
    length rpcs <= n -> rpcs <> [] -> quiet s -> can_end s.
  Proof.
    induction n as [|n IH]; intros rpcs st wake u wr ord tasks c snt pr s L NE [Q1 [Q2 Q3]]; cbn in Q1, Q2, Q3.
    { destruct rpcs; [congruence|cbn in L; lia]. }
    destruct rpcs as [|i l _] using rev_ind; [congruence|]. rewrite app_length in L. cbn in L.
    destruct (Q2 i (Q3 i ltac:(apply in_app_iff; right; now left))) as [r Er]. unfold s.
    eapply (can_end_step _ Pop); [exact I|unfold Model_Loop.lstep; cbn; rewrite rev_app_distr; cbn; rewrite rev_involutive; reflexivity|].
    unfold with_m. cbn. destruct r as [v|e].
    2:{ eapply (can_end_step _ Awaited); [exact I|unfold Model_Loop.lstep; cbn; rewrite Er; reflexivity|]. now apply can_end_now. }
    eapply (can_end_step _ Awaited); [exact I|unfold Model_Loop.lstep; cbn; rewrite Er; reflexivity|].
    unfold with_m, loop_top. cbn. destruct l as [|j l].
    - destruct u as [e|]; [now apply can_end_now|]. unfold with_phase. cbn.
      eapply (can_end_step _ Look); [exact I|unfold Model_Loop.lstep; cbn -[running_tasks]; rewrite quiet_none by exact Q1; reflexivity|]. now apply can_end_now.
    - unfold with_phase. cbn. apply IH; [lia|discriminate|]. split; [exact Q1|]. split; [exact Q2|]. cbn. intros k K. apply Q3. apply in_app_iff. auto.
  Qed.
  Lemma loop_top_ends rpcs st wake u wr ord ph tasks c snt pr :
    quiet (mkL (mkM rpcs st wake u wr ord ph) tasks None c snt pr) ->
    can_end (mkL (loop_top true (mkM rpcs st wake u wr ord ph)) tasks None c snt pr).
  Proof.
    intros Q. unfold loop_top. cbn. destruct rpcs as [|j l].
    - destruct u as [e|]; [now apply can_end_now|]. unfold with_phase. cbn. destruct Q as [Q1 _].
      eapply (can_end_step _ Look); [exact I|unfold Model_Loop.lstep; cbn -[running_tasks]; rewrite quiet_none by exact Q1; reflexivity|]. now apply can_end_now.
    - unfold with_phase. cbn. eapply sleep_ends; [reflexivity|discriminate|exact Q].
  Qed.
  Lemma after_tasks_ends rpcs st wake u wr ord ph tasks c snt pr :
    quiet (mkL (mkM rpcs st wake u wr ord ph) tasks None c snt pr) ->
    can_end (mkL (after_tasks (mkM rpcs st wake u wr ord ph)) tasks None c snt pr).
  Proof.
    intros Q. unfold after_tasks. cbn. destruct rpcs as [|j l]; [now apply can_end_now|].
    unfold with_phase. cbn. eapply sleep_ends; [reflexivity|discriminate|exact Q].
  Qed.

  (** While it sleeps there are RPCs; while it awaits one, that one exists. *)
  Definition sane (s : lstate) : Prop :=
    (m_phase (l_m s) = PSleep -> m_rpcs (l_m s) <> []) /\
    (forall i, m_phase (l_m s) = PAwait i -> i < length (m_status (l_m s))) /\
    (forall i, In i (m_rpcs (l_m s)) -> i < length (m_status (l_m s))).
  Lemma sane_top m : (forall i, In i (m_rpcs m) -> i < length (m_status m)) ->
    (m_phase (loop_top true m) = PSleep -> m_rpcs (loop_top true m) <> []) /\
    (forall i, m_phase (loop_top true m) = PAwait i -> i < length (m_status (loop_top true m))) /\
    (forall i, In i (m_rpcs (loop_top true m)) -> i < length (m_status (loop_top true m))).
  Proof.
    intros H. unfold loop_top. destruct (m_rpcs m) as [|j l] eqn:E; [destruct (m_unhandled m)|]; unfold with_phase; cbn; rewrite E;
      (split; [|split]); try discriminate; try exact H; try (intros _; discriminate); try (intros i []).
  Qed.
  Lemma sane_after m : (forall i, In i (m_rpcs m) -> i < length (m_status m)) ->
    (m_phase (after_tasks m) = PSleep -> m_rpcs (after_tasks m) <> []) /\
    (forall i, m_phase (after_tasks m) = PAwait i -> i < length (m_status (after_tasks m))) /\
    (forall i, In i (m_rpcs (after_tasks m)) -> i < length (m_status (after_tasks m))).
  Proof.
    intros H. unfold after_tasks. destruct (m_rpcs m) as [|j l] eqn:E; unfold with_phase; cbn; rewrite E;
      (split; [|split]); try discriminate; try exact H; try (intros _; discriminate); try (intros i []).
  Qed.
  Lemma sane_reach hs s : lrun loop_start hs = Some s -> sane s.
  Proof.
    revert hs s. apply lrun_ind; [split; [discriminate|split; [discriminate|intros i []]]|].
    intros hs h s s' R [S1 [S2 S3]] St. apply lstep_does in St. destruct St as [St [_ D]].
    destruct D; unfold sane in *; cbn [with_m l_m] in *.
    - unfold say. destruct engine; [destruct (g_resource g)|]; cbn; auto.
    - auto.
    - cbn. rewrite app_length. cbn. split; [intros _; destruct (m_rpcs (l_m s)); discriminate|]. split; [intros i H; apply S2 in H; lia|].
      intros i H. apply in_app_iff in H. destruct H as [H|[H|[]]]; [apply S3 in H; lia|lia].
    - cbn. rewrite sset_length. auto.
    - destruct r; cbn; auto.
    - auto.
    - apply sane_top. exact S3.
    - cbn. split; [discriminate|]. split; [intros j [= <-]; apply S3; rewrite H0; apply in_app_iff; right; now left|].
      intros j Hj. apply S3. rewrite H0. apply in_app_iff. auto.
    - apply sane_top. exact S3.
    - cbn. split; [discriminate|]. split; [discriminate|exact S3].
    - apply sane_after. exact S3.
    - auto.
    - apply sane_after. exact S3.
    - cbn. split; [discriminate|]. split; [discriminate|exact S3].
  Qed.

  Lemma ends hs s : lrun loop_start hs = Some s ->
    (forall i, i < rpcs_started hs -> exists r, In (EndRpc i r) hs) ->
    (forall t, t < tasks_started engine hs -> exists o, In (EndTask t o) hs) ->
    can_end s.
  Proof.
    intros R HR HT. destruct (rpc_history _ _ R) as [LR ER]. destruct (sane_reach _ _ R) as [S1 [S2 S3]].
    assert (Q : quiet s).
    { split; [|split; [|exact S3]].
      - intros t. destruct (running (l_tasks s) t) eqn:E; auto. apply (running_spec _ _ _ R) in E. destruct E as [Lt E].
        destruct (HT t Lt) as [o I]. contradiction (E o I).
      - intros i Lt. rewrite LR in Lt. destruct (HR i Lt) as [r I]. exists r. now apply ER. }
    pose proof (waits_reach _ _ R) as W. unfold waits in W.
    destruct (stopped (m_phase (l_m s))) eqn:St; [now apply can_end_now|].
    destruct s as [[rpcs st wake u wr ord ph] tasks w c snt pr]. cbn in *.
    destruct ph; try discriminate.
    - destruct w as [w|]; [destruct W as [W _]; discriminate|].
      eapply (can_end_step _ Begin); [exact I|reflexivity|]. apply loop_top_ends. exact Q.
    - destruct w as [w|]; [destruct W as [W _]; discriminate|]. eapply sleep_ends; [reflexivity|now apply S1|exact Q].
    - destruct w as [w|]; [destruct W as [W _]; discriminate|]. destruct Q as [Q1 [Q2 Q3]]. destruct (Q2 i (S2 i eq_refl)) as [r Er]. cbn in Er.
      destruct r as [v|e]; (eapply (can_end_step _ Awaited); [exact I|unfold Model_Loop.lstep; cbn; rewrite Er; reflexivity|]).
      + apply loop_top_ends. split; [exact Q1|split; [exact Q2|exact Q3]].
      + now apply can_end_now.
    - destruct w as [w|].
      + destruct Q as [Q1 Q2]. cbn in Q1.
        destruct (existsb (fun t => match exception_of tasks t with Some _ => true | None => false end) w) eqn:X.
        * pose proof X as X'. apply existsb_exists in X. destruct X as [t [I1 X]]. destruct (exception_of tasks t) as [e|] eqn:Ex; [|discriminate].
          eapply (can_end_step _ (Woken (Some t))); [exact I| |].
          -- unfold Model_Loop.lstep. cbn -[existsb]. rewrite quiet_filter by exact Q1. rewrite orb_true_r.
             replace (existsb (Nat.eqb t) w) with true by (symmetry; apply existsb_exists; exists t; split; [exact I1|apply Nat.eqb_refl]). rewrite Ex. reflexivity.
          -- now apply can_end_now.
        * eapply (can_end_step _ (Woken None)); [exact I| |].
          -- unfold Model_Loop.lstep. cbn -[existsb]. rewrite quiet_filter by exact Q1. rewrite orb_true_r, X. reflexivity.
          -- apply after_tasks_ends. split; [exact Q1|exact Q2].
      + destruct Q as [Q1 Q2]. cbn in Q1. eapply (can_end_step _ Look); [exact I|unfold Model_Loop.lstep; cbn -[running_tasks]; rewrite quiet_none by exact Q1; reflexivity|].
        unfold with_m. cbn. apply after_tasks_ends. split; [exact Q1|exact Q2].
  Qed.

  (** Messages. *)
  Definition told (m : message) : bool * severity * string * string * Z :=
    engine_log (request_of m (match g_resource m with Some r => urn_of r | None => "" end)).
  Lemma told_ok m : stands_for urn_of m (told m).
  Proof.
    unfold told, engine_log, request_of. cbn. constructor; auto.
    - destruct (g_resource m); eauto.
    - destruct (g_stream m); auto.
    - destruct (g_ephemeral m); auto.
  Qed.
  Lemma told_all l : Forall2 (stands_for urn_of) l (map told l).
  Proof. induction l; cbn; constructor; auto using told_ok. Qed.
  Definition unsent1 (x : option message * option task_end) : list message :=
    match x with (Some m, Some Fine) => [] | (Some m, _) => [m] | _ => [] end.
  Definition unsent (l : list (option message * option task_end)) : list message := flat_map unsent1 l.

  Lemma said_snoc hs h : said (hs ++ [h]) = said hs ++ match h with Say m => [m] | _ => [] end.
  Proof. unfold said. rewrite flat_map_app. cbn. now rewrite app_nil_r. Qed.

  Lemma set_end_split l : forall t o g, nth_error l t = Some (g, None) ->
    exists l1 l2, l = l1 ++ (g, None) :: l2 /\ set_end l t o = l1 ++ (g, Some o) :: l2.
  Proof.
    induction l as [|[m x] l IH]; intros [|t] o g E; cbn in *; try discriminate.
    - injection E as -> ->. exists [], l. auto.
    - destruct (IH t o g E) as [l1 [l2 [-> E2]]]. exists ((m, x) :: l1), l2. cbn. now rewrite E2.
  Qed.

  Definition messages_have_resources (l : list (option message * option task_end)) : Prop :=
    forall m x, In (Some m, x) l -> g_resource m <> None.

  Lemma messages_ok hs s : engine = true -> lrun loop_start hs = Some s ->
    messages_have_resources (l_tasks s) /\
    Permutation (map told (said hs)) (map engine_log (l_sent s) ++ map told (unsent (l_tasks s))) /\
    subsequence (map told (filter for_no_resource (said hs))) (map engine_log (l_sent s)).
  Proof.
    intros En R. revert hs s R. apply lrun_ind.
    - split; [intros m x []|]. split; [reflexivity|constructor].
    - intros hs h s s' R [H1 [H2 H3]] St. apply lstep_does in St. destruct St as [_ [_ D]]. rewrite said_snoc.
      assert (Skip : forall l l' : list (bool * severity * string * string * Z), subsequence l l' -> forall x, subsequence l (l' ++ x)).
      { intros l l' S. induction S; intros y; cbn; try (constructor; auto; fail). induction y; constructor; auto. }
      assert (Keep : forall l l' : list (bool * severity * string * string * Z), subsequence l l' -> forall x, subsequence (l ++ x) (l' ++ x)).
      { intros l l' S. induction S; intros y; cbn; try (constructor; auto; fail). induction y; constructor; auto. }
      destruct D; cbn [with_m l_tasks l_sent]; rewrite ?app_nil_r; auto.
      + unfold say. rewrite En. destruct (g_resource g) as [r|] eqn:G; cbn [l_tasks l_sent].
        * split; [|split].
          -- intros m x I. apply in_app_iff in I. destruct I as [I|[[= -> <-]|[]]]; [eapply H1; eauto|congruence].
          -- unfold unsent. rewrite flat_map_app, !map_app. cbn. rewrite app_assoc. now apply Permutation_app.
          -- rewrite filter_app, map_app. cbn. unfold for_no_resource at 2. rewrite G. cbn. now rewrite app_nil_r.
        * split; [exact H1|]. assert (T : engine_log (request_of g "") = told g) by (unfold told; now rewrite G). split.
          -- rewrite !map_app. cbn. rewrite T. rewrite <- app_assoc. cbn. rewrite H2. rewrite <- !app_assoc.
             apply Permutation_app_head. cbn. symmetry. apply Permutation_cons_append.
          -- rewrite filter_app, !map_app. cbn. unfold for_no_resource at 2. rewrite G. cbn. rewrite T. now apply Keep.
      + split; [|split; auto].
        * intros m x I. apply in_app_iff in I. destruct I as [I|[I|[]]]; [eapply H1; eauto|discriminate].
        * unfold unsent. rewrite flat_map_app. cbn. rewrite app_nil_r. exact H2.
      + destruct (set_end_split _ _ o _ H) as [l1 [l2 [E1 E2]]]. rewrite E2. rewrite E1 in H1, H2. split; [|split].
        * intros m x I. apply in_app_iff in I. destruct I as [I|[[= -> <-]|I]].
          -- eapply H1. apply in_app_iff. eauto.
          -- eapply H1. apply in_app_iff. right. now left.
          -- eapply H1. apply in_app_iff. right. right. eauto.
        * rewrite H2. unfold unsent. rewrite !flat_map_app, !map_app. cbn [flat_map].
          destruct g as [m|]; [|cbn; rewrite app_nil_r; reflexivity].
          assert (G : g_resource m <> None) by (eapply H1; apply in_app_iff; right; left; reflexivity).
          destruct o; cbn; rewrite ?app_nil_r; try reflexivity.
          destruct (g_resource m) as [r|] eqn:Gr; [|congruence]. cbn.
          assert (T : engine_log (request_of m (urn_of r)) = told m) by (unfold told; now rewrite Gr). rewrite T, <- !app_assoc. cbn.
          apply Permutation_app_head. symmetry. apply Permutation_middle.
        * rewrite map_app. now apply Skip.
  Qed.

  (** The tasks are those started. *)
  Definition message_of (h : happening) : option message := match h with Say m => Some m | _ => None end.
  Lemma tasks_are hs s : lrun loop_start hs = Some s -> map fst (l_tasks s) = map message_of (filter (starts_task engine) hs).
  Proof.
    revert hs s. apply lrun_ind; [reflexivity|]. intros hs h s s' R E St. apply lstep_does in St. destruct St as [_ [_ D]].
    rewrite filter_app, map_app. cbn [filter].
    destruct D; cbn [with_m l_tasks starts_task]; rewrite ?app_nil_r; auto.
    - rewrite say_tasks, map_app, E. destruct (starts_task engine (Say g)) eqn:S; cbn in S |- *; rewrite ?S; reflexivity.
    - rewrite map_app, E. reflexivity.
    - rewrite <- E. destruct (set_end_split _ _ o _ H) as [l1 [l2 [E1 E2]]]. rewrite E2, E1, !map_app. reflexivity.
  Qed.

  Lemma all_sent hs s before after : engine = true -> lrun loop_start hs = Some s ->
    hs = before ++ Look :: after ->
    (forall t, t < tasks_started engine before -> exists o, In (EndTask t o) hs /\ (o = Fine \/ In (EndTask t o) before)) ->
    (forall t o, In (EndTask t o) before -> o = Fine) -> (forall m, In (Say m) after -> g_resource m = None) ->
    Permutation (map told (said hs)) (map engine_log (l_sent s)).
  Proof.
    intros En R Eq Ends Good Late. destruct (messages_ok _ _ En R) as [_ [P _]].
    assert (U : unsent (l_tasks s) = []); [|now rewrite U, app_nil_r in P].
    unfold unsent. assert (Z : forall x, In x (l_tasks s) -> unsent1 x = []).
    { intros x I. apply In_nth_error in I. destruct I as [t Nt]. destruct x as [[m|] o]; [|reflexivity].
      pose proof (tasks_are _ _ R) as T. assert (Tm : nth_error (map fst (l_tasks s)) t = Some (Some m)) by (rewrite nth_error_map, Nt; reflexivity).
      rewrite T, Eq, filter_app, map_app in Tm. cbn [filter starts_task] in Tm.
      destruct (Nat.lt_ge_cases t (tasks_started engine before)) as [Lt|Ge].
      - destruct (Ends t Lt) as [x [I F]]. apply (task_history _ _ R) in I. destruct I as [g I]. rewrite Nt in I. injection I as <- ->.
        destruct F as [->|F]; [reflexivity|]. now rewrite (Good _ _ F).
      - rewrite nth_error_app2 in Tm by (rewrite map_length; exact Ge). apply nth_error_In in Tm. apply in_map_iff in Tm.
        destruct Tm as [h [Mh Ih]]. apply filter_In in Ih. destruct Ih as [Ih Sh]. destruct h; try discriminate. injection Mh as ->.
        cbn in Sh. rewrite (Late m Ih), andb_false_r in Sh. discriminate. }
    clear -Z. induction (l_tasks s) as [|x l IH]; auto. cbn. rewrite (Z x (or_introl eq_refl)), IH; auto. intros y I. apply Z. now right.
  Qed.

  Lemma no_engine hs s : engine = false -> lrun loop_start hs = Some s ->
    l_sent s = [] /\ l_printed s = flat_map shown_without_engine (said hs) /\ Forall (fun x => fst x = None) (l_tasks s).
  Proof.
    intros En R. revert hs s R. apply lrun_ind; [repeat split; constructor|].
    intros hs h s s' R [H1 [H3 H4]] St. apply lstep_does in St. destruct St as [_ [_ D]]. rewrite said_snoc, flat_map_app.
    destruct D; cbn [with_m l_tasks l_sent l_printed flat_map]; rewrite ?app_nil_r; auto.
    - unfold say. rewrite En. cbn. rewrite H3. auto.
    - repeat split; auto. apply Forall_app. split; auto.
    - destruct (set_end_split _ _ o _ H) as [l1 [l2 [E1 E2]]]. rewrite E2. rewrite E1 in H4. apply Forall_app in H4. destruct H4 as [F1 F2].
      inversion F2 as [|y l F3 F4]; subst. cbn in F3. subst g. rewrite H1. cbn. repeat split; auto. apply Forall_app. split; auto.
  Qed.
End Loop.
