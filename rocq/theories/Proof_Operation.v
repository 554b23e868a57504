(** Proofs for the operations of a stack (C88). *)
From Verif Require Import Base PyVal Model_Urn Model_Cmd Spec_Cmd Proof_Cmd Model_Argv Model_Events Spec_Events Proof_Events Model_WsConfig Model_WsState Model_Operation Spec_Operation.
Open Scope string_scope.
Open Scope list_scope.

Lemma in_order_more {A} (a b : list A) x : in_order a b -> in_order a (b ++ [x]).
Proof. induction 1; cbn; constructor; auto. Qed.
Lemma in_order_last {A} (a b : list A) x : in_order a b -> in_order (a ++ [x]) (b ++ [x]).
Proof. induction 1 as [l| |]; cbn; [|constructor; auto..]. induction l; cbn; repeat constructor. exact IHl. Qed.
Lemma in_in_order {A} (x : A) l : In x l -> in_order [x] l.
Proof. induction l as [|y l IH]; intros H; [destruct H|]. destruct H as [->|H]; [repeat constructor|apply IO_skip; auto]. Qed.
Lemma exits_app a b : exits (a ++ b) = exits a ++ exits b.
Proof. induction a as [|[] a IH]; cbn; auto. now rewrite IH. Qed.
Lemma log_ops_app a b : log_ops (a ++ b) = log_ops a ++ log_ops b.
Proof. induction a as [|[] a IH]; cbn; auto; now rewrite IH. Qed.
Lemma join_concat l : join nl l = String.concat nl l.
Proof. reflexivity. Qed.

(** The command, run on its own. *)
Lemma readlines_captured out : exists ls, readlines out = ls /\ captured out (map rstrip ls).
Proof.
  destruct (readlines_spec out) as (ls & H & E). exists (readlines out). split; [reflexivity|]. rewrite E. exists ls. split; [exact H|apply trimmed_lines].
Qed.
Lemma report_cases cb ls : (snd (report cb ls) = Ok (map rstrip ls) /\ never_raises cb (map rstrip ls) /\ fst (report cb ls) = match cb with Some _ => map rstrip ls | None => [] end) \/
  exists f before t after e, cb = Some f /\ map rstrip ls = before ++ t :: after /\ (forall x, In x before -> f x = None) /\ f t = Some e /\ report cb ls = (before ++ [t], Err e).
Proof.
  induction ls as [|l ls IH]; cbn [report map].
  - left. split; [reflexivity|]. split; [intros f t _ []|]. now destruct cb.
  - destruct cb as [f|]; cbn.
    + destruct (f (rstrip l)) as [e|] eqn:E.
      * right. exists f, [], (rstrip l), (map rstrip ls), e. cbn. split; [reflexivity|]. split; [reflexivity|]. split; [intros x []|]. split; [exact E|reflexivity].
      * destruct IH as [(H1 & H2 & H3)|(f' & b & t & a & e & H1 & H2 & H3 & H4 & H5)].
        -- left. destruct (report (Some f) ls) as [calls r]. cbn in *. subst. split; [reflexivity|]. split; [|reflexivity].
           intros g t [= <-] [<-|Ht]; [exact E|]. now apply (H2 f).
        -- right. injection H1 as <-. exists f, (rstrip l :: b), t, a, e. rewrite H5, H2. cbn. split; [reflexivity|]. split; [reflexivity|]. split; [|split; [exact H4|reflexivity]].
           intros x [<-|Hx]; auto.
    + left. destruct IH as [(H1 & H2 & H3)|(f' & b & t & a & e & H1 & _)]; [|discriminate]. destruct (report None ls) as [calls r]. cbn in *. subst.
      split; [reflexivity|]. split; [intros g t; discriminate|reflexivity].
Qed.

Inductive command_ends (cb : option (string -> option exn)) (out err : string) (code : Z) (lines : list string) : Model_Cmd.outcome -> Prop :=
| CE_ok ts : captured out ts -> never_raises cb ts -> lines = match cb with Some _ => ts | None => [] end -> code = 0%Z ->
    command_ends cb out err code lines (Returned (mkResult (String.concat nl ts) err 0))
| CE_fail ts e : captured out ts -> never_raises cb ts -> lines = match cb with Some _ => ts | None => [] end -> code <> 0%Z -> classified err (String.concat nl ts) e ->
    command_ends cb out err code lines (Raised e (mkResult (String.concat nl ts) err code))
| CE_callback f before t after e : cb = Some f -> captured out (before ++ t :: after) -> (forall x, In x before -> f x = None) -> f t = Some e ->
    lines = before ++ [t] -> command_ends cb out err code lines (Failed e).

Lemma command_ends_spec cb args ws out err code : words (non_interactive args) = Some ws ->
  forall a lines o, run_cmd (fun _ => (out, err, code)) args cb = (a, lines, o) -> command_ends cb out err code lines o.
Proof.
  intros Hw a lines o. unfold run_cmd. rewrite Hw. destruct (readlines_captured out) as (ls & -> & Hc).
  destruct (report_cases cb ls) as [(H1 & H2 & H3)|(f & b & t & af & e & H1 & H2 & H3 & H4 & H5)].
  - destruct (report cb ls) as [calls r]. cbn in H1, H3. subst r calls. cbv zeta. intros [= <- <- <-]. rewrite join_concat. destruct (Z.eqb_spec code 0) as [->|N].
    + now apply CE_ok.
    + apply CE_fail; auto. apply (create_spec (mkResult (String.concat nl (map rstrip ls)) err code)).
  - rewrite H5. intros [= <- <- <-]. eapply CE_callback; eauto. now rewrite <- H2.
Qed.

Section Op.
Variable loads : string -> res pyval.
Variable k : call.
Notation ostep := (ostep loads k).
Notation operation := (operation loads k).

Inductive reach : list happening -> op_state -> Prop :=
| R_start : reach [] op_start
| R_step hs s h s' : reach hs s -> ostep s h = Some s' -> reach (hs ++ [h]) s'.

Lemma operation_app a : forall b s, operation s (a ++ b) = match operation s a with Some s' => operation s' b | None => None end.
Proof. induction a as [|h a IH]; intros b s; cbn; [reflexivity|]. destruct (ostep s h); auto. Qed.
Lemma operation_reach hs : forall s, operation op_start hs = Some s -> reach hs s.
Proof.
  induction hs as [|h hs IH] using rev_ind; intros s H; [injection H as <-; constructor|].
  rewrite operation_app in H. destruct (operation op_start hs) as [s1|] eqn:E; [|discriminate]. cbn in H. destruct (ostep s1 h) eqn:E2; [|discriminate].
  injection H as <-. econstructor; eauto.
Qed.


(** The steps, one by one. *)
Inductive does (s : op_state) : happening -> op_state -> Prop :=
| D_serve : o_point s = AtStart -> serves k = true ->
    does s (Serve None) (mkOp AtLog true (o_dir s) (o_cli s) (o_watcher s) (o_summaries s) (o_lines s) (o_events s))
| D_serve_fails e : o_point s = AtStart -> serves k = true -> does s (Serve (Some e)) (at_point s (Ended (PyError e)))
| D_serve_not f : o_point s = AtStart -> serves k = false -> does s (Serve f) (at_point s AtLog)
| D_log : o_point s = AtLog -> logs k = true ->
    does s (MakeLog None) (mkOp AtThread (o_server s) true (o_cli s) (o_watcher s) (o_summaries s) (o_lines s) (o_events s))
| D_log_fails e : o_point s = AtLog -> logs k = true -> does s (MakeLog (Some e)) (at_point s (Ended (PyError e)))
| D_log_not f : o_point s = AtLog -> logs k = false -> does s (MakeLog f) (at_point s AtLaunch)
| D_thread : o_point s = AtThread ->
    does s (StartThread None) (mkOp AtLaunch (o_server s) (o_dir s) (o_cli s) (Some (mkW "" [] Watching)) (o_summaries s) (o_lines s) (o_events s))
| D_thread_fails e : o_point s = AtThread -> does s (StartThread (Some e)) (at_point s (Ended (PyError e)))
| D_arguments f : o_point s = AtLaunch ->
    does s (Launch f) (at_point s (AtStop (PyError (Exn "TypeError" "expected str, bytes or os.PathLike object, not int"))))
| D_launch_fails e : o_point s = AtLaunch -> does s (Launch (Some e)) (at_point s (AtStop (PyError e)))
| D_launch ws : o_point s = AtLaunch -> words (non_interactive (op_args k)) = Some ws ->
    does s (Launch None) (mkOp AtWait (o_server s) (o_dir s) (Live ws) (o_watcher s) (o_summaries s) (o_lines s) (o_events s))
| D_writes chunk ws w : o_cli s = Live ws -> o_watcher s = Some w ->
    does s (CliWrites chunk) (mkOp (o_point s) (o_server s) (o_dir s) (Live ws) (Some (mkW (w_unread w ++ chunk)%string (w_delivered w) (w_status w)))
                    (o_summaries s) (o_lines s) (o_events s))
| D_exits out err code ws : o_cli s = Live ws ->
    does s (CliExits out err code) (mkOp (o_point s) (o_server s) (o_dir s) (Exited ws out err code) (o_watcher s) (o_summaries s) (o_lines s) (o_events s))
| D_wait ws out err code a lines o : o_point s = AtWait -> o_cli s = Exited ws out err code ->
    run_cmd (fun _ => (out, err, code)) (op_args k) (k_on_output k) = (a, lines, o) ->
    does s Wait (mkOp (after_command k o) (o_server s) (o_dir s) (o_cli s) (o_watcher s) (o_summaries s) lines (o_events s))
| D_outputs r outs : o_point s = AtOutputs r -> does s (Outputs (Got outs)) (at_point s (AtInfo r outs))
| D_outputs_cli r e : o_point s = AtOutputs r -> does s (Outputs (CliError e)) (at_point s (AtStop (CliError e)))
| D_outputs_py r e : o_point s = AtOutputs r -> does s (Outputs (PyError e)) (at_point s (AtStop (PyError e)))
| D_info a r outs : o_point s = AtInfo r outs ->
    does s (Info a) (at_point s (AtStop (Model_WsConfig.abind (asserted a)
          (fun i => Got (mkOpResult (cm_stdout r) (cm_stderr r) (Some i) (Some outs) None)))))
| D_stop o : o_point s = AtStop o -> does s Stop (mkOp (AtJoin o) false (o_dir s) (o_cli s) (o_watcher s) (o_summaries s) (o_lines s) (o_events s))
| D_join o : o_point s = AtJoin o -> (forall w, o_watcher s = Some w -> w_status w <> Watching) -> does s Join (at_point s (AtRemove o))
| D_timeout o w : o_point s = AtJoin o -> o_watcher s = Some w -> does s Timeout (at_point s (AtRemove o))
| D_remove_preview r : o_point s = AtRemove (Got r) -> k_op k = Preview ->
    does s Remove (mkOp (Ended (preview_end (o_summaries s) r)) (o_server s) false (o_cli s) (o_watcher s) (o_summaries s) (o_lines s) (o_events s))
| D_remove_other r : o_point s = AtRemove (Got r) -> k_op k = Refresh \/ k_op k = Destroy ->
    does s Remove (mkOp (AtSummary r) (o_server s) false (o_cli s) (o_watcher s) (o_summaries s) (o_lines s) (o_events s))
| D_remove o : o_point s = AtRemove o -> (k_op k = Up \/ forall r, o <> Got r) ->
    does s Remove (mkOp (Ended o) (o_server s) false (o_cli s) (o_watcher s) (o_summaries s) (o_lines s) (o_events s))
| D_summary a r : o_point s = AtSummary r ->
    does s (Info a) (at_point s (Ended (Model_WsConfig.abind (asserted a)
          (fun i => Got (mkOpResult (r_stdout r) (r_stderr r) (Some i) None None)))))
| D_look raises w : o_watcher s = Some w -> does s (Look raises) (look loads k s w raises).

Lemma ostep_does s h s' : ostep s h = Some s' -> does s h s'.
Proof.
  intros E. destruct h; cbn [Model_Operation.ostep] in E.
  - destruct (o_point s) eqn:P; try discriminate. destruct (serves k) eqn:S; [destruct failure|]; injection E as <-; [now apply D_serve_fails|now apply D_serve|now apply D_serve_not].
  - destruct (o_point s) eqn:P; try discriminate. destruct (logs k) eqn:S; [destruct failure|]; injection E as <-; [now apply D_log_fails|now apply D_log|now apply D_log_not].
  - destruct (o_point s) eqn:P; try discriminate. destruct failure; injection E as <-; [now apply D_thread_fails|now apply D_thread].
  - destruct (o_point s) eqn:P; try discriminate. destruct (words (non_interactive (op_args k))) as [ws|] eqn:W; [destruct failure|]; injection E as <-;
      [now apply D_launch_fails|now apply D_launch|]. unfold run_cmd. rewrite W. now apply D_arguments.
  - assert (E' : match o_cli s, o_watcher s with Live ws, Some w => Some (mkOp (o_point s) (o_server s) (o_dir s) (Live ws) (Some (mkW (w_unread w ++ chunk)%string (w_delivered w) (w_status w)))
                    (o_summaries s) (o_lines s) (o_events s)) | _, _ => None end = Some s') by (destruct (o_point s); exact E).
    destruct (o_cli s) eqn:C; try discriminate. destruct (o_watcher s) as [w|] eqn:W; [|discriminate]. injection E' as <-. now apply D_writes.
  - assert (E' : match o_cli s with Live ws => Some (mkOp (o_point s) (o_server s) (o_dir s) (Exited ws out err code) (o_watcher s) (o_summaries s) (o_lines s) (o_events s)) | _ => None end = Some s') by (destruct (o_point s); exact E).
    destruct (o_cli s) eqn:C; try discriminate. injection E' as <-. now apply D_exits.
  - destruct (o_point s) eqn:P; try discriminate. destruct (o_cli s) as [| |ws out err code] eqn:C; try discriminate.
    destruct (run_cmd _ _ _) as [[a lines] o] eqn:W. injection E as <-. rewrite <- C. eapply D_wait; eauto.
  - destruct (o_point s) eqn:P; try discriminate. destruct a; injection E as <-; [now apply D_outputs|now apply (D_outputs_cli s r)|now apply (D_outputs_py s r)].
  - destruct (o_point s) eqn:P; try discriminate; injection E as <-; [now apply D_info|now apply D_summary].
  - destruct (o_point s) eqn:P; try discriminate; injection E as <-. now apply D_stop.
  - destruct (o_point s) eqn:P; try discriminate. destruct (o_watcher s) as [w|] eqn:W.
    + destruct (w_status w) eqn:S; try discriminate; injection E as <-; apply D_join; auto; intros w' Hw; rewrite W in Hw; injection Hw as <-; rewrite S; discriminate.
    + injection E as <-. apply D_join; auto. intros w' Hw. congruence.
  - destruct (o_point s) eqn:P; try discriminate. destruct (o_watcher s) as [w|] eqn:W; [|discriminate]. injection E as <-. eapply D_timeout; eauto.
  - destruct (o_point s) eqn:P; try discriminate. injection E as <-. destruct o; destruct (k_op k) eqn:K;
      try (apply D_remove; [assumption|]; solve [now left|right; discriminate]); [now apply D_remove_preview|apply D_remove_other; auto..].
  - assert (E' : match o_watcher s with Some w => Some (look loads k s w raises) | None => None end = Some s') by (destruct (o_point s); exact E).
    destruct (o_watcher s) as [w|] eqn:W; [|discriminate]. injection E' as <-. now apply D_look.
Qed.
Lemma reach_ind' (P : list happening -> op_state -> Prop) :
  P [] op_start -> (forall hs s h s', reach hs s -> P hs s -> does s h s' -> P (hs ++ [h]) s') -> forall hs s, reach hs s -> P hs s.
Proof. intros H0 H1 hs s R. induction R; [exact H0|]. eapply H1; eauto using ostep_does. Qed.

(** Looking changes nothing but the thread, the summaries and the events. *)
Lemma look_frame s w r : let s' := look loads k s w r in
  o_point s' = o_point s /\ o_server s' = o_server s /\ o_dir s' = o_dir s /\ o_cli s' = o_cli s /\ o_lines s' = o_lines s.
Proof.
  unfold look. destruct (w_status w); auto. destruct (readline (w_unread w)) as [[|c l] rest]; auto.
  destruct (let+ v := loads (String c l) in event_from_json v); auto.
Qed.
Lemma look_cases s w r : o_watcher s = Some w ->
  let s' := look loads k s w r in
  s' = s /\ poll loads w = w \/
  (exists w', o_watcher s' = Some w' /\ (r = None \/ a_on_event (k_opts k) = false -> w' = poll loads w) /\
    w_status w = Watching /\
    (w_delivered w' = w_delivered w /\ o_summaries s' = o_summaries s /\ o_events s' = o_events s \/
     exists ev, w_delivered w' = w_delivered w ++ [ev] /\ o_summaries s' = match k_op k with Preview => o_summaries s ++ summary_of ev | _ => o_summaries s end /\
       o_events s' = if a_on_event (k_opts k) then o_events s ++ [ev] else o_events s)).
Proof.
  intros W. unfold look, poll. destruct (w_status w) eqn:S; auto. destruct (readline (w_unread w)) as [[|c l] rest]; auto.
  destruct (let+ v := loads (String c l) in event_from_json v) as [ev|e]; right.
  - eexists. cbn. split; [reflexivity|]. split; [|split; [reflexivity|right; exists ev; auto]].
    intros [-> | ->]; [now destruct (a_on_event (k_opts k))|reflexivity].
  - eexists. cbn. split; [reflexivity|]. split; [auto|]. split; [reflexivity|]. now left.
Qed.

(* ---- where the calling thread stands ---- *)
Definition settled (s : op_state) (server dir : bool) : Prop :=
  o_server s = server /\ o_dir s = dir /\ (o_watcher s <> None <-> logs k = true).
Definition phase (hs : list happening) (s : op_state) : Prop :=
  match o_point s with
  | AtStart => o_server s = false /\ o_dir s = false /\ o_watcher s = None /\ o_cli s = NotStarted
  | AtLog => o_server s = serves k /\ o_dir s = false /\ o_watcher s = None /\ o_cli s = NotStarted
  | AtThread => o_server s = serves k /\ o_dir s = true /\ logs k = true /\ o_watcher s = None /\ o_cli s = NotStarted
  | AtLaunch => settled s (serves k) (logs k) /\ o_cli s = NotStarted
  | AtWait => settled s (serves k) (logs k) /\ o_cli s <> NotStarted /\ exists ws, words (non_interactive (op_args k)) = Some ws
  | AtOutputs _ | AtInfo _ _ | AtStop _ => settled s (serves k) (logs k) /\ forall ws, o_cli s <> Live ws
  | AtJoin _ => settled s false (logs k) /\ forall ws, o_cli s <> Live ws
  | AtRemove _ => settled s false (logs k) /\ (forall ws, o_cli s <> Live ws) /\ (In Timeout hs \/ forall w, o_watcher s = Some w -> w_status w <> Watching)
  | AtSummary _ => settled s false false /\ (forall ws, o_cli s <> Live ws) /\ (In Timeout hs \/ forall w, o_watcher s = Some w -> w_status w <> Watching)
  | Ended o => (forall ws, o_cli s <> Live ws) /\
      (settled s false false /\ (In Timeout hs \/ forall w, o_watcher s = Some w -> w_status w <> Watching) \/
       exists h e, In h hs /\ In h [Serve (Some e); MakeLog (Some e); StartThread (Some e)] /\ o = PyError e /\ exits hs = [] /\ o_cli s = NotStarted /\
         (h = Serve (Some e) -> o_server s = false /\ o_dir s = false) /\ o_watcher s = None)
  end.


Lemma phase_reach hs s : reach hs s -> phase hs s /\ exits hs = match o_cli s with Exited _ o e c => [(o, e, c)] | _ => [] end.
Proof.
  revert hs s. apply reach_ind'; [repeat split; auto|]. intros hs s h s' R [IH IX] D. unfold phase in *. rewrite exits_app.
  assert (T : forall x, In x hs -> In x (hs ++ [h])) by (intros; apply in_or_app; now left).
  assert (T' : In h (hs ++ [h])) by (apply in_or_app; right; now left).
  destruct D; cbn [exits app at_point o_cli o_point o_server o_dir o_watcher]; rewrite ?app_nil_r;
    try (match goal with K : o_point s = _ |- _ => rewrite K in IH end); unfold settled in *; cbn [at_point o_cli o_point o_server o_dir o_watcher].
  - intuition.
  - destruct IH as (I1 & I2 & I3 & I4). rewrite I4 in *. split; [|exact IX]. split; [discriminate|]. right. exists (Serve (Some e)), e. simpl. repeat split; auto.
  - destruct IH as (I1 & I2 & I3 & I4). split; [|exact IX]. repeat split; auto; congruence.
  - intuition.
  - destruct IH as (I1 & I2 & I3 & I4). rewrite I4 in *. split; [|exact IX]. split; [discriminate|]. right. exists (MakeLog (Some e)), e. simpl. repeat split; auto; discriminate.
  - destruct IH as (I1 & I2 & I3 & I4). split; [|exact IX]. rewrite I3. repeat split; auto; congruence.
  - destruct IH as (I1 & I2 & I3 & I4 & I5). split; [|exact IX]. rewrite I3. repeat split; auto; discriminate.
  - destruct IH as (I1 & I2 & I3 & I4 & I5). rewrite I5 in *. split; [|exact IX]. split; [discriminate|]. right. exists (StartThread (Some e)), e. simpl. repeat split; auto; discriminate.
  - destruct IH as (I1 & I2). rewrite I2 in *. split; [|exact IX]. split; [exact I1|discriminate].
  - destruct IH as (I1 & I2). rewrite I2 in *. split; [|exact IX]. split; [exact I1|discriminate].
  - destruct IH as (I1 & I2). rewrite I2 in *. split; [|exact IX]. split; [exact I1|]. split; [discriminate|eauto].
  - rewrite H in *. split; [|exact IX]. destruct (o_point s); cbn; intuition (try congruence; try discriminate; eauto).
    all: try (match goal with K : forall ws, Live _ <> Live ws |- _ => now destruct (K ws) end).
  - rewrite H in *. rewrite IX. split; [|reflexivity]. destruct (o_point s); intuition (try congruence; try discriminate; eauto).
    all: try (match goal with K : forall ws, Live _ <> Live ws |- _ => now destruct (K ws) end).
  - destruct IH as (I1 & I2 & I3). split; [|exact IX]. rewrite H0. unfold after_command. destruct o; [destruct (k_op k)|..]; (split; [exact I1|discriminate]).
  - split; [exact IH|exact IX].
  - split; [exact IH|exact IX].
  - split; [exact IH|exact IX].
  - split; [exact IH|exact IX].
  - split; [|exact IX]. intuition.
  - split; [|exact IX]. intuition.
  - split; [|exact IX]. intuition.
  - split; [|exact IX]. destruct IH as (I1 & I2 & I3). split; [exact I2|]. left. intuition.
  - split; [|exact IX]. destruct IH as (I1 & I2 & I3). intuition.
  - split; [|exact IX]. destruct IH as (I1 & I2 & I3). split; [exact I2|]. left. intuition.
  - split; [|exact IX]. destruct IH as (I1 & I2 & I3). split; [exact I2|]. left. intuition.
  - destruct (look_frame s w raises) as (F1 & F2 & F3 & F4 & F5). rewrite F1, F2, F3, F4, IX. split; [|reflexivity].
    assert (Z : o_watcher (look loads k s w raises) = None <-> o_watcher s = None).
    { destruct (look_cases s w raises H) as [[-> _]|(w' & F6 & _)]; [tauto|]. rewrite F6, H. split; discriminate. }
    assert (Y : (forall w, o_watcher s = Some w -> w_status w <> Watching) -> forall w', o_watcher (look loads k s w raises) = Some w' -> w_status w' <> Watching).
    { intros Y. destruct (look_cases s w raises H) as [[-> _]|(w' & F6 & _ & F7 & _)]; [exact Y|]. now destruct (Y w H). }
    assert (X : o_watcher (look loads k s w raises) <> None <-> o_watcher s <> None) by tauto.
    destruct (o_point s); try solve [rewrite X; intuition]; try solve [tauto]; try solve [rewrite X; intuition eauto].
    destruct IH as [J1 [J2|(h & e & J2 & J3 & J4 & J5 & J6 & J7 & J8)]]; split; auto.
    + left. rewrite X. intuition.
    + congruence.
Qed.

(* ---- how the watching thread stands ---- *)
Record thread_ok (hs : list happening) (s : op_state) : Prop := mkT {
  t_none : o_watcher s = None -> log_ops hs = [];
  t_events : o_events s = if a_on_event (k_opts k) then seen s else [];
  t_summaries : o_summaries s = match k_op k with Preview => flat_map summary_of (seen s) | _ => [] end;
  t_watch : forall w, o_watcher s = Some w -> calm hs \/ a_on_event (k_opts k) = false -> w = watch loads (log_ops hs) }.

Lemma calm_before hs h : calm (hs ++ [h]) -> calm hs.
Proof. intros H e K. apply (H e), in_or_app. now left. Qed.
Lemma thread_same hs s h s' : thread_ok hs s -> log_ops [h] = [] ->
  o_watcher s' = o_watcher s -> o_summaries s' = o_summaries s -> o_events s' = o_events s -> thread_ok (hs ++ [h]) s'.
Proof.
  intros [H1 H2 H3 H4] Hl E1 E2 E3. split; unfold seen in *; rewrite ?E1, ?E2, ?E3, ?log_ops_app, ?Hl, ?app_nil_r; auto.
  intros w Hw Hq. apply H4; [exact Hw|]. destruct Hq as [Hq|Hq]; [left|now right]. now apply (calm_before _ h).
Qed.

Lemma thread_reach hs s : reach hs s -> thread_ok hs s.
Proof.
  revert hs s. apply reach_ind'.
  { split; cbn; auto; try discriminate. - now destruct (a_on_event (k_opts k)). - now destruct (k_op k). }
  intros hs s h s' R IH D.
  destruct D; try (apply (thread_same hs s); [exact IH|reflexivity..]).
  - (* StartThread *)
    destruct (phase_reach hs s R) as [Ph _]. unfold phase in Ph. rewrite H in Ph. destruct Ph as (_ & _ & _ & W & _).
    destruct IH as [H1 H2 H3 H4]. unfold seen in *. rewrite W in *. split; unfold seen; cbn; auto; try discriminate.
    intros w [= <-] _. rewrite log_ops_app, (H1 eq_refl). reflexivity.
  - destruct IH as [H1 H2 H3 H4]. unfold seen in *. rewrite H0 in *. split; unfold seen; cbn; auto; try discriminate.
    intros w' [= <-] Hq. rewrite log_ops_app. cbn. rewrite watch_snoc, <- (H4 w eq_refl); [reflexivity|].
    destruct Hq as [Hq|Hq]; [left|now right]. eapply calm_before; eauto.
  - destruct IH as [H1 H2 H3 H4]. destruct (look_cases s w raises H) as [[-> P]|(w' & W & P & _ & F)].
    + split; auto; [congruence|]. intros w' Hw Hq. rewrite log_ops_app. cbn. rewrite H in Hw. injection Hw as <-. rewrite watch_snoc.
      rewrite <- (H4 w H); [symmetry; exact P|]. destruct Hq as [Hq|Hq]; [left|now right]. eapply calm_before; eauto.
    + unfold seen in *. rewrite H in *. split; unfold seen; rewrite ?W; [discriminate|..].
      * destruct F as [(E1 & E2 & E3)|(ev & E1 & E2 & E3)]; rewrite E1, E3, H2; [reflexivity|]. now destruct (a_on_event (k_opts k)).
      * destruct F as [(E1 & E2 & E3)|(ev & E1 & E2 & E3)]; rewrite E1, E2, H3; [reflexivity|].
        destruct (k_op k); auto. rewrite flat_map_app. cbn. now rewrite app_nil_r.
      * intros w0 [= <-] Hq. rewrite log_ops_app. cbn. rewrite watch_snoc, <- (H4 w eq_refl).
        -- apply P. destruct Hq as [Hq|Hq]; [|now right]. left. destruct raises as [e|]; [|reflexivity]. destruct (Hq e). apply in_or_app. right. now left.
        -- destruct Hq as [Hq|Hq]; [left|now right]. eapply calm_before; eauto.
Qed.

(* ---- what the call will end with ---- *)
Definition succeeded (hs : list happening) (s : op_state) (out err : string) (ts : list string) : Prop :=
  exits hs = [(out, err, 0%Z)] /\ captured out ts /\ never_raises (k_on_output k) ts /\ o_lines s = match k_on_output k with Some _ => ts | None => [] end.
Definition ran (hs : list happening) (s : op_state) (r : command_result) (l : string -> string -> list happening) : Prop :=
  exists out err ts, succeeded hs s out err ts /\ r = mkResult (String.concat nl ts) err 0 /\ in_order (l out err) hs.
Definition will (hs : list happening) (s : op_state) (o : answer op_result) : Prop :=
  match o with
  | Got r => exists out err ts, succeeded hs s out err ts /\
      match k_op k with
      | Up => exists outs i, r = mkOpResult (String.concat nl ts) err (Some i) (Some outs) None /\
                in_order [CliExits out err 0; Outputs (Got outs); Info (Got (Some i))] hs
      | _ => r = mkOpResult (String.concat nl ts) err None None None /\ in_order [CliExits out err 0] hs
      end
  | _ => forall evs, explained k hs evs o
  end.
Definition answers (hs : list happening) (s : op_state) : Prop :=
  match o_point s with
  | AtOutputs r => k_op k = Up /\ ran hs s r (fun out err => [CliExits out err 0])
  | AtInfo r outs => k_op k = Up /\ ran hs s r (fun out err => [CliExits out err 0; Outputs (Got outs)])
  | AtStop o | AtJoin o | AtRemove o => will hs s o
  | AtSummary r => (k_op k = Refresh \/ k_op k = Destroy) /\ will hs s (Got r)
  | Ended o => explained k hs (seen s) o /\
      (forall r, o = Got r -> exists out err ts, succeeded hs s out err ts)
  | _ => True
  end.

Lemma explained_more hs evs evs' h o : explained k hs evs o -> exits [h] = [] ->
  (forall c, first_seen evs c -> first_seen evs' c) -> (none_seen evs -> In Timeout (hs ++ [h]) \/ none_seen evs') -> explained k (hs ++ [h]) evs' o.
Proof.
  intros X Hh Hf Hn. assert (E : exits (hs ++ [h]) = exits hs) by (rewrite exits_app, Hh; apply app_nil_r).
  assert (T : forall x, In x hs -> In x (hs ++ [h])) by (intros; apply in_or_app; now left).
  destruct X.
  - eapply X_up; rewrite ?E; eauto. now apply in_order_more.
  - eapply X_other; rewrite ?E; eauto. now apply in_order_more.
  - eapply X_preview; rewrite ?E; eauto.
  - eapply X_failed; rewrite ?E; eauto.
  - eapply X_on_output; rewrite ?E; eauto.
  - eapply X_asking; rewrite ?E; eauto.
  - eapply X_asking_py; rewrite ?E; eauto.
  - eapply X_unseen; rewrite ?E; eauto. destruct H1 as [H1|H1]; auto.
  - eapply X_setup; rewrite ?E; eauto.
  - eapply X_arguments; rewrite ?E; eauto.
Qed.
Lemma first_seen_app a b c : first_seen a c -> first_seen (a ++ b) c.
Proof. induction 1; cbn; [eapply FSE_here; eauto|apply FSE_next; auto]. Qed.
Lemma none_seen_nil : none_seen []. Proof. intros ev cls l []. Qed.
Lemma no_first c : ~ first_seen [] c. Proof. intros H. inversion H. Qed.
Lemma explained_seen hs h o evs : explained k hs evs o -> exits [h] = [] -> explained k (hs ++ [h]) evs o.
Proof. intros X Hh. apply (explained_more hs evs evs h o); auto. Qed.
Lemma will_more hs s s' h o : will hs s o -> exits [h] = [] -> o_lines s' = o_lines s -> will (hs ++ [h]) s' o.
Proof.
  intros W Hh El. assert (E : exits (hs ++ [h]) = exits hs) by (rewrite exits_app, Hh; apply app_nil_r).
  destruct o; cbn in *; try (intros evs; now apply explained_seen).
  destruct W as (out & err & ts & S & W). exists out, err, ts. unfold succeeded in *. rewrite E, El. split; [exact S|].
  destruct (k_op k); try (destruct W as (W1 & W2); split; [exact W1|now apply in_order_more]).
  destruct W as (outs & i & W1 & W2). exists outs, i. split; [exact W1|now apply in_order_more].
Qed.
Lemma ran_more hs s s' h r l : ran hs s r l -> exits [h] = [] -> o_lines s' = o_lines s -> ran (hs ++ [h]) s' r l.
Proof.
  intros (out & err & ts & S & W1 & W2) Hh El. assert (E : exits (hs ++ [h]) = exits hs) by (rewrite exits_app, Hh; apply app_nil_r).
  exists out, err, ts. unfold succeeded in *. rewrite E, El. split; [exact S|]. split; [exact W1|now apply in_order_more].
Qed.
Lemma summary_first evs e l : flat_map summary_of evs = e :: l -> forall c, attr e "resource_changes" = Some c -> first_seen evs c.
Proof.
  induction evs as [|ev evs IH]; [discriminate|]. cbn. unfold summary_of at 1. destruct (attr ev "summary_event") as [[v|cls at_]|] eqn:A; cbn; intros E c Hc.
  - apply FSE_next; [congruence|auto].
  - injection E as <- <-. eapply FSE_here; eauto.
  - apply FSE_next; [congruence|auto].
Qed.
Lemma summary_none evs : flat_map summary_of evs = [] -> none_seen evs.
Proof.
  induction evs as [|ev evs IH]; [intros _; apply none_seen_nil|]. cbn. intros E. apply app_eq_nil in E as [E1 E2].
  intros x cls l [<-|Hx]; [|now apply (IH E2)]. intros A. unfold summary_of in E1. rewrite A in E1. discriminate.
Qed.

Lemma changes_there v ev cls l : event_from_json v = Ok ev -> attr ev "summary_event" = Some (EObj cls l) -> exists c, attr (EObj cls l) "resource_changes" = Some c.
Proof.
  unfold event_from_json. destruct (as_dict v) as [d|]; [|discriminate]. cbn [rbind].
  repeat match goal with |- context [if_truth ?f ?x] => lazymatch f with summary_from_json => fail | _ => destruct (if_truth f x); [cbn [rbind]|try discriminate; cbn [rbind]] end end.
  all: destruct (if_truth summary_from_json _) as [e0|] eqn:E; cbn [rbind]; try discriminate.
  all: unfold if_truth in E; destruct (truth _); [|injection E as <-; intros [= <-] A; vm_compute in A; discriminate].
  all: unfold summary_from_json in E; destruct (as_dict _); [|discriminate]; cbn [rbind] in E; injection E as <-; intros [= <-] A; cbn in A; injection A as <- <-; cbn; eauto.
Qed.
Lemma seen_decoded hs s : reach hs s -> Forall (fun ev => exists v, event_from_json v = Ok ev) (seen s).
Proof.
  revert hs s. apply reach_ind'; [constructor|]. intros hs s h s' R IH D. unfold seen in *. destruct D; cbn; auto.
  - rewrite H0 in IH. exact IH.
  - rewrite H in IH. unfold look. destruct (w_status w); try (rewrite H; exact IH). destruct (readline (w_unread w)) as [[|c l] rest]; try (rewrite H; exact IH).
    destruct (loads (String c l)) as [v|e0]; cbn [rbind]; cbn; [|exact IH]. destruct (event_from_json v) as [ev|e0] eqn:E; cbn; [|exact IH].
    apply Forall_app. split; [exact IH|]. repeat constructor. eauto.
Qed.

Lemma answers_reach hs s : reach hs s -> answers hs s.
Proof.
  revert hs s. apply reach_ind'; [exact I|]. intros hs s h s' R IH D.
  destruct (phase_reach hs s R) as [Ph Ex]. pose proof (thread_reach hs s R) as Th.
  assert (T' : In h (hs ++ [h])) by (apply in_or_app; right; now left).
  unfold answers in *. destruct D; cbn [at_point o_point];
    try (match goal with K : o_point s = _ |- _ => rewrite K in IH; unfold phase in Ph; rewrite K in Ph end); auto.
  - (* serve fails *) destruct Ph as (_ & _ & _ & C). rewrite C in Ex. split; [|discriminate]. eapply X_setup; [rewrite exits_app, Ex; reflexivity|exact T'|]. now left.
  - destruct Ph as (_ & _ & _ & C). rewrite C in Ex. split; [|discriminate]. eapply X_setup; [rewrite exits_app, Ex; reflexivity|exact T'|]. simpl. auto.
  - destruct Ph as (_ & _ & _ & _ & C). rewrite C in Ex. split; [|discriminate]. eapply X_setup; [rewrite exits_app, Ex; reflexivity|exact T'|]. simpl. auto.
  - destruct Ph as (_ & C). rewrite C in Ex. intros evs. apply X_arguments. rewrite exits_app, Ex. reflexivity.
  - destruct Ph as (_ & C). rewrite C in Ex. intros evs. eapply X_setup; [rewrite exits_app, Ex; reflexivity|exact T'|]. simpl. auto.
  - (* writes *) unfold phase in Ph. rewrite H in Ph. destruct (o_point s); try exact I; exfalso; try (now apply (proj2 Ph) with ws);
      try (destruct Ph as (_ & Ph & _); now apply Ph with ws); destruct Ph as (Ph & _); now apply Ph with ws.
  - unfold phase in Ph. rewrite H in Ph. destruct (o_point s); try exact I; exfalso; try (now apply (proj2 Ph) with ws);
      try (destruct Ph as (_ & Ph & _); now apply Ph with ws); destruct Ph as (Ph & _); now apply Ph with ws.
  - (* wait *)
    destruct Ph as (_ & _ & (ws' & Hw)). rewrite H0 in Ex. assert (Ex' : exits (hs ++ [Wait]) = [(out, err, code)]) by (rewrite exits_app, Ex; reflexivity).
    assert (Hin : In (CliExits out err code) hs).
    { clear - Ex. induction hs as [|[] hs IH]; cbn in *; try discriminate; auto. injection Ex as -> -> -> _. now left. }
    pose proof (command_ends_spec _ _ _ _ _ _ Hw _ _ _ H1) as CE. unfold after_command. destruct CE as [ts C1 C2 C3 C4|ts e C1 C2 C3 C4 C5|f before t after e C1 C2 C3 C4 C5].
    + subst code. assert (S : succeeded (hs ++ [Wait]) (mkOp (after_command k (Returned (mkResult (String.concat nl ts) err 0))) (o_server s) (o_dir s) (o_cli s) (o_watcher s) (o_summaries s) lines (o_events s)) out err ts).
      { split; [exact Ex'|]. split; [exact C1|]. split; [exact C2|exact C3]. }
      unfold after_command in S. destruct (k_op k) eqn:K; cbn [answers o_point].
      * split; [reflexivity|]. exists out, err, ts. split; [exact S|]. split; [reflexivity|]. apply in_order_more, in_in_order, Hin.
      * exists out, err, ts. split; [exact S|]. rewrite K. split; [reflexivity|]. apply in_order_more, in_in_order, Hin.
      * exists out, err, ts. split; [exact S|]. rewrite K. split; [reflexivity|]. apply in_order_more, in_in_order, Hin.
      * exists out, err, ts. split; [exact S|]. rewrite K. split; [reflexivity|]. apply in_order_more, in_in_order, Hin.
    + intros evs. eapply X_failed; eauto.
    + intros evs. eapply X_on_output; eauto.
  - (* outputs *)
    destruct IH as (K & out & err & ts & S & W1 & W2). split; [exact K|]. exists out, err, ts. split.
    + destruct S as (S1 & S2). split; [rewrite exits_app, S1; reflexivity|exact S2].
    + split; [exact W1|]. apply (in_order_last [CliExits out err 0] hs). exact W2.
  - destruct IH as (K & out & err & ts & S & W1 & W2). intros evs. eapply X_asking; [rewrite K; discriminate|rewrite exits_app, (proj1 S); reflexivity|exact T'|]. auto.
  - destruct IH as (K & out & err & ts & S & W1 & W2). intros evs. eapply X_asking_py; [rewrite K; discriminate|rewrite exits_app, (proj1 S); reflexivity|exact T'|]. auto.
  - (* info *)
    destruct IH as (K & out & err & ts & S & W1 & W2). assert (Ex' : exits (hs ++ [Info a]) = [(out, err, 0%Z)]) by (rewrite exits_app, (proj1 S); reflexivity).
    destruct a as [[i|]|e|e]; cbn.
    + exists out, err, ts. split; [destruct S as (S1 & S2); split; [exact Ex'|exact S2]|]. rewrite K, W1. cbn. exists outs, i. split; [reflexivity|].
      apply (in_order_last [CliExits out err 0; Outputs (Got outs)] hs). exact W2.
    + intros evs. eapply X_asking_py; [rewrite K; discriminate|exact Ex'|exact T'|]. auto.
    + intros evs. eapply X_asking; [rewrite K; discriminate|exact Ex'|exact T'|]. auto.
    + intros evs. eapply X_asking_py; [rewrite K; discriminate|exact Ex'|exact T'|]. auto.
  - eapply will_more; eauto.
  - eapply will_more; eauto.
  - eapply will_more; eauto.
  - (* remove, preview *)
    destruct IH as (out & err & ts & S & W). rewrite H0 in W. destruct W as (-> & _).
    assert (Ex' : exits (hs ++ [Remove]) = [(out, err, 0%Z)]) by (rewrite exits_app, (proj1 S); reflexivity).
    assert (S' : forall p, succeeded (hs ++ [Remove]) (mkOp p (o_server s) false (o_cli s) (o_watcher s) (o_summaries s) (o_lines s) (o_events s)) out err ts).
    { intros p. destruct S as (S1 & S2). split; [exact Ex'|exact S2]. }
    split; [|intros r _; exists out, err, ts; apply S'].
    destruct Th as [_ _ Ts _]. rewrite H0 in Ts. rewrite Ts. unfold preview_end. change (seen _) with (seen s). destruct (flat_map summary_of (seen s)) as [|e l] eqn:F.
    + eapply X_unseen; [exact H0|exact Ex'|]. right. now apply summary_none.
    + assert (Q : exists c, attr e "resource_changes" = Some c).
      { assert (Hin : In e (flat_map summary_of (seen s))) by (rewrite F; now left). apply in_flat_map in Hin as (ev & I1 & I2).
        pose proof (seen_decoded hs s R) as Dc. rewrite Forall_forall in Dc. destruct (Dc ev I1) as (v & Dv). unfold summary_of in I2.
        destruct (attr ev "summary_event") as [[|cls at_]|] eqn:A; try destruct I2 as []; [subst e|contradiction]. exact (changes_there v ev cls at_ Dv A). }
      destruct Q as (c & Q). rewrite Q. cbn [r_stdout r_stderr]. eapply X_preview; [exact H0|exact Ex'|exact (proj1 (proj2 S))|]. eapply summary_first; eauto.
  - (* remove, other *) split; [exact H0|]. eapply will_more; eauto.
  - (* remove *)
    destruct o as [r|e|e].
    + destruct H0 as [K|K]; [|now destruct (K r)]. destruct IH as (out & err & ts & S & W). rewrite K in W. destruct W as (outs & i & -> & W2).
      assert (Ex' : exits (hs ++ [Remove]) = [(out, err, 0%Z)]) by (rewrite exits_app, (proj1 S); reflexivity).
      split; [eapply X_up; [exact K|exact Ex'|exact (proj1 (proj2 S))|now apply in_order_more]|].
      intros r _. exists out, err, ts. destruct S as (S1 & S2). split; [exact Ex'|exact S2].
    + split; [|discriminate]. apply explained_seen; [apply IH|reflexivity].
    + split; [|discriminate]. apply explained_seen; [apply IH|reflexivity].
  - (* summary *)
    destruct IH as (K & out & err & ts & S & W). assert (W' : r = mkOpResult (String.concat nl ts) err None None None /\ in_order [CliExits out err 0] hs) by (destruct K as [K|K]; rewrite K in W; exact W).
    destruct W' as (-> & W2). assert (Ex' : exits (hs ++ [Info a]) = [(out, err, 0%Z)]) by (rewrite exits_app, (proj1 S); reflexivity).
    assert (NP : k_op k <> Preview) by (destruct K as [K|K]; rewrite K; discriminate).
    split; [|intros r _; exists out, err, ts; destruct S as (S1 & S2); split; [exact Ex'|exact S2]].
    destruct a as [[i|]|e|e]; cbn.
    + eapply X_other; [exact K|exact Ex'|exact (proj1 (proj2 S))|]. apply (in_order_last [CliExits out err 0] hs). exact W2.
    + eapply X_asking_py; [exact NP|exact Ex'|exact T'|]. auto.
    + eapply X_asking; [exact NP|exact Ex'|exact T'|]. auto.
    + eapply X_asking_py; [exact NP|exact Ex'|exact T'|]. auto.
  - (* look *)
    destruct (look_frame s w raises) as (F1 & F2 & F3 & F4 & F5). rewrite F1. destruct (o_point s) eqn:P; try exact I.
    + destruct IH as (K & IH). split; [exact K|]. eapply ran_more; eauto.
    + destruct IH as (K & IH). split; [exact K|]. eapply ran_more; eauto.
    + eapply will_more; eauto.
    + eapply will_more; eauto.
    + eapply will_more; eauto.
    + destruct IH as (K & IH). split; [exact K|]. eapply will_more; eauto.
    + destruct IH as (X & G). split.
      * unfold phase in Ph. rewrite P in Ph. destruct Ph as (_ & [(_ & Ph)|(h & e & _ & _ & _ & _ & _ & _ & Ph)]); [|congruence].
        destruct (look_cases s w raises H) as [[-> _]|(w' & W & _ & St & F)].
        -- apply explained_seen; [exact X|reflexivity].
        -- apply (explained_more hs (seen s)); [exact X|reflexivity| |].
           ++ unfold seen. rewrite H, W. destruct F as [(-> & _)|(ev & -> & _)]; auto using first_seen_app.
           ++ intros _. left. apply in_or_app. left. destruct Ph as [Ph|Ph]; [exact Ph|]. now destruct (Ph w H).
      * intros r Hr. destruct (G r Hr) as (out & err & ts & S1 & S2). exists out, err, ts. unfold succeeded. rewrite F5, exits_app, S1. auto.
Qed.

Lemma ended_stays hs s o : reach hs s -> o_point s = Ended o -> forall h s', ostep s h = Some s' -> o_point s' = Ended o /\
  (o_server s' = o_server s /\ o_dir s' = o_dir s /\ o_cli s' = o_cli s /\ o_lines s' = o_lines s) /\
  ((forall w, o_watcher s = Some w -> w_status w <> Watching) -> s' = s).
Proof.
  intros R P h s' E. destruct (phase_reach hs s R) as [Ph _]. unfold phase in Ph. rewrite P in Ph. destruct Ph as (NL & _).
  apply ostep_does in E. destruct E; try congruence; try (now destruct (NL ws)).
  destruct (look_frame s w raises) as (F1 & F2 & F3 & F4 & F5). rewrite F1, F2, F3, F4, F5. split; [exact P|]. split; [auto|].
  intros St. destruct (look_cases s w raises H) as [[-> _]|(w' & _ & _ & F & _)]; [reflexivity|]. now destruct (St w H).
Qed.
Lemma ended_forever hs s o more : forall s', reach hs s -> o_point s = Ended o -> operation s more = Some s' -> o_point s' = Ended o /\
  (o_server s' = o_server s /\ o_dir s' = o_dir s /\ o_cli s' = o_cli s /\ o_lines s' = o_lines s) /\
  ((forall w, o_watcher s = Some w -> w_status w <> Watching) -> s' = s).
Proof.
  revert hs s. induction more as [|h more IH]; intros hs s s' R P E; cbn in E.
  - injection E as <-. repeat split; auto.
  - destruct (ostep s h) as [s1|] eqn:E1; [|discriminate]. destruct (ended_stays hs s o R P h s1 E1) as (P1 & (A1 & A2 & A3 & A4) & B1).
    destruct (IH (hs ++ [h]) s1 s' (R_step _ _ _ _ R E1) P1 E) as (P2 & (C1 & C2 & C3 & C4) & D1). split; [exact P2|]. split; [intuition congruence|].
    intros St. specialize (B1 St). subst s1. auto.
Qed.

Lemma can_go_on hs s : reach hs s -> (forall o, o_point s <> Ended o) -> (forall ws, o_cli s <> Live ws) ->
  exists h s', ostep s h = Some s' /\ (forall r, h <> Look r).
Proof.
  intros R N NL. destruct (phase_reach hs s R) as [Ph _]. unfold phase in Ph. destruct (o_point s) eqn:P.
  - exists (Serve None). cbn. rewrite P. destruct (serves k); eexists; split; try reflexivity; discriminate.
  - exists (MakeLog None). cbn. rewrite P. destruct (logs k); eexists; split; try reflexivity; discriminate.
  - exists (StartThread None). cbn. rewrite P. eexists; split; try reflexivity; discriminate.
  - exists (Launch None). cbn. rewrite P. destruct (words _); eexists; split; try reflexivity; discriminate.
  - exists Wait. cbn. rewrite P. destruct (o_cli s) as [|ws|ws out err code]; [tauto|now destruct (NL ws)|]. destruct (run_cmd _ _ _) as [[a l] o]. eexists; split; try reflexivity; discriminate.
  - exists (Outputs (Got [])). cbn. rewrite P. eexists; split; try reflexivity; discriminate.
  - exists (Info (Got None)). cbn. rewrite P. eexists; split; try reflexivity; discriminate.
  - exists Stop. cbn. rewrite P. eexists; split; try reflexivity; discriminate.
  - destruct (o_watcher s) as [w|] eqn:W.
    + exists Timeout. cbn. rewrite P, W. eexists; split; try reflexivity; discriminate.
    + exists Join. cbn. rewrite P, W. eexists; split; try reflexivity; discriminate.
  - exists Remove. cbn. rewrite P. eexists; split; try reflexivity; discriminate.
  - exists (Info (Got None)). cbn. rewrite P. eexists; split; try reflexivity; discriminate.
  - now destruct (N o).
Qed.

(** The CLI is run with the arguments of the operation. *)
Lemma live_words hs s : reach hs s -> forall ws, o_cli s = Live ws \/ (exists a b c, o_cli s = Exited ws a b c) -> words (non_interactive (op_args k)) = Some ws.
Proof.
  revert hs s. apply (reach_ind' (fun hs s => forall ws, o_cli s = Live ws \/ (exists a b c, o_cli s = Exited ws a b c) -> words (non_interactive (op_args k)) = Some ws)).
  { cbn. intros ws [H|(a & b & c & H)]; discriminate. }
  intros hs s h s' R IH D. destruct D; cbn; auto.
  - intros ws0 [[= <-]|(a & b & c & K)]; [exact H0|discriminate].
  - intros ws0 [[= <-]|(a & b & c & K)]; [apply IH; auto|discriminate].
  - intros ws0 [K|(a & b & c & [= <- <- <- <-])]; [discriminate|]. apply IH. now left.
  - destruct (look_frame s w raises) as (_ & _ & _ & F & _). rewrite F. exact IH.
Qed.
End Op.

(* ---- the events of the log ---- *)
Lemma decoded_cancel g ev : known_steps g -> event_from_json (go_json g) = Ok ev -> (cancel_event ev <-> ge_payload g = GoCancel).
Proof.
  intros Hk E. destruct (event_shown g Hk) as (o & E' & _ & _ & (cls & at_ & H3 & _) & H5). rewrite E in E'. injection E' as <-. split.
  - intros (l & C). destruct (ge_payload g) eqn:G; auto; exfalso;
      assert (K : is ev "cancel_event" VNone) by (apply H5; [simpl; tauto|cbn; discriminate]); unfold is in K; congruence.
  - intros G. unfold go_json in E. rewrite G in *. cbn in E, H3. vm_compute in E. injection E as <-. eexists. vm_compute. reflexivity.
Qed.
Lemma decoded_summary g ev : known_steps g -> event_from_json (go_json g) = Ok ev ->
  (exists b n changes packs cls l, ge_payload g = GoSummary b n changes packs /\ attr ev "summary_event" = Some (EObj cls l) /\
     attr (EObj cls l) "resource_changes" = Some (EV (VDict (map (fun kv => (fst kv, VNum (snd kv))) changes)))) \/
  ((forall b n c p, ge_payload g <> GoSummary b n c p) /\ attr ev "summary_event" = Some (EV VNone)).
Proof.
  intros Hk E. destruct (event_shown g Hk) as (o & E' & _ & _ & (cls & at_ & H3 & H4) & H5). rewrite E in E'. injection E' as <-.
  destruct (ge_payload g) eqn:G; try (right; split; [discriminate|apply H5; [simpl; tauto|cbn; discriminate]]).
  left. do 4 eexists. exists cls, at_. split; [reflexivity|]. split; [exact H3|]. cbn in H4. exact (proj1 (proj2 (proj2 H4))).
Qed.
Lemma decode_all loads ls gs : Forall2 (fun l g => loads (l ++ nl)%string = Ok (go_json g)) ls gs -> (forall g, In g gs -> known_steps g) ->
  exists evs, Forall2 (fun g ev => event_from_json (go_json g) = Ok ev) gs evs /\ Forall2 (holds_event loads) ls evs.
Proof.
  induction 1 as [|l g ls gs H F IH]; intros K; [exists []; split; constructor|]. destruct IH as (evs & F1 & F2); [intros x Hx; apply K; now right|].
  destruct (event_shown g (K g (or_introl eq_refl))) as (ev & E & _). exists (ev :: evs). split; constructor; auto. exists (go_json g). auto.
Qed.
Lemma whole_up_to gs gs' : whole_log gs gs' -> (forall g, In g gs -> known_steps g) -> forall evs, Forall2 (fun g ev => event_from_json (go_json g) = Ok ev) gs evs ->
  exists out, up_to_cancel evs out /\ Forall2 (fun g ev => event_from_json (go_json g) = Ok ev) gs' out.
Proof.
  induction 1 as [g gs E|g gs gs' E W IH]; intros K evs F; inversion F as [|? ev ? evs' D F']; subst.
  - exists [ev]. split; [|repeat constructor; exact D]. apply UC_cancel. apply (decoded_cancel g ev); auto. apply K. now left.
  - destruct (IH (fun x Hx => K x (or_intror Hx)) evs' F') as (out & U & Fo). exists (ev :: out). split; [|constructor; auto].
    apply UC_next; [|exact U]. rewrite (decoded_cancel g ev); auto. apply K. now left.
Qed.
Lemma summary_decoded gs changes : first_summary gs changes -> (forall g, In g gs -> known_steps g) -> forall evs, Forall2 (fun g ev => event_from_json (go_json g) = Ok ev) gs evs ->
  first_seen evs (EV (VDict (map (fun kv => (fst kv, VNum (snd kv))) changes))).
Proof.
  induction 1 as [g gs b n changes packs E|g gs changes E W IH]; intros K evs F; inversion F as [|? ev ? evs' D F']; subst;
    destruct (decoded_summary g ev (K g (or_introl eq_refl)) D) as [(b' & n' & c' & p' & cls & l & G & A1 & A2)|(G & A)].
  - rewrite E in G. injection G as <- <- <- <-. eapply FSE_here; eauto.
  - exfalso. eapply G; eauto.
  - exfalso. eapply E; eauto.
  - apply FSE_next; [congruence|]. apply IH; auto. intros x Hx. apply K. now right.
Qed.
Lemma first_seen_one evs c c' : first_seen evs c -> first_seen evs c' -> c = c'.
Proof.
  intros H. revert c'. induction H; intros c' H'; inversion H'; subst; try congruence; auto.
Qed.
Lemma first_not_none evs c : first_seen evs c -> ~ none_seen evs.
Proof. intros H N. induction H as [ev evs cls l c A _|ev evs c A H IH]; [eapply (N ev); [now left|eauto]|]. apply IH. intros x cls l Hx. apply N. now right. Qed.
Lemma whole_known gs gs' : whole_log gs gs' -> forall g, In g gs' -> In g gs.
Proof. induction 1; intros x [->|Hx]; simpl; auto. destruct Hx. Qed.

Lemma trimmed_one s t t' : trimmed s t -> trimmed s t' -> t = t'.
Proof.
  intros R. revert t'. induction R as [s E|s c t E R IH]; intros t' R'.
  - inversion R' as [s' E'|s' c' t0 E' R0]; subst; auto. specialize (E s' c' eq_refl). congruence.
  - inversion R' as [s' E' Q|s' c' t0 E' R0 Q]; subst; [specialize (E' s c eq_refl); congruence|]. apply snoc_inj in Q as [-> ->]. auto.
Qed.
Lemma captured_one out ts ts' : captured out ts -> captured out ts' -> ts = ts'.
Proof.
  intros (ls & L & T) (ls' & L' & T'). rewrite (lines_of_unique _ _ _ L' L) in T'. clear L L' ls'. revert ts' T'.
  induction T as [|l t ls ts R F IH]; intros ts' T'; inversion T' as [|? t' ? ts0 R' F']; subst; [reflexivity|]. f_equal; [eapply trimmed_one; eauto|auto].
Qed.
Lemma exits_in out err code hs : In (CliExits out err code) hs -> In (out, err, code) (exits hs).
Proof. induction hs as [|h hs IH]; intros H; [destruct H|]. destruct H as [->|H]; [now left|]. destruct h; cbn; auto. Qed.
