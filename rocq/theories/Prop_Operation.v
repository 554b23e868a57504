(** C88: the operations of a stack end as the CLI does, with its results, and leave nothing behind. *)
From Verif Require Import Base PyVal Model_Urn Model_Cmd Spec_Cmd Proof_Cmd Model_Argv Model_Events Spec_Events Proof_Events Model_WsConfig Model_WsState Model_Operation Spec_Operation Proof_Operation.
Open Scope string_scope.
Open Scope list_scope.

(** For every operation with any arguments and every course of events - whatever fails, whatever the
    callbacks do, however the CLI and the watching thread interleave -: when the call ends, it ends
    with a result only if the CLI was run once and succeeded; the result then has the CLI's
    outputs, and what [outputs()] and [info()] gave afterwards, or for a preview the first summary
    read; otherwise with the CLI's error, classified, or with the exception of what failed. *)
Theorem C88_outcome loads k hs s o : operation loads k op_start hs = Some s -> o_point s = Ended o -> explained k hs (seen s) o.
Proof.
  intros H P. apply operation_reach in H. pose proof (answers_reach loads k hs s H) as A. unfold answers in A. rewrite P in A. tauto.
Qed.
Print Assumptions C88_outcome.

(** The lines of the CLI's output were reported, each once and in order, when a result is given. *)
Theorem C88_lines loads k hs s r : operation loads k op_start hs = Some s -> o_point s = Ended (Got r) ->
  exists out err ts, exits hs = [(out, err, 0%Z)] /\ captured out ts /\ (k_on_output k <> None -> o_lines s = ts).
Proof.
  intros H P. apply operation_reach in H. pose proof (answers_reach loads k hs s H) as A. unfold answers in A. rewrite P in A.
  destruct A as (_ & A). destruct (A r eq_refl) as (out & err & ts & S1 & S2 & S3 & S4). exists out, err, ts. split; [exact S1|]. split; [exact S2|].
  intros N. rewrite S4. now destruct (k_on_output k).
Qed.
Print Assumptions C88_lines.

(** When the CLI fails, and [on_output] does not raise, the call raises its error, whatever else happens. *)
Theorem C88_failure loads k hs s o out err code ts : operation loads k op_start hs = Some s -> o_point s = Ended o ->
  In (CliExits out err code) hs -> code <> 0%Z -> captured out ts -> never_raises (k_on_output k) ts ->
  exists e, o = CliError e /\ classified err (String.concat nl ts) e.
Proof.
  intros H P Hin Hc C N. assert (X := C88_outcome _ _ _ _ _ H P). apply operation_reach in H. destruct (phase_reach loads k hs s H) as [_ Ex].
  assert (Ex' : exits hs = [(out, err, code)]).
  { apply exits_in in Hin. rewrite Ex in *. destruct (o_cli s) as [| |ws a b c]; cbn in Hin; try contradiction. destruct Hin as [->|[]]; reflexivity. }
  destruct X as [o1 e1 ts1 os i K1 K2|o1 e1 ts1 i K1 K2|o1 e1 ts1 c K1 K2|o1 e1 c1 ts1 e K2 K3 K4 K5|f o1 e1 c1 b t a e K1 K2 K3 K4 K5|o1 e1 h a K1 K2|o1 e1 h e K1 K2|o1 e1 K1 K2|h e K2|K2];
    rewrite Ex' in K2; try discriminate; injection K2; intros; subst; try (now destruct Hc).
  - rewrite <- (captured_one _ _ _ C K4) in K5. eauto.
  - exfalso. rewrite (captured_one _ _ _ C K3) in N. specialize (N f t K1). rewrite K5 in N. assert (Some e = None) by (apply N, in_or_app; right; now left). discriminate.
Qed.
Print Assumptions C88_failure.

(** When nothing fails, [up], [refresh] and [destroy] give a result. *)
Definition nothing_fails (hs : list happening) : Prop :=
  (forall e, ~ In (Serve (Some e)) hs /\ ~ In (MakeLog (Some e)) hs /\ ~ In (StartThread (Some e)) hs /\ ~ In (Launch (Some e)) hs) /\
  (forall a, In (Outputs a) hs -> exists outs, a = Got outs) /\ (forall a, In (Info a) hs -> exists i, a = Got (Some i)).
Theorem C88_success loads k hs s o out err ts : operation loads k op_start hs = Some s -> o_point s = Ended o -> k_op k <> Preview ->
  nothing_fails hs -> In (CliExits out err 0) hs -> captured out ts -> never_raises (k_on_output k) ts ->
  exists r, o = Got r /\ r_stdout r = String.concat nl ts /\ r_stderr r = err.
Proof.
  intros H P Hp (F1 & F2 & F3) Hin C N. assert (X := C88_outcome _ _ _ _ _ H P). apply operation_reach in H. destruct (phase_reach loads k hs s H) as [_ Ex].
  assert (Ex' : exits hs = [(out, err, 0%Z)]).
  { apply exits_in in Hin. rewrite Ex in *. destruct (o_cli s) as [| |ws a b c]; cbn in Hin; try contradiction. destruct Hin as [->|[]]; reflexivity. }
  destruct X as [o1 e1 ts1 os i K1 K2 K3|o1 e1 ts1 i K1 K2 K3|o1 e1 ts1 c K1 K2|o1 e1 c1 ts1 e K2 K3 K4 K5|f o1 e1 c1 b t a e K1 K2 K3 K4 K5|o1 e1 h a K1 K2 K3 K4|o1 e1 h e K1 K2 K3 K4|o1 e1 K1 K2|h e K2|K2];
    rewrite Ex' in K2; try discriminate; injection K2; intros; subst; try congruence.
  - rewrite (captured_one _ _ _ C K3). eexists. repeat split.
  - rewrite (captured_one _ _ _ C K3). eexists. repeat split.
  - exfalso. rewrite (captured_one _ _ _ C K3) in N. specialize (N f t K1). rewrite K5 in N. assert (Some e = None) by (apply N, in_or_app; right; now left). discriminate.
  - exfalso. destruct K4 as [[-> _]| ->]; [destruct (F2 _ K3)|destruct (F3 _ K3)]; discriminate.
  - exfalso. destruct K4 as [[-> _]|[->|[-> _]]]; [destruct (F2 _ K3)|destruct (F3 _ K3)|destruct (F3 _ K3)]; discriminate.
Qed.
Print Assumptions C88_success.

(** The events.  When the call ends, and the log could be set up, all events of the log up to the one that
    ends it have been handed to [on_event], in order, and nothing is handed to it later.
    Partial: the watching thread ended within five seconds of the CLI, it looked at the log only
    between lines (C62), and [on_event] did not raise; see [C88_refuted]. *)
Theorem C88_events_partial loads k hs s o gs gs' : operation loads k op_start hs = Some s -> o_point s = Ended o ->
  a_on_event (k_opts k) = true -> exits hs <> [] ->
  logged loads hs gs -> (forall g, In g gs -> known_steps g) -> whole_log gs gs' -> at_line_ends (log_ops hs) -> calm hs -> ~ In Timeout hs ->
  Forall2 (fun g ev => event_from_json (go_json g) = Ok ev) gs' (o_events s) /\
  forall more s', operation loads k s more = Some s' -> o_events s' = o_events s.
Proof.
  intros H P Hev Hx (ls & L1 & L2 & L3) Hk Hw Ha Hc Ht. apply operation_reach in H.
  pose proof (thread_reach loads k hs s H) as [T1 T2 T3 T4]. destruct (phase_reach loads k hs s H) as [Ph Ex]. unfold phase in Ph. rewrite P in Ph.
  destruct Ph as (_ & [((_ & _ & W) & St)|(h & e & _ & _ & _ & Ph & _)]); [|congruence]. destruct St as [St|St]; [contradiction|].
  assert (Lg : logs k = true) by (unfold logs; destruct (k_op k); auto). apply W in Lg. destruct (o_watcher s) as [w|] eqn:E; [|now destruct Lg].
  specialize (T4 w eq_refl (or_introl Hc)). rewrite Hev in T2. unfold seen in T2. rewrite E in T2.
  destruct (decode_all loads ls gs L3 Hk) as (evs & D1 & D2). destruct (whole_up_to gs gs' Hw Hk evs D1) as (out & U & D3).
  destruct (delivery_prefix loads evs ls (log_ops hs) out L1 D2 Ha L2 U) as (more & Q1 & Q2).
  rewrite <- T4 in Q1, Q2. specialize (St w eq_refl). destruct Q2 as [Q2|[_ ->]]; [contradiction|]. rewrite app_nil_r in Q1. rewrite T2, <- Q1. split; [exact D3|].
  intros more s' Hm. destruct (ended_forever loads k hs s o more s' H P Hm) as (_ & _ & F). rewrite F; [congruence|]. intros w' Hw'. rewrite E in Hw'. injection Hw' as <-. exact St.
Qed.
Print Assumptions C88_events_partial.

(** A preview.  When the CLI succeeds, the result has the changes of the summary the CLI wrote to the log.
    Partial: as for [C88_events_partial]. *)
Theorem C88_preview_partial loads k hs s o gs gs' changes out err ts : operation loads k op_start hs = Some s -> o_point s = Ended o ->
  k_op k = Preview -> In (CliExits out err 0) hs -> captured out ts -> never_raises (k_on_output k) ts ->
  logged loads hs gs -> (forall g, In g gs -> known_steps g) -> whole_log gs gs' -> first_summary gs' changes ->
  at_line_ends (log_ops hs) -> calm hs \/ a_on_event (k_opts k) = false -> ~ In Timeout hs ->
  o = Got (mkOpResult (String.concat nl ts) err None None (Some (EV (VDict (map (fun kv => (fst kv, VNum (snd kv))) changes))))).
Proof.
  intros H P Hp Hin C N (ls & L1 & L2 & L3) Hk Hw Hf Ha Hc Ht. assert (X := C88_outcome _ _ _ _ _ H P). apply operation_reach in H.
  pose proof (thread_reach loads k hs s H) as [T1 T2 T3 T4]. destruct (phase_reach loads k hs s H) as [Ph Ex]. unfold phase in Ph. rewrite P in Ph.
  assert (Ex' : exits hs = [(out, err, 0%Z)]).
  { apply exits_in in Hin. rewrite Ex in *. destruct (o_cli s) as [| |ws a b c]; cbn in Hin; try contradiction. destruct Hin as [->|[]]; reflexivity. }
  destruct Ph as (_ & [((_ & _ & W) & St)|(h & e & _ & _ & _ & Ph & _)]); [|congruence]. destruct St as [St|St]; [contradiction|].
  assert (Lg : logs k = true) by (unfold logs; now rewrite Hp). apply W in Lg. destruct (o_watcher s) as [w|] eqn:E; [|now destruct Lg].
  specialize (T4 w eq_refl Hc).
  destruct (decode_all loads ls gs L3 Hk) as (evs & D1 & D2). destruct (whole_up_to gs gs' Hw Hk evs D1) as (evs' & U & D3).
  destruct (delivery_prefix loads evs ls (log_ops hs) evs' L1 D2 Ha L2 U) as (more & Q1 & Q2).
  rewrite <- T4 in Q1, Q2. specialize (St w eq_refl). destruct Q2 as [Q2|[_ ->]]; [contradiction|]. rewrite app_nil_r in Q1.
  assert (FS : first_seen (seen s) (EV (VDict (map (fun kv => (fst kv, VNum (snd kv))) changes)))).
  { unfold seen. rewrite E, <- Q1. apply (summary_decoded gs' changes Hf); auto. intros g Hg. apply Hk. eapply whole_known; eauto. }
  destruct X as [o1 e1 ts1 os i K1 K2 K3|o1 e1 ts1 i K1 K2 K3|o1 e1 ts1 c K1 K2 K3 K4|o1 e1 c1 ts1 e K2 K3 K4 K5|f o1 e1 c1 b t a e K1 K2 K3 K4 K5|o1 e1 h a K1 K2 K3 K4|o1 e1 h e K1 K2 K3 K4|o1 e1 K1 K2 K3|h e K2|K2];
    rewrite Ex' in K2; try discriminate; injection K2; intros; subst; try congruence.
  - destruct K1; congruence.
  - rewrite (captured_one _ _ _ C K3), (first_seen_one _ _ _ K4 FS). reflexivity.
  - exfalso. rewrite (captured_one _ _ _ C K3) in N. specialize (N f t K1). rewrite K5 in N. assert (Some e = None) by (apply N, in_or_app; right; now left). discriminate.
  - exfalso. destruct K3 as [K3|K3]; [contradiction|]. eapply first_not_none; eauto.
Qed.
Print Assumptions C88_preview_partial.

(** Nothing is left behind: when the call has ended, the CLI is not running, the language server has been
    stopped and the directory of the log removed; whatever happens afterwards.
    Partial: the log, if there is one, could be set up; see [C88_refuted]. *)
Theorem C88_clean_partial loads k hs s o more s' : operation loads k op_start hs = Some s -> o_point s = Ended o -> set_up hs ->
  operation loads k s more = Some s' -> o_point s' = Ended o /\ o_server s' = false /\ o_dir s' = false /\ forall ws, o_cli s' <> Live ws.
Proof.
  intros H P Hs Hm. apply operation_reach in H. destruct (ended_forever loads k hs s o more s' H P Hm) as (P' & (-> & -> & -> & _) & _). split; [exact P'|].
  destruct (phase_reach loads k hs s H) as [Ph _]. unfold phase in Ph. rewrite P in Ph. destruct Ph as (NL & [((S1 & S2 & _) & _)|(h & e & H1 & H2 & _ & _ & _ & H3 & _)]); auto.
  destruct (Hs e) as (N1 & N2). destruct H2 as [<-|[<-|[<-|[]]]]; try contradiction. destruct (H3 eq_refl). auto.
Qed.
Print Assumptions C88_clean_partial.

(** While the CLI runs, it runs with the arguments of the operation (C56), and the language server serves if
    there is an inline program to run, and only then. *)
Theorem C88_serving loads k hs s ws pulumi : operation loads k op_start hs = Some s -> o_cli s = Live ws ->
  (o_server s = true <-> runs_inline k) /\ fst (fst (operate pulumi (k_op k) (k_opts k) (k_sur k) (k_on_output k))) = Some ws.
Proof.
  intros H C. apply operation_reach in H. destruct (phase_reach loads k hs s H) as [Ph _]. unfold phase in Ph. split.
  - assert (S : o_server s = serves k).
    { destruct (o_point s); try (unfold settled in Ph; intuition congruence); exfalso.
      all: match type of Ph with _ /\ (forall ws, _) => destruct Ph as (_ & Ph) | _ /\ (forall ws, _) /\ _ => destruct Ph as (_ & Ph & _) | _ => destruct Ph as (Ph & _) end; now apply (Ph ws). }
    rewrite S. unfold serves, runs_inline. destruct (k_op k); rewrite ?Bool.orb_true_iff; intuition (try discriminate).
  - unfold operate, stack_run, run_cmd. pose proof (live_words loads k hs s H ws (or_introl C)) as W. unfold op_args in W. rewrite W.
    destruct (pulumi ws) as [[a b] c]. destruct (report _ _). reflexivity.
Qed.
Print Assumptions C88_serving.

(** No call gets stuck: until it ends, the calling thread can go on, unless the CLI is still running. *)
Theorem C88_progress loads k hs s : operation loads k op_start hs = Some s ->
  (exists o, o_point s = Ended o) \/ (exists ws, o_cli s = Live ws) \/ exists h s', ostep loads k s h = Some s' /\ forall r, h <> Look r.
Proof.
  intros H. apply operation_reach in H. destruct (o_cli s) as [|ws|ws a b c] eqn:C; [|now right; left; exists ws|].
  all: destruct (o_point s) eqn:P; try (right; right; apply (can_go_on loads k hs s H); [rewrite P; discriminate|rewrite C; discriminate]); left; eauto.
Qed.
Print Assumptions C88_progress.

(** C88 as stated is false. *)
Definition sum_event : go_event := mkGoEvent 1 0 (GoSummary false 3 [("create", 2%Z); ("same", 1%Z)] []).
Definition end_event : go_event := mkGoEvent 2 0 GoCancel.
Definition out_event : go_event := mkGoEvent 0 0 (GoStdout "hello" "raw").
Definition ex_log_loads (s : string) : res pyval :=
  if String.eqb s ("{sum}" ++ nl) then Ok (go_json sum_event) else if String.eqb s ("{end}" ++ nl) then Ok (go_json end_event)
  else if String.eqb s ("{out}" ++ nl) then Ok (go_json out_event) else Err (Exn "JSONDecodeError" "").
Definition ex_opts (on_event program : bool) : op_options :=
  mkOpts None None None None None None None None None None on_event program None None None None None None.
Definition ex_call (c : Model_Argv.command) (on_event program : bool) : call := mkCall c (ex_opts on_event program) (mkSur false "dev" 4711 "/tmp/eventlog.txt") None.
Definition ex_log : string := "{out}" ++ nl ++ "{sum}" ++ nl ++ "{end}" ++ nl.
Definition begin : list happening := [Serve None; MakeLog None; StartThread None; Launch None].

Lemma ex_one_line l : In l ["{out}"; "{sum}"; "{end}"] -> one_line l.
Proof. intros [<-|[<-|[<-|[]]]] K; cbn in K; decompose [or] K; discriminate || contradiction. Qed.
Lemma ex_logged hs : written (log_ops hs) = ex_log -> logged ex_log_loads hs [out_event; sum_event; end_event].
Proof.
  intros E. exists ["{out}"; "{sum}"; "{end}"]. split; [|split; [exact E|]].
  - repeat apply Forall_cons; [apply ex_one_line; simpl; tauto..|constructor].
  - repeat apply Forall2_cons; [reflexivity..|constructor].
Qed.
Lemma ex_whole : whole_log [out_event; sum_event; end_event] [out_event; sum_event; end_event].
Proof. apply WL_next; [discriminate|]. apply WL_next; [discriminate|]. now apply WL_end. Qed.
Lemma ex_first : first_summary [out_event; sum_event; end_event] [("create", 2%Z); ("same", 1%Z)].
Proof. apply FS_next; [discriminate|]. eapply FS_here. reflexivity. Qed.
Lemma ex_ends n : at_line_ends (Write ex_log :: repeat Poll n).
Proof.
  intros before after E. exists ["{out}"; "{sum}"; "{end}"]. split; [repeat apply Forall_cons; [apply ex_one_line; simpl; tauto..|constructor]|].
  destruct before as [|o before]; [discriminate|]. injection E as <- E. cbn [written]. assert (Z : written before = "").
  { assert (F : Forall (eq Poll) before).
    { apply Forall_forall. intros x Hx. assert (K : In x (repeat Poll n)) by (rewrite E; apply in_or_app; now left). symmetry. exact (repeat_spec _ _ _ K). }
    clear E. induction F as [|x l <- F IH]; auto. }
  rewrite Z. reflexivity.
Qed.

(** Successful previews, of which the CLI has logged the summary, raise: if the watching thread is late, in which
    case the events are delivered after the call; if [on_event] raises for an earlier event.  A log
    that cannot be set up leaves the language server running for good.  If the CLI fails before it logs
    anything, the watching thread runs for ever. *)
Theorem C88_refuted :
  (exists loads k hs s more s' gs changes, operation loads k op_start hs = Some s /\
     o_point s = Ended (PyError (Exn "RuntimeError" "summary event never found")) /\ k_op k = Preview /\ In (CliExits "done" "" 0) hs /\
     logged loads hs gs /\ whole_log gs gs /\ first_summary gs changes /\ at_line_ends (log_ops hs) /\ (forall h, In h hs -> forall e, h <> Look (Some e)) /\
     operation loads k s more = Some s' /\ o_events s = [] /\ length (o_events s') = 3) /\
  (exists loads k hs s gs changes, operation loads k op_start hs = Some s /\
     o_point s = Ended (PyError (Exn "RuntimeError" "summary event never found")) /\ k_op k = Preview /\ In (CliExits "done" "" 0) hs /\
     logged loads hs gs /\ whole_log gs gs /\ first_summary gs changes /\ at_line_ends (log_ops hs) /\ ~ In Timeout hs) /\
  (exists loads k hs s e, operation loads k op_start hs = Some s /\ o_point s = Ended (PyError e) /\
     forall more s', operation loads k s more = Some s' -> o_server s' = true) /\
  (exists loads k hs s o, operation loads k op_start hs = Some s /\ o_point s = Ended o /\
     forall more s', operation loads k s more = Some s' -> exists w, o_watcher s' = Some w /\ w_status w = Watching).
Proof.
  split; [|split; [|split]].
  - exists ex_log_loads, (ex_call Preview true false), (begin ++ [CliWrites ex_log; CliExits "done" "" 0; Wait; Stop; Timeout; Remove]).
    eexists. exists [Look None; Look None; Look None]. do 3 eexists. split; [vm_compute; reflexivity|]. split; [reflexivity|]. split; [reflexivity|].
    split; [simpl; tauto|]. split; [now apply ex_logged|]. split; [apply ex_whole|]. split; [apply ex_first|]. split; [exact (ex_ends 0)|].
    split; [intros h Hh e ->; simpl in Hh; intuition discriminate|]. split; [vm_compute; reflexivity|]. split; reflexivity.
  - exists ex_log_loads, (ex_call Preview true false), (begin ++ [CliWrites ex_log; Look (Some (Exn "ValueError" "")); CliExits "done" "" 0; Wait; Stop; Join; Remove]).
    do 3 eexists. split; [vm_compute; reflexivity|]. split; [reflexivity|]. split; [reflexivity|].
    split; [simpl; tauto|]. split; [now apply ex_logged|]. split; [apply ex_whole|]. split; [apply ex_first|]. split; [exact (ex_ends 1)|].
    simpl. intuition discriminate.
  - exists ex_log_loads, (ex_call Up true true), [Serve None; MakeLog (Some (Exn "OSError" "No space left on device"))]. do 2 eexists.
    split; [vm_compute; reflexivity|]. split; [reflexivity|]. intros more s' H.
    match type of H with operation ?l ?k ?s _ = _ => assert (R : reach l k [Serve None; MakeLog (Some (Exn "OSError" "No space left on device"))] s) by (apply operation_reach; reflexivity);
      destruct (ended_forever l k _ s _ more s' R eq_refl H) as (_ & (-> & _) & _) end. reflexivity.
  - exists ex_log_loads, (ex_call Up true true), (begin ++ [CliExits "" "error: no such stack" 255; Wait; Stop; Timeout; Remove]). do 2 eexists.
    split; [vm_compute; reflexivity|]. split; [reflexivity|].
    assert (G : forall more s s', (forall h s1, ostep ex_log_loads (ex_call Up true true) s h = Some s1 -> s1 = s) -> operation ex_log_loads (ex_call Up true true) s more = Some s' -> s' = s).
    { induction more as [|h more IH]; intros s s' Hs H; cbn [operation] in H; [congruence|]. destruct (ostep _ _ s h) eqn:E; [|discriminate]. rewrite (Hs h o E) in *. auto. }
    intros more s' H. apply G in H; [subst s'; eexists; split; reflexivity|]. intros h s1 E. destruct h; cbn in E; try discriminate; try (destruct failure; discriminate). now injection E as <-.
Qed.
Print Assumptions C88_refuted.

(** A preview with an inline program and [on_event], the watching thread looking before and after the CLI exits; an update. *)
Example C88_example :
  (let k := ex_call Preview true true in let hs := begin ++ [CliWrites ex_log; Look None; CliExits ("2 to create  " ++ nl ++ "1 same") "" 0; Look None; Wait; Stop; Look None; Join; Remove] in
   exists s, operation ex_log_loads k op_start hs = Some s /\ runs_inline k /\ set_up hs /\ calm hs /\ logged ex_log_loads hs [out_event; sum_event; end_event] /\
     at_line_ends (log_ops hs) /\ ~ In Timeout hs /\ length (o_events s) = 3 /\
     o_point s = Ended (Got (mkOpResult ("2 to create" ++ nl ++ "1 same") "" None None (Some (EV (VDict [("create", VNum 2); ("same", VNum 1)])))))) /\
  (let hs := [Serve None; MakeLog None; Launch None; CliExits "ok" "" 0; Wait; Outputs (Got [("url", (VStr "x", false))]); Info (Got (Some [])); Stop; Join; Remove] in
   exists s, operation ex_log_loads (ex_call Up false false) op_start hs = Some s /\ nothing_fails hs /\
     o_point s = Ended (Got (mkOpResult "ok" "" (Some []) (Some [("url", (VStr "x", false))]) None))).
Proof.
  cbv zeta. split.
  - eexists. split; [vm_compute; reflexivity|]. split; [split; [now right|now left]|].
    split; [intros e; split; simpl; intuition discriminate|]. split; [intros e; simpl; intuition discriminate|]. split; [now apply ex_logged|]. split; [exact (ex_ends 3)|].
    split; [simpl; intuition discriminate|]. split; reflexivity.
  - eexists. split; [vm_compute; reflexivity|]. split; [|reflexivity]. split; [intros e; simpl; intuition discriminate|].
    split; intros a Ha; simpl in Ha; decompose [or] Ha; try discriminate; try contradiction; match goal with K : _ = _ |- _ => injection K as <-; eauto end.
Qed.
