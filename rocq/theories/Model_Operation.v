(** automation/_stack.py: the operations up, preview, refresh and destroy from call to return, with
    the CLI's process, the event log and the thread that watches it *)
From Verif Require Import Base PyVal Model_Urn Model_Cmd Model_Argv Model_Events Model_WsConfig Model_WsState.
Open Scope string_scope.
Open Scope list_scope.

(** A call: which operation, its arguments, its surroundings, [on_output]. *)
Record call : Type := mkCall {
  k_op : Model_Argv.command; k_opts : op_options; k_sur : surroundings; k_on_output : option (string -> option exn) }.

(** _stack.py:251, 263, 364, 376: a language server is needed; [refresh] and [destroy] start none. *)
Definition serves (k : call) : bool :=
  match k_op k with Up | Preview => a_program (k_opts k) || w_program (k_sur k) | Refresh | Destroy => false end.
(** _stack.py:291, 401, 478, 543: an event log is needed. *)
Definition logs (k : call) : bool := match k_op k with Preview => true | _ => a_on_event (k_opts k) end.

(** _stack.py:94-124: the attributes of [UpResult], [PreviewResult], [RefreshResult], [DestroyResult];
    those a class does not have are [None]. *)
Record op_result : Type := mkOpResult {
  r_stdout : string; r_stderr : string; r_summary : option object; r_outputs : option (dict (pyval * bool)); r_changes : option eval }.

(** Where the calling thread is. *)
Inductive point : Type :=
| AtStart | AtLog | AtThread | AtLaunch | AtWait
| AtOutputs (r : command_result)
| AtInfo (r : command_result) (outs : dict (pyval * bool))
| AtStop (o : answer op_result) | AtJoin (o : answer op_result) | AtRemove (o : answer op_result)
| AtSummary (r : op_result)
| Ended (o : answer op_result).

(** The CLI's process: the words it was started with; what it wrote and its exit code. *)
Inductive cli_process : Type :=
| NotStarted | Live (ws : list string) | Exited (ws : list string) (out err : string) (code : Z).

Record op_state : Type := mkOp {
  o_point : point;
  o_server : bool;                   (* the language server serves *)
  o_dir : bool;                      (* the temporary directory of the log exists *)
  o_cli : cli_process;
  o_watcher : option watcher;        (* the thread, once started: what it has yet to read, the events it
                                        has handed to its callback, whether it still runs *)
  o_summaries : list eval;           (* [summary_events] *)
  o_lines : list string;             (* the calls of [on_output] *)
  o_events : list eval }.            (* the calls of [on_event] *)

Definition op_start : op_state := mkOp AtStart false false NotStarted None [] [] [].

(** What happens: the steps of the calling thread, with what the operating system, the CLI
    and other commands answer; the CLI's; the watching thread's. *)
Inductive happening : Type :=
| Serve (failure : option exn)                 (* the language server is started *)
| MakeLog (failure : option exn)               (* [_create_log_file] *)
| StartThread (failure : option exn)
| Launch (failure : option exn)                (* [Popen] *)
| CliWrites (chunk : string)
| CliExits (out err : string) (code : Z)
| Wait                                         (* [_run_pulumi_cmd] goes on after the exit *)
| Outputs (a : answer (dict (pyval * bool)))   (* [self.outputs()] *)
| Info (a : answer (option object))            (* [self.info(show_secrets)] *)
| Stop                                         (* [on_exit_fn()] *)
| Join                                         (* [thread.join(5)], as the thread ended *)
| Timeout                                      (* [thread.join(5)], after five seconds *)
| Remove                                       (* [temp_dir.cleanup()] *)
| Look (raises : option exn).                  (* [_watch_logs] goes once round its loop; whether [on_event] raises *)

Definition at_point (s : op_state) (p : point) : op_state :=
  mkOp p (o_server s) (o_dir s) (o_cli s) (o_watcher s) (o_summaries s) (o_lines s) (o_events s).

(** [assert summary is not None], _stack.py:303, 492, 557. *)
Definition asserted (a : answer (option object)) : answer object :=
  Model_WsConfig.abind a (fun x => match x with Some o => Got o | None => PyError (Exn "AssertionError" "") end).

(** [event.summary_event], if it is true. *)
Definition summary_of (ev : eval) : list eval :=
  match attr ev "summary_event" with Some (EObj c l) => [EObj c l] | _ => [] end.

(** _stack.py:422-429: the end of [preview]. *)
Definition preview_end (summaries : list eval) (r : op_result) : answer op_result :=
  match summaries with
  | [] => PyError (Exn "RuntimeError" "summary event never found")
  | e :: _ => match attr e "resource_changes" with
              | Some c => Got (mkOpResult (r_stdout r) (r_stderr r) None None (Some c))
              | None => PyError (Exn "AttributeError" "resource_changes")
              end
  end.

Section Operation.
  (** json.loads, of a line of the log. *)
  Variable loads : string -> res pyval.
  Variable k : call.

  (** _stack.py:815-830 [_watch_logs], the body of the loop, with the callback: [on_event], or for
      [preview] (_stack.py:405-409) the one that first keeps summaries.  The thread ends when its
      callback raises. *)
  Definition look (s : op_state) (w : watcher) (raises : option exn) : op_state :=
    match w_status w with
    | Watching =>
        let (line, rest) := readline (w_unread w) in
        match line with
        | EmptyString => s
        | _ =>
            let thread w' summaries events := mkOp (o_point s) (o_server s) (o_dir s) (o_cli s) (Some w') summaries (o_lines s) events in
            match (let+ v := loads line in event_from_json v) with
            | Err e => thread (mkW rest (w_delivered w) (Died e)) (o_summaries s) (o_events s)
            | Ok ev =>
                let user := a_on_event (k_opts k) in
                thread
                  (mkW rest (w_delivered w ++ [ev])
                     (match (if user then raises else None) with
                      | Some e => Died e
                      | None => if is_cancel ev then Stopped else Watching
                      end))
                  (match k_op k with Preview => o_summaries s ++ summary_of ev | _ => o_summaries s end)
                  (if user then o_events s ++ [ev] else o_events s)
            end
        end
    | _ => s
    end.

  (** The arguments of the command, _stack.py:712-722. *)
  Definition op_args : list pyval := command_args (k_op k) (k_opts k) (k_sur k) ++ [VStr "--stack"; VStr (w_stack (k_sur k))].

  (** _stack.py:299-305, 417-420, 486-489, 551-554: after the command.  [up] asks for outputs and info
      within the try statement. *)
  Definition after_command (o : outcome) : point :=
    match o with
    | Returned r => match k_op k with Up => AtOutputs r | _ => AtStop (Got (mkOpResult (cm_stdout r) (cm_stderr r) None None None)) end
    | Raised e _ => AtStop (CliError e)
    | Failed e => AtStop (PyError e)
    end.

  (** One step; [None] if this cannot happen now.  _stack.py:251-312 [up], 364-429 [preview],
      469-495 [refresh], 534-560 [destroy], 833-846 [_cleanup].  Simplifications: [on_output] is called when the
      CLI has exited (while it runs, in reality; [Popen]'s [__exit__] waits for the exit if it raises);
      stopping the server and removing the directory do not fail; no KeyboardInterrupt. *)
  Definition ostep (s : op_state) (h : happening) : option op_state :=
    match h, o_point s with
    | Serve f, AtStart =>
        if serves k
        then match f with
             | None => Some (mkOp AtLog true (o_dir s) (o_cli s) (o_watcher s) (o_summaries s) (o_lines s) (o_events s))
             | Some e => Some (at_point s (Ended (PyError e)))
             end
        else Some (at_point s AtLog)
    | MakeLog f, AtLog =>
        if logs k
        then match f with
             | None => Some (mkOp AtThread (o_server s) true (o_cli s) (o_watcher s) (o_summaries s) (o_lines s) (o_events s))
             | Some e => Some (at_point s (Ended (PyError e)))
             end
        else Some (at_point s AtLaunch)
    | StartThread f, AtThread =>
        match f with
        | None => Some (mkOp AtLaunch (o_server s) (o_dir s) (o_cli s) (Some (mkW "" [] Watching)) (o_summaries s) (o_lines s) (o_events s))
        | Some e => Some (at_point s (Ended (PyError e)))
        end
    | Launch f, AtLaunch =>
        match words (non_interactive op_args), f with
        | None, _ => Some (at_point s (after_command (snd (run_cmd (fun _ => ("", "", 0%Z)) op_args (k_on_output k)))))
        | Some _, Some e => Some (at_point s (AtStop (PyError e)))
        | Some ws, None => Some (mkOp AtWait (o_server s) (o_dir s) (Live ws) (o_watcher s) (o_summaries s) (o_lines s) (o_events s))
        end
    | CliWrites chunk, p =>
        match o_cli s, o_watcher s with
        | Live ws, Some w =>
            Some (mkOp p (o_server s) (o_dir s) (Live ws) (Some (mkW (w_unread w ++ chunk)%string (w_delivered w) (w_status w)))
                    (o_summaries s) (o_lines s) (o_events s))
        | _, _ => None
        end
    | CliExits out err code, p =>
        match o_cli s with
        | Live ws => Some (mkOp p (o_server s) (o_dir s) (Exited ws out err code) (o_watcher s) (o_summaries s) (o_lines s) (o_events s))
        | _ => None
        end
    | Wait, AtWait =>
        match o_cli s with
        | Exited _ out err code =>
            let '(_, lines, o) := run_cmd (fun _ => (out, err, code)) op_args (k_on_output k) in
            Some (mkOp (after_command o) (o_server s) (o_dir s) (o_cli s) (o_watcher s) (o_summaries s) lines (o_events s))
        | _ => None
        end
    | Outputs a, AtOutputs r =>
        match a with
        | Got outs => Some (at_point s (AtInfo r outs))
        | CliError e => Some (at_point s (AtStop (CliError e)))
        | PyError e => Some (at_point s (AtStop (PyError e)))
        end
    | Info a, AtInfo r outs =>
        Some (at_point s (AtStop (Model_WsConfig.abind (asserted a)
          (fun i => Got (mkOpResult (cm_stdout r) (cm_stderr r) (Some i) (Some outs) None)))))
    | Stop, AtStop o => Some (mkOp (AtJoin o) false (o_dir s) (o_cli s) (o_watcher s) (o_summaries s) (o_lines s) (o_events s))
    | Join, AtJoin o =>
        match o_watcher s with
        | Some w => match w_status w with Watching => None | _ => Some (at_point s (AtRemove o)) end
        | None => Some (at_point s (AtRemove o))
        end
    | Timeout, AtJoin o =>
        match o_watcher s with Some _ => Some (at_point s (AtRemove o)) | None => None end
    | Remove, AtRemove o =>
        let p := match o, k_op k with
                 | Got r, Preview => Ended (preview_end (o_summaries s) r)
                 | Got r, (Refresh | Destroy) => AtSummary r
                 | o, _ => Ended o
                 end in
        Some (mkOp p (o_server s) false (o_cli s) (o_watcher s) (o_summaries s) (o_lines s) (o_events s))
    | Info a, AtSummary r =>
        Some (at_point s (Ended (Model_WsConfig.abind (asserted a)
          (fun i => Got (mkOpResult (r_stdout r) (r_stderr r) (Some i) None None)))))
    | Look raises, _ =>
        match o_watcher s with Some w => Some (look s w raises) | None => None end
    | _, _ => None
    end.

  Fixpoint operation (s : op_state) (hs : list happening) : option op_state :=
    match hs with
    | [] => Some s
    | h :: hs' => match ostep s h with Some s' => operation s' hs' | None => None end
    end.
End Operation.
