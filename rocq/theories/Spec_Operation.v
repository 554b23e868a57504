(** Specifications for the operations of a stack (C88). *)
From Verif Require Import Base PyVal Model_Urn Model_Cmd Spec_Cmd Model_Argv Model_Events Spec_Events Model_WsConfig Model_WsState Model_Operation.
Open Scope string_scope.
Open Scope list_scope.

(** [a] happened in this order during [b], among other things. *)
Inductive in_order {A} : list A -> list A -> Prop :=
| IO_nil l : in_order [] l
| IO_take x a b : in_order a b -> in_order (x :: a) (x :: b)
| IO_skip x a b : in_order a b -> in_order a (x :: b).

(** How the CLI ended, each time it was run. *)
Fixpoint exits (hs : list happening) : list (string * string * Z) :=
  match hs with
  | [] => []
  | CliExits out err code :: hs' => (out, err, code) :: exits hs'
  | _ :: hs' => exits hs'
  end.

(** The text captured of an output: its lines less the white space at their ends. *)
Definition captured (out : string) (ts : list string) : Prop := exists ls, lines_of out ls /\ Forall2 trimmed ls ts.

(** The CLI's writes to the event log and the watching thread's looks at it. *)
Fixpoint log_ops (hs : list happening) : list wop :=
  match hs with
  | [] => []
  | CliWrites c :: hs' => Write c :: log_ops hs'
  | Look _ :: hs' => Poll :: log_ops hs'
  | _ :: hs' => log_ops hs'
  end.

(** The log consists of these events, as the CLI writes them. *)
Definition logged (loads : string -> res pyval) (hs : list happening) (gs : list go_event) : Prop :=
  exists ls, Forall one_line ls /\ written (log_ops hs) = text_of ls /\ Forall2 (fun l g => loads (l ++ nl)%string = Ok (go_json g)) ls gs.
(** Steps are of the kinds the Python side knows. *)
Definition known_steps (g : go_event) : Prop := forall s, In s (steps_of (ge_payload g)) -> In (gp_op s) step_ops.
(** The user's callback for events does not raise. *)
Definition calm (hs : list happening) : Prop := forall e, ~ In (Look (Some e)) hs.

(** Everything up to the event that ends the log. *)
Inductive whole_log : list go_event -> list go_event -> Prop :=
| WL_end g gs : ge_payload g = GoCancel -> whole_log (g :: gs) [g]
| WL_next g gs gs' : ge_payload g <> GoCancel -> whole_log gs gs' -> whole_log (g :: gs) (g :: gs').
(** The first summary in the log. *)
Inductive first_summary : list go_event -> dict Z -> Prop :=
| FS_here g gs b n changes packs : ge_payload g = GoSummary b n changes packs -> first_summary (g :: gs) changes
| FS_next g gs changes : (forall b n c p, ge_payload g <> GoSummary b n c p) -> first_summary gs changes -> first_summary (g :: gs) changes.

(** An inline program is to be run: [up] and [preview] with a program. *)
Definition runs_inline (k : call) : Prop :=
  (k_op k = Up \/ k_op k = Preview) /\ (a_program (k_opts k) = true \/ w_program (k_sur k) = true).
(** The log could be set up. *)
Definition set_up (hs : list happening) : Prop := forall e, ~ In (MakeLog (Some e)) hs /\ ~ In (StartThread (Some e)) hs.

(** [c] is the first summary among these events, as decoded. *)
Inductive first_seen : list eval -> eval -> Prop :=
| FSE_here ev evs cls l c : attr ev "summary_event" = Some (EObj cls l) -> attr (EObj cls l) "resource_changes" = Some c -> first_seen (ev :: evs) c
| FSE_next ev evs c : (forall cls l, attr ev "summary_event" <> Some (EObj cls l)) -> first_seen evs c -> first_seen (ev :: evs) c.
Definition none_seen (evs : list eval) : Prop := forall ev cls l, In ev evs -> attr ev "summary_event" <> Some (EObj cls l).

(** What a call may end with, given what happened ([hs]) and the events the watching thread has
    read ([evs]). *)
Inductive explained (k : call) (hs : list happening) (evs : list eval) : answer op_result -> Prop :=
(** Results: the CLI was run once and succeeded; afterwards, [outputs()] and [info()] gave these. *)
| X_up out err ts outs i : k_op k = Up -> exits hs = [(out, err, 0%Z)] -> captured out ts ->
    in_order [CliExits out err 0; Outputs (Got outs); Info (Got (Some i))] hs ->
    explained k hs evs (Got (mkOpResult (String.concat nl ts) err (Some i) (Some outs) None))
| X_other out err ts i : k_op k = Refresh \/ k_op k = Destroy -> exits hs = [(out, err, 0%Z)] -> captured out ts ->
    in_order [CliExits out err 0; Info (Got (Some i))] hs ->
    explained k hs evs (Got (mkOpResult (String.concat nl ts) err (Some i) None None))
| X_preview out err ts c : k_op k = Preview -> exits hs = [(out, err, 0%Z)] -> captured out ts -> first_seen evs c ->
    explained k hs evs (Got (mkOpResult (String.concat nl ts) err None None (Some c)))
(** The CLI failed. *)
| X_failed out err code ts e : exits hs = [(out, err, code)] -> code <> 0%Z -> captured out ts -> classified err (String.concat nl ts) e ->
    explained k hs evs (CliError e)
(** [on_output] raised for a line, and for none before. *)
| X_on_output f out err code before t after e : k_on_output k = Some f -> exits hs = [(out, err, code)] -> captured out (before ++ t :: after) ->
    (forall x, In x before -> f x = None) -> f t = Some e -> explained k hs evs (PyError e)
(** The CLI succeeded, but [outputs()] or [info()] failed or there was no update to show. *)
| X_asking out err h a : k_op k <> Preview -> exits hs = [(out, err, 0%Z)] -> In h hs ->
    (h = Outputs (CliError a) /\ k_op k = Up \/ h = Info (CliError a)) -> explained k hs evs (CliError a)
| X_asking_py out err h e : k_op k <> Preview -> exits hs = [(out, err, 0%Z)] -> In h hs ->
    (h = Outputs (PyError e) /\ k_op k = Up \/ h = Info (PyError e) \/ h = Info (Got None) /\ e = Exn "AssertionError" "") ->
    explained k hs evs (PyError e)
(** A preview that succeeded, of which no summary was seen in time. *)
| X_unseen out err : k_op k = Preview -> exits hs = [(out, err, 0%Z)] -> In Timeout hs \/ none_seen evs ->
    explained k hs evs (PyError (Exn "RuntimeError" "summary event never found"))
(** The CLI was not run. *)
| X_setup h e : exits hs = [] -> In h hs -> In h [Serve (Some e); MakeLog (Some e); StartThread (Some e); Launch (Some e)] ->
    explained k hs evs (PyError e)
| X_arguments : exits hs = [] -> explained k hs evs (PyError (Exn "TypeError" "expected str, bytes or os.PathLike object, not int")).
(** The events read so far. *)
Definition seen (s : op_state) : list eval := match o_watcher s with Some w => w_delivered w | None => [] end.
