(** provider/server.py: concurrent Construct and Call requests *)
From Verif Require Import Base PyVal Model_Settings Model_Config.
Open Scope string_scope.

(** What both requests carry besides their inputs. *)
Record request : Type := mkRequest {
  rq_project : string; rq_stack : string; rq_parallel : Z; rq_monitor : string; rq_dry : bool;
  rq_config : dict string; rq_secret_keys : list string }.

(** server.py:364-369 [_empty_as_none], [_zero_as_none]; the settings of a
    request, server.py:85-92, 214-221.  A stub is represented by its address. *)
Definition empty_as_none (s : string) : pyval := if String.eqb s "" then VNone else VStr s.
Definition zero_as_none (z : Z) : pyval := if Z.eqb z 0 then VNone else VNum z.
Definition request_args (engine : string) (r : request) : sargs :=
  mkSargs (empty_as_none (rq_project r)) (empty_as_none (rq_stack r)) (empty_as_none (rq_monitor r)) (VStr engine)
    (zero_as_none (rq_parallel r)) (VBool (rq_dry r)) VNone VNone.

(** asyncio.Lock (Python 3.7-3.11): [_locked] and the queue [_waiters] of
    futures; a future may be pending, have a result (woken), be cancelled, or
    have a result while its task has been cancelled since. *)
Inductive wst : Type := WPending | WWoken | WCancelled | WWokenCancelled.
(** [_wake_up_first]: the first waiter, if its future is not done. *)
Definition wake_first (ws : list (nat * wst)) : list (nat * wst) :=
  match ws with (i, WPending) :: ws' => (i, WWoken) :: ws' | _ => ws end.
Definition all_cancelled (ws : list (nat * wst)) : bool :=
  forallb (fun w => match snd w with WCancelled => true | _ => false end) ws.
Definition unqueue (i : nat) (ws : list (nat * wst)) : list (nat * wst) :=
  filter (fun w => negb (Nat.eqb (fst w) i)) ws.
Definition cancel_waiter (i : nat) (ws : list (nat * wst)) : list (nat * wst) :=
  map (fun w => if Nat.eqb (fst w) i then (fst w, match snd w with WPending => WCancelled | WWoken => WWokenCancelled | x => x end) else w) ws.

(** A request's handler. *)
Inductive hst : Type := HNew | HWaiting | HRunning | HEnded (r : res unit).
Record handler : Type := mkHandler { h_req : request; h_ctx : nat; h_st : hst }.

(** What code can read from its context. *)
Record view : Type := mkView { vw_setting : skey -> pyval; vw_config : dict pyval; vw_secrets : list string }.
Definition read_view (ss : sstate) (cs : cstate) (c : nat) : view :=
  mkView (sget ss c) (dict_at cs (c_loc (ctx_at cs c))) (c_secrets (ctx_at cs c)).

(** The server process.  [v_tasks]: the background tasks user code has started,
    each with the request it belongs to and its context; [v_unhandled]:
    RPC_MANAGER.unhandled_exception; histories: what was read by which request's
    code, which requests' RPCs failed, and which requests' user code returned. *)
Record server : Type := mkServer {
  v_locked : bool;
  v_waiters : list (nat * wst);
  v_handlers : list handler;
  v_tasks : list (nat * nat);
  v_settings : sstate;
  v_conf : cstate;
  v_unhandled : option exn;
  v_seen : list (nat * view);
  v_failed : list (nat * exn);
  v_returned : list nat
}.

Section Server.
  Variable engine : string.
  Variable legacy_env : bool.

  Definition server_start : server :=
    mkServer false [] [] [] (simport legacy_env) cinit None [] [] [].

  Definition set_handler (l : list handler) (i : nat) (st : hst) : list handler :=
    match nth_error l i with
    | Some h => upd l i (mkHandler (h_req h) (h_ctx h) st)
    | None => l
    end.

  (** server.py:71-96: the lock is held; options and configuration are reset in
      the handler's context, before anything else can run. *)
  Definition enter (s : server) (i : nat) (h : handler) (ws : list (nat * wst)) : server :=
    mkServer true ws (set_handler (v_handlers s) i HRunning) (v_tasks s)
      (settings_init legacy_env (v_settings s) (h_ctx h) (request_args engine (h_req h)))
      (set_all_config (v_conf s) (h_ctx h) (rq_config (h_req h)) (Some (rq_secret_keys (h_req h))))
      (v_unhandled s) (v_seen s) (v_failed s) (v_returned s).
  Definition with_waiters (s : server) (ws : list (nat * wst)) (hs : list handler) : server :=
    mkServer (v_locked s) ws hs (v_tasks s) (v_settings s) (v_conf s) (v_unhandled s) (v_seen s) (v_failed s) (v_returned s).
  (** server.py:72-75: the finally clause releases the lock. *)
  Definition leave (s : server) (i : nat) (r : res unit) (returned : list nat) : server :=
    mkServer false (wake_first (v_waiters s)) (set_handler (v_handlers s) i (HEnded r)) (v_tasks s)
      (v_settings s) (v_conf s) (v_unhandled s) (v_seen s) (v_failed s) returned.

  Definition handler_at (s : server) (i : nat) (h : handler) (st : hst) : Prop :=
    nth_error (v_handlers s) i = Some h /\ h_st h = st.
  (** The context a request's code runs in: the handler's own, or a background
      task's. *)
  Definition runs_in (s : server) (i c : nat) : Prop :=
    (exists h, handler_at s i h HRunning /\ c = h_ctx h) \/ In (i, c) (v_tasks s).

  (** One step: code between two awaits.  Simplifications: user code does not
      itself change settings or configuration; what [wait_for_rpcs]
      (Model_RpcManager.v) does is reduced to raising the recorded exception. *)
  Inductive server_step (s : server) : server -> Prop :=
  | v_arrive r : wf_dict (rq_config r) ->         (* gRPC starts a task; a map has distinct keys *)
      server_step s (mkServer (v_locked s) (v_waiters s)
        (v_handlers s ++ [mkHandler r (length (s_ctxs (v_conf s))) HNew])%list (v_tasks s)
        (sstep legacy_env (v_settings s) (STask 0)) (copy_ctx (v_conf s) 0) (v_unhandled s) (v_seen s) (v_failed s) (v_returned s))
  | v_acquire i h : handler_at s i h HNew -> v_locked s = false -> all_cancelled (v_waiters s) = true ->
      server_step s (enter s i h (v_waiters s))
  | v_queue i h : handler_at s i h HNew -> v_locked s || negb (all_cancelled (v_waiters s)) = true ->
      server_step s (with_waiters s (v_waiters s ++ [(i, WPending)])%list (set_handler (v_handlers s) i HWaiting))
  | v_woken i h : handler_at s i h HWaiting -> In (i, WWoken) (v_waiters s) ->
      server_step s (enter s i h (unqueue i (v_waiters s)))
  | v_cancelled i h w : handler_at s i h HWaiting -> In (i, w) (v_waiters s) -> w = WCancelled \/ w = WWokenCancelled ->
      server_step s (with_waiters s
        (if v_locked s then unqueue i (v_waiters s) else wake_first (unqueue i (v_waiters s)))
        (set_handler (v_handlers s) i (HEnded (Err (Exn "CancelledError" "")))))
  | v_cancel_new i h : handler_at s i h HNew ->
      server_step s (with_waiters s (v_waiters s) (set_handler (v_handlers s) i (HEnded (Err (Exn "CancelledError" "")))))
  | v_cancel_waiting i h : handler_at s i h HWaiting ->
      server_step s (with_waiters s (cancel_waiter i (v_waiters s)) (v_handlers s))
  | v_read i c : runs_in s i c ->
      server_step s (mkServer (v_locked s) (v_waiters s) (v_handlers s) (v_tasks s) (v_settings s) (v_conf s) (v_unhandled s)
        (v_seen s ++ [(i, read_view (v_settings s) (v_conf s) c)])%list (v_failed s) (v_returned s))
  | v_spawn i c : runs_in s i c ->
      server_step s (mkServer (v_locked s) (v_waiters s) (v_handlers s) (v_tasks s ++ [(i, length (s_ctxs (v_conf s)))])%list
        (sstep legacy_env (v_settings s) (STask c)) (copy_ctx (v_conf s) c) (v_unhandled s) (v_seen s) (v_failed s) (v_returned s))
  | v_rpc_fails i c e : runs_in s i c ->                            (* rpc_manager.py:70-77 *)
      server_step s (mkServer (v_locked s) (v_waiters s) (v_handlers s) (v_tasks s) (v_settings s) (v_conf s)
        (match v_unhandled s with None => Some e | x => x end) (v_seen s) (v_failed s ++ [(i, e)])%list (v_returned s))
  | v_raise i h e : handler_at s i h HRunning ->                    (* user code raises, or is cancelled *)
      server_step s (leave s i (Err e) (v_returned s))
  | v_return i h : handler_at s i h HRunning ->                     (* server.py:106-116, 231-241 *)
      server_step s (leave s i (match v_unhandled s with Some e => Err e | None => Ok tt end) (v_returned s ++ [i])%list).

  Inductive server_run : server -> Prop :=
  | run_start : server_run server_start
  | run_step s s' : server_run s -> server_step s s' -> server_run s'.
End Server.
