(** automation/_server.py: inline programs *)
From Verif Require Import Base PyVal Model_Settings Model_Config.
Open Scope string_scope.

(** language.proto [RunRequest], as far as [Run] reads it. *)
Record run_request : Type := mkRun {
  u_project : string; u_stack : string; u_monitor : string; u_args : list string; u_parallel : Z; u_dry : bool;
  u_organization : string; u_config : dict string; u_secret_keys : list string }.

(** _server.py:49-59, with Settings.__init__ (settings.py:73-90): stubs are represented by
    their addresses; an empty engine address gives no engine. *)
Definition run_settings (r : run_request) : sargs :=
  let engine := match u_args r with [] => "" | a :: _ => a end in
  mkSargs (VStr (u_project r)) (VStr (u_stack r)) (VStr (u_monitor r)) (if String.eqb engine "" then VNone else VStr engine)
    (VNum (u_parallel r)) (VBool (u_dry r)) VNone (VStr (u_organization r)).

(** _server.py:61-63 *)
Definition run_config (s : cstate) (c : nat) (r : run_request) : cstate :=
  match u_config r with
  | [] => s
  | _ => set_all_config s c (u_config r) (match u_secret_keys r with [] => None | l => Some l end)
  end.

(** What the code can read from its context [c] and from the process: [RPC_MANAGER]'s RPCs,
    each with the run that started it, and its exception. *)
Record iview : Type := mkIV {
  iv_setting : skey -> pyval; iv_config : dict pyval; iv_secrets : list string; iv_root : option nat;
  iv_rpcs : list nat; iv_unhandled : option exn }.

(** A run in progress.  Histories: whether it is the first run on its thread; what it has
    set by [set_config]; which of its RPCs failed, in order. *)
Record active : Type := mkActive {
  a_id : nat; a_req : run_request; a_thread : nat; a_tasks : list nat; a_first : bool;
  a_sets : dict pyval; a_fails : list exn }.

Record process : Type := mkProcess {
  n_settings : sstate; n_conf : cstate; n_roots : list (option nat);
  n_rpcs : list nat; n_unhandled : option exn;
  n_active : option active;
  n_next : nat;                    (* the number of runs so far *)
  n_threads : list nat;            (* the contexts of the gRPC servers' worker threads *)
  n_used : list nat;               (* those on which there was a run *)
  n_direct : bool;                 (* whether [set_config] was called so far *)
  n_ended : list (nat * list exn * res unit * string) }.
  (* the runs that ended: the RPCs that failed, how the program ended, the error in the response *)

Definition iread (s : process) (c : nat) : iview :=
  mkIV (sget (n_settings s) c) (dict_at (n_conf s) (c_loc (ctx_at (n_conf s) c))) (c_secrets (ctx_at (n_conf s) c))
    (nth c (n_roots s) None) (n_rpcs s) (n_unhandled s).

Section Inline.
  Variable legacy_env : bool.
  (** Whether a grpc.RpcError has the status UNAVAILABLE. *)
  Variable unavailable : exn -> bool.

  (** _server.py:69-93: the error in the response; the traceback is left out. *)
  Definition respond (o : res unit) : string :=
    match o with
    | Ok _ => ""
    | Err (Exn cls m as e) =>
        if String.eqb cls "RunError" then m
        else if String.eqb cls "RpcError" then if unavailable e then "" else "RPC error: " ++ m
        else "python inline source runtime error: " ++ m
    end.

  Definition process_start : process :=
    mkProcess (simport legacy_env) cinit [None] [] None None 0 [] [] false [].

  (** _server.py:46-70, runtime/settings.py:287-310 [reset_options]: options and configuration
      are set in the thread's context; [run_until_complete] starts a task, which gets a copy. *)
  Definition start_run (s : process) (c : nat) (r : run_request) : process :=
    let ss := settings_init legacy_env (n_settings s) c (run_settings r) in
    let cs := run_config (n_conf s) c r in
    let roots := upd (n_roots s) c None in
    mkProcess (sstep legacy_env ss (STask c)) (copy_ctx cs c) (roots ++ [nth c roots None])%list (n_rpcs s) (n_unhandled s)
      (Some (mkActive (n_next s) r c [length (s_ctxs cs)] (negb (nmem c (n_used s))) [] []))
      (S (n_next s)) (n_threads s) (c :: n_used s) (n_direct s) (n_ended s).

  (** stack.py:47-54 [run_pulumi_func]: [wait_for_rpcs], in the finally clause, raises the
      recorded exception. *)
  Definition outcome (unhandled : option exn) (o : res unit) : res unit :=
    match unhandled with Some e => Err e | None => o end.
  (** _server.py:94-114: whatever happened, the RPC manager is cleared (rpc_manager.py:83-87);
      the loop's tasks are gone. *)
  Definition end_run (s : process) (a : active) (o : res unit) : process :=
    mkProcess (n_settings s) (n_conf s) (n_roots s) [] None None (n_next s) (n_threads s) (n_used s) (n_direct s)
      (n_ended s ++ [(a_id a, a_fails a, o, respond (outcome (n_unhandled s) o))])%list.


  (** One step of the process.  Runs are one after another; other threads go on meanwhile.
      Simplification: programs do not themselves reset the options, and [wait_for_rpcs]
      (Model_RpcManager.v) is reduced to its result. *)
  Inductive istep (s : process) : process -> Prop :=
  (** A worker thread starts. *)
  | I_thread :
      istep s (mkProcess (sstep legacy_env (n_settings s) SThread) (new_ctx (n_conf s)) (n_roots s ++ [None])%list
        (n_rpcs s) (n_unhandled s) (n_active s) (n_next s) (length (s_ctxs (n_conf s)) :: n_threads s) (n_used s) (n_direct s) (n_ended s))
  | I_run c r : n_active s = None -> In c (n_threads s) -> wf_dict (u_config r) -> istep s (start_run s c r)
  (** The program starts a task. *)
  | I_spawn a c : n_active s = Some a -> In c (a_tasks a) ->
      istep s (mkProcess (sstep legacy_env (n_settings s) (STask c)) (copy_ctx (n_conf s) c) (n_roots s ++ [nth c (n_roots s) None])%list
        (n_rpcs s) (n_unhandled s)
        (Some (mkActive (a_id a) (a_req a) (a_thread a) (a_tasks a ++ [length (s_ctxs (n_conf s))])%list (a_first a) (a_sets a) (a_fails a)))
        (n_next s) (n_threads s) (n_used s) (n_direct s) (n_ended s))
  (** runtime/stack.py [Stack.__init__]: [set_root_resource(self)]. *)
  | I_root a c : n_active s = Some a -> In c (a_tasks a) ->
      istep s (mkProcess (n_settings s) (n_conf s) (upd (n_roots s) c (Some (a_id a))) (n_rpcs s) (n_unhandled s) (n_active s)
        (n_next s) (n_threads s) (n_used s) (n_direct s) (n_ended s))
  | I_set a c k v : n_active s = Some a -> In c (a_tasks a) ->
      istep s (mkProcess (n_settings s) (set_config (n_conf s) c k v) (n_roots s) (n_rpcs s) (n_unhandled s)
        (Some (mkActive (a_id a) (a_req a) (a_thread a) (a_tasks a) (a_first a) (dset (a_sets a) k v) (a_fails a)))
        (n_next s) (n_threads s) (n_used s) true (n_ended s))
  (** rpc_manager.py:62-81: an RPC starts; one is awaited and forgotten; one fails. *)
  | I_rpc a : n_active s = Some a ->
      istep s (mkProcess (n_settings s) (n_conf s) (n_roots s) (n_rpcs s ++ [a_id a])%list (n_unhandled s) (n_active s)
        (n_next s) (n_threads s) (n_used s) (n_direct s) (n_ended s))
  | I_awaited a l : n_active s = Some a -> (exists i, n_rpcs s = l ++ [i])%list ->
      istep s (mkProcess (n_settings s) (n_conf s) (n_roots s) l (n_unhandled s) (n_active s)
        (n_next s) (n_threads s) (n_used s) (n_direct s) (n_ended s))
  | I_rpc_fails a e : n_active s = Some a ->
      istep s (mkProcess (n_settings s) (n_conf s) (n_roots s) (n_rpcs s) (match n_unhandled s with None => Some e | x => x end)
        (Some (mkActive (a_id a) (a_req a) (a_thread a) (a_tasks a) (a_first a) (a_sets a) (a_fails a ++ [e])%list))
        (n_next s) (n_threads s) (n_used s) (n_direct s) (n_ended s))
  (** The program ends, in any way. *)
  | I_end a o : n_active s = Some a -> istep s (end_run s a o)
  (** _server.py:38-41 [on_pulumi_exit], on the main thread. *)
  | I_exit :
      istep s (mkProcess (settings_init legacy_env (n_settings s) 0 (mkSargs VNone VNone VNone VNone VNone VNone VNone VNone)) (n_conf s)
        (upd (n_roots s) 0 None) (n_rpcs s) (n_unhandled s) (n_active s) (n_next s) (n_threads s) (n_used s) (n_direct s) (n_ended s))
  (** The main thread configures things. *)
  | I_main_set k v :
      istep s (mkProcess (n_settings s) (set_config (n_conf s) 0 k v) (n_roots s) (n_rpcs s) (n_unhandled s) (n_active s)
        (n_next s) (n_threads s) (n_used s) true (n_ended s))
  | I_main_all m l :
      istep s (mkProcess (n_settings s) (set_all_config (n_conf s) 0 m l) (n_roots s) (n_rpcs s) (n_unhandled s) (n_active s)
        (n_next s) (n_threads s) (n_used s) (n_direct s) (n_ended s)).

  Inductive ireach : process -> Prop :=
  | IR_start : ireach process_start
  | IR_step s s' : ireach s -> istep s s' -> ireach s'.
End Inline.
