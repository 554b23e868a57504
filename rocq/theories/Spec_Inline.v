(** Specification for inline programs (C61). *)
From Verif Require Import Base PyVal Model_Settings Model_Config Model_Inline.
Open Scope string_scope.

(** The settings are those of the request. *)
Definition own_settings (r : run_request) (setting : skey -> pyval) : Prop :=
  setting KProject = VStr (u_project r) /\ setting KStack = VStr (u_stack r) /\
  setting KMonitor = VStr (u_monitor r) /\
  setting KEngine = match u_args r with e :: _ => if String.eqb e "" then VNone else VStr e | [] => VNone end /\
  setting KParallel = VNum (u_parallel r) /\ setting KDryRun = VBool (u_dry r) /\
  setting KOrganization = VStr (u_organization r).
(** Each key has the value the program itself set last, or else the request's. *)
Definition own_config (r : run_request) (sets : dict pyval) (config : dict pyval) : Prop :=
  forall k, dget config k = match dget sets k with Some v => Some v | None => option_map VStr (dget (u_config r) k) end.

(** What the CLI is told about a program that ended: nothing on success and when the engine
    went away, the message otherwise, marked with what kind of failure it was. *)
Inductive reported (unavailable : exn -> bool) : res unit -> string -> Prop :=
| R_success : reported unavailable (Ok tt) ""
| R_run_error m : reported unavailable (Err (Exn "RunError" m)) m
| R_gone m : unavailable (Exn "RpcError" m) = true -> reported unavailable (Err (Exn "RpcError" m)) ""
| R_rpc m : unavailable (Exn "RpcError" m) = false -> reported unavailable (Err (Exn "RpcError" m)) ("RPC error: " ++ m)
| R_program cls m : cls <> "RunError" -> cls <> "RpcError" ->
    reported unavailable (Err (Exn cls m)) ("python inline source runtime error: " ++ m).
