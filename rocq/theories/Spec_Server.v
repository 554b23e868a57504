(** Specifications for concurrent requests (C50). *)
From Verif Require Import Base PyVal Model_Settings Model_Config Model_Server.
Open Scope string_scope.

(** The view shows the request's own settings and configuration. *)
Definition shows (engine : string) (r : request) (v : view) : Prop :=
  vw_setting v KProject = (if String.eqb (rq_project r) "" then VNone else VStr (rq_project r)) /\
  vw_setting v KStack = (if String.eqb (rq_stack r) "" then VNone else VStr (rq_stack r)) /\
  vw_setting v KMonitor = (if String.eqb (rq_monitor r) "" then VNone else VStr (rq_monitor r)) /\
  vw_setting v KEngine = VStr engine /\
  vw_setting v KDryRun = VBool (rq_dry r) /\
  (forall k, dget (vw_config v) k = option_map VStr (dget (rq_config r) k)) /\
  vw_secrets v = rq_secret_keys r.

(** A request is executing user code. *)
Definition executing (s : server) (i : nat) : Prop :=
  exists h, nth_error (v_handlers s) i = Some h /\ h_st h = HRunning.
Definition waiting (s : server) (i : nat) : Prop :=
  exists h, nth_error (v_handlers s) i = Some h /\ h_st h = HWaiting.
Definition ended (s : server) (i : nat) (r : res unit) : Prop :=
  exists h, nth_error (v_handlers s) i = Some h /\ h_st h = HEnded r.
(** A request that has been received and neither executes nor has ended. *)
Definition pending (s : server) (i : nat) : Prop :=
  exists h, nth_error (v_handlers s) i = Some h /\ (h_st h = HNew \/ h_st h = HWaiting).
(** Request [i] is [r]. *)
Definition request_is (s : server) (i : nat) (r : request) : Prop :=
  exists h, nth_error (v_handlers s) i = Some h /\ h_req h = r.
