(** Independent specification of starting a program and reporting its end
    (C83-C85). *)
From Verif Require Import Base PyVal Model_Config Spec_Config Model_Settings Model_RpcManager Spec_RpcManager Model_Host.
Open Scope string_scope.
Open Scope list_scope.

(** A text that does not start with a minus sign. *)
Definition plain (s : string) : Prop := forall rest, s <> String "-" rest.

(** A setting that the request leaves empty is not set. *)
Definition setting (s : string) (v : pyval) : Prop := (s = "" /\ v = VNone) \/ (s <> "" /\ v = VStr s).

(** The last value given to a variable in a list of them; none if there is
    none. *)
Inductive last_value (l : list (string * string)) (k : string) : option string -> Prop :=
| Lv_some l1 v l2 : l = l1 ++ (k, v) :: l2 -> ~ In k (map fst l2) -> last_value l k (Some v)
| Lv_none : ~ In k (map fst l) -> last_value l k None.

(** [asked environ h r w]: a program that finds [w] finds what the request [r]
    asks for. *)
Record asked (environ : list (string * string)) (h : host) (r : request) (w : view) : Prop := mkAsked {
  k_project : setting (q_project r) (sget (w_settings w) 0 KProject);
  k_stack : setting (q_stack r) (sget (w_settings w) 0 KStack);
  k_organization : setting (q_organization r) (sget (w_settings w) 0 KOrganization);
  k_monitor : setting (q_monitor r) (sget (w_settings w) 0 KMonitor);
  k_engine : setting (h_engine h) (sget (w_settings w) 0 KEngine);
  k_parallel : sget (w_settings w) 0 KParallel = VNum (q_parallel r);
  k_dry : sget (w_settings w) 0 KDryRun = VBool (q_dry r);
  k_program : w_program w = q_program r \/ q_program r = "" /\ w_program w = ".";
  k_argv : w_argv w = w_program w :: q_args r;
  k_pwd : w_chdir w = Some (q_pwd r) \/ q_pwd r = "" /\ w_chdir w = None;
  (* configuration: every key has the requested value *)
  k_config : forall k v, dget (q_config r) k = Some v ->
    get_config exec_builtins (w_env w) (w_config w) 0 k = Ok (VStr v);
  k_secret : forall k, is_config_secret (w_config w) 0 k = true <-> In k (q_secret_keys r)
}.
(** ... and a key for which neither the request nor the environment has a value
    has none. *)
Definition nothing_else (environ : list (string * string)) (r : request) (w : view) : Prop :=
  forall k e, ~ In k (map fst (q_config r)) -> variable k e ->
    ~ In e (map fst environ) -> e <> "PULUMI_CONFIG_SECRET_KEYS" ->
    get_config exec_builtins (w_env w) (w_config w) 0 k = Ok VNone.

(* ------------------------------------------------------------------ *)
(** C84. *)
Definition success (r : response) : Prop := e_error r = "" /\ e_bail r = false.
(** The program reached its end: it returned, or ended itself with code 0. *)
Definition ended_well (e : ending) : Prop :=
  e = Returned \/ e = Exited ANone \/ e = Exited (AInt 0).
(** [s'] is the state of the RPCs at the moment at which the wait for them ends. *)
Definition wait_ends (s' : mstate) : Prop :=
  exists s, reachable true s /\ mstep true s s' /\
    (forall e, m_phase s <> PRaised e) /\ (forall e, m_phase s <> PTaskRaised e) /\ m_phase s <> PReturned /\
    ((exists e, m_phase s' = PRaised e) \/ (exists e, m_phase s' = PTaskRaised e) \/ m_phase s' = PReturned).

(* ------------------------------------------------------------------ *)
(** C85: names that differ only in the case of their letters. *)
Definition small (c d : ascii) : Prop :=
  in_range "A" "Z" c /\ nat_of_ascii d = nat_of_ascii c + 32 \/ ~ in_range "A" "Z" c /\ d = c.
Definition same_letters (a b : string) : Prop :=
  exists l, Forall2 small (list_ascii_of_string a) l /\ Forall2 small (list_ascii_of_string b) l.
