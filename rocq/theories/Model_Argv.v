(** automation/_stack.py: the command lines of up, preview, refresh and destroy *)
From Coq Require Import DecimalString.
From Verif Require Import Base PyVal Model_Cmd.
Open Scope string_scope.

(** [str(n)] of an integer. *)
Definition str_int (n : Z) : string := NilEmpty.string_of_int (Z.to_int n).

(** The keyword arguments of the four methods, _stack.py:199-221, 314-335, 431-446,
    497-512.  [refresh] and [destroy] have fewer: see [kwargs_refresh], [kwargs_destroy].
    Simplification: [on_event] and [program] are functions, here only given or not;
    [on_output] is a parameter of [run_cmd]; [show_secrets] concerns later commands. *)
Record op_options : Type := mkOpts {
  a_parallel : option Z; a_message : option string; a_target : option (list string);
  a_policy_packs : option (list string); a_policy_pack_configs : option (list string);
  a_expect_no_changes : option bool; a_diff : option bool; a_target_dependents : option bool;
  a_replace : option (list string); a_color : option string;
  a_on_event : bool; a_program : bool; a_plan : option string;
  a_log_flow : option bool; a_log_verbosity : option Z; a_log_to_std_err : option bool;
  a_tracing : option string; a_debug : option bool }.

(** Truth values of optional arguments, as in [if message:]. *)
Definition truthy_str (o : option string) : bool := match o with Some (String _ _) => true | _ => false end.
Definition truthy_bool (o : option bool) : bool := match o with Some b => b | None => false end.
Definition truthy_int (o : option Z) : bool := match o with Some n => negb (Z.eqb n 0) | None => false end.
Definition str_arg (o : option string) : pyval := match o with Some s => VStr s | None => VNone end.
Definition int_arg (o : option Z) : pyval := match o with Some n => VNum n | None => VNone end.
Definition each (flag : string) (o : option (list string)) : list pyval :=
  match o with Some l => flat_map (fun x => [VStr flag; VStr x]) l | None => [] end.

(** _stack.py:728-781 [_parse_extra_args]. *)
Definition parse_extra_args (o : op_options) : list pyval :=
  ((if truthy_str (a_message o) then [VStr "--message"; str_arg (a_message o)] else []) ++
   (if truthy_bool (a_expect_no_changes o) then [VStr "--expect-no-changes"] else []) ++
   (if truthy_bool (a_diff o) then [VStr "--diff"] else []) ++
   each "--replace" (a_replace o) ++
   each "--target" (a_target o) ++
   each "--policy-pack" (a_policy_packs o) ++
   each "--policy-pack-config" (a_policy_pack_configs o) ++
   (if truthy_bool (a_target_dependents o) then [VStr "--target-dependents"] else []) ++
   (if truthy_int (a_parallel o) then [VStr "--parallel"; VStr (match a_parallel o with Some n => str_int n | None => "None" end)] else []) ++
   (if truthy_str (a_color o) then [VStr "--color"; str_arg (a_color o)] else []) ++
   (if truthy_bool (a_log_flow o) then [VStr "--logflow"] else []) ++
   (if truthy_int (a_log_verbosity o) then [VStr "--verbose"; int_arg (a_log_verbosity o)] else []) ++
   (if truthy_bool (a_log_to_std_err o) then [VStr "--logtostderr"] else []) ++
   (if truthy_str (a_tracing o) then [VStr "--tracing"; str_arg (a_tracing o)] else []) ++
   (if truthy_bool (a_debug o) then [VStr "--debug"] else []))%list.

(** The stack and its workspace, and what the operating system chooses: the port of the
    language server and the name of the event log. *)
Record surroundings : Type := mkSur { w_program : bool; w_stack : string; w_port : Z; w_log : string }.

(** _stack.py:263-285, 376-398: the language server of an inline program. *)
Definition client_args (prog : bool) (w : surroundings) : list pyval :=
  if prog then [VStr ("--client=127.0.0.1:" ++ str_int (w_port w))] else [].
(** _stack.py:42-44 [ExecKind], 287, 399, 473-474, 538-539. *)
Definition kind_args (prog : bool) : list pyval :=
  [VStr "--exec-kind"; VStr (if prog then "auto.inline" else "auto.local")].

(** _stack.py:251-293 [up], up to the command. *)
Definition up_args (o : op_options) (w : surroundings) : list pyval :=
  let prog := a_program o || w_program w in
  ([VStr "up"; VStr "--yes"; VStr "--skip-preview"] ++ parse_extra_args o ++
   match a_plan o with Some p => [VStr "--plan"; VStr p] | None => [] end ++
   client_args prog w ++ kind_args prog ++
   (if a_on_event o then [VStr "--event-log"; VStr (w_log w)] else []))%list.
(** _stack.py:364-402 [preview]: the event log is always kept. *)
Definition preview_args (o : op_options) (w : surroundings) : list pyval :=
  let prog := a_program o || w_program w in
  ([VStr "preview"] ++ parse_extra_args o ++
   match a_plan o with Some p => [VStr "--save-plan"; VStr p] | None => [] end ++
   client_args prog w ++ kind_args prog ++
   [VStr "--event-log"; VStr (w_log w)])%list.
(** _stack.py:431-446: [refresh] has no other arguments than these. *)
Definition kwargs_refresh (o : op_options) : op_options :=
  mkOpts (a_parallel o) (a_message o) (a_target o) None None (a_expect_no_changes o) None None None (a_color o)
    (a_on_event o) false None (a_log_flow o) (a_log_verbosity o) (a_log_to_std_err o) (a_tracing o) (a_debug o).
(** _stack.py:469-481 [refresh]. *)
Definition refresh_args (o : op_options) (w : surroundings) : list pyval :=
  ([VStr "refresh"; VStr "--yes"; VStr "--skip-preview"] ++ parse_extra_args (kwargs_refresh o) ++ kind_args (w_program w) ++
   (if a_on_event o then [VStr "--event-log"; VStr (w_log w)] else []))%list.
(** _stack.py:497-512: [destroy] has no other arguments than these. *)
Definition kwargs_destroy (o : op_options) : op_options :=
  mkOpts (a_parallel o) (a_message o) (a_target o) None None None None (a_target_dependents o) None (a_color o)
    (a_on_event o) false None (a_log_flow o) (a_log_verbosity o) (a_log_to_std_err o) (a_tracing o) (a_debug o).
(** _stack.py:534-546 [destroy]. *)
Definition destroy_args (o : op_options) (w : surroundings) : list pyval :=
  ([VStr "destroy"; VStr "--yes"; VStr "--skip-preview"] ++ parse_extra_args (kwargs_destroy o) ++ kind_args (w_program w) ++
   (if a_on_event o then [VStr "--event-log"; VStr (w_log w)] else []))%list.

Inductive command : Type := Up | Preview | Refresh | Destroy.
Definition command_args (c : command) : op_options -> surroundings -> list pyval :=
  match c with Up => up_args | Preview => preview_args | Refresh => refresh_args | Destroy => destroy_args end.

(** _stack.py:712-725 [Stack._run_pulumi_cmd_sync]; _local_workspace.py:190-192: a
    [LocalWorkspace] adds no arguments. *)
Definition stack_run (pulumi : program) (args : list pyval) (w : surroundings) cb :=
  run_cmd pulumi (args ++ [VStr "--stack"; VStr (w_stack w)])%list cb.
Definition operate (pulumi : program) (c : command) (o : op_options) (w : surroundings) cb :=
  stack_run pulumi (command_args c o w) w cb.
