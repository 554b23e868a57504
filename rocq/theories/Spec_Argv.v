(** Specification of the CLI's command lines (C56). *)
From Coq Require Import DecimalString.
From Verif Require Import Base PyVal Model_Argv.
Open Scope string_scope.

(** How the CLI reads its flags: a flag that takes a value takes the next word, whatever it
    is; other flags are switches; [--client=v] is a flag with its value.  A word that is none
    of these is an error. *)
Definition valued : list string :=
  ["--message"; "--replace"; "--target"; "--policy-pack"; "--policy-pack-config"; "--parallel"; "--color"; "--verbose";
   "--tracing"; "--plan"; "--save-plan"; "--exec-kind"; "--event-log"; "--stack"].
Definition switches : list string :=
  ["--yes"; "--skip-preview"; "--expect-no-changes"; "--diff"; "--target-dependents"; "--logflow"; "--logtostderr"; "--debug";
   "--non-interactive"].
Definition among (w : string) (l : list string) : bool := existsb (String.eqb w) l.
Definition equals_form (w : string) : option (string * string) :=
  if String.prefix "--client=" w then Some ("--client", String.substring 9 (String.length w - 9) w) else None.

Fixpoint flags (ws : list string) : option (list (string * string)) :=
  match ws with
  | [] => Some []
  | w :: ws' =>
      if among w valued then
        match ws' with
        | [] => None
        | v :: ws'' => option_map (cons (w, v)) (flags ws'')
        end
      else if among w switches then option_map (cons (w, "true")) (flags ws')
      else match equals_form w with
           | Some f => option_map (cons f) (flags ws')
           | None => None
           end
  end.
(** The values given to a flag, in order. *)
Definition values (f : string) (l : list (string * string)) : list string :=
  map snd (filter (fun p => String.eqb f (fst p)) l).

Definition word_of (c : command) : string :=
  match c with Up => "up" | Preview => "preview" | Refresh => "refresh" | Destroy => "destroy" end.
(** The options a method does not have. *)
Definition lacks (c : command) (f : string) : bool :=
  match c with
  | Up => among f ["--save-plan"]
  | Preview => among f ["--yes"; "--skip-preview"; "--plan"]
  | Refresh => among f ["--plan"; "--save-plan"; "--client"; "--policy-pack"; "--policy-pack-config"; "--diff"; "--target-dependents"; "--replace"]
  | Destroy => among f ["--plan"; "--save-plan"; "--client"; "--policy-pack"; "--policy-pack-config"; "--diff"; "--replace"; "--expect-no-changes"]
  end.

Definition text (o : option string) : list string := match o with Some "" | None => [] | Some s => [s] end.
Definition all_of (o : option (list string)) : list string := match o with Some l => l | None => [] end.
Definition switch (b : bool) : list string := if b then ["true"] else [].
Definition switch_arg (o : option bool) : list string := match o with Some true => ["true"] | _ => [] end.
Definition number (o : option Z) : list string :=
  match o with None | Some 0%Z => [] | Some n => [NilEmpty.string_of_int (Z.to_int n)] end.

(** The values a method call asks for, flag by flag. *)
Definition inline (c : command) (o : op_options) (w : surroundings) : bool :=
  match c with Up | Preview => a_program o || w_program w | _ => w_program w end.
Definition table (c : command) (o : op_options) (w : surroundings) : list (string * list string) :=
  [("--yes", ["true"]); ("--skip-preview", ["true"]);
   ("--message", text (a_message o)); ("--expect-no-changes", switch_arg (a_expect_no_changes o)); ("--diff", switch_arg (a_diff o));
   ("--replace", all_of (a_replace o)); ("--target", all_of (a_target o));
   ("--policy-pack", all_of (a_policy_packs o)); ("--policy-pack-config", all_of (a_policy_pack_configs o));
   ("--target-dependents", switch_arg (a_target_dependents o)); ("--parallel", number (a_parallel o));
   ("--color", text (a_color o)); ("--logflow", switch_arg (a_log_flow o)); ("--verbose", number (a_log_verbosity o));
   ("--logtostderr", switch_arg (a_log_to_std_err o)); ("--tracing", text (a_tracing o)); ("--debug", switch_arg (a_debug o));
   ("--plan", match a_plan o with Some p => [p] | None => [] end);
   ("--save-plan", match a_plan o with Some p => [p] | None => [] end);
   ("--client", if inline c o w then ["127.0.0.1:" ++ NilEmpty.string_of_int (Z.to_int (w_port w))] else []);
   ("--exec-kind", [if inline c o w then "auto.inline" else "auto.local"]);
   ("--event-log", if a_on_event o || match c with Preview => true | _ => false end then [w_log w] else []);
   ("--stack", [w_stack w]); ("--non-interactive", ["true"])].
Definition asked (c : command) (o : op_options) (w : surroundings) (f : string) : list string :=
  if lacks c f then []
  else match find (fun e => String.eqb f (fst e)) (table c o w) with Some e => snd e | None => [] end.

(** The strings the caller (and the operating system) supplies. *)
Definition supplied (o : op_options) (w : surroundings) : list string :=
  (w_stack w :: w_log w :: text (a_message o) ++ all_of (a_replace o) ++ all_of (a_target o) ++ all_of (a_policy_packs o) ++
   all_of (a_policy_pack_configs o) ++ text (a_color o) ++ text (a_tracing o) ++ match a_plan o with Some p => [p] | None => [] end)%list.
