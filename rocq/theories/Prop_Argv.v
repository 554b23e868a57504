(** C56: command lines contain exactly the requested options. *)
From Coq Require Import DecimalString DecimalZ.
From Verif Require Import Base PyVal Model_Cmd Spec_Cmd Proof_Cmd Model_Argv Spec_Argv Proof_Argv.
Open Scope string_scope.

(** For every operation, all options, stack names, ports and log files: the CLI is
    run with the operation's word and flags it can read, and every flag has exactly the
    values asked for, in order; in particular [--stack] has the stack's name and
    [--non-interactive] is given once.
    Partial: no verbosity is asked for, and no supplied string is
    "--non-interactive". *)
Theorem C56_flags_partial pulumi c o w cb :
  a_log_verbosity o = None \/ a_log_verbosity o = Some 0%Z ->
  ~ In "--non-interactive" (supplied o w) ->
  exists ws given, fst (fst (operate pulumi c o w cb)) = Some (word_of c :: ws) /\
    flags ws = Some given /\ forall f, values f given = asked c o w f.
Proof. intros H. apply operate_spec. now destruct H as [-> | ->]. Qed.
Print Assumptions C56_flags_partial.

Definition nothing : op_options :=
  mkOpts None None None None None None None None None None false false None None None None None None.

(** The number a [--parallel] value stands for can be read back. *)
Theorem C56_numbers n m : number (Some n) = number (Some m) -> n = m.
Proof.
  assert (I : forall a b, NilEmpty.string_of_int (Z.to_int a) = NilEmpty.string_of_int (Z.to_int b) -> a = b).
  { intros a b E. assert (K := NilEmpty.isi (Z.to_int a)). rewrite E, NilEmpty.isi in K. injection K as K.
    rewrite <- (DecimalZ.of_to a), <- (DecimalZ.of_to b). now rewrite K. }
  destruct n, m; intros H; try discriminate H; auto; apply I; exact (f_equal (hd "") H).
Qed.
Print Assumptions C56_numbers.

(** Asking for any verbosity makes every operation fail before the CLI is run. *)
Theorem C56_verbosity_refuted : forall pulumi c w cb n, (n <> 0)%Z -> 
  exists e, operate pulumi c (mkOpts None None None None None None None None None None false false None None (Some n) None None None) w cb = (None, [], Failed e).
Proof.
  intros pulumi c w cb n Hn. apply Z.eqb_neq in Hn. unfold operate, stack_run, run_cmd, command_args, up_args, preview_args, refresh_args, destroy_args, parse_extra_args.
  eexists. destruct c; cbn [truthy_int truthy_str truthy_bool a_log_verbosity a_message a_expect_no_changes a_diff a_replace a_target a_policy_packs a_policy_pack_configs
    a_target_dependents a_parallel a_color a_log_flow a_log_to_std_err a_tracing a_debug each app kwargs_refresh kwargs_destroy int_arg];
    rewrite Hn; cbn [negb app]; unfold non_interactive; destruct (existsb _ _); reflexivity.
Qed.
Print Assumptions C56_verbosity_refuted.

(** An update whose message is "--non-interactive" is not run non-interactively. *)
Theorem C56_message_refuted : exists pulumi o w ws given,
  fst (fst (operate pulumi Up o w None)) = Some ("up" :: ws) /\ flags ws = Some given /\
  values "--message" given = ["--non-interactive"] /\ values "--non-interactive" given = [].
Proof.
  exists (fun _ => ("", "", 0%Z)), (mkOpts None (Some "--non-interactive") None None None None None None None None false false None None None None None None),
    (mkSur false "dev" 0 "log"). eexists. eexists. repeat split.
Qed.
Print Assumptions C56_message_refuted.

Definition many : op_options :=
  mkOpts (Some 4%Z) (Some "--target") (Some ["u1"; "u2"]) (Some ["p"]) None (Some true) (Some false) None (Some []) (Some "") true true (Some "plan.json")
    (Some true) None (Some true) (Some "file:t") (Some true).
Example C56_satisfiable :
  ~ In "--non-interactive" (supplied many (mkSur false "org/p/dev" 50051 "/tmp/x/eventlog.txt")) /\
  fst (fst (operate (fun _ => ("", "", 0%Z)) Up many (mkSur false "org/p/dev" 50051 "/tmp/x/eventlog.txt") None)) =
  Some ["up"; "--yes"; "--skip-preview"; "--message"; "--target"; "--expect-no-changes"; "--target"; "u1"; "--target"; "u2"; "--policy-pack"; "p";
        "--parallel"; "4"; "--logflow"; "--logtostderr"; "--tracing"; "file:t"; "--debug"; "--plan"; "plan.json"; "--client=127.0.0.1:50051";
        "--exec-kind"; "auto.inline"; "--event-log"; "/tmp/x/eventlog.txt"; "--stack"; "org/p/dev"; "--non-interactive"].
Proof. split; [cbn; intros K; decompose [or] K; discriminate || contradiction|reflexivity]. Qed.
