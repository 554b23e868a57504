(** C58 and C63: running the CLI. *)
From Verif Require Import Base PyVal Model_Urn Model_Cmd Spec_Cmd Proof_Cmd.
Open Scope string_scope.

(** C58.  For every program, every argument list and every output: the CLI is run
    once, with the arguments and non-interactively.  When the callback (if any)
    does not raise, exit code 0 gives a result, and any other code raises the error
    that the outputs call for. *)
Theorem C58_classified (pulumi : program) (args : list string) cb :
  exists ws, In "--non-interactive" ws /\ (ws = args \/ ws = (args ++ ["--non-interactive"])%list) /\
  forall out err code, pulumi ws = (out, err, code) ->
    exists ls ts, lines_of out ls /\ Forall2 trimmed ls ts /\
    (never_raises cb ts ->
      let r := mkResult (join nl ts) err code in
      exists calls o, run_cmd pulumi (map VStr args) cb = (Some ws, calls, o) /\
        (code = 0%Z -> o = Returned r) /\
        (code <> 0%Z -> exists k, o = Raised k r /\ classified err (join nl ts) k)).
Proof.
  destruct (non_interactive_spec args) as (ws & Hw & Hi & Hor). exists ws. split; [exact Hi|]. split; [tauto|]. intros out err code Hp.
  destruct (run_spec pulumi (map VStr args) cb out err code ws Hw Hp) as (ls & ts & H1 & H2 & H3 & _).
  exists ls, ts. split; [exact H1|]. split; [exact H2|]. intros Hn r. destruct (H3 Hn) as (o & Ho & Hc). eauto.
Qed.
Print Assumptions C58_classified.

(** Exactly one error is called for. *)
Theorem C58_unique stderr stdout k k' : classified stderr stdout k -> classified stderr stdout k' -> k = k'.
Proof. apply classified_one. Qed.
Print Assumptions C58_unique.

(** A conflict is reported as such unless the stack is reported missing or existing. *)
Theorem C58_conflict stderr stdout k : classified stderr stdout k -> says_conflict stderr ->
  ~ says_missing stderr -> ~ says_exists stderr -> k = ConcurrentUpdateError.
Proof. intros H H1 H2 H3. destruct k; simpl in H; tauto. Qed.
Print Assumptions C58_conflict.

(** C63.  The callback is called once for each line of the output, in order, with
    the line less its trailing white space; the captured output is these lines
    joined by line ends.  If the callback raises, nothing is called after it, and its
    error is the outcome. *)
Theorem C63_lines (pulumi : program) (args : list string) f :
  exists ws, (ws = args \/ ws = (args ++ ["--non-interactive"])%list) /\
  forall out err code, pulumi ws = (out, err, code) ->
    exists ls ts, lines_of out ls /\ Forall2 trimmed ls ts /\
    ((forall t, In t ts -> f t = None) ->
       exists o r, run_cmd pulumi (map VStr args) (Some f) = (Some ws, ts, o) /\
         (o = Returned r \/ exists k, o = Raised k r) /\ cm_stdout r = join nl ts /\ cm_stderr r = err /\ cm_code r = code) /\
    (forall before t after e, ts = (before ++ t :: after)%list -> (forall x, In x before -> f x = None) -> f t = Some e ->
       run_cmd pulumi (map VStr args) (Some f) = (Some ws, (before ++ [t])%list, Failed e)).
Proof.
  destruct (non_interactive_spec args) as (ws & Hw & Hi & Hor). exists ws. split; [tauto|]. intros out err code Hp.
  destruct (run_spec pulumi (map VStr args) (Some f) out err code ws Hw Hp) as (ls & ts & H1 & H2 & H3 & H4).
  exists ls, ts. split; [exact H1|]. split; [exact H2|]. split.
  - intros Hn. destruct H3 as (o & Ho & H0 & Hk); [intros g t [= <-] Ht; now apply Hn|].
    exists o, (mkResult (join nl ts) err code). split; [exact Ho|]. split; [|auto].
    destruct (Z.eq_dec code 0) as [E|E]; [left; auto|right; destruct (Hk E) as (k & -> & _); eauto].
  - intros before t after e. apply H4. reflexivity.
Qed.
Print Assumptions C63_lines.

(** The lines of a text are determined by it. *)
Theorem C63_lines_unique s ls ls' : lines_of s ls -> lines_of s ls' -> ls = ls'.
Proof. apply lines_of_unique. Qed.
Print Assumptions C63_lines_unique.

(** A failing preview: two lines, one with trailing blanks, and a conflict. *)
Definition busy : program := fun ws =>
  ("Previewing update:  " ++ nl ++ "error: update failed", "error: [409] Conflict: Another update is currently in progress." ++ nl, 255%Z).
Example C58_satisfiable :
  lines_of (fst (fst (busy []))) ["Previewing update:  "; "error: update failed"] /\
  Forall2 trimmed ["Previewing update:  "; "error: update failed"] ["Previewing update:"; "error: update failed"] /\
  run_cmd busy [VStr "preview"] (Some (fun _ => None)) =
    (Some ["preview"; "--non-interactive"], ["Previewing update:"; "error: update failed"],
     Raised ConcurrentUpdateError
       (mkResult ("Previewing update:" ++ nl ++ "error: update failed")
          ("error: [409] Conflict: Another update is currently in progress." ++ nl) 255)).
Proof.
  split; [|split].
  - apply (LO_line "Previewing update:  " "error: update failed"); [intros K; simpl in K; decompose [or] K; discriminate || contradiction|].
    apply LO_last; [intros K; simpl in K; decompose [or] K; discriminate || contradiction|discriminate].
  - exact (trimmed_lines ["Previewing update:  "; "error: update failed"]).
  - vm_compute. reflexivity.
Qed.
