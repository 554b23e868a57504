(** C59 and C60: the version check; creating and selecting stacks. *)
From Verif Require Import Base PyVal Model_Urn Model_Semver Spec_Semver Proof_Semver Model_Cmd Spec_Cmd Proof_Cmd Spec_WsSettings Model_StackInit Spec_StackInit Proof_StackInit.
Open Scope string_scope.

(** C59.  For every parser of versions, every CLI whose version command succeeds and names a
    version text [t], and every environment: the workspace can be used exactly if the
    check is opted out of or [t] is a compatible version; its version is then the
    parsed one.
    Partial: the output of the version command is not blank. *)
Theorem C59_workspace_partial parse pulumi env env_vars ws calls r :
  run_cmd pulumi [VStr "version"] None = (ws, calls, Returned r) ->
  forall t, names_version (cm_stdout r) t ->
  forall v, open_workspace parse pulumi env env_vars = Opened v <->
    v = parse t /\ (opted_out env env_vars \/ exists w, parse t = Some w /\ compatible (mkVersion 3 1 0 [] "") w).
Proof. apply open_spec. Qed.
Print Assumptions C59_workspace_partial.

(** Otherwise the error says that the version is not valid; without a version in the output
    there is an error, too. *)
Theorem C59_refused parse pulumi env env_vars ws calls r :
  run_cmd pulumi [VStr "version"] None = (ws, calls, Returned r) ->
  (exists v, open_workspace parse pulumi env env_vars = Opened v) \/
  (exists m t, names_version (cm_stdout r) t /\ ~ opted_out env env_vars /\ open_workspace parse pulumi env env_vars = Refused (Exn "InvalidVersionError" m)) \/
  (all_space (cm_stdout r) /\ exists e, open_workspace parse pulumi env env_vars = Refused e).
Proof.
  intros H. unfold open_workspace. rewrite H. destruct (version_text (cm_stdout r)) as [t|e] eqn:E.
  - apply version_text_spec in E. destruct (parse_and_validate _ _ _ _) as [v|e] eqn:Ev; [left; eauto|right; left].
    assert (K := Ev). apply validate_error in K as (m & ->). exists m, t. split; [exact E|]. split; [|reflexivity].
    intros O. apply opt_out_spec in O. unfold parse_and_validate in Ev. rewrite O in Ev. discriminate.
  - right. right. apply version_text_error in E. eauto.
Qed.
Print Assumptions C59_refused.

(** A CLI that fails to print a version makes the workspace unusable even when the
    check is opted out of. *)
Theorem C59_refuted : exists parse pulumi env ws calls r e,
  run_cmd pulumi [VStr "version"] None = (ws, calls, Returned r) /\ opted_out env None /\
  open_workspace parse pulumi env None = Refused (Exn "IndexError" e).
Proof.
  exists (fun _ => None), (fun _ => ("", "", 0%Z)), [(skip_var, "true")]. do 4 eexists. repeat split. left. now left.
Qed.
Print Assumptions C59_refuted.

Definition parse_310 (s : string) : option version := if String.eqb s "3.10.0-a" then Some (mkVersion 3 10 0 [IStr "a"] "") else None.
Example C59_satisfiable :
  names_version (" v3.10.0-a" ++ nl_) "3.10.0-a" /\
  (exists v, open_workspace parse_310 (fun _ => (" v3.10.0-a" ++ nl_, "", 0%Z)) [] (Some []) = Opened (Some v) /\ compatible (mkVersion 3 1 0 [] "") v) /\
  ~ opted_out [] (Some []).
Proof.
  split; [|split].
  - apply version_text_spec. reflexivity.
  - exists (mkVersion 3 10 0 [IStr "a"] ""). split; [reflexivity|]. apply compatible_spec. split; reflexivity.
  - intros [[]|(d & [= <-] & [])].
Qed.

(** C60.  With a CLI that fails only because of the stack, [create_or_select] always gives a
    stack, which then exists and is selected; the other stacks are as before.  If the stack
    was there and selected, nothing changes. *)
Theorem C60_create_or_select c provider s n : behaves c -> reliable c -> stack_name n ->
  exists s' r, stack_init c provider s n CreateOrSelect = (s', Returned r) /\
    In n (b_stacks s') /\ b_selected s' = Some n /\
    (forall m, m <> n -> (In m (b_stacks s') <-> In m (b_stacks s))) /\
    (In n (b_stacks s) -> b_stacks s' = b_stacks s) /\
    (In n (b_stacks s) -> b_selected s = Some n -> s' = s).
Proof.
  intros B R N. cbn [stack_init]. destruct (create_cases c provider s n B N) as [(r & -> & Hi)|[(r & -> & Hi)|(k & r & _ & _ & _ & K)]]; [| |contradiction].
  - exists (mkBackend (n :: b_stacks s) (Some n)), r. cbn [b_stacks b_selected]. split; [reflexivity|]. split; [now left|]. split; [reflexivity|]. split; [|split; contradiction].
    intros m Hm. split; [intros [K|K]; [now elim Hm|exact K]|now right].
  - destruct (select_cases c s n B N) as [(r' & -> & _)|[(r' & _ & K)|(k & r' & _ & _ & _ & K)]]; [|contradiction|contradiction].
    exists (mkBackend (b_stacks s) (Some n)), r'. cbn [b_stacks b_selected]. repeat split; auto. intros _ E. destruct s as [st se]. cbn [b_stacks b_selected] in *. now rewrite E.
Qed.
Print Assumptions C60_create_or_select.

(** [create] gives a stack exactly if there was none, [select] exactly if there was one;
    their errors say so, and change nothing. *)
Theorem C60_create c provider s n : behaves c -> reliable c -> stack_name n ->
  (~ In n (b_stacks s) -> exists r, stack_init c provider s n Create = (mkBackend (n :: b_stacks s) (Some n), Returned r)) /\
  (In n (b_stacks s) -> exists r, stack_init c provider s n Create = (s, Raised StackAlreadyExistsError r)).
Proof.
  intros B R N. cbn [stack_init]. destruct (create_cases c provider s n B N) as [(r & -> & Hi)|[(r & -> & Hi)|(k & r & _ & _ & _ & K)]]; [| |contradiction];
    split; try contradiction; eauto.
Qed.
Print Assumptions C60_create.
Theorem C60_select c provider s n : behaves c -> reliable c -> stack_name n ->
  (In n (b_stacks s) -> exists r, stack_init c provider s n Select = (mkBackend (b_stacks s) (Some n), Returned r)) /\
  (~ In n (b_stacks s) -> exists r, stack_init c provider s n Select = (s, Raised StackNotFoundError r)).
Proof.
  intros B R N. cbn [stack_init]. destruct (select_cases c s n B N) as [(r & -> & Hi)|[(r & -> & Hi)|(k & r & _ & _ & _ & K)]]; [| |contradiction];
    split; try contradiction; eauto.
Qed.
Print Assumptions C60_select.

(** Whatever fails: there is a stack, existing and selected, or an error, and then nothing
    has changed; [create_or_select] never says that the stack exists, or is missing. *)
Theorem C60_failures c provider s n mode s' o : behaves c -> stack_name n ->
  stack_init c provider s n mode = (s', o) ->
  (exists r, o = Returned r /\ In n (b_stacks s') /\ b_selected s' = Some n) \/
  (exists k r, o = Raised k r /\ s' = s /\ (mode = CreateOrSelect -> k <> StackAlreadyExistsError /\ k <> StackNotFoundError)).
Proof.
  intros B N. destruct mode; cbn [stack_init].
  - destruct (create_cases c provider s n B N) as [(r & -> & Hi)|[(r & -> & Hi)|(k & r & -> & _)]]; intros [= <- <-];
      [left; exists r; cbn; auto|right; exists StackAlreadyExistsError, r; repeat split; discriminate|right; exists k, r; repeat split; discriminate].
  - destruct (select_cases c s n B N) as [(r & -> & Hi)|[(r & -> & Hi)|(k & r & -> & _)]]; intros [= <- <-];
      [left; exists r; cbn; auto|right; exists StackNotFoundError, r; repeat split; discriminate|right; exists k, r; repeat split; discriminate].
  - destruct (create_cases c provider s n B N) as [(r & -> & Hi)|[(r & -> & Hi)|(k & r & -> & K1 & K2 & _)]].
    + intros [= <- <-]. left. exists r. cbn. auto.
    + destruct (select_cases c s n B N) as [(r' & -> & Hi')|[(r' & _ & Hi')|(k & r' & -> & K1 & K2 & _)]]; [|contradiction|]; intros [= <- <-].
      * left. exists r'. cbn. auto.
      * right. exists k, r'. auto.
    + intros K. assert (E : (s, Raised k r) = (s', o)) by (destruct k; try exact K; now elim K1). injection E as <- <-. right. exists k, r. auto.
Qed.
Print Assumptions C60_failures.

(** A CLI that behaves and is reliable. *)
Definition reference_cli : cli backend := fun s ws =>
  match ws with
  | a :: b :: n :: _ =>
      let known := if in_dec string_dec n (b_stacks s) then true else false in
      if String.eqb a "stack" && String.eqb b "init" then
        if known then (s, ("", "error: stack '" ++ n ++ "' already exists" ++ nl_, 255%Z))
        else (mkBackend (n :: b_stacks s) (Some n), ("Created stack '" ++ n ++ "'", "", 0%Z))
      else if String.eqb a "stack" && String.eqb b "select" then
        if known then (mkBackend (b_stacks s) (Some n), ("", "", 0%Z))
        else (s, ("", "error: no stack named '" ++ n ++ "' found" ++ nl_, 255%Z))
      else (s, ("", "unknown", 1%Z))
  | _ => (s, ("", "unknown", 1%Z))
  end.
Example C60_satisfiable : behaves reference_cli /\ reliable reference_cli /\ stack_name "org/p/dev" /\
  fst (stack_init reference_cli (Some "passphrase") (mkBackend ["a"; "dev"] (Some "a")) "dev" CreateOrSelect) = mkBackend ["a"; "dev"] (Some "dev") /\
  fst (stack_init reference_cli None (mkBackend ["a"] (Some "a")) "dev" CreateOrSelect) = mkBackend ["dev"; "a"] (Some "dev").
Proof.
  split; [|split; [|split; [|split; reflexivity]]].
  - intros s ws n s' out err code H. split; intros (rest & ->); cbn [reference_cli] in H; cbn [String.eqb Ascii.eqb Bool.eqb andb] in H;
      destruct (in_dec string_dec n (b_stacks s)); injection H as <- <- <- <-.
    + apply DI_exists; [assumption|discriminate].
    + now apply DI_new.
    + now apply DS_found.
    + apply DS_missing; [assumption|discriminate].
  - intros s ws n s' out err code H. repeat split; intros (rest & ->) K; cbn [reference_cli] in H; cbn [String.eqb Ascii.eqb Bool.eqb andb] in H;
      destruct (in_dec string_dec n (b_stacks s)); injection H as <- <- <- <-; try contradiction; reflexivity.
  - split; cbn; repeat split; discriminate.
Qed.
