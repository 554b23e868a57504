From Verif Require Import Base PyVal Model_Urn Model_Semver Spec_Semver Proof_Semver Model_Cmd Spec_Cmd Proof_Cmd Spec_WsSettings Proof_WsSettings Model_StackInit Spec_StackInit.
Open Scope string_scope.

(* ------------------------------------------------------------------ *)
(** Versions. *)
Lemma all_space_snoc b c : all_space b -> is_space c = true -> all_space (b ++ String c "").
Proof. induction 1; intros; simpl; repeat constructor; auto. Qed.
Lemma trimmed_split s t : trimmed s t -> exists b, s = t ++ b /\ all_space b /\ (forall c r, t = r ++ String c "" -> is_space c = false).
Proof.
  induction 1 as [s H|s c t Hc H (b & -> & Hb & Ht)].
  - exists "". rewrite app_nil_s. repeat split; [constructor|]. intros c r E. now apply (H r).
  - exists (b ++ String c ""). rewrite app_assoc_s. repeat split; auto using all_space_snoc.
Qed.
Lemma lstrip_spec s : exists a, s = a ++ lstrip s /\ all_space a /\ (forall c r, lstrip s = String c r -> is_space c = false).
Proof.
  induction s as [|c s (a & E & Ha & Hl)]; [exists ""; repeat split; [constructor|discriminate]|]. cbn [lstrip]. destruct (is_space c) eqn:Ec.
  - exists (String c a). repeat split; [simpl; congruence|now constructor|exact Hl].
  - exists "". repeat split; [constructor|]. intros d r [= <- <-]. exact Ec.
Qed.
Lemma strip_spec s : exists a b, s = a ++ strip s ++ b /\ all_space a /\ all_space b /\ no_space_ends (strip s).
Proof.
  destruct (lstrip_spec s) as (a & E & Ha & Hl). destruct (trimmed_split _ _ (rstrip_spec (lstrip s))) as (b & Eb & Hb & Hr).
  exists a, b. unfold strip. rewrite <- Eb. split; [exact E|]. repeat split; auto.
  intros c r K. rewrite Eb, K in Hl. now apply (Hl c (r ++ b)).
Qed.
(** The stripped text is determined. *)
Lemma all_space_head a s : all_space a -> lstrip (a ++ s) = lstrip s.
Proof. induction 1 as [|c a Hc Ha IH]; simpl; [reflexivity|]. now rewrite Hc. Qed.
Lemma rstrip_tail s b : all_space b -> rstrip (s ++ b) = rstrip s.
Proof.
  intros Hb. remember (String.length b) as n eqn:E. revert b E Hb. induction n as [|n IH]; intros b E Hb.
  - destruct b; [now rewrite app_nil_s|discriminate].
  - destruct (string_snoc b) as [->|(t & c & ->)]; [discriminate|]. rewrite snoc_length in E. injection E as E.
    assert (H : all_space t /\ is_space c = true).
    { clear -Hb. induction t as [|d t IHt]; simpl in Hb; inversion Hb as [|d' t' K1 K2]; subst; [auto using AS_nil|]. destruct (IHt K2). auto using AS_cons. }
    destruct H as [Ht Hc]. rewrite <- app_assoc_s, rstrip_space by exact Hc. now apply IH.
Qed.
Lemma rstrip_id s : (forall c r, s = r ++ String c "" -> is_space c = false) -> rstrip s = s.
Proof. intros H. destruct (string_snoc s) as [->|(t & c & ->)]; [reflexivity|]. apply rstrip_keep. now apply (H c t). Qed.
Lemma strip_core a core b : all_space a -> all_space b -> no_space_ends core -> core <> "" -> strip (a ++ core ++ b) = core.
Proof.
  intros Ha Hb [Hl Hr] Hc. unfold strip. rewrite all_space_head by exact Ha.
  destruct core as [|c core]; [now elim Hc|]. cbn [lstrip String.append]. rewrite (Hl c core eq_refl).
  change (String c (core ++ b)) with (String c core ++ b). rewrite rstrip_tail by exact Hb. now apply rstrip_id.
Qed.

Lemma version_text_spec out t : version_text out = Ok t <-> names_version out t.
Proof.
  unfold version_text. split.
  - destruct (strip_spec out) as (a & b & E & Ha & Hb & Hn). destruct (strip out) as [|c s] eqn:Es; [discriminate|].
    intros K. exists a, (String c s), b. repeat split; auto; [apply Hn|apply Hn|discriminate|].
    destruct (Ascii.eqb_spec c "v") as [->|N]; injection K as <-; [now left|right]. split; [reflexivity|]. intros r [= -> _]. now elim N.
  - intros (a & core & b & -> & Ha & Hb & Hn & Hc & Hor). rewrite strip_core by assumption.
    destruct core as [|c core]; [now elim Hc|]. destruct Hor as [[= -> ->]|[<- Hv]]; [reflexivity|].
    destruct (Ascii.eqb_spec c "v") as [->|N]; [now elim (Hv core)|reflexivity].
Qed.
Lemma version_text_error out e : version_text out = Err e -> all_space out.
Proof.
  unfold version_text. destruct (strip_spec out) as (a & b & E & Ha & Hb & _). destruct (strip out) eqn:Es; [|discriminate]. intros _.
  rewrite E. simpl. clear -Ha Hb. induction Ha; simpl; [exact Hb|now constructor].
Qed.

Lemma compatible_spec minimum v :
  (N.ltb (v_major minimum) (v_major v) = false /\ version_gtb minimum v = false) <-> compatible minimum v.
Proof.
  unfold compatible. assert (G : version_gtb minimum v = false <-> ~ vlt v minimum).
  { rewrite <- version_gtb_spec. destruct (version_gtb minimum v); intuition congruence. }
  rewrite G, N.ltb_ge. split; [|intros [-> H]; split; [lia|exact H]]. intros [H1 H2]. split; [|exact H2].
  destruct (N.eq_dec (v_major v) (v_major minimum)) as [E|E]; [exact E|]. exfalso. apply H2. left. lia.
Qed.
Lemma validate_spec parse minimum t opt o :
  parse_and_validate parse minimum t opt = Ok o <->
  o = parse t /\ (opt = true \/ exists v, parse t = Some v /\ compatible minimum v).
Proof.
  unfold parse_and_validate. destruct opt.
  - split; [intros [= <-]; auto|intros [-> _]; reflexivity].
  - destruct (parse t) as [v|] eqn:E.
    + destruct (compatible_spec minimum v) as [C1 C2].
      destruct (N.ltb (v_major minimum) (v_major v)) eqn:E1; [|destruct (version_gtb minimum v) eqn:E2].
      * split; [discriminate|]. intros [_ [K|(w & [= <-] & K)]]; [discriminate|]. apply C2 in K as [K _]. discriminate.
      * split; [discriminate|]. intros [_ [K|(w & [= <-] & K)]]; [discriminate|]. apply C2 in K as [_ K]. discriminate.
      * split; [intros [= <-]; split; [reflexivity|right; exists v; auto]|intros [-> _]; reflexivity].
    + split; [discriminate|]. intros [_ [K|(w & K & _)]]; discriminate.
Qed.
Lemma validate_error parse minimum t opt e : parse_and_validate parse minimum t opt = Err e -> exists m, e = Exn "InvalidVersionError" m.
Proof.
  unfold parse_and_validate. destruct opt; [discriminate|]. destruct (parse t); [|intros [= <-]; eexists; reflexivity].
  destruct (N.ltb _ _); [intros [= <-]; eexists; reflexivity|]. destruct (version_gtb _ _); [intros [= <-]; eexists; reflexivity|discriminate].
Qed.

Lemma dmem_In {V} (d : dict V) k : dmem d k = true <-> In k (dkeys d).
Proof.
  unfold dmem. destruct (dget d k) eqn:E; [split; [intros _; now apply dget_key in E|reflexivity]|]. apply dget_None in E. split; [discriminate|contradiction].
Qed.
Lemma opt_out_spec env env_vars : dmem env skip_var || match env_vars with Some d => dmem d skip_var | None => false end = true <-> opted_out env env_vars.
Proof.
  unfold opted_out. rewrite orb_true_iff, dmem_In. destruct env_vars as [d|].
  - rewrite dmem_In. split; [intros [H|H]; eauto|]. intros [H|(d' & [= <-] & H)]; auto.
  - split; [intros [H|H]; [auto|discriminate]|]. intros [H|(d' & K & _)]; [auto|discriminate].
Qed.

Lemma open_spec parse pulumi env env_vars calls ws r :
  run_cmd pulumi [VStr "version"] None = (ws, calls, Returned r) ->
  forall t, names_version (cm_stdout r) t ->
  forall v, open_workspace parse pulumi env env_vars = Opened v <->
    v = parse t /\ (opted_out env env_vars \/ exists w, parse t = Some w /\ compatible minimum_version w).
Proof.
  intros H t Ht v. apply version_text_spec in Ht. unfold open_workspace. rewrite H, Ht. rewrite <- opt_out_spec, <- validate_spec.
  destruct (parse_and_validate _ _ _ _); split; congruence.
Qed.

(* ------------------------------------------------------------------ *)
(** The CLI's messages. *)
Lemma free_has c s : free_of c s <-> ~ has_char c s.
Proof. induction s as [|d s IH]; simpl; [tauto|]. rewrite IH. intuition. Qed.
Lemma free_app c a b : free_of c (a ++ b) <-> free_of c a /\ free_of c b.
Proof. induction a as [|d a IH]; simpl; [tauto|]. rewrite IH. tauto. Qed.

Lemma cut c a b x y : free_of c a -> free_of c b -> a ++ String c x = b ++ String c y -> a = b /\ x = y.
Proof.
  revert b. induction a as [|d a IH]; intros [|e b] Ha Hb H; simpl in *.
  - injection H as H. auto.
  - injection H as H _. destruct Hb as [Hb _]. congruence.
  - injection H as H _. destruct Ha as [Ha _]. congruence.
  - injection H as -> H. destruct Ha as [_ Ha], Hb as [_ Hb]. apply IH in H as [-> ->]; auto.
Qed.
Lemma first_cut c s : free_of c s \/ exists a b, s = a ++ String c b /\ free_of c a.
Proof.
  induction s as [|d s IH]; [left; exact I|]. destruct (Ascii.eqb_spec d c) as [->|N].
  - right. exists "", s. split; [reflexivity|exact I].
  - destruct IH as [H|(a & b & -> & H)]; [left; split; auto|]. right. exists (String d a), b. repeat split; auto.
Qed.
(** A word of a text: an occurrence of "no stack..." in "w rest" starts in [w] or lies in [rest]. *)
Lemma no_occurrence w rest q b x : free_of " " w -> (forall y, y ++ "no" <> w) ->
  w ++ String " " rest = x ++ "no stack named" ++ q ++ b -> exists y, rest = y ++ "no stack named" ++ q ++ b.
Proof.
  intros Hw Hn H. change ("no stack named" ++ q ++ b) with ("no" ++ String " " ("stack named" ++ q ++ b)) in H.
  destruct (first_cut " " x) as [Hx|(a & y & -> & Ha)].
  - exfalso. rewrite <- app_assoc_s in H. apply cut in H as [H _]; [now apply (Hn x)|exact Hw|]. apply free_app. split; [exact Hx|]. cbn; repeat split; discriminate.
  - rewrite app_assoc_s in H. cbn [String.append] in H. apply cut in H as [_ H]; [|exact Hw|exact Ha]. exists y. exact H.
Qed.

Lemma message_exists n : stack_name n ->
  says_exists ("error: stack '" ++ n ++ "' already exists" ++ nl_) /\ ~ says_missing ("error: stack '" ++ n ++ "' already exists" ++ nl_).
Proof.
  intros [Hs Hl]. split.
  - exists "error: ", (" '" ++ n ++ "' "), nl_. split.
    + cbn [String.append]. rewrite !app_assoc_s. reflexivity.
    + unfold one_line. rewrite <- free_has. rewrite !free_app. repeat split; auto; cbn; discriminate.
  - intros (x & m & b & H & _). 
    change ("error: stack '" ++ n ++ "' already exists" ++ nl_) with ("error:" ++ String " " ("stack" ++ String " " ("'" ++ n ++ "' already exists" ++ nl_))) in H.
    apply no_occurrence in H as (y & H); [| cbn; repeat split; discriminate|].
    2:{ intros y K. clear -K. change "error:" with ("error" ++ String ":" "") in K.
        change (y ++ "no") with (y ++ "n" ++ String "o" "") in K. rewrite <- app_assoc_s in K. apply snoc_inj in K as [_ K]. discriminate. }
    apply no_occurrence in H as (z & H); [|cbn; repeat split; discriminate|].
    2:{ intros u K. clear -K. change "stack" with ("stac" ++ String "k" "") in K. change (u ++ "no") with (u ++ "n" ++ String "o" "") in K.
        rewrite <- app_assoc_s in K. apply snoc_inj in K as [_ K]. discriminate. }
    assert (H' : ("'" ++ n ++ "'") ++ String " " ("already exists" ++ nl_) = z ++ "no stack named" ++ m ++ "found" ++ b).
    { rewrite <- H. cbn [String.append]. now rewrite app_assoc_s. }
    apply no_occurrence in H' as (u & H'); [| |].
    + apply (proj1 (if_not _ _ (occurs_spec "no stack named" ("already exists" ++ nl_))) eq_refl). exists u, (m ++ "found" ++ b). exact H'.
    + rewrite !free_app. repeat split; auto; cbn; discriminate.
    + intros v K. clear -K. rewrite <- app_assoc_s in K. change (v ++ "no") with (v ++ "n" ++ String "o" "") in K. rewrite <- app_assoc_s in K.
      apply (snoc_inj _ "o" _ "'") in K as [_ K]. discriminate.
Qed.
Lemma message_missing n : stack_name n -> says_missing ("error: no stack named '" ++ n ++ "' found" ++ nl_).
Proof.
  intros [Hs Hl]. exists "error: ", (" '" ++ n ++ "' "), nl_. split.
  - cbn [String.append]. rewrite !app_assoc_s. reflexivity.
  - unfold one_line. rewrite <- free_has. rewrite !free_app. repeat split; auto; cbn; discriminate.
Qed.

(* ------------------------------------------------------------------ *)
(** Stacks. *)
Lemma run_cli_spec (c : cli backend) s args : exists ws s' out err code r,
  (ws = args \/ ws = (args ++ ["--non-interactive"])%list) /\ c s ws = (s', (out, err, code)) /\ cm_stderr r = err /\ cm_code r = code /\
  run_cli c s (map VStr args) = (s', if Z.eqb code 0 then Returned r else Raised (create_command_error r) r).
Proof.
  destruct (non_interactive_spec args) as (ws & Hw & _ & Hor). destruct (c s ws) as [s' [[out err] code]] eqn:E.
  exists ws, s', out, err, code. unfold run_cli, run_cmd. rewrite Hw, E. cbn [snd].
  rewrite report_ok by (intros f t [=]). rewrite E. cbn [fst]. exists (mkResult (join nl (map rstrip (readlines out))) err code). repeat split. tauto.
Qed.
Lemma command_prefix verb n rest ws : (ws = ("stack" :: verb :: n :: rest)%list \/ ws = (("stack" :: verb :: n :: rest) ++ ["--non-interactive"])%list) -> stack_command ws verb n.
Proof. intros [-> | ->]; eexists; reflexivity. Qed.

Lemma create_spec' c provider s n : behaves c -> exists s' err code r ws out,
  stack_command ws "init" n /\ c s ws = (s', (out, err, code)) /\ does_init n s s' code err /\ cm_stderr r = err /\
  create_stack c provider s n = (s', if Z.eqb code 0 then Returned r else Raised (create_command_error r) r).
Proof.
  intros B. unfold create_stack.
  set (rest := match provider with Some ((String _ _) as p) => ["--secrets-provider"; p] | _ => [] end).
  assert (E : ([VStr "stack"; VStr "init"; VStr n] ++ match provider with Some ((String _ _) as p) => [VStr "--secrets-provider"; VStr p] | _ => [] end)%list = map VStr ("stack" :: "init" :: n :: rest)).
  { unfold rest. destruct provider as [[|? ?]|]; reflexivity. }
  rewrite E. destruct (run_cli_spec c s ("stack" :: "init" :: n :: rest)) as (ws & s' & out & err & code & r & Hw & Hc & H1 & H2 & H3).
  apply command_prefix in Hw. exists s', err, code, r, ws, out. destruct (B _ _ n _ _ _ _ Hc) as [Bi _]. auto.
Qed.
Lemma select_spec' c s n : behaves c -> exists s' err code r ws out,
  stack_command ws "select" n /\ c s ws = (s', (out, err, code)) /\ does_select n s s' code err /\ cm_stderr r = err /\
  select_stack c s n = (s', if Z.eqb code 0 then Returned r else Raised (create_command_error r) r).
Proof.
  intros B. unfold select_stack. change [VStr "stack"; VStr "select"; VStr n] with (map VStr ["stack"; "select"; n]).
  destruct (run_cli_spec c s ["stack"; "select"; n]) as (ws & s' & out & err & code & r & Hw & Hc & H1 & H2 & H3).
  apply command_prefix in Hw. exists s', err, code, r, ws, out. destruct (B _ _ n _ _ _ _ Hc) as [_ Bs]. auto.
Qed.

Lemma error_exists r : says_exists (cm_stderr r) -> ~ says_missing (cm_stderr r) -> create_command_error r = StackAlreadyExistsError.
Proof. intros H1 H2. assert (K := create_spec r). destruct (create_command_error r); cbn [classified] in K; tauto. Qed.
Lemma error_missing r : says_missing (cm_stderr r) -> create_command_error r = StackNotFoundError.
Proof. intros H1. assert (K := create_spec r). destruct (create_command_error r); cbn [classified] in K; tauto. Qed.
Lemma error_other r : ~ says_exists (cm_stderr r) -> ~ says_missing (cm_stderr r) -> create_command_error r <> StackAlreadyExistsError /\ create_command_error r <> StackNotFoundError.
Proof. intros H1 H2. assert (K := create_spec r). destruct (create_command_error r); cbn [classified] in K; split; try discriminate; tauto. Qed.

(** Creating: three outcomes. *)
Lemma create_cases c provider s n : behaves c -> stack_name n ->
  (exists r, create_stack c provider s n = (mkBackend (n :: b_stacks s) (Some n), Returned r) /\ ~ In n (b_stacks s)) \/
  (exists r, create_stack c provider s n = (s, Raised StackAlreadyExistsError r) /\ In n (b_stacks s)) \/
  (exists k r, create_stack c provider s n = (s, Raised k r) /\ k <> StackAlreadyExistsError /\ k <> StackNotFoundError /\ ~ reliable c).
Proof.
  intros B N. destruct (create_spec' c provider s n B) as (s' & err & code & r & ws & out & Hw & Hc & Hd & He & ->).
  destruct (message_exists n N) as [M1 M2].
  destruct Hd as [err H|code H Hz|code err Hz H1 H2].
  - left. exists r. auto.
  - right. left. exists r. apply Z.eqb_neq in Hz. rewrite Hz. rewrite error_exists by (rewrite He; assumption). auto.
  - right. right. assert (Hz' := Hz). apply Z.eqb_neq in Hz'. rewrite Hz'. exists (create_command_error r), r. rewrite <- He in H1, H2. destruct (error_other r H2 H1) as [K1 K2].
    repeat split; auto. intros R. destruct (R _ _ n _ _ _ _ Hc) as (R1 & R2 & _). destruct (in_dec string_dec n (b_stacks s)) as [I|I].
    + rewrite (R2 Hw I) in He. rewrite He in H2. contradiction.
    + rewrite (R1 Hw I) in Hz. now elim Hz.
Qed.
Lemma select_cases c s n : behaves c -> stack_name n ->
  (exists r, select_stack c s n = (mkBackend (b_stacks s) (Some n), Returned r) /\ In n (b_stacks s)) \/
  (exists r, select_stack c s n = (s, Raised StackNotFoundError r) /\ ~ In n (b_stacks s)) \/
  (exists k r, select_stack c s n = (s, Raised k r) /\ k <> StackAlreadyExistsError /\ k <> StackNotFoundError /\ ~ reliable c).
Proof.
  intros B N. destruct (select_spec' c s n B) as (s' & err & code & r & ws & out & Hw & Hc & Hd & He & ->).
  pose proof (message_missing n N) as M.
  destruct Hd as [err H|code H Hz|code err Hz H1 H2].
  - left. exists r. auto.
  - right. left. exists r. apply Z.eqb_neq in Hz. rewrite Hz. rewrite error_missing by (rewrite He; assumption). auto.
  - right. right. assert (Hz' := Hz). apply Z.eqb_neq in Hz'. rewrite Hz'. exists (create_command_error r), r. rewrite <- He in H1, H2. destruct (error_other r H2 H1) as [K1 K2].
    repeat split; auto. intros R. destruct (R _ _ n _ _ _ _ Hc) as (_ & _ & R1 & R2). destruct (in_dec string_dec n (b_stacks s)) as [I|I].
    + rewrite (R1 Hw I) in Hz. now elim Hz.
    + rewrite (R2 Hw I) in He. rewrite He in H1. contradiction.
Qed.
