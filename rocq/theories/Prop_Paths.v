(** C126 and C127: what ignore_changes and replace_on_changes do to the update of a recorded
    resource. *)
From Verif Require Import Base Model_Paths Spec_Paths Proof_PathsParse Proof_PathsIgnore Proof_PathsReplace.
Open Scope string_scope.
Open Scope list_scope.

(** C126.  Changes to the properties listed in ignore_changes are not made: unless the resource is
    created anew, the inputs its provider is asked to check, and with which it is then updated or
    kept, are as recorded at these paths and as the program gave them elsewhere.  Nothing is
    refused if the recorded and the new properties both have what the paths are found in.

    Missing: paths that end with an index, malformed ones and the empty one, *, what is in secrets,
    and replacements; see the counterexamples. *)
Theorem C126_ignored_partial : forall check answer names paths on x goal,
  Forall2 written names paths -> Forall ends_with_name paths ->
  x_recreating x = false -> x_external x = false -> x_replace x = false ->
  match register check answer names on x goal with
  | Keeps inputs | Updates inputs =>
      exists t, inputs = check (Some (Obj (x_old x))) t /\ as_recorded t (Obj (x_old x)) paths /\ as_given t (Obj goal) paths
  | Replaces _ | Refuses => True
  | Crashes => False
  end /\
  (on = [] -> (forall t u, d_detailed (answer t u) = None) ->
   (forall p, In p paths -> parent_in (Obj goal) p /\ parent_in (Obj (x_old x)) p) -> register check answer names on x goal <> Refuses).
Proof.
  intros check answer names paths on x goal F E R1 R2 R3. unfold register. pose proof (ignored_spec goal (x_old x) names paths F E) as S.
  destruct (process_ignore_changes (Obj goal) (Obj (x_old x)) names) as [t u| |]; [|split; trivial|easy].
  - rewrite R1, R2, R3. cbn [orb]. split.
    + destruct (negb (x_target x)); [eauto|]. destruct (replace_on_changes on (x_init_errors x) _) as [d'|]; trivial.
      destruct (d_changes d'); [destruct (replaces d'); trivial; eauto|]. destruct (x_init_errors x); eauto.
    + intros -> N _. destruct (negb (x_target x)); [discriminate|].
      destruct (replace_on_total [] [] (x_init_errors x) (answer (Obj (x_old x)) (check (Some (Obj (x_old x))) t))) as [d' ->]; [constructor| |].
      * intros l s e D. rewrite N in D. discriminate.
      * destruct (d_changes d'); [destruct (replaces d'); discriminate|]. destruct (x_init_errors x); discriminate.
  - intros _ _ P. exfalso. destruct S as (p & Ip & N). apply N. now apply P.
Qed.
Print Assumptions C126_ignored_partial.

Definition ex_old : dict tree := [("size", Leaf "1"); ("tags", Obj [("env", Leaf "dev"); ("team", Leaf "a")])].
Definition ex_goal : dict tree := [("size", Leaf "2"); ("tags", Obj [("env", Leaf "prod"); ("team", Leaf "b")]); ("extra", Leaf "x")].
Definition ex_now : situation := mkSituation ex_old false false false true false.
Definition as_is (_ : option tree) (t : tree) : tree := t.
Definition some_change (_ _ : tree) : diff := mkDiff true None [] [].
Example C126_case :
  Forall2 written ["tags.env"; "extra"] [[Name "tags"; Name "env"]; [Name "extra"]] /\
  Forall ends_with_name [[Name "tags"; Name "env"]; [Name "extra"]] /\
  register as_is some_change ["tags.env"; "extra"] [] ex_now ex_goal =
    Updates (Obj [("size", Leaf "2"); ("tags", Obj [("env", Leaf "dev"); ("team", Leaf "b")])]).
Proof.
  split; [|split; [|vm_compute; reflexivity]].
  - constructor; [|constructor; [|constructor]].
    + apply (w_name "tags" ".env"); [split; cbn; repeat split; easy|]. apply (f_name "env" "" []); [split; cbn; repeat split; easy|constructor].
    + apply (w_name "extra" ""); [split; cbn; repeat split; easy|constructor].
  - constructor; [now exists [Name "tags"], "env"|constructor; [now exists [], "extra"|constructor]].
Qed.

(** An item of a list that is not recorded becomes null. *)
Theorem C126_refuted_item :
  let old := [("l", Arr [Leaf "a"])] in
  register as_is some_change ["l[1]"] [] (mkSituation old false false false true false) [("l", Arr [Leaf "a"; Leaf "b"])] =
    Updates (Obj [("l", Arr [Leaf "a"; Null])]) /\
  at_path (Obj [("l", Arr [Leaf "a"; Null])]) [Name "l"; Index 1] Null /\ forall v, ~ at_path (Obj old) [Name "l"; Index 1] v.
Proof.
  split; [vm_compute; reflexivity|]. split.
  - apply (at_field _ _ (Arr [Leaf "a"; Null])); [reflexivity|]. apply (at_item _ 1 Null); [reflexivity|constructor].
  - intros v A. inversion A as [|? ? ? ? ? G B|]; subst. injection G as <-. inversion B as [| |? i ? ? ? G ? E]; subst.
    destruct i as [|[|i]]; [discriminate|discriminate|]. lia.
Qed.
Print Assumptions C126_refuted_item.

(** Malformed paths, * and paths into secrets are accepted, and the changes are made. *)
Theorem C126_refuted_silent :
  (let old := [("l", Arr [Leaf "a"])] in let goal := [("l", Arr [Leaf "b"])] in
   forall names, In names [["l[first]"]; ["l[*]"]; ["*"]; ["l[0"]] ->
     register as_is some_change names [] (mkSituation old false false false true false) goal = Updates (Obj goal)) /\
  (let old := [("password", Secret (Obj [("value", Leaf "1")]))] in let goal := [("password", Secret (Obj [("value", Leaf "2")]))] in
   register as_is some_change ["password.value"] [] (mkSituation old false false false true false) goal = Updates (Obj goal)).
Proof.
  split; [|vm_compute; reflexivity]. intros old goal names [<-|[<-|[<-|[<-|[]]]]]; vm_compute; reflexivity.
Qed.
Print Assumptions C126_refuted_silent.

(** The empty path ends the engine. *)
Theorem C126_refuted_empty : forall check answer on x goal, register check answer [""] on x goal = Crashes.
Proof. reflexivity. Qed.
Print Assumptions C126_refuted_empty.

(** If another change replaces the resource, a property listed by its own name takes the new value,
    one listed by a path below the top the recorded one. *)
Theorem C126_refuted_replacement :
  let replacement (_ _ : tree) := mkDiff true None ["size"] ["size"] in
  register as_is replacement ["tags"] [] ex_now ex_goal = Replaces (Obj ex_goal) /\
  register as_is replacement ["tags.env"; "tags.team"] [] ex_now ex_goal =
    Replaces (Obj [("size", Leaf "2"); ("tags", Obj [("env", Leaf "dev"); ("team", Leaf "a")]); ("extra", Leaf "x")]).
Proof. split; vm_compute; reflexivity. Qed.
Print Assumptions C126_refuted_replacement.

(** C127.  A change of a property listed in replace_on_changes, or below one, replaces the
    resource, and nothing else does but what the provider asks for, or that the last creation or
    update was left unfinished and the list covers that.

    Missing: changes that the provider tells of by the names of top-level properties, or not at
    all; see the counterexample. *)
Theorem C127_replaced_partial : forall check d ignores names paths x goal,
  Forall2 written names paths -> well_told d ->
  x_recreating x = false -> x_external x = false -> x_replace x = false -> x_target x = true ->
  let unfinished := x_init_errors x = true /\ exists p, In p paths /\ covers p [Name "#initerror"] in
  let called_for := unfinished \/ d_changes d = true /\ (asks_replacement d \/ exists p q, In p paths /\ covers p q /\ reports d q) in
  match register check (fun _ _ => d) ignores names x goal with
  | Replaces _ => called_for
  | Updates _ => ~ called_for /\ (d_changes d = true \/ x_init_errors x = true)
  | Keeps _ => ~ called_for /\ d_changes d = false /\ x_init_errors x = false
  | Refuses | Crashes => ignores <> []
  end.
Proof.
  intros check d ignores names paths x goal F W R1 R2 R3 R4 unfinished called_for. unfold register. rewrite R1, R2, R3, R4. cbn [orb negb].
  destruct (process_ignore_changes (Obj goal) (Obj (x_old x)) ignores) as [t u| |] eqn:P; [|intros ->; discriminate|intros ->; discriminate].
  destruct (replace_on_total names paths (x_init_errors x) d F) as [d' E].
  { intros l s e D I. destruct (W s) as [q Q]; [left; eauto|]. exists q. now apply written_read. }
  rewrite E. destruct (replace_on_spec _ _ _ _ _ F E) as [C R]. fold unfinished in C, R.
  assert (As : Model_Paths.replaces d = true <-> asks_replacement d).
  { unfold Model_Paths.replaces, asks_replacement. rewrite orb_true_iff. split.
    - intros [H|H]; [right|left; now destruct (d_replace_keys d)]. destruct (d_detailed d) as [l|]; [|discriminate].
      apply existsb_exists in H as ([s [k r]] & I & Q). cbn in Q. subst r. eauto.
    - intros [H|(l & s & k & D & I)]; [right; now destruct (d_replace_keys d)|left]. rewrite D. apply existsb_exists. exists (s, (k, true)). auto. }
  assert (Ch : forall q, change_at d q <-> reports d q).
  { intro q. split; intros [(l & s & e & D & I & Q)|(s & I & Q)].
    - left. exists l, s, e. repeat split; trivial. destruct (W s) as [q' Q']; [left; eauto|]. pose proof (written_read _ _ Q'). assert (q' = q) by congruence. now subst.
    - right. exists s. split; trivial. destruct (W s) as [q' Q']; [now right|]. pose proof (written_read _ _ Q'). assert (q' = q) by congruence. now subst.
    - left. exists l, s, e. repeat split; trivial. now apply written_read.
    - right. exists s. split; trivial. now apply written_read. }
  assert (Cf : called_for <-> d_changes d' = true /\ Model_Paths.replaces d' = true).
  { unfold called_for. split.
    - intros [U|[D H]].
      + assert (D' : d_changes d' = true) by (apply C; now right). split; trivial. apply R; trivial. right; now left.
      + assert (D' : d_changes d' = true) by (apply C; now left). split; trivial. apply R; trivial. destruct H as [H|(p & q & Ip & Co & Re)]; [left; now apply As|].
        right; right. exists p, q. rewrite Ch. auto.
    - intros [D' H]. pose proof (proj1 C D') as D. apply R in H; trivial. destruct H as [H|[H|(p & q & Ip & Re & Co)]]; [|now left|].
      + destruct D as [D|U]; [right|now left]. split; trivial. left. now apply As.
      + destruct D as [D|U]; [right|now left]. split; trivial. right. exists p, q. rewrite <- Ch. auto. }
  destruct (d_changes d') eqn:D'.
  - destruct (Model_Paths.replaces d') eqn:Rp; [now apply Cf|]. split; [rewrite Cf; intros [_ H]; discriminate|].
    destruct (proj1 C eq_refl) as [H|[H _]]; auto.
  - assert (N : ~ called_for) by (rewrite Cf; intros [H _]; discriminate). assert (D : d_changes d = false).
    { destruct (d_changes d); trivial. exfalso. assert (false = true) by (apply C; now left). discriminate. }
    destruct (x_init_errors x) eqn:Ie; auto.
Qed.
Print Assumptions C127_replaced_partial.

Definition ex_told : diff := mkDiff true (Some [("tags.env", (Change, false)); ("size", (Change, false))]) [] ["tags"; "size"].
Example C127_case :
  Forall2 written ["tags[*]"] [[Name "tags"; Name "*"]] /\ well_told ex_told /\
  register as_is (fun _ _ => ex_told) [] ["tags[*]"] ex_now ex_goal = Replaces (Obj ex_goal) /\
  register as_is (fun _ _ => ex_told) [] ["tags.team"] ex_now ex_goal = Updates (Obj ex_goal).
Proof.
  split; [|split; [|split; vm_compute; reflexivity]].
  - constructor; [|constructor]. apply (w_name "tags" "[*]"); [split; cbn; repeat split; easy|]. apply (f_any "" []). constructor.
  - assert (S : written "size" [Name "size"]) by (apply (w_name "size" ""); [split; cbn; repeat split; easy|constructor]).
    assert (T : written "tags" [Name "tags"]) by (apply (w_name "tags" ""); [split; cbn; repeat split; easy|constructor]).
    assert (U : written "tags.env" [Name "tags"; Name "env"]).
    { apply (w_name "tags" ".env"); [split; cbn; repeat split; easy|]. apply (f_name "env" "" []); [split; cbn; repeat split; easy|constructor]. }
    intros s [(l & e & [= <-] & [[= <- _]|[[= <- _]|[]]])|[<-|[<-|[]]]]; eauto.
Qed.

(** A provider that names the top-level properties that changed, or only says that something did:
    nothing is replaced. *)
Theorem C127_refuted :
  let goal := [("size", Leaf "1"); ("tags", Obj [("env", Leaf "prod"); ("team", Leaf "a")])] in
  (forall v, at_path (Obj ex_old) [Name "tags"; Name "env"] v -> ~ at_path (Obj goal) [Name "tags"; Name "env"] v) /\
  register as_is (fun _ _ => mkDiff true None [] ["tags"]) [] ["tags.env"] ex_now goal = Updates (Obj goal) /\
  register as_is some_change [] ["tags"; "tags.env"; "*"] ex_now goal = Updates (Obj goal).
Proof.
  split; [|split; vm_compute; reflexivity]. intros v A B. apply Proof_Paths.at_path_get in A, B. vm_compute in A, B. congruence.
Qed.
Print Assumptions C127_refuted.
