(** C57 and C70: settings files. *)
From Verif Require Import Base PyVal Model_Urn Model_WsSettings Spec_WsSettings Proof_WsSettings.
Open Scope string_scope.

(** C57.  In every working directory, saving a stack's settings and loading them again gives
    the same settings exactly when they are of the kind that is kept.
    Partial: other settings (see [kept]) come back changed, or not at all. *)
Theorem C57_round_partial fs name s : wf_settings s ->
  (load_stack_settings (save_stack_settings fs name s) name = Ok s <-> kept s).
Proof. intros W. rewrite load_saved. now apply settings_round. Qed.
Print Assumptions C57_round_partial.

(** Saving one stack's settings changes neither those of stacks with another last
    name component nor the project's; stacks with the same last component share theirs. *)
Theorem C57_others fs n m s a b : last_component n a -> last_component m b ->
  (a <> b -> load_stack_settings (save_stack_settings fs n s) m = load_stack_settings fs m) /\
  (a = b -> load_stack_settings (save_stack_settings fs n s) m = load_stack_settings (save_stack_settings fs n s) n) /\
  load_project_settings (save_stack_settings fs n s) = load_project_settings fs.
Proof.
  intros Hn Hm. apply component_name in Hn. apply component_name in Hm. split; [|split].
  - intros N. apply load_other. congruence.
  - intros <-. unfold load_stack_settings, stack_base. now rewrite Hn, Hm.
  - apply load_project_other.
Qed.
Print Assumptions C57_others.

(** The full property fails: a number in the configuration makes the saved file
    unreadable; a structured value is lost; an empty string is lost. *)
Theorem C57_refuted :
  (forall fs name k n, exists e, load_stack_settings (save_stack_settings fs name (mkStackSettings None None None (Some [(k, CPlain (VNum n))]))) name = Err e) /\
  (forall fs name k, load_stack_settings (save_stack_settings fs name
     (mkStackSettings None None None (Some [(k, CPlain (VDict [("a", VStr "x")]))]))) name = Ok (mkStackSettings None None None (Some []))) /\
  (forall fs name, load_stack_settings (save_stack_settings fs name (mkStackSettings (Some "") None None None)) name = Ok (mkStackSettings None None None None)).
Proof. repeat split; intros; rewrite load_saved; try reflexivity. eexists. reflexivity. Qed.
Print Assumptions C57_refuted.

(** C70.  A project whose settings are strings survives saving and loading, in every
    working directory, and saving it changes no stack's settings.
    Partial: a project with runtime options, a template or a backend does not. *)
Theorem C70_project_partial fs p : strings_only p -> In (pj_runtime p) [PStr "nodejs"; PStr "python"; PStr "go"; PStr "dotnet"] ->
  snd (save_project_settings fs p) = None /\
  load_project_settings (fst (save_project_settings fs p)) = Ok p.
Proof. intros H R. apply project_round; [exact H|]. destruct R as [<-|[<-|[<-|[<-|[]]]]]; reflexivity. Qed.
Print Assumptions C70_project_partial.
Theorem C70_others fs p n : load_stack_settings (fst (save_project_settings fs p)) n = load_stack_settings fs n.
Proof. apply load_stack_project. Qed.
Print Assumptions C70_others.

(** With a [ProjectRuntimeInfo], saving writes a file that cannot be loaded. *)
Theorem C70_refuted : forall name n, exists e,
  let p := mkProject name (PObj n) None None None None None None None None in
  snd (save_project_settings [] p) = None /\ load_project_settings (fst (save_project_settings [] p)) = Err e.
Proof. intros. eexists. repeat split. Qed.
Print Assumptions C70_refuted.

Definition example_settings : stack_settings :=
  mkStackSettings (Some "passphrase") None (Some "v1:salt") (Some [("p:a", CPlain (VStr "x")); ("p:b", CSecure "v1:cipher")]).
Definition example_files : files := [("Pulumi.dev.yml", Data (VDict [])); ("Pulumi.dev.json", Data VNone); ("Pulumi.yaml", Tagged)].
Example C57_satisfiable :
  wf_settings example_settings /\ kept example_settings /\ last_component "org/proj/dev" "dev" /\ last_component "dev2" "dev2" /\
  dget (save_stack_settings example_files "org/proj/dev" example_settings) "Pulumi.dev.yml" = Some (Data (serialize_settings example_settings)) /\
  load_stack_settings (save_stack_settings example_files "org/proj/dev" example_settings) "org/proj/dev" = Ok example_settings.
Proof.
  split; [|split; [|split; [|split; [|split]]]]; try reflexivity.
  - repeat constructor; simpl; intuition discriminate.
  - repeat split; try discriminate. intros k v [[= <- <-]|[[= <- <-]|[]]]; exact I.
  - split; [cbn; repeat split; discriminate|right; now exists "org/proj"].
  - split; [cbn; repeat split; discriminate|now left].
Qed.
Example C70_satisfiable :
  let p := mkProject "proj" (PStr "python") (Some "/w") None (Some "") None None None None None in
  strings_only p /\ In (pj_runtime p) [PStr "nodejs"; PStr "python"; PStr "go"; PStr "dotnet"] /\ load_project_settings (fst (save_project_settings example_files p)) = Ok p.
Proof. split; [repeat split; now exists "python"|]. split; [cbn; tauto|reflexivity]. Qed.
