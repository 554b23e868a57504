(** C69: the ambient settings. *)
From Verif Require Import Base PyVal Model_Settings Spec_Settings Proof_Settings.
Open Scope string_scope.

(** After any history, a context that was given a setting reads what it was last
    given, by itself or by the context it is a copy of; nothing done in other
    contexts matters.  Missing: contexts that were given nothing (see the
    refutations). *)
Theorem C69_settings_partial :
  forall env h c k v, valid h -> given env h c k = Some v -> sget (srun env (rev h)) c k = v.
Proof. exact own_settings. Qed.
Print Assumptions C69_settings_partial.

Definition ex_args (p : string) (dry : bool) : sargs :=
  mkSargs (VStr p) (VStr "dev") (VOther 1) (VOther 2) VNone (VBool dry) VNone VNone.
(** Two requests configured in copies of the main context, and a task of the
    first. *)
Example C69_example :
  let h := [STask 1; SConfigure 2 (ex_args "b" false); SConfigure 1 (ex_args "a" true); STask 0; STask 0] in
  valid h /\
  map (fun c => (sget (srun false (rev h)) c KProject, sget (srun false (rev h)) c KDryRun)) [0; 1; 2; 3]
  = [(VStr "project", VNone); (VStr "a", VBool true); (VStr "b", VBool false); (VStr "a", VBool true)] /\
  given false h 3 KProject = Some (VStr "a").
Proof. simpl. repeat split; lia. Qed.

(** Configuring one context changes what a thread that configured nothing
    reads. *)
Theorem C69_leak_refuted :
  exists h c a c' k, valid (SConfigure c a :: h) /\ c' <> c /\ c' < contexts h /\
    given false (SConfigure c a :: h) c' k = None /\
    sget (srun false (rev (SConfigure c a :: h))) c' k <> sget (srun false (rev h)) c' k.
Proof.
  exists [SThread; STask 0], 1, (ex_args "a" true), 2, KDryRun. cbn. repeat split; try lia; discriminate.
Qed.
Print Assumptions C69_leak_refuted.

(** [set_mocks] with a project and a stack: the mock monitor runs in threads,
    where they still read "project" and "stack". *)
Theorem C69_mocks_refuted :
  forall env monitor engine preview p st, VStr p <> VStr "project" -> VStr st <> VStr "stack" ->
    let s := srun env [SMocks 0 monitor engine (VStr p) (VStr st) preview; SThread] in
    sget s 0 KProject = VStr p /\ sget s 0 KStack = VStr st /\
    sget s 1 KProject = VStr "project" /\ sget s 1 KStack = VStr "stack".
Proof. intros. cbn. auto. Qed.
Print Assumptions C69_mocks_refuted.
