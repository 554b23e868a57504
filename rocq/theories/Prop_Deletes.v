(** C123: resources are deleted after what relies on them.  C124: destroying some resources. *)
From Verif Require Import Base Model_Deletes Spec_Deletes Proof_Deletes Proof_DeletesRun Proof_DeletesTargets Proof_DeletesChain.
From Coq Require Import Permutation Lia.
Open Scope string_scope.
Open Scope list_scope.

(** C123.  Whatever is recorded, and whatever the update has done before: for the deletions at
    its end, and for those left over by an earlier update, rounds are found, and however many
    workers there are, whatever fails and when the user interrupts:
    - a deletion begins only when all resources that are to be deleted and rely on that resource,
      or use a component that it is in, are gone;
    - each resource is deleted at most once, and nothing else is;
    - if nothing failed and all is done, all of them are gone.
    Partial: deletions of resources that are replaced, and deletions left over, come before the
    others whatever relies on them. *)
Theorem C123_order_partial : forall s trust deletes ap events,
  (deletes = pending_deletes s \/ exists needs o g, generate_deletes needs o s g = Steps deletes) ->
  exists rounds, schedule_deletes trust s deletes = Some rounds /\
    let x := perform_all ap rounds events in
    (forall before f after i j, x_facts x = before ++ f :: after -> about j f ->
       In i deletes -> relies s i j \/ (consistent s /\ uses_inside s i j) -> In (Gone i) before) /\
    NoDup (x_facts x) /\ (forall f, In f (x_facts x) -> exists i, about i f /\ In i deletes) /\
    (x_rounds x = [] -> x_queue x = [] -> x_open x = [] -> x_cancelled x = false -> forall i, In i deletes -> In (Gone i) (x_facts x)).
Proof.
  intros s trust deletes ap events D.
  assert (F : falling deletes) by (destruct D as [->|(needs & o & g & G)]; [apply pending_falling|eapply generate_falling; eauto]).
  destruct (schedule_ordered s trust deletes F) as (rounds & E & O). exists rounds. split; trivial. intro x. pose proof O as [Pm _].
  assert (S : single rounds x) by (apply perform_all_single; eapply Permutation_NoDup; [symmetry; exact Pm|now apply falling_nodup]).
  split; [|split; [exact (si_facts _ _ S)|split]].
  - intros before f after i j Ef A I R. eapply run_ordered; eauto. destruct R as [R|[C R]]; [now apply relies_dependencies|now apply inside_dependencies].
  - intros f I. destruct (si_once _ _ S f I) as (i & A & K). exists i. split; trivial. eapply Permutation_in; eauto.
  - intros R Q Op C i I. apply run_complete; trivial. eapply Permutation_in; [symmetry; exact Pm|trivial].
Qed.

(** The same for what is deleted before it is replaced: the steps of a chain are executed one
    after the other, up to the first that fails. *)
Theorem C123_replacement_partial : forall o s g q g' chain before j b after i b',
  register o s g q = Some (g', chain) -> chain = before ++ Del j b :: after ->
  In (Del i b') chain -> relies s i j -> In (Del i b') before.
Proof. intros. eapply chain_ordered; eauto. now apply relies_lt in H2. Qed.

(** A state for examples: a provider, a network, a server in it, a component with a disk, and an
    application that uses the server and the component. *)
Definition res (u parent : string) (deps : list string) (provider : string) (custom : bool) : state := mkState u parent deps provider custom false false false false false.
Definition site : list state :=
  [res "stack" "" [] "" false; res "aws" "stack" [] "" true; res "net" "stack" [] "aws" true; res "server" "stack" ["net"] "aws" true;
   res "storage" "stack" [] "" false; res "disk" "storage" ["net"] "aws" true; res "app" "stack" ["server"; "storage"] "aws" true].
Definition all_of (i : nat) : list event := [Take i; Check i; Begin i true; Answer i true true].
Example C123_case :
  let o := mkOptions true None false false in
  generate_deletes (fun _ _ => false) o site new_gen = Steps [6; 5; 4; 3; 2; 1; 0] /\
  schedule_deletes true site [6; 5; 4; 3; 2; 1; 0] = Some [[6]; [5; 3]; [2]; [4; 1]; [0]] /\
  x_facts (perform_all (fun i => apply false site (step_for site new_gen i)) [[6]; [5; 3]; [2]; [4; 1]; [0]]
     ([Advance] ++ all_of 6 ++ [Advance; Take 5; Take 3; Check 3; Check 5; Begin 3 true; Begin 5 true; Answer 3 true true; Advance; Answer 5 true true; Advance; Take 2; Check 2; Begin 2 true; Answer 2 false true; Advance; Take 1; Check 1]))
    = [Asked 6; Gone 6; Asked 3; Asked 5; Gone 3; Gone 5; Asked 2] /\
  relies site 6 3 /\ uses_inside site 6 5 /\ consistent site.
Proof.
  intro o. split; [vm_compute; reflexivity|]. split; [vm_compute; reflexivity|]. split; [vm_compute; reflexivity|].
  split; [left; split; [lia|]; do 2 eexists; repeat split; cbn; auto|]. split.
  - split; [lia|]. exists 4. eexists. split; [split; [lia|]; do 2 eexists; repeat split; cbn; auto|]. split; [reflexivity|]. split; [reflexivity|].
    apply t_step. split; [lia|]. do 2 eexists. repeat split; cbn; trivial. discriminate.
  - split; [cbn; repeat constructor; cbn; intuition discriminate|].
    intros i r E. do 7 (destruct i as [|i]; [injection E as <-; cbn; split; [discriminate|];
      intros u U; repeat match goal with H : _ \/ _ |- _ => destruct H | H : _ /\ _ |- _ => destruct H | H : False |- _ => destruct H end; subst; try congruence;
      match goal with |- exists _ _, _ /\ _ /\ _ = ?w => first [now exists 0; eexists; repeat split; [lia|..] | now exists 1; eexists; repeat split; [lia|..] | now exists 2; eexists; repeat split; [lia|..] | now exists 3; eexists; repeat split; [lia|..] | now exists 4; eexists; repeat split; [lia|..]] end|]).
    destruct i; discriminate.
Qed.

(** What is deleted in order to be replaced goes first, although the server, which is no longer
    in the program, still uses it: its properties do not depend on the network. *)
Theorem C123_refuted : exists o s q g chain final,
  consistent s /\ none_pending s /\
  register o s new_gen q = Some (g, chain) /\ chain = [Del 0 true; Other; Other] /\
  generate_deletes (fun _ _ => false) o s g = Steps final /\ final = [1] /\
  relies s 1 0 /\ apply false s (Del 0 true) = Asking /\ apply false s (step_for s g 1) = Asking.
Proof.
  exists (mkOptions true None false false), [res "net" "" [] "" true; res "server" "" ["net"] "" true], (mkReg "net" [] false true (Differs true) (fun _ _ => false)).
  do 3 eexists. split.
  { split; [cbn; repeat constructor; cbn; intuition discriminate|]. intros [|[|[|]]] r E; try discriminate; injection E as <-; cbn; (split; [discriminate|]);
      intros u U; intuition subst; try congruence. exists 0. eexists. repeat split. lia. }
  split; [intros [|[|[|]]] r E; try discriminate; injection E as <-; reflexivity|].
  split; [vm_compute; reflexivity|]. split; [reflexivity|]. split; [vm_compute; reflexivity|]. split; [reflexivity|].
  split; [left; split; [lia|]; do 2 eexists; repeat split; cbn; auto|]. now split.
Qed.
(** So does what an interrupted update has left over: the server was made with the network
    that awaits its deletion, and destroying deletes that network first. *)
Theorem C123_refuted_pending : exists s,
  pending_deletes s = [1] /\ generate_deletes (fun _ _ => false) (mkOptions true None false false) s new_gen = Steps [2; 0] /\
  relies s 2 1 /\ apply false s (Del 1 false) = Asking /\ apply false s (step_for s new_gen 2) = Asking.
Proof.
  exists [res "net" "" [] "" true; mkState "net" "" [] "" true false false false true false; res "server" "" ["net"] "" true].
  split; [vm_compute; reflexivity|]. split; [vm_compute; reflexivity|]. split; [left; split; [lia|]; do 2 eexists; repeat split; cbn; auto|]. now split.
Qed.

(** C124.  Destroying, with targets or without.  A resource is meant if it, or something it
    relies on through any number of others, is a target.
    - Without leave to delete dependents, the operation stops before anything is deleted if
      something is meant that is not a target.
    - Otherwise exactly what is meant is to be deleted, which are the targets alone if there is
      no leave.
    - Whatever fails and however the deletions overlap, a deletion begins only when nothing that
      exists relies on that resource.
    Partial: for updates that keep other resources, see below; for recorded states in order
    without deletions left over. *)
Theorem C124_destroy_partial : forall s needs o, consistent s -> none_pending s ->
  let meant j := match o_targets o with
                 | None => True
                 | Some ts => exists i r, nth_error s i = Some r /\ In (s_urn r) ts /\ clos_refl_trans nat (relies s) j i
                 end in
  match generate_deletes needs o s new_gen with
  | Endless => False
  | Bail => o_dependents o = false /\ o_preview o = false /\ exists ts j r, o_targets o = Some ts /\ nth_error s j = Some r /\ meant j /\ ~ In (s_urn r) ts
  | Steps deletes =>
      (forall j, In j deletes <-> j < length s /\ meant j) /\
      (forall ts, o_targets o = Some ts -> o_dependents o = false -> o_preview o = false -> forall j r, In j deletes -> nth_error s j = Some r -> In (s_urn r) ts) /\
      exists rounds, schedule_deletes (o_trust o) s deletes = Some rounds /\
        forall ap events before f after i j, x_facts (perform_all ap rounds events) = before ++ f :: after -> about j f -> relies s i j -> In (Gone i) before
  end.
Proof.
  intros s needs o C Np meant.
  assert (W : forall i, i < length s -> wanted s new_gen i = true).
  { intros i Li. unfold wanted. destruct (nth_some s i Li) as [r R]. rewrite R. cbn. now rewrite (Np _ _ R). }
  assert (Al : forall j, In j (filter (wanted s new_gen) (rev (seq 0 (length s)))) <-> j < length s).
  { intro j. rewrite filter_In, <- in_rev, in_seq. split; [lia|]. intro L. split; [lia|auto]. }
  assert (Me : forall ts j, o_targets o = Some ts -> (wanted_at s ts j <-> meant j)).
  { intros ts j E. unfold meant, wanted_at. rewrite E. split.
    - intros (i & Li & I & R). destruct (nth_some s i Li) as [r Q]. rewrite (urn_at_some _ _ _ Q) in I. eauto.
    - intros (i & r & Q & I & R). exists i. rewrite (urn_at_some _ _ _ Q). repeat split; trivial. apply nth_error_Some. congruence. }
  assert (Fin : forall deletes, generate_deletes needs o s new_gen = Steps deletes -> (forall j, In j deletes <-> j < length s /\ meant j) ->
    exists rounds, schedule_deletes (o_trust o) s deletes = Some rounds /\
        forall ap events before f after i j, x_facts (perform_all ap rounds events) = before ++ f :: after -> about j f -> relies s i j -> In (Gone i) before).
  { intros deletes G I. destruct (generate_falling _ _ _ _ _ G) as [Fa _]. destruct (schedule_ordered s (o_trust o) deletes Fa) as (rounds & E & O).
    exists rounds. split; trivial. intros ap events before f after i j Ef A R. apply (run_ordered ap s deletes rounds events O before f after i j Ef A); [|now apply relies_dependencies].
    assert (S : single rounds (perform_all ap rounds events)) by (apply perform_all_single; eapply Permutation_NoDup; [symmetry; exact (proj1 O)|now apply falling_nodup]).
    destruct (si_once _ _ S f) as (j' & A' & J); [rewrite Ef; apply in_elt|].
    assert (j' = j) by (destruct A as [->| ->], A' as [[= ->]|[= ->]]; trivial || discriminate). subst j'.
    apply (Permutation_in _ (proj1 O)) in J. apply I in J as [Lj Mj]. apply I. split; [now apply relies_lt in R|].
    unfold meant in *. destruct (o_targets o) as [ts|]; trivial. destruct Mj as (t & r & T & It & Rt). exists t, r. repeat split; trivial. eapply rt_trans; [apply rt_step; exact R|exact Rt]. }
  unfold generate_deletes in *. set (dels := filter (wanted s new_gen) (rev (seq 0 (length s)))) in *. cbv zeta in *.
  destruct (o_targets o) as [ts|] eqn:Et.
  - change (g_urns new_gen) with (@nil string) in *. destruct (allowed_spec s C needs ts Np) as (allowed & Ea & Sa). rewrite Ea in *.
    set (l := filter (fun i => is_in (urn_at s i) allowed) dels) in *.
    assert (Il : forall j, In j l <-> j < length s /\ meant j).
    { intro j. unfold l. rewrite filter_In, Al, is_in_spec. split.
      - intros [Lj I]. split; trivial. apply (Me ts); trivial. now apply Sa.
      - intros [Lj M]. split; trivial. apply Sa; trivial. now apply (Me ts). }
    destruct (existsb (fun i => negb (is_in (urn_at s i) ts)) l) eqn:Ex; cbn [andb] in *.
    + assert (B : exists j r, nth_error s j = Some r /\ meant j /\ ~ In (s_urn r) ts).
      { apply existsb_exists in Ex as (j & J & Nj). apply Il in J as [Lj M]. destruct (nth_some s j Lj) as [r R]. rewrite (urn_at_some _ _ _ R) in Nj.
        exists j, r. repeat split; trivial. intro K. apply is_in_spec in K. rewrite K in Nj. discriminate. }
      destruct (o_dependents o) eqn:Ed, (o_preview o) eqn:Ep; cbn [negb andb] in *.
      all: try (split; [exact Il|]; split; [intros; discriminate|]; apply Fin; trivial).
      split; trivial. split; trivial. exists ts. destruct B as (j & r & B). eauto.
    + split; [exact Il|]. split; [|apply Fin; trivial]. intros ts' [= <-] _ _ j r J R. rewrite <- (urn_at_some _ _ _ R).
      destruct (is_in (urn_at s j) ts) eqn:K; [now apply is_in_spec|]. exfalso. assert (existsb (fun i => negb (is_in (urn_at s i) ts)) l = true); [|congruence].
      apply existsb_exists. exists j. rewrite K. auto.
  - assert (Il : forall j, In j dels <-> j < length s /\ meant j) by (intro j; rewrite Al; unfold meant; tauto).
    split; [exact Il|]. split; [intros; discriminate|]. apply Fin; trivial.
Qed.
Example C124_case :
  let run targets leave := generate_deletes (fun _ _ => false) (mkOptions true targets leave false) site new_gen in
  run (Some ["server"]) true = Steps [6; 3] /\ run (Some ["server"]) false = Bail /\ run (Some ["app"]) false = Steps [6] /\
  run (Some ["app"; "server"]) false = Steps [6; 3] /\ run (Some ["storage"]) true = Steps [6; 5; 4] /\
  schedule_deletes true site [6; 5; 4] = Some [[6]; [5]; [4]].
Proof. vm_compute. repeat split. Qed.

(** An update with targets deletes a target that is no longer in the program, although a
    resource that is kept as it is relies on it. *)
Theorem C124_refuted : exists o s q g,
  consistent s /\ none_pending s /\ o_targets o = Some ["net"] /\
  register o s new_gen q = Some (g, [Other]) /\ q_urn q = "server" /\
  generate_deletes (fun _ _ => false) o s g = Steps [0] /\ apply false s (step_for s g 0) = Asking /\ relies s 1 0.
Proof.
  exists (mkOptions true (Some ["net"]) false false), [res "net" "" [] "" true; res "server" "" ["net"] "" true], (mkReg "server" [] false false Changed (fun _ _ => false)).
  eexists. split.
  { split; [cbn; repeat constructor; cbn; intuition discriminate|]. intros [|[|[|]]] r E; try discriminate; injection E as <-; cbn; (split; [discriminate|]);
      intros u U; intuition subst; try congruence. exists 0. eexists. repeat split. lia. }
  split; [intros [|[|[|]]] r E; try discriminate; injection E as <-; reflexivity|]. split; [reflexivity|].
  split; [vm_compute; reflexivity|]. split; [reflexivity|]. split; [vm_compute; reflexivity|]. split; [vm_compute; reflexivity|].
  left; split; [lia|]; do 2 eexists; repeat split; cbn; auto.
Qed.

Print Assumptions C123_order_partial.
Print Assumptions C123_replacement_partial.
Print Assumptions C123_case.
Print Assumptions C123_refuted.
Print Assumptions C123_refuted_pending.
Print Assumptions C124_destroy_partial.
Print Assumptions C124_case.
Print Assumptions C124_refuted.
