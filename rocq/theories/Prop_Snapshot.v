(** What updates write down about the resources they create and delete. *)
From Verif Require Import Base Model_Lock Model_Snapshot Spec_Snapshot Proof_Snapshot Proof_Snapshot2.
Open Scope string_scope.
Open Scope list_scope.

(* ------------------------------------------------------------------ *)
(** C118.  At every moment of any number of updates, whatever chains of steps run beside each other,
    whatever fails, and wherever an update dies: each resource that exists, as it was
    created and not deleted, is recorded in the saved state, or it is noted there
    that a resource with its URN is being created.
    Partial: the providers tell what they did, and a resource marked as pending replacement
    is gone when it is dropped or replaced without being deleted first ([orderly]). *)
Theorem C118_no_orphans_partial : forall es, all_orderly empty es ->
  forall id urn, In (id, urn) (m_world (run empty es)) ->
  recorded (m_saved (run empty es)) id \/ being_created (m_saved (run empty es)) urn.
Proof. intros es O. exact (v_saved _ (run_inv es empty empty_inv O)). Qed.
Print Assumptions C118_no_orphans_partial.

Definition whole (i : nat) (a : answer) : list event := [Begin i Fine; Apply i a; End i Fine].
(** The provider dies after it has created the resource: the note is removed. *)
Definition lost : list event := Plan (D_create "a" true) :: whole 0 Lost.
(** The deletion of a resource that is to be replaced fails; then the program does without it. *)
Definition dropped : list event :=
  Plan (D_create "a" true) :: whole 0 Worked ++ Next :: Plan (D_replace_before [] 0 "a") :: whole 0 Failed ++ Next :: Plan (D_drop 0) :: whole 0 Worked.
(** [a] and [b], which depends on it, are to be deleted and created anew; [b] does not
    depend on [a] any more, and its creation is faster than its deletion. *)
Definition overtaken : list event :=
  Plan (D_create "a" true) :: Plan (D_create "b" true) :: whole 0 Worked ++ whole 1 Worked ++
  Next :: Plan (D_replace_before [1] 0 "a") :: Plan (D_recreate 1 "b") :: whole 1 Worked ++ whole 1 Worked.
Theorem C118_refuted : forall es, In es [lost; dropped; overtaken] ->
  exists id urn, In (id, urn) (m_world (run empty es)) /\ ~ recorded (m_saved (run empty es)) id /\ ~ being_created (m_saved (run empty es)) urn.
Proof.
  intros es [<-|[<-|[<-|[]]]].
  - assert (W : m_world (run empty lost) = [(0, "a")]) by (vm_compute; reflexivity). assert (S : m_saved (run empty lost) = ([], [])) by (vm_compute; reflexivity). rewrite W, S.
    exists 0, "a". split; [now left|]. split; intros (r & [] & _).
  - assert (W : m_world (run empty dropped) = [(0, "a")]) by (vm_compute; reflexivity). assert (S : m_saved (run empty dropped) = ([], [])) by (vm_compute; reflexivity). rewrite W, S.
    exists 0, "a". split; [now left|]. split; intros (r & [] & _).
  - assert (W : m_world (run empty overtaken) = [(2, "b"); (1, "b"); (0, "a")]) by (vm_compute; reflexivity).
    assert (S : m_saved (run empty overtaken) = ([mkRec "b" true (Some 2) false; mkRec "a" true (Some 0) true], [])) by (vm_compute; reflexivity). rewrite W, S.
    exists 1, "b". split; [right; now left|]. split; [|intros (r & [] & _)]. intros (r & [<-|[<-|[]]] & E); discriminate.
Qed.
Print Assumptions C118_refuted.
(** Two resources; one is replaced, but the update dies between deleting and creating; the next
    one drops it, and dies while it creates another one. *)
Definition ex_run : list event :=
  Plan (D_create "a" true) :: Plan (D_create "b" true) :: [Begin 0 Fine; Begin 1 Fine; Apply 1 Partly; Apply 0 Worked; End 0 (Fault true); End 1 Fine; Outputs (Fault false)] ++
  Next :: Plan (D_replace_before [] 1 "b") :: Plan (D_same 0 "a" false) :: whole 0 Worked ++
  Next :: Plan (D_drop 1) :: Plan (D_create "c" true) :: [Begin 1 Fine; Begin 0 Fine; Apply 1 Worked; Apply 0 Worked; End 0 Fine; Close Fine].
Example C118_ex : all_orderly empty ex_run /\ m_world (run empty ex_run) = [(2, "c"); (1, "a")] /\ m_saved (run empty ex_run) = ([mkRec "a" true (Some 1) false], [(Creating, mkRec "c" true (Some 2) false)]).
Proof.
  split; [apply all_orderlyb_spec; vm_compute; reflexivity|split; vm_compute; reflexivity].
Qed.

(* ------------------------------------------------------------------ *)
(** C119.  At every moment, as above: each resource that is recorded in the saved state exists,
    or it is noted that it is being deleted, or it is marked as pending replacement; and
    no resource is recorded twice.
    Partial: as above, and no update begins while it is noted that a resource is being
    deleted, and none keeps or updates a resource that is marked ([steady]). *)
Theorem C119_recorded_exist_partial : forall es, all_steady empty es ->
  let s := m_saved (run empty es) in
  (forall r id, In r (fst s) -> r_id r = Some id -> exists_in (m_world (run empty es)) id \/ being_deleted s id \/ r_marked r = true) /\
  (forall i j r r' id, nth_error (fst s) i = Some r -> nth_error (fst s) j = Some r' -> r_id r = Some id -> r_id r' = Some id -> i = j).
Proof. intros es O s. destruct (run_inv2 es empty empty_inv empty_inv2 O) as [_ V]. split; [exact (w_saved _ V)|exact (w_sids _ V)]. Qed.
Print Assumptions C119_recorded_exist_partial.
(** The update dies after a resource was deleted; the next one forgets that this was going on. *)
Definition forgotten : list event :=
  Plan (D_create "a" true) :: whole 0 Worked ++ Next :: Plan (D_delete 0) :: [Begin 0 Fine; Apply 0 Worked] ++ Next :: [Outputs Fine].
(** The resource was deleted in order to be replaced, and the update dies; then the program
    is as it was before. *)
Definition reverted : list event :=
  Plan (D_create "a" true) :: whole 0 Worked ++ Next :: Plan (D_replace_before [] 0 "a") :: whole 0 Worked ++ Next :: Plan (D_same 0 "a" true) :: whole 0 Worked.
(** The provider dies after it has deleted the resource. *)
Definition lost_deletion : list event :=
  Plan (D_create "a" true) :: whole 0 Worked ++ Next :: Plan (D_delete 0) :: whole 0 Lost.
Theorem C119_refuted : forall es, In es [forgotten; reverted; lost_deletion] ->
  exists r id, In r (fst (m_saved (run empty es))) /\ r_id r = Some id /\
  ~ exists_in (m_world (run empty es)) id /\ ~ being_deleted (m_saved (run empty es)) id /\ r_marked r = false.
Proof.
  assert (G : forall es, m_world (run empty es) = [] -> m_saved (run empty es) = ([mkRec "a" true (Some 0) false], []) -> exists r id, In r (fst (m_saved (run empty es))) /\ r_id r = Some id /\
    ~ exists_in (m_world (run empty es)) id /\ ~ being_deleted (m_saved (run empty es)) id /\ r_marked r = false).
  { intros es -> ->. exists (mkRec "a" true (Some 0) false), 0. split; [now left|]. split; [reflexivity|]. split; [intros (u & [])|]. split; [intros (r & [] & _)|reflexivity]. }
  intros es [<-|[<-|[<-|[]]]]; apply G; vm_compute; reflexivity.
Qed.
Print Assumptions C119_refuted.
(** Three resources, the second depends on the first one, which is replaced: both are deleted, the first one is created
    anew, the update dies while it deletes the third one. *)
Definition ex_steady : list event :=
  Plan (D_create "a" true) :: Plan (D_create "b" true) :: Plan (D_create "c" true) :: [Begin 0 Fine; Begin 1 Fine; Begin 2 Fine; Apply 1 Partly; Apply 0 Worked; Apply 2 Worked; End 2 (Fault false); End 0 (Fault true); End 1 Fine] ++
  Next :: Plan (D_replace_before [2] 1 "a") :: whole 0 Worked ++ whole 0 Worked ++ whole 0 Worked ++ whole 0 Partly ++ [Plan (D_delete 0); Begin 1 Fine; Apply 1 Worked; Outputs Fine].
Example C119_ex : all_steady empty ex_steady /\ m_world (run empty ex_steady) = [(3, "a")] /\
  m_saved (run empty ex_steady) = ([mkRec "a" true (Some 3) false; mkRec "c" true (Some 2) false; mkRec "b" true (Some 0) true], [(Deleting, mkRec "c" true (Some 2) false)]).
Proof. split; [apply all_steadyb_spec; vm_compute; reflexivity|split; vm_compute; reflexivity]. Qed.

(* ------------------------------------------------------------------ *)
(** C120.  Whenever the saved state has no pending operations and no marks, it lists
    exactly the resources that exist.  Partial: as C119. *)
Theorem C120_exact_partial : forall es, all_steady empty es ->
  snd (m_saved (run empty es)) = [] -> (forall r, In r (fst (m_saved (run empty es))) -> r_marked r = false) ->
  forall id, recorded (m_saved (run empty es)) id <-> exists_in (m_world (run empty es)) id.
Proof.
  intros es O P M id. destruct (run_inv2 es empty empty_inv empty_inv2 O) as [V0 V]. split.
  - intros (r & I & E). destruct (w_saved _ V r id I E) as [A|[(r' & A & _)|A]]; [exact A|rewrite P in A; destruct A|rewrite (M r I) in A; discriminate].
  - intros (u & I). destruct (v_saved _ V0 id u I) as [A|(r' & A & _)]; [exact A|rewrite P in A; destruct A].
Qed.
Print Assumptions C120_exact_partial.
(** With a provider that dies, a state without pending operations misses a resource. *)
Theorem C120_refuted : m_saved (run empty lost) = ([], []) /\ exists_in (m_world (run empty lost)) 0.
Proof. split; [vm_compute; reflexivity|]. exists "a". vm_compute. now left. Qed.
Print Assumptions C120_refuted.
Example C120_ex : let es := ex_steady ++ [End 1 Fine; Close Fine; Plan (D_recreate 2 "b")] ++ whole 2 Worked ++ whole 2 Worked in
  all_steady empty es /\ m_world (run empty es) = [(4, "b"); (3, "a")] /\ m_saved (run empty es) = ([mkRec "a" true (Some 3) false; mkRec "b" true (Some 4) false], []).
Proof. cbv zeta. split; [apply all_steadyb_spec; vm_compute; reflexivity|split; vm_compute; reflexivity]. Qed.
