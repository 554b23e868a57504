(** C41: waiting for RPCs. *)
From Verif Require Import Base Model_RpcManager Spec_RpcManager Proof_RpcManager.

(** C41, in part.  In every schedule: waiting returns only at a moment when
    every RPC started so far has succeeded; an exception it raises for an RPC is
    that of one that failed; the recorded exception is that of the first failure
    and is never replaced; calling an RPC through its wrapper never raises but
    gives its result or its exception.
    Missing: that the exception raised is the recorded, first one: it need not
    be (below). *)
Theorem C41_wait_partial :
  (forall all s s', reachable all s -> mstep all s s' -> m_phase s <> PReturned -> m_phase s' = PReturned ->
     forall i, started s' i -> succeeded s' i) /\
  (forall all s e, reachable all s -> m_phase s = PRaised e -> exists i, failed s i e) /\
  (forall all s, reachable all s ->
     (forall e, m_unhandled s = Some e -> exists i, first_failure s i e) /\
     (m_unhandled s = None -> m_wake s = [] -> forall i e, ~ failed s i e)) /\
  (forall all s s' e, mstep all s s' -> m_unhandled s = Some e -> m_unhandled s' = Some e) /\
  (forall all s i r, reachable all s -> In (i, r) (m_wrapped s) ->
     (exists v, ended s i (Ok v) /\ r = (Some v, None)) \/ (exists e, ended s i (Err e) /\ r = (None, Some e))).
Proof. exact (conj wait_ok (conj raised_ok (conj unhandled_ok (conj unhandled_stays wrapped_ok)))). Qed.
Print Assumptions C41_wait_partial.

Ltac go := match goal with |- clos_refl_trans_1n _ _ _ _ => eapply rt1n_trans end.
Definition boom (n : nat) : exn := if Nat.eqb n 0 then Exn "E" "first" else Exn "E" "second".
(** Waiting can return after two RPCs succeeded, one started meanwhile. *)
Example C41_example : exists s s', reachable true s /\ mstep true s s' /\ m_phase s = PTasks /\ m_phase s' = PReturned /\ length (m_status s') = 2.
Proof.
  eexists _, _. split; [|split; [apply st_tasks|]].
  { unfold reachable.
    go; [apply st_start|]. go; [apply st_begin; reflexivity|]. cbn. go; [apply (st_pop _ _ [] 0); reflexivity|]. cbn.
    go; [apply st_start|]. cbn. go; [apply (st_finish _ _ 1 (Ok 5)); reflexivity|]. cbn. go; [apply (st_finish _ _ 0 (Ok 4)); reflexivity|]. cbn.
    go; [eapply (st_wrap _ _ 1); reflexivity|]. cbn. go; [apply (st_awaited _ _ 0 4); reflexivity|]. cbn. go; [apply (st_pop _ _ [] 1); reflexivity|]. cbn.
    go; [apply (st_awaited _ _ 1 5); reflexivity|]. cbn. apply rt1n_refl. }
  all: cbn; auto.
Qed.

(** C41 is false: RPCs are awaited last first, so the exception raised can be
    that of a later failure although an earlier one is recorded. *)
Theorem C41_refuted : exists s e1 e2 i, reachable true s /\ m_phase s = PRaised e2 /\ m_unhandled s = Some e1 /\ e1 <> e2 /\ first_failure s i e1.
Proof.
  eexists _, (boom 0), (boom 1), 0. split; [|split; [|split; [|split]]].
  { unfold reachable.
    go; [apply st_start|]. cbn. go; [apply st_start|]. cbn. go; [apply st_begin; reflexivity|]. cbn.
    go; [apply (st_finish _ _ 0 (Err (boom 0))); reflexivity|]. cbn. go; [eapply (st_wrap _ _ 0); reflexivity|]. cbn.
    go; [apply (st_finish _ _ 1 (Err (boom 1))); reflexivity|]. cbn. go; [apply (st_pop _ _ [0] 1); reflexivity|]. cbn.
    go; [apply (st_failed _ _ 1 (boom 1)); reflexivity|]. cbn. apply rt1n_refl. }
  - reflexivity.
  - reflexivity.
  - discriminate.
  - split; [reflexivity|]. exists [], [1]. split; [reflexivity|intros j []].
Qed.
Print Assumptions C41_refuted.
