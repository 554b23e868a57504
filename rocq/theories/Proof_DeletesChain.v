(** Proofs about the chains made for what the program registers. *)
From Verif Require Import Base Model_Deletes Spec_Deletes Proof_Deletes Proof_DeletesTargets.
From Coq Require Import Permutation Lia.
Open Scope string_scope.
Open Scope list_scope.
Ltac inv H := inversion H; subst; clear H.

Fixpoint rising (l : list nat) : Prop := match l with [] => True | x :: l' => (forall y, In y l' -> x < y) /\ rising l' end.
Lemma rising_seq n : forall k, rising (seq k n).
Proof. induction n; intro k; cbn; trivial. split; auto. intros y Y. apply in_seq in Y. lia. Qed.
Lemma scan_incl s root ignore children : forall places found j, In j (scan s root ignore children places found) -> In j places.
Proof. induction places as [|p places IH]; intros found j I; cbn [scan] in I; [destruct I|]. destruct (is_dependent _ _ _ _ _ _); [destruct I as [->|I]; [now left|]|]; right; eauto. Qed.
Lemma rising_scan s root ignore children : forall places found, rising places -> rising (scan s root ignore children places found).
Proof.
  induction places as [|p places IH]; intros found R; cbn [scan]; trivial. destruct R as [A B]. destruct (is_dependent _ _ _ _ _ _); [|auto].
  split; [|auto]. intros y Y. apply A. eapply scan_incl; eauto.
Qed.
Lemma rising_replacements s needs : forall places replaced, rising places -> rising (replacements needs s replaced places).
Proof.
  induction places as [|p places IH]; intros r R; cbn [replacements]; trivial. destruct R as [A B].
  match goal with |- rising (if ?b then _ else _) => destruct b end; [|auto]. split; [|auto]. intros y Y. apply A. eapply replacements_incl; eauto.
Qed.
Lemma falling_snoc l x : falling l -> (forall y, In y l -> x < y) -> falling (l ++ [x]).
Proof.
  induction l as [|a l IH]; cbn; intros F L; [split; [intros y []|exact I]|]. destruct F as [F1 F2]. split; [|apply IH; auto].
  intros y Y. apply in_app_or in Y as [Y|[<-|[]]]; auto.
Qed.
Lemma falling_rev l : rising l -> falling (rev l).
Proof. induction l as [|a l IH]; cbn; trivial. intros [A B]. apply falling_snoc; auto. intros y Y. apply A. now apply in_rev. Qed.
Lemma dependent_replacements_spec needs s us i : falling (rev (dependent_replacements needs s us i)) /\ forall d, In d (dependent_replacements needs s us i) -> i < d /\ d < length s /\ In d (depending_on s i us false).
Proof.
  unfold dependent_replacements. split.
  - apply falling_rev, rising_replacements, rising_scan, rising_seq.
  - intros d D. apply replacements_incl in D. split; [|split; trivial]; apply scan_incl in D; apply in_seq in D; lia.
Qed.

Lemma find_old_some s us i : find_old s us = Some i -> i < length s.
Proof.
  induction us as [|u us IH]; cbn; [discriminate|]. destruct (find_live u s 0) eqn:E; [|auto]. intros [= <-].
  apply find_live_some in E as (_ & r & R & _). rewrite Nat.sub_0_r in R. apply nth_error_Some. congruence.
Qed.

(** Deletions in a chain. *)
Definition chain_shape (o : options) (s : list state) (q : registration) (c : list step) : Prop :=
  (forall i b, ~ In (Del i b) c) \/
  exists i us ds, find_old s (q_urn q :: q_aliases q) = Some i /\ q_answer q = Differs true /\ (q_protect q && flag_at s_protect s i) = false /\
    (ds = [] \/ o_trust o = true) /\ incl ds (dependent_replacements (q_needs q) s us i) /\ falling ds /\
    c = map (fun d => Del d true) ds ++ [Del i true; Other; Other].
Lemma register_shape o s g q g' c : register o s g q = Some (g', c) -> chain_shape o s q c.
Proof.
  unfold register. destruct (is_in (q_urn q) (g_urns g)); [discriminate|].
  assert (Z1 : chain_shape o s q [Other]) by (left; intros i b [E|[]]; discriminate).
  assert (Z2 : chain_shape o s q [Other; Other]) by (left; intros i b [E|[E|[]]]; discriminate).
  destruct (q_answer q) as [| |before| |same] eqn:Eq; cbv zeta.
  5: { destruct (find_live _ _ _) as [i|]; [destruct (_ || _)|]; intros [= <- <-]; trivial. }
  4: { destruct (find_old _ _) as [i|]; [destruct (is_in _ _)|]; intros [= <- <-]; trivial. }
  all: destruct (is_in _ (g_deletes _)); [intros [= <- <-]; trivial|].
  all: destruct (find_old s (q_urn q :: q_aliases q)) as [i|] eqn:Eo; [|intros [= <- <-]; trivial].
  all: destruct (flag_at s_external s i); [intros [= <- <-]; trivial|].
  all: destruct (negb (q_targeted q)); [intros [= <- <-]; trivial|].
  1,2: intros [= <- <-]; trivial.
  destruct (q_protect q && flag_at s_protect s i) eqn:Ep; [discriminate|]. destruct before; [|intros [= <- <-]; trivial].
  match goal with |- context [dependent_replacements _ _ ?us _] => set (vs := us) end. intros E. injection E as _ <-. right. exists i, vs.
  destruct (dependent_replacements_spec (q_needs q) s vs i) as [Fa _].
  eexists. split; [trivial|]. split; [trivial|]. split; [trivial|]. split; [|split; [|split; [|reflexivity]]].
  - destruct (o_trust o); auto.
  - destruct (o_trust o); [|intros x []]. intros x X. apply filter_In in X as [X _]. now apply in_rev in X.
  - destruct (o_trust o); [|exact I]. now apply falling_filter.
Qed.
Lemma chain_ordered o s g q g' c before j b after i b' : register o s g q = Some (g', c) -> c = before ++ Del j b :: after -> In (Del i b') c -> j < i -> In (Del i b') before.
Proof.
  intros R E I L. apply register_shape in R as [N|(x & us & ds & Eo & _ & _ & _ & Inc & Fa & C)]; [now apply N in I|].
  assert (Lx : forall d, In d ds -> x < d) by (intros d D; now destruct (proj2 (dependent_replacements_spec (q_needs q) s us x) d (Inc d D))).
  assert (F : falling (ds ++ [x])) by now apply falling_snoc.
  assert (G : forall ds before, map (fun d => Del d true) ds ++ [Other; Other] = before ++ Del j b :: after -> falling ds -> In (Del i b') (map (fun d => Del d true) ds ++ [Other; Other]) -> In (Del i b') before).
  { clear - L. induction ds as [|d ds IH]; intros before E F I.
    - destruct I as [I|[I|[]]]; discriminate.
    - destruct before as [|y before]; cbn [map app] in *.
      + injection E as <- <- _. destruct I as [[= <- _]|I]; [lia|]. destruct F as [F _]. apply in_app_or in I as [I|[I|[I|[]]]]; try discriminate.
        apply in_map_iff in I as (k & [= <- <-] & K). specialize (F k K). lia.
      + injection E as <- E. destruct I as [I|I]; [now left|right]. apply IH; trivial. exact (proj2 F). }
  assert (C' : c = map (fun d => Del d true) (ds ++ [x]) ++ [Other; Other]) by (rewrite C, map_app, <- app_assoc; reflexivity).
  apply (G (ds ++ [x])); trivial; congruence.
Qed.
