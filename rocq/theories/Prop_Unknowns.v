(** C19: contains_unknowns. *)
From Verif Require Import Base Model_Unknowns Spec_Unknowns Proof_Unknowns.

(** C19.  On every finite object graph, with any sharing and cycles, the search
    never nests deeper than the number of objects (plus one), so it ends, and it
    answers true exactly if an unknown is reachable. *)
Theorem C19_contains_unknowns : forall g v fuel, closed g -> v < length g -> length g < fuel ->
  exists b, contains_unknowns fuel g v = Some b /\ (b = true <-> exists u, reaches g v u /\ node_at g u = NUnknown).
Proof. exact contains_ok. Qed.
Print Assumptions C19_contains_unknowns.

(** A cyclic graph with sharing: 0 = [1, 2, 0], 1 = {"k": 2, "up": 0}, 2 = {"x": 3}, 3 = [4], 4 unknown or not. *)
Definition ex_graph (last : node) : graph :=
  [NList [1; 2; 0]; NDict [("k", 2); ("up", 0)]%string; NDict [("x", 3)]%string; NList [4; 1]; last].
Example C19_example :
  closed (ex_graph NUnknown) /\ closed (ex_graph NLeaf) /\
  contains_unknowns 6 (ex_graph NUnknown) 0 = Some true /\ contains_unknowns 6 (ex_graph NLeaf) 0 = Some false.
Proof.
  assert (H : forall n, n = NUnknown \/ n = NLeaf -> closed (ex_graph n)).
  { intros n Hn a L. destruct a as [|[|[|[|[|a]]]]]; [| | | | |simpl in L; lia]; cbn [ex_graph node_at nth length]; split.
    all: first [intros es k b E I | intros l b E I]; try (destruct Hn; congruence).
    all: inversion E; subst; simpl in I; repeat (destruct I as [I|I]; [try (injection I as _ I); subst; lia|]); contradiction. }
  split; [apply H; auto|]. split; [apply H; auto|]. split; reflexivity.
Qed.
