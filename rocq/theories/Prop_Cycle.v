(** C27: declaring dependencies never makes the graph cyclic. *)
From Verif Require Import Base Model_Cycle Spec_Cycle Proof_Cycle.

(** For every history of [declare_dependency] calls and every set iteration
    order, the run terminates; each answer is right (refused iff the target
    already reaches the source through the accepted dependencies); what is
    stored is exactly what was accepted; and the accepted graph is acyclic. *)
Theorem C27_cycle_breaker :
  forall (ord : rid -> list rid -> list rid) (calls : list (rid * rid)),
    (forall r l, same_set (ord r l) l) ->
    exists answers heap,
      declare_all ord [] calls = Some (answers, heap) /\
      answers_ok [] calls answers /\
      (forall a b, In b (deps_of heap a) <-> In (a, b) (accepted calls answers)) /\
      ~ cyclic (edges (accepted calls answers)).
Proof. intros ord calls H. exact (declare_history_ok ord H calls). Qed.
Print Assumptions C27_cycle_breaker.

(** The hypothesis is met by ordinary insertion order and by reversed order; a
    history in which two calls close a cycle (one through a path, one
    self-dependency). *)
Example C27_example :
  (forall r l, same_set ((fun (_ : rid) (l : list rid) => rev l) r l) l) /\
  option_map fst (declare_all (fun _ l => rev l) [] [(1, 2); (2, 3); (1, 4); (3, 1); (4, 4); (4, 3)])
    = Some [true; true; true; false; false; true].
Proof.
  split; [|reflexivity].
  intros _ l x. symmetry. apply in_rev.
Qed.
