(** Reachability in an object graph, through list items and dict values. *)
From Verif Require Import Base Model_Unknowns.

Inductive reaches (g : graph) : nat -> nat -> Prop :=
| reach_self a : reaches g a a
| reach_dict a k b c es : node_at g a = NDict es -> In (k, b) es -> reaches g b c -> reaches g a c
| reach_list a b c l : node_at g a = NList l -> In b l -> reaches g b c -> reaches g a c.

(** Every reference in the graph is to one of its objects. *)
Definition closed (g : graph) : Prop :=
  forall a, a < length g ->
    (forall es k b, node_at g a = NDict es -> In (k, b) es -> b < length g) /\
    (forall l b, node_at g a = NList l -> In b l -> b < length g).
