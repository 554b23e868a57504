(** What it means for recorded resources to rely on each other, and for a recorded state to be
    in order. *)
From Verif Require Import Base Model_Deletes.
From Coq Require Export Relations.
Open Scope string_scope.
Open Scope list_scope.

(** The record of [i] names the one of [j], which is recorded before it, as a dependency or as
    its provider. *)
Definition uses_at (s : list state) (i j : nat) : Prop :=
  j < i /\ exists a b, nth_error s i = Some a /\ nth_error s j = Some b /\
    (In (s_urn b) (s_deps a) \/ (s_provider a = s_urn b /\ s_provider a <> "")).
Definition child_at (s : list state) (i j : nat) : Prop :=
  j < i /\ exists a b, nth_error s i = Some a /\ nth_error s j = Some b /\ s_parent a = s_urn b /\ s_parent a <> "".
(** [i] relies on [j]: it uses it, or is its child. *)
Definition relies (s : list state) (i j : nat) : Prop := uses_at s i j \/ child_at s i j.
(** [i] uses a component with [j] in it, recorded before [i]. *)
Definition uses_inside (s : list state) (i j : nat) : Prop :=
  j < i /\ exists k c, uses_at s i k /\ nth_error s k = Some c /\ s_custom c = false /\ clos_trans _ (child_at s) j k.

(** Names are given once, and what is named is recorded before. *)
Definition consistent (s : list state) : Prop :=
  NoDup (map s_urn s) /\
  forall i r, nth_error s i = Some r -> s_urn r <> "" /\
    forall u, In u (s_deps r) \/ (s_provider r = u /\ u <> "") \/ (s_parent r = u /\ u <> "") ->
      exists j b, j < i /\ nth_error s j = Some b /\ s_urn b = u.
(** No deletion of an earlier update is left over. *)
Definition none_pending (s : list state) : Prop := forall i r, nth_error s i = Some r -> s_delete r = false.

(** [f] is that the deletion of [j] begins or is done. *)
Definition about (j : nat) (f : fact) : Prop := f = Asked j \/ f = Gone j.

(** What an update may perform: deletions left over, the chains for what the program registers,
    and, if nothing has stopped it, the deletions at its end. *)
Definition may_perform (needs : verdict) (o : options) (s : list state) (qs : list registration) (st : step) : Prop :=
  (exists i, In i (pending_deletes s) /\ st = Del i false) \/
  (exists c, In c (fst (register_all o s new_gen qs)) /\ In st c) \/
  (exists g l i, snd (register_all o s new_gen qs) = Some g /\ generate_deletes needs o s g = Steps l /\ In i l /\ st = step_for s g i).
(** The registration is for the recorded resource, by its URN or an alias. *)
Definition means (q : registration) (r : state) : Prop := In (s_urn r) (q_urn q :: q_aliases q).
