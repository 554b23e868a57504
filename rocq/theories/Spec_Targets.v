(** What the targets of an update are, and what is recorded after it. *)
From Verif Require Import Base Model_Targets.
Open Scope string_scope.
Open Scope list_scope.

(** The registration names [v]: as its parent, its provider, or a dependency. *)
Definition names (q : request) (v : string) : Prop := v <> "" /\ (v = q_parent q \/ v = q_provider q \/ In v (q_deps q)).
(** The targets of an update: those given, and with target_dependents what names a target. *)
Inductive within (dependents : bool) (targets : list string) (qs : list request) : string -> Prop :=
| in_targets u : In u targets -> within dependents targets qs u
| in_dependents q v : dependents = true -> In q qs -> names q v -> within dependents targets qs v -> within dependents targets qs (q_urn q).
(** What a program registers names only what it has registered before. *)
Definition in_order (qs : list request) : Prop :=
  NoDup (map q_urn qs) /\
  forall before q after v, qs = before ++ q :: after -> names q v -> In v (map q_urn before).
(** Nothing is imported, has been read before, or is deleted for the sake of something else. *)
Definition ordinary (old : string -> option bool) (qs : list request) : Prop :=
  (forall u, old u <> Some true) /\ forall q, In q qs -> q_import q = false /\ forall ds, q_found q <> Clears ds.
(** The update does something to the resource. *)
Definition acted (a : action) : Prop := a = Create \/ a = Import \/ a = Update \/ a = Replace.
(** The record names [u] after the update. *)
Definition recorded (old : string -> option bool) (l : list (request * action)) (u : string) : Prop :=
  old u <> None \/ exists q a, In (q, a) l /\ q_urn q = u /\ a <> Skip.
