(** Independent specification for dependency expansion (C28). *)
From Verif Require Import Base Model_Cycle Spec_Cycle Model_Deps.
Open Scope string_scope.

(** [stands_for d x]: depending on [d] means depending on [x]: [d] itself
    unless it is a local component, otherwise what its children stand for. *)
Inductive stands_for : rsrc -> rsrc -> Prop :=
| stands_self r u cs : stands_for (Rsrc r false u cs) (Rsrc r false u cs)
| stands_child r u cs c x : In c cs -> stands_for c x -> stands_for (Rsrc r true u cs) x.

(** [x] has the (non-empty) URN [s]. *)
Definition has_urn (x : rsrc) (s : string) : Prop :=
  exists r lc cs, x = Rsrc r lc (Ok (Some s)) cs /\ s <> "".
(** Awaiting the URN of [x] does not raise. *)
Definition urn_ok (x : rsrc) : Prop := exists r lc u cs, x = Rsrc r lc (Ok u) cs.

Definition any_of (ds : list rsrc) (x : rsrc) : Prop := exists d, In d ds /\ stands_for d x.

(** The dependency graph kept by the SDK. *)
Definition depends (g : dep_heap) (a b : rid) : Prop := In b (deps_of g a).
