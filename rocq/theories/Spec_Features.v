(** Independent specification of feature detection (C42).  A history lists
    what happened, latest first. *)
From Verif Require Import Base Model_Features.
Open Scope string_scope.

Definition history := list obs.
(** The histories of all programs. *)
Definition possible (monitor : bool) (h : history) : Prop := exists s, freach monitor s /\ f_trace s = h.

(** [latest f b h]: the most recent answer for [f] in [h] is [b]. *)
Definition latest (f : string) (b : bool) (h : history) : Prop :=
  exists q h2 h1, h = (h2 ++ Answered q f (Ok b) :: h1)%list /\
    forall q' b', ~ In (Answered q' f (Ok b')) h2.
(** No query for [f] has been answered. *)
Definition unanswered (f : string) (h : history) : Prop := forall q b, ~ In (Answered q f (Ok b)) h.

(** What a reply means. *)
Inductive meaning : reply -> res bool -> Prop :=
| mn_support b : meaning (RSupport b) (Ok b)
| mn_unimplemented d : meaning (RError "UNIMPLEMENTED" d) (Ok false)
| mn_unavailable d : meaning (RError "UNAVAILABLE" d) (Err (Exn "RunError" "Resource monitor has terminated, shutting down"))
| mn_error c d : c <> "UNIMPLEMENTED" -> c <> "UNAVAILABLE" -> meaning (RError c d) (Err (Exn "Exception" d)).

(** No query for [f] that contacted the engine in [h] is still waiting. *)
Definition settled_queries (f : string) (h : history) : Prop :=
  forall q, In (Called q f) h -> exists a, In (Answered q f a) h.
