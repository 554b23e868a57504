(** Independent specification for the dependency cycle breaker (C27). *)
From Verif Require Import Base Model_Cycle.

(** [path E a b]: there is a path (possibly empty) from [a] to [b] in the
    relation [E]. *)
Inductive path (E : rid -> rid -> Prop) : rid -> rid -> Prop :=
| path_refl a : path E a a
| path_step a b c : E a b -> path E b c -> path E a c.

(** A cycle: a non-empty path from a node to itself. *)
Definition cyclic (E : rid -> rid -> Prop) : Prop :=
  exists a b, E a b /\ path E b a.

(** The edges a history of calls has accepted, read off the answers only. *)
Fixpoint accepted (calls : list (rid * rid)) (answers : list bool) : list (rid * rid) :=
  match calls, answers with
  | c :: cs, b :: bs => if b then c :: accepted cs bs else accepted cs bs
  | _, _ => []
  end.

Definition edges (l : list (rid * rid)) (a b : rid) : Prop := In (a, b) l.

(** The answers a caller must get: a call is refused exactly when the target
    already reaches the source through the dependencies accepted before. *)
Inductive answers_ok : list (rid * rid) -> list (rid * rid) -> list bool -> Prop :=
| aok_nil acc : answers_ok acc [] []
| aok_refuse acc f t cs bs :
    path (edges acc) t f -> answers_ok acc cs bs ->
    answers_ok acc ((f, t) :: cs) (false :: bs)
| aok_accept acc f t cs bs :
    ~ path (edges acc) t f -> answers_ok ((f, t) :: acc) cs bs ->
    answers_ok acc ((f, t) :: cs) (true :: bs).
