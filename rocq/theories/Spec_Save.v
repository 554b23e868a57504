(** Where the state of a stack is kept (C113). *)
From Verif Require Import Base Model_Save.
Open Scope string_scope.
Open Scope list_scope.

(** [kept_as gzip path b]: the stack has no state, or it is in the file that is used
    with (without) compression, which is newer than a file of the other kind. *)
Definition kept_as {D} (gzip : bool) (path : string) (b : dict (D * nat)) : Prop :=
  (dget b path = None /\ dget b (path ++ ".gz")%string = None) \/
  if gzip then exists d t, dget b (path ++ ".gz")%string = Some (d, t) /\ forall d' t', dget b path = Some (d', t') -> t' <= t
  else exists d t, dget b path = Some (d, t) /\ forall d' t', dget b (path ++ ".gz")%string = Some (d', t') -> t' < t.
(** The clock is later than all files. *)
Definition later {D} (clock : nat -> nat) (b : dict (D * nat)) : Prop := forall key d t i, dget b key = Some (d, t) -> t < clock i.
