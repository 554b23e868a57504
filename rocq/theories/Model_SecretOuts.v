(** Outputs that are listed in additional_secret_outputs.

    Models pkg/resource/deploy/step_executor.go:316-343 and
    pkg/resource/deploy/step.go:123-142 for its outputs. *)
From Coq Require Import List Bool String.
Import ListNotations.

(** An output: what it is, and whether it is secret. What is in it may be anything,
    and may have secrets inside. *)
Record output := { o_value : nat; o_secret : bool }.
Definition outputs := list (string * output).

(** resource.MakeSecret, if it is not secret yet (step_executor.go:326-327), for
    one key. *)
Fixpoint mark_one (k : string) (l : outputs) : outputs :=
  match l with
  | [] => []
  | (k', o) :: r =>
      if String.eqb k k' then (k', {| o_value := o_value o; o_secret := true |}) :: r
      else (k', o) :: mark_one k r
  end.

(** The loop over the additional secret outputs (step_executor.go:319-343). *)
Fixpoint mark (ks : list string) (l : outputs) : outputs :=
  match ks with
  | [] => l
  | k :: r => if String.eqb k "id" then mark r l else mark r (mark_one k l)
  end.

(** A run, for one resource. [Provided]: it is created, updated or replaced, and
    these are the outputs that the provider reports. [Kept]: it is the same.
    [Failed]: nothing is recorded of it. Each with the list of its options. *)
Inductive run :=
| Provided (ks : list string) (reported : outputs)
| Kept (ks : list string)
| Failed (ks : list string).

(** What is recorded of the outputs after a run. This is also what the program gets
    in it (step.go:140, step_executor.go:366-369). *)
Definition step (st : option outputs) (r : run) : option outputs :=
  match r with
  | Provided ks reported => Some (mark ks reported)
  | Kept ks => option_map (mark ks) st
  | Failed _ => st
  end.

Definition after (l : list run) : option outputs := fold_left step l None.
