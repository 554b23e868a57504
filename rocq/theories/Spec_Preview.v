(** What it means that a preview can be trusted: specification for C137. *)
From Verif Require Import Base Model_Preview.
Open Scope string_scope.
Open Scope list_scope.

Section Spec.
  Variable V : Type.
  (** [i'] is [i] with some of the values filled in that were not known; what turns out to be None
      is left out. *)
  Inductive filled : inputs V -> inputs V -> Prop :=
  | nothing : filled [] []
  | as_it_was : forall k v i i', filled i i' -> filled ((k, v) :: i) ((k, v) :: i')
  | value : forall k v i i', filled i i' -> filled ((k, None) :: i) ((k, v) :: i')
  | left_out : forall k i i', filled i i' -> filled ((k, None) :: i) i'.
  Definition clearer (a b : seen V) : Prop := a = Unknown \/ a = b.
  (** What the program has later says the same of each resource, or more. *)
  Definition more (ev ev' : env V) : Prop :=
    forall urn vw, look urn ev = Some vw -> exists vw', look urn ev' = Some vw' /\ forall k, clearer (vw k) (vw' k).

  (** A program in which knowing more only fills in what was not known. *)
  Definition steady (f : env V -> decision V) : Prop :=
    forall ev ev', more ev ev' ->
      (f ev = Skip -> f ev' = Skip) /\
      (forall c i, f ev = Declare c i -> exists c' i', f ev' = Declare c' i' /\ (c = true -> c' = true) /\ filled i i').

  (** When all is known, nothing that the program says is open. *)
  Definition definite (f : env V -> decision V) : Prop :=
    forall ev, (forall urn vw, look urn ev = Some vw -> forall k, vw k <> Unknown) ->
      forall c i, f ev = Declare c i -> c = true /\ forall k, look k i <> Some None.

  (** A provider that keeps its word.  The check of inputs: filling in changes nothing else. *)
  Definition checks_steadily (p : provider V) : Prop :=
    forall old i i', filled i i' -> filled (check p old i) (check p old i').
  (** It says that nothing changes, or that nothing is replaced, only if that holds whatever the
      values that are not known will be. *)
  Definition careful (p : provider V) : Prop :=
    forall o i i', filled i i' ->
      (diff p o i = Unchanged -> diff p o i' = Unchanged) /\ (diff p o i = Changed -> diff p o i' <> Needs_replacement).
  (** The outputs a resource has in the end, given what is recorded of it and the inputs of the
      program.  The inputs are checked against those recorded, if the resource is not new. *)
  Inductive ends_with (p : provider V) : option (inputs V * outputs V) -> inputs V -> outputs V -> Prop :=
  | new : forall i, ends_with p None i (create p (check p None i))
  | kept : forall oi o i, diff p o (check p (Some oi) i) = Unchanged -> ends_with p (Some (oi, o)) i o
  | changed : forall oi o i, diff p o (check p (Some oi) i) = Changed -> ends_with p (Some (oi, o)) i (update p o (check p (Some oi) i))
  | replaced : forall oi o i, diff p o (check p (Some oi) i) = Needs_replacement -> ends_with p (Some (oi, o)) i (create p (check p None i)).
  (** The values it gives for outputs in a preview; if it has no previews, these are the inputs. *)
  Inductive promises (p : provider V) : option (inputs V * outputs V) -> inputs V -> string -> V -> Prop :=
  | by_new : forall i k v, look k (if previews p then preview_create p (check p None i) else check p None i) = Some (Some v) ->
      promises p None i k v
  | by_change : forall oi o i k v, diff p o (check p (Some oi) i) = Changed ->
      look k (if previews p then preview_update p o (check p (Some oi) i) else check p (Some oi) i) = Some (Some v) ->
      promises p (Some (oi, o)) i k v
  | by_replacement : forall oi o i k v, diff p o (check p (Some oi) i) = Needs_replacement ->
      look k (if previews p then preview_create p (check p None i) else check p None i) = Some (Some v) ->
      promises p (Some (oi, o)) i k v.
  Definition truthful (p : provider V) : Prop :=
    forall old i i' k v o, filled i i' -> promises p old i k v -> ends_with p old i' o -> look k o = Some v.
End Spec.
Arguments filled {V}. Arguments clearer {V}. Arguments more {V}. Arguments steady {V}. Arguments definite {V}.
Arguments checks_steadily {V}. Arguments careful {V}. Arguments truthful {V}. Arguments ends_with {V}. Arguments promises {V}.
