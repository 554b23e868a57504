(** What has to go along with a resource that is deleted before it is replaced. *)
From Verif Require Import Base Model_Deletes Model_Along.
Open Scope string_scope.
Open Scope list_scope.

Section Spec.
  Variable V : Type.
  (** The recorded state, its details, the place of the resource, the names that the program has
      registered so far, and a set of places. *)
  Variables (D : details V) (s : list state) (root : nat) (registered : list string) (X : nat -> Prop).
  (** The resource named [u] goes. *)
  Definition goes (u : string) : Prop := exists j b, (j = root \/ X j) /\ nth_error s j = Some b /\ s_urn b = u.
  (** The value of the input [k] of [d] comes from something that goes. *)
  Definition comes (d : nat) (k : string) : Prop := exists u, In u (d_deps D d k) /\ goes u.
  (** The inputs of [d], where those are not known that come from something that goes. *)
  Definition left_of (d : nat) (l : list (string * option V)) : Prop :=
    Forall2 (fun kv kw => fst kw = fst kv /\ (comes d (fst kv) -> snd kw = None) /\ (~ comes d (fst kv) -> snd kw = Some (snd kv))) (d_inputs D d) l.
  (** A resource of a provider, recorded later and not yet registered, whose provider goes, or some of
      whose inputs come from something that goes, so that its provider would replace it if they were others. *)
  Definition must_go (d : nat) : Prop :=
    root < d /\ exists r, nth_error s d = Some r /\ s_custom r = true /\ s_external r = false /\ ~ In (s_urn r) registered
    /\ ((s_provider r <> "" /\ goes (s_provider r))
        \/ ((exists k v, In (k, v) (d_inputs D d) /\ comes d k) /\ exists l, left_of d l /\ d_diff D d l = true)).
End Spec.
