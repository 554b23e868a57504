(** What can be said about settings files and histories of stacks (C121). *)
From Verif Require Import Base PyVal Spec_Json Model_ConfigFile Spec_ConfigFile Spec_Files Model_Refresh.
From Verif Require Model_Files.
Open Scope string_scope.
Open Scope list_scope.

(** A settings file that can be read: data under keys. *)
Definition readable (f : dict pyval) : Prop := forall word y, In (word, y) f -> (exists key, spells word key) /\ plain_data y.

Section Histories.
  Context {S V : Type}.
  (** Neither an update nor the removal of this stack. *)
  Definition spares (name : string) (a : action S V) : Prop :=
    match a with Updated _ n _ _ | Removed _ n => n <> name | Edited _ | Created _ _ => True end.
  (** The storage works, and names are proper ones (see C114). *)
  Definition sound (a : action S V) : Prop :=
    match a with Edited _ => True | Created e n | Updated e n _ _ | Removed e n => working e /\ proper n end.
  Definition time_of (a : action S V) : list string :=
    match a with Edited _ => [] | Created e _ | Updated e _ _ _ | Removed e _ => [Model_Files.e_stamp e] end.
End Histories.
