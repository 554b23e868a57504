(** What is deleted along with a resource that is deleted before it is replaced
    (Go: pkg/resource/deploy/step_generator.go). *)
From Verif Require Import Base Model_Deletes.
Open Scope string_scope.
Open Scope list_scope.

Section Along.
  Variable V : Type.
  (** sdk/go/common/resource/resource_state.go:26-52 [State]: the inputs and the dependencies of each of them, of
      the resource at a place; and whether its provider's Diff of what is recorded against inputs that may be
      unknown, [None], tells of a replacement.  Left out: Diffs that fail. *)
  Record details : Type := mkDetails {
    d_inputs : nat -> list (string * V); d_deps : nat -> string -> list string; d_diff : nat -> list (string * option V) -> bool }.
  (** step_generator.go:1655-1666: the inputs for the Diff. *)
  Definition affected (D : details) (replaced : list string) (d : nat) (k : string) : bool := existsb (fun u => is_in u replaced) (d_deps D d k).
  Definition inputs_for_diff (D : details) (replaced : list string) (d : nat) : list (string * option V) :=
    map (fun kv => (fst kv, if affected D replaced d (fst kv) then None else Some (snd kv))) (d_inputs D d).
  (** step_generator.go:1655-1687, the end of [requiresReplacement]; its beginning is in
      [Model_Deletes.replacements]. *)
  Definition requires (D : details) : verdict := fun replaced d =>
    if existsb (fun kv => affected D replaced d (fst kv)) (d_inputs D d) then d_diff D d (inputs_for_diff D replaced d) else false.
End Along.
Arguments mkDetails {V}. Arguments d_inputs {V}. Arguments d_deps {V}. Arguments d_diff {V}.
Arguments affected {V}. Arguments inputs_for_diff {V}. Arguments requires {V}.
