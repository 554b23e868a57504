(** Specifications for the ambient settings (C69). *)
From Verif Require Import Base PyVal Model_Settings.
Open Scope string_scope.

(** How many contexts exist after a history: the main one, and one per thread
    and task. *)
Fixpoint contexts (h : list sop) : nat :=
  match h with
  | [] => 1
  | SThread :: h' | STask _ :: h' => S (contexts h')
  | _ :: h' => contexts h'
  end.
(** A history mentions only contexts that exist ([h] is newest first). *)
Fixpoint valid (h : list sop) : Prop :=
  match h with
  | [] => True
  | SConfigure c _ :: h' | SMocks c _ _ _ _ _ :: h' | SAssign c _ _ :: h' | STask c :: h' => c < contexts h' /\ valid h'
  | SThread :: h' => valid h'
  end.

(** What each kind of configuration says about a setting. *)
Definition configured (legacy_env : bool) (a : sargs) (k : skey) : pyval :=
  match k with
  | KProject => sa_project a | KStack => sa_stack a | KMonitor => sa_monitor a | KEngine => sa_engine a
  | KParallel => sa_parallel a | KDryRun => sa_dry_run a | KOrganization => sa_organization a
  | KLegacy => match sa_legacy a with VNone => VBool legacy_env | v => v end
  end.
Definition mocked (monitor engine project stack preview : pyval) (k : skey) : option pyval :=
  match k with
  | KMonitor => Some monitor | KEngine => Some engine
  | KProject => Some (match project with VNone => VStr "project" | v => v end)
  | KStack => Some (match stack with VNone => VStr "stack" | v => v end)
  | KDryRun => Some preview
  | _ => None
  end.

(** The value a context was last given for a setting, by itself or by the
    context it was copied from before the copy; [h] is newest first. *)
Fixpoint given (env : bool) (h : list sop) (c : nat) (k : skey) : option pyval :=
  match h with
  | [] => if Nat.eqb c 0 then Some (configured env import_args k) else None
  | SConfigure c' a :: h' => if Nat.eqb c c' then Some (configured env a k) else given env h' c k
  | SMocks c' m e p st pr :: h' =>
      if Nat.eqb c c' then match mocked m e p st pr k with Some v => Some v | None => given env h' c k end
      else given env h' c k
  | SAssign c' k' v :: h' => if Nat.eqb c c' && skey_eqb k k' then Some v else given env h' c k
  | SThread :: h' => if Nat.eqb c (contexts h') then None else given env h' c k
  | STask c' :: h' => if Nat.eqb c (contexts h') then given env h' c' k else given env h' c k
  end.
