(** Adopting an existing resource with the option import_ (Go: pkg/resource/deploy): one resource of
    a program over a history of updates. *)
From Verif Require Import Base.
Open Scope string_scope.
Open Scope list_scope.

Section Adopt.
  (** Inputs. *)
  Variable P : Type.
  (** What a provider finds out about a resource that exists: nothing to do, an update or a
      replacement. *)
  Inductive change : Type := Same | Changed | Needs_replacement.
  (** [find]: the ID of the resource that an import ID stands for.  [check]: the inputs as they are
      checked, given older ones; [None]: they are not valid.  [differs]: between the inputs a resource
      exists with and new ones.  [fresh]: the ID of a new resource. *)
  Record provider : Type := mkProvider {
    find : string -> string; check : option P -> P -> option P; differs : P -> P -> change; fresh : list string -> string }.
  (** What is recorded, sdk/go/common/resource/resource_state.go:26-52 [State]: the ID, the import
      ID, empty if there is none, and the inputs. *)
  Record entry : Type := mkEntry { e_id : string; e_import : string; e_inputs : P }.
  (** The resources that exist, what is recorded for the resource of the program, and those that
      are recorded to be deleted. *)
  Record world : Type := mkWorld { things : list (string * P); live : option entry; pending : list entry }.
  (** What the program says: the import ID, empty if there is none, and the inputs. *)
  Record goal : Type := mkGoal { g_import : string; g_inputs : P }.

  Fixpoint look (id : string) (l : list (string * P)) : option P :=
    match l with [] => None | (k, v) :: l' => if String.eqb id k then Some v else look id l' end.
  Definition drop (id : string) (l : list (string * P)) : list (string * P) := filter (fun kv => negb (String.eqb (fst kv) id)) l.
  Definition set (id : string) (p : P) (l : list (string * P)) : list (string * P) :=
    map (fun kv => if String.eqb (fst kv) id then (id, p) else kv) l.
  (** step.go:338-370 [DeleteStep.Apply] for each.  Left out: retain_on_delete. *)
  Definition delete_all (es : list entry) (l : list (string * P)) : list (string * P) := fold_left (fun l e => drop (e_id e) l) es l.

  (** step_generator.go:433-444: whether the resource is imported. *)
  Definition is_import (old : option entry) (g : goal) : bool :=
    negb (String.eqb (g_import g) "") &&
    match old with
    | None => true
    | Some e => negb (String.eqb (if String.eqb (e_import e) "" then e_id e else e_import e) (g_import g))
    end.

  (** step_generator.go:433-466, step.go:891-950, 999-1041 [ImportStep.Apply]: what is recorded
      instead, [None] if the import fails.  Left out: ignore_changes, and resources that are found
      unhealthy. *)
  Definition import (pr : provider) (w : world) (g : goal) : option entry :=
    let id := find pr (g_import g) in
    match look id (things w) with
    | None => None
    | Some actual =>
        match check pr (Some actual) (g_inputs g) with
        | None => None
        | Some i => match differs pr actual i with Same => Some (mkEntry id (g_import g) i) | _ => None end
        end
    end.

  (** step_generator.go:329-712 [generateSteps], 717-903 [generateStepsFromDiff] for a registration,
      with what step.go does: [SameStep] 123-143, [CreateStep], [UpdateStep] 456-495, [ImportStep].
      The new state is made with no import ID, step_generator.go:391-393, and only an import sets
      it.  What has an import ID is not
      replaced, 766-775.  The second component is what is to be deleted at the end.  [None]: the update
      fails.  Left out: targets, protection, deletions before replacements, failures of single
      steps. *)
  Definition register (pr : provider) (w : world) (g : goal) : option (world * list entry) :=
    if is_import (live w) g then
      match import pr w g with
      | None => None
      | Some e => Some (mkWorld (things w) (Some e) (pending w), match live w with Some old => [old] | None => [] end)
      end
    else
      match live w with
      | None =>
          match check pr None (g_inputs g) with
          | None => None
          | Some i => let id := fresh pr (map fst (things w)) in Some (mkWorld ((id, i) :: things w) (Some (mkEntry id "" i)) (pending w), [])
          end
      | Some old =>
          match check pr (Some (e_inputs old)) (g_inputs g) with
          | None => None
          | Some i =>
              match differs pr (match look (e_id old) (things w) with Some p => p | None => e_inputs old end) i with
              | Same => Some (mkWorld (things w) (Some (mkEntry (e_id old) "" i)) (pending w), [])
              | Changed => Some (mkWorld (set (e_id old) i (things w)) (Some (mkEntry (e_id old) "" i)) (pending w), [])
              | Needs_replacement =>
                  if negb (String.eqb (g_import g) "") then None
                  else
                    match check pr None (g_inputs g) with
                    | None => None
                    | Some i =>
                        let id := fresh pr (map fst (things w)) in
                        Some (mkWorld ((id, i) :: things w) (Some (mkEntry id "" i)) (pending w), [old])
                    end
              end
          end
      end.

  (** deployment_executor.go:143-373 [Execute], 374-432 [performDeletes] and 480-497
      [retirePendingDeletes]: what an earlier update left is deleted, then the program runs, then
      what was replaced is deleted.  [retires] and [deletes]: whether these deletions succeed;
      if not, what was to be deleted is recorded so.  The result is the world and whether the
      update succeeded. *)
  Definition update (pr : provider) (w : world) (g : goal) (retires deletes : bool) : world * bool :=
    if negb retires && negb (match pending w with [] => true | _ => false end) then (w, false)
    else
      let w1 := mkWorld (delete_all (pending w) (things w)) (live w) [] in
      match register pr w1 g with
      | None => (w1, false)
      | Some (w2, olds) =>
          if deletes then (mkWorld (delete_all olds (things w2)) (live w2) (pending w2), true)
          else (mkWorld (things w2) (live w2) (olds ++ pending w2), match olds with [] => true | _ => false end)
      end.
  Fixpoint updates (pr : provider) (w : world) (history : list (goal * bool * bool)) : world :=
    match history with
    | [] => w
    | (g, retires, deletes) :: h => updates pr (fst (update pr w g retires deletes)) h
    end.
End Adopt.
