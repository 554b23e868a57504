(** What an update writes down about resources while it works on them
    (Go: pkg/backend/snapshot.go, pkg/resource/deploy, pkg/engine/update.go). *)
From Verif Require Import Base Model_Lock.
Open Scope string_scope.
Open Scope list_scope.

(** What is recorded about a resource, sdk/go/common/resource/resource_state.go:
    its URN, whether it is custom, the ID its provider gave it, and the mark
    [PendingReplacement].  Simplification: the rest is left out.  IDs are numbers,
    and those of different resources are different. *)
Record rec : Type := mkRec { r_urn : string; r_custom : bool; r_id : option nat; r_marked : bool }.
Definition set_id (r : rec) (i : option nat) : rec := mkRec (r_urn r) (r_custom r) i (r_marked r).
Definition set_marked (r : rec) (b : bool) : rec := mkRec (r_urn r) (r_custom r) (r_id r) b.
(** operation.go: pending operations, with the resource. *)
Inductive kind : Type := Creating | Updating | Deleting.
Definition snapshot : Type := (list rec * list (kind * rec))%type.

(** step.go: steps, with pointers to states.  [after]: the old resource is deleted
    later.  [write]: snapshot.go:174-261 [mustWrite].  Simplification: imports, reads
    and refreshes are left out. *)
Inductive step : Type :=
| Create (new : nat)
| Create_replacement (old new : nat) (after : bool)
| Same (old new : nat) (write : bool)
| Update (old new : nat)
| Delete (old : nat)
| Remove_pending_replace (old : nat)
| Replace.
(** A chain of steps, step_executor.go:243-270 [executeChain]. *)
Inductive phase : Type := Ready | Begun | Applied (successful go_on : bool).
Definition thread : Type := (list step * phase)%type.

(** What the program, and what has become of the resources, make the engine do:
    step_generator.go:575-900 [generateSteps], [generateStepsFromDiff] and 905-960
    [GenerateDeletes]. *)
Inductive decision : Type :=
| D_create (urn : string) (custom : bool)
| D_same (old : nat) (urn : string) (write : bool)
| D_update (old : nat) (urn : string)
| D_replace_after (old : nat) (urn : string)
| D_replace_before (dependents : list nat) (old : nat) (urn : string)
| D_recreate (old : nat) (urn : string)
| D_delete (old : nat)
| D_drop (old : nat).
(** What a provider answers: that it worked; that the resource is there, but something
    failed (StatusPartialFailure); that nothing was done; or nothing, as it has died, although the
    operation was performed (StatusUnknown, sdk/go/common/resource/plugin/provider_plugin.go:1583-1597). *)
Inductive answer : Type := Worked | Partly | Failed | Lost.
(** What happens next: the engine decides; a chain begins a step, with the result of
    saving; the provider performs it; the chain ends the step; a chain stops, as others have failed or
    the user interrupts; outputs of components are registered; the manager is closed; and
    the update is over or has died, and the next one begins. *)
Inductive event : Type :=
| Plan (d : decision)
| Begin (i : nat) (r : io)
| Apply (i : nat) (a : answer)
| End (i : nat) (r : io)
| Stop (i : nat)
| Outputs (r : io)
| Close (r : io)
| Next.

(** The resources that exist and for which the stack is responsible ([m_world]: with the URN
    they were created for), the saved state, and snapshot.go:58-70 [SnapshotManager] with
    the states its pointers point to; the pointers that the generator has used. *)
Record machine : Type := mkM {
  m_world : list (nat * string); m_id : nat; m_saved : snapshot;
  m_heap : nat -> rec; m_next : nat; m_base : list nat; m_base_ops : list rec;
  m_resources : list nat; m_dones : list nat; m_ops : list (kind * nat); m_completes : list nat; m_elided : bool;
  m_threads : list thread; m_touched : list nat; m_replaced : list nat; m_condemned : list nat }.

Fixpoint has (n : nat) (l : list nat) : bool := match l with [] => false | x :: l' => Nat.eqb n x || has n l' end.
Definition upd (h : nat -> rec) (p : nat) (r : rec) : nat -> rec := fun q => if Nat.eqb q p then r else h q.
(** snapshot.go:543-629 [snap]. *)
Definition snap (m : machine) : snapshot :=
  (map (m_heap m) (m_resources m ++ filter (fun p => negb (has p (m_dones m))) (m_base m)),
   map (fun o => (fst o, m_heap m (snd o))) (filter (fun o => negb (has (snd o) (m_completes m))) (m_ops m)) ++ map (fun r => (Creating, r)) (m_base_ops m)).
(** snapshot.go:632-646 [saveSnapshot]: with an error of the storage or of the verification,
    the state may have been saved nevertheless. *)
Definition set_saved (m : machine) (s : snapshot) : machine :=
  mkM (m_world m) (m_id m) s (m_heap m) (m_next m) (m_base m) (m_base_ops m) (m_resources m) (m_dones m) (m_ops m) (m_completes m) false (m_threads m) (m_touched m) (m_replaced m) (m_condemned m).
Definition save (m : machine) (r : io) : machine := set_saved m (if performed r then snap m else m_saved m).
Definition fine (r : io) : bool := match r with Fine => true | Fault _ => false end.

Definition set_manager (m : machine) resources dones ops completes elided : machine :=
  mkM (m_world m) (m_id m) (m_saved m) (m_heap m) (m_next m) (m_base m) (m_base_ops m) resources dones ops completes elided (m_threads m) (m_touched m) (m_replaced m) (m_condemned m).
(** snapshot.go:496-539. *)
Definition mark_new (m : machine) (p : nat) : machine := set_manager m (m_resources m ++ [p]) (m_dones m) (m_ops m) (m_completes m) (m_elided m).
Definition mark_done (m : machine) (p : nat) : machine := set_manager m (m_resources m) (p :: m_dones m) (m_ops m) (m_completes m) (m_elided m).
Definition mark_pending (m : machine) (k : kind) (p : nat) : machine := set_manager m (m_resources m) (m_dones m) (m_ops m ++ [(k, p)]) (m_completes m) (m_elided m).
Definition mark_complete (m : machine) (p : nat) : machine := set_manager m (m_resources m) (m_dones m) (m_ops m) (p :: m_completes m) (m_elided m).
Definition elide (m : machine) : machine := set_manager m (m_resources m) (m_dones m) (m_ops m) (m_completes m) true.

Definition set_world (m : machine) (w : list (nat * string)) (i : nat) (h : nat -> rec) : machine :=
  mkM w i (m_saved m) h (m_next m) (m_base m) (m_base_ops m) (m_resources m) (m_dones m) (m_ops m) (m_completes m) (m_elided m) (m_threads m) (m_touched m) (m_replaced m) (m_condemned m).
Definition set_threads (m : machine) (ts : list thread) : machine :=
  mkM (m_world m) (m_id m) (m_saved m) (m_heap m) (m_next m) (m_base m) (m_base_ops m) (m_resources m) (m_dones m) (m_ops m) (m_completes m) (m_elided m) ts (m_touched m) (m_replaced m) (m_condemned m).
Definition set_plan (m : machine) (h : nat -> rec) (next : nat) (steps : list step) (touched condemned : list nat) : machine :=
  mkM (m_world m) (m_id m) (m_saved m) h next (m_base m) (m_base_ops m) (m_resources m) (m_dones m) (m_ops m) (m_completes m) (m_elided m) (m_threads m ++ [(steps, Ready)]) touched (m_replaced m) condemned.
Definition add_replaced (m : machine) (p : nat) : machine :=
  mkM (m_world m) (m_id m) (m_saved m) (m_heap m) (m_next m) (m_base m) (m_base_ops m) (m_resources m) (m_dones m) (m_ops m) (m_completes m) (m_elided m) (m_threads m) (m_touched m) (p :: m_replaced m) (m_condemned m).

(** step.go:281-316 [NewDeleteReplacementStep]: the mark is set when the step is made. *)
Definition mark_all (h : nat -> rec) (l : list nat) : nat -> rec := fold_left (fun h p => upd h p (set_marked (h p) true)) l h.
(** The steps that are made.  Each old resource is used once, but for the deletion of one that
    was replaced, and for one that was deleted since it depends on another one
    (step_generator.go:1611-1740 [calculateDependentReplacements]): that is created anew if the
    program still has it, and dropped otherwise. *)
Definition unused (m : machine) (p : nat) : bool := has p (m_base m) && negb (has p (m_touched m)).
Fixpoint distinct (l : list nat) : bool := match l with [] => true | x :: l' => negb (has x l') && distinct l' end.
Definition remove_one (p : nat) (l : list nat) : list nat := filter (fun q => negb (Nat.eqb p q)) l.
Definition new_rec (m : machine) (old : nat) (urn : string) : rec := mkRec urn (r_custom (m_heap m old)) None false.
Definition plan (m : machine) (d : decision) : machine :=
  let new := m_next m in
  match d with
  | D_create urn custom => set_plan m (upd (m_heap m) new (mkRec urn custom None false)) (S new) [Create new] (m_touched m) (m_condemned m)
  | D_same old urn write => if unused m old then set_plan m (upd (m_heap m) new (new_rec m old urn)) (S new) [Same old new write] (old :: m_touched m) (m_condemned m) else m
  | D_update old urn => if unused m old then set_plan m (upd (m_heap m) new (new_rec m old urn)) (S new) [Update old new] (old :: m_touched m) (m_condemned m) else m
  | D_replace_after old urn =>
      if unused m old then set_plan m (upd (m_heap m) new (new_rec m old urn)) (S new) [Create_replacement old new true; Replace] (old :: m_touched m) (m_condemned m) else m
  | D_replace_before deps old urn =>
      if forallb (unused m) (deps ++ [old]) && distinct (deps ++ [old]) then
        set_plan m (upd (mark_all (m_heap m) (deps ++ [old])) new (new_rec m old urn)) (S new) (map Delete (deps ++ [old]) ++ [Replace; Create_replacement old new false]) ((deps ++ [old]) ++ m_touched m) (deps ++ m_condemned m)
      else m
  | D_recreate old urn =>
      if has old (m_condemned m) then set_plan m (upd (m_heap m) new (new_rec m old urn)) (S new) [Replace; Create_replacement old new false] (m_touched m) (remove_one old (m_condemned m)) else m
  | D_delete old =>
      if has old (m_replaced m) then
        mkM (m_world m) (m_id m) (m_saved m) (upd (m_heap m) old (set_marked (m_heap m old) false)) (m_next m) (m_base m) (m_base_ops m) (m_resources m) (m_dones m) (m_ops m) (m_completes m) (m_elided m)
          (m_threads m ++ [([Delete old], Ready)]) (m_touched m) (remove_one old (m_replaced m)) (m_condemned m)
      else if unused m old && negb (r_marked (m_heap m old)) then set_plan m (m_heap m) new [Delete old] (old :: m_touched m) (m_condemned m) else m
  | D_drop old =>
      if has old (m_condemned m) then set_plan m (m_heap m) new [Remove_pending_replace old] (m_touched m) (remove_one old (m_condemned m))
      else if unused m old && r_marked (m_heap m old) then set_plan m (m_heap m) new [Remove_pending_replace old] (old :: m_touched m) (m_condemned m) else m
  end.

(** snapshot.go:125-157 [BeginMutation], [doCreate], [doUpdate], [doDelete]. *)
Definition pending_of (s : step) : option (kind * nat) :=
  match s with
  | Create new | Create_replacement _ new _ => Some (Creating, new)
  | Update _ new => Some (Updating, new)
  | Delete old => Some (Deleting, old)
  | Same _ _ _ | Remove_pending_replace _ | Replace => None
  end.
Definition set_thread (m : machine) (i : nat) (t : thread) : machine := set_threads m (firstn i (m_threads m) ++ t :: skipn (S i) (m_threads m)).
Definition begin_step (m : machine) (i : nat) (s : step) (rest : list step) (r : io) : machine :=
  match pending_of s with
  | Some (k, p) => set_thread (save (mark_pending m k p) r) i (if fine r then (s :: rest, Begun) else ([], Ready))
  | None => set_thread m i (s :: rest, Begun)
  end.
(** step.go: [Apply] of the steps.  A resource with RetainOnDelete is not deleted, but the
    stack is no longer responsible for it.  Deleting never fails partly
    (provider_plugin.go, [Delete]). *)
Definition without (w : list (nat * string)) (i : option nat) : list (nat * string) :=
  match i with Some p => filter (fun x => negb (Nat.eqb (fst x) p)) w | None => w end.
Definition create_apply (m : machine) (new : nat) (a : answer) : machine * (bool * bool) :=
  let r := m_heap m new in
  if r_custom r then
    match a with
    | Worked => (set_world m ((m_id m, r_urn r) :: m_world m) (S (m_id m)) (upd (m_heap m) new (set_id r (Some (m_id m)))), (true, true))
    | Partly => (set_world m ((m_id m, r_urn r) :: m_world m) (S (m_id m)) (upd (m_heap m) new (set_id r (Some (m_id m)))), (true, false))
    | Failed => (m, (false, false))
    | Lost => (set_world m ((m_id m, r_urn r) :: m_world m) (S (m_id m)) (m_heap m), (false, false))
    end
  else (m, (true, true)).
Definition keep_id (m : machine) (old new : nat) : machine := set_world m (m_world m) (m_id m) (upd (m_heap m) new (set_id (m_heap m new) (r_id (m_heap m old)))).
Definition apply_step (m : machine) (s : step) (a : answer) : machine * (bool * bool) :=
  match s with
  | Create new | Create_replacement _ new _ => create_apply m new a
  | Same old new _ => (keep_id m old new, (true, true))
  | Update old new => (keep_id m old new, match a with Worked => (true, true) | Partly => (true, false) | Failed | Lost => (false, false) end)
  | Delete old =>
      match a with
      | Worked => (set_world m (without (m_world m) (r_id (m_heap m old))) (m_id m) (m_heap m), (true, true))
      | Lost => (set_world m (without (m_world m) (r_id (m_heap m old))) (m_id m) (m_heap m), (false, false))
      | Partly | Failed => (m, (false, false))
      end
  | Remove_pending_replace _ | Replace => (m, (true, true))
  end.
(** snapshot.go:265-515: [End] of the mutations; and whether the state is saved. *)
Definition end_step (m : machine) (s : step) (successful : bool) : machine * bool :=
  match s with
  | Create new => (let m := mark_complete m new in if successful then mark_new m new else m, true)
  | Create_replacement old new after =>
      (let m := mark_complete m new in
       if successful then
         let m := mark_new m new in let m := if r_marked (m_heap m old) then mark_done m old else m in if after then add_replaced m old else m
       else m, true)
  | Same old new write => (let m := mark_new (mark_done m old) new in if write then m else elide m, write)
  | Update old new => (let m := mark_complete m new in if successful then mark_new (mark_done m old) new else m, true)
  | Delete old => (let m := mark_complete m old in if successful then if r_marked (m_heap m old) then m else mark_done m old else m, true)
  | Remove_pending_replace old => (mark_done m old, true)
  | Replace => (m, false)
  end.
(** The states of the next update: those that were saved, and the pending creations,
    snapshot.go:602-612; snapshot.go:651-693 [NewSnapshotManager]. *)
Definition next_update (m : machine) : machine :=
  let rs := fst (m_saved m) in
  mkM (m_world m) (m_id m) (m_saved m) (fun p => nth p rs (mkRec "" false None false)) (List.length rs) (seq 0 (List.length rs))
    (map snd (filter (fun o => match fst o with Creating => true | _ => false end) (snd (m_saved m)))) [] [] [] [] false [] [] [] [].
(** step_executor.go:289-385 [executeStep]; engine/update.go:509-612. *)
Definition react (m : machine) (e : event) : machine :=
  match e with
  | Plan d => plan m d
  | Begin i r => match nth_error (m_threads m) i with Some (s :: rest, Ready) => begin_step m i s rest r | _ => m end
  | Apply i a =>
      match nth_error (m_threads m) i with
      | Some (s :: rest, Begun) => let (m', x) := apply_step m s a in set_thread m' i (s :: rest, Applied (fst x) (snd x))
      | _ => m
      end
  | End i r =>
      match nth_error (m_threads m) i with
      | Some (s :: rest, Applied ok go_on) =>
          let (m', write) := end_step m s ok in
          set_thread (if write then save m' r else m') i (if go_on && (negb write || fine r) then (rest, Ready) else ([], Ready))
      | _ => m
      end
  | Stop i => match nth_error (m_threads m) i with Some _ => set_thread m i ([], Ready) | None => m end
  | Outputs r => save m r
  | Close r => if m_elided m then save m r else m
  | Next => next_update m
  end.
Definition run (m : machine) (es : list event) : machine := fold_left react es m.
(** A stack before its first update. *)
Definition empty : machine := next_update (mkM [] 0 ([], []) (fun _ => mkRec "" false None false) 0 [] [] [] [] [] [] false [] [] [] []).
