(** Which resources an update deletes, and in which order
    (Go: pkg/resource/deploy, pkg/resource/graph). *)
From Verif Require Import Base.
Open Scope string_scope.
Open Scope list_scope.

(** sdk/go/common/resource/resource_state.go:26-52 [State]: what matters here.  [s_provider] is
    the URN of the provider reference, [s_pending] the mark [PendingReplacement].  Texts are
    empty if there is nothing. *)
Record state : Type := mkState {
  s_urn : string; s_parent : string; s_deps : list string; s_provider : string;
  s_custom : bool; s_external : bool; s_retain : bool; s_protect : bool; s_delete : bool; s_pending : bool }.
(** Resources are referred to by their places in the recorded state, for the pointers of the
    code. *)
Definition is_in (u : string) (l : list string) : bool := existsb (String.eqb u) l.
Definition has_place (i : nat) (l : list nat) : bool := existsb (Nat.eqb i) l.
Definition urn_at (s : list state) (i : nat) : string := match nth_error s i with Some r => s_urn r | None => "" end.
Definition flag_at (f : state -> bool) (s : list state) (i : nat) : bool := match nth_error s i with Some r => f r | None => false end.

(** graph/dependency_graph.go:169-187 [NewDependencyGraph]: what is above the resource at [i],
    as [childrenOf] has it; [place_of] is [urnIndex].  Simplification: the loop ends after as
    many rounds as there are resources; with parents recorded before their children, the code's
    does too. *)
Fixpoint place_of (u : string) (l : list state) (i found : nat) : nat :=
  match l with
  | [] => found
  | r :: l' => place_of u l' (S i) (if String.eqb (s_urn r) u then i else found)
  end.
Fixpoint above (fuel : nat) (s : list state) (i : nat) (parent : string) : list string :=
  match fuel with
  | 0 => []
  | S f =>
      if String.eqb parent "" then []
      else parent :: above f s i (match nth_error s (place_of parent (firstn (S i) s) 0 0) with Some r => s_parent r | None => "" end)
  end.
Definition is_below (s : list state) (u : string) (i : nat) : bool :=
  match nth_error s i with Some r => is_in u (above (length s) s i (s_parent r)) | None => false end.

(** graph/dependency_graph.go:80-121 [DependenciesOf]. *)
Definition uses (r : state) (u : string) : bool :=
  is_in u (s_deps r) || (negb (String.eqb (s_provider r) "") && String.eqb (s_provider r) u).
Definition dependencies_of (s : list state) (i : nat) : list nat :=
  match nth_error s i with
  | None => []
  | Some r =>
      filter (fun j =>
        uses r (urn_at s j) || String.eqb (urn_at s j) (s_parent r) ||
        existsb (fun k => uses r (urn_at s k) && negb (flag_at s_custom s k) && is_below s (urn_at s k) j) (seq 0 i))
        (seq 0 i)
  end.

(** graph/dependency_graph.go:18-76 [DependingOn]. *)
Definition is_dependent (s : list state) (root : string) (ignore : list string) (children : bool) (found : list string) (j : nat) : bool :=
  match nth_error s j with
  | None => false
  | Some c =>
      if is_in (s_urn c) ignore then false
      else if children && String.eqb (s_parent c) root then true
      else existsb (fun d => is_in d found) (s_deps c) || (negb (String.eqb (s_provider c) "") && is_in (s_provider c) found)
  end.
Fixpoint scan (s : list state) (root : string) (ignore : list string) (children : bool) (places : list nat) (found : list string) : list nat :=
  match places with
  | [] => []
  | j :: places' =>
      if is_dependent s root ignore children found j then j :: scan s root ignore children places' (urn_at s j :: found)
      else scan s root ignore children places' found
  end.
Definition depending_on (s : list state) (i : nat) (ignore : list string) (children : bool) : list nat :=
  scan s (urn_at s i) ignore children (seq (S i) (length s - S i)) [urn_at s i].

(** step_generator.go:1181-1242 [ScheduleDeletes]: [None] if it does not end. *)
Fixpoint antichains (fuel : nat) (s : list state) (condemned : list nat) : option (list (list nat)) :=
  match condemned with
  | [] => Some []
  | _ =>
      match fuel with
      | 0 => None
      | S f =>
          let free := fun i => forallb (fun j => negb (has_place j condemned)) (dependencies_of s i) in
          match antichains f s (filter (fun i => negb (free i)) condemned) with
          | Some l => Some (filter free condemned :: l)
          | None => None
          end
      end
  end.
Definition schedule_deletes (trust : bool) (s : list state) (deletes : list nat) : option (list (list nat)) :=
  if trust then option_map (@rev _) (antichains (length deletes) s deletes) else Some (map (fun i => [i]) deletes).

(** step_generator.go:1611-1713 [calculateDependentReplacements].  [needs] is what the property
    dependencies and the provider's Diff say, given what is replaced. *)
Definition verdict : Type := list string -> nat -> bool.
Fixpoint replacements (needs : verdict) (s : list state) (replaced : list string) (places : list nat) : list nat :=
  match places with
  | [] => []
  | d :: places' =>
      if match nth_error s d with
         | None => false
         | Some r =>
             if negb (s_custom r) || s_external r then false
             else if negb (String.eqb (s_provider r) "") && is_in (s_provider r) replaced then true
             else needs replaced d
         end
      then d :: replacements needs s (urn_at s d :: replaced) places'
      else replacements needs s replaced places'
  end.
Definition dependent_replacements (needs : verdict) (s : list state) (registered : list string) (root : nat) : list nat :=
  replacements needs s [urn_at s root] (depending_on s root registered false).

(** step_generator.go:1048-1078 [getTargetDependents]; [None] if it does not end. *)
Fixpoint target_dependents (fuel : nat) (s : list state) (frontier : list nat) (targets : list string) : option (list string) :=
  match frontier with
  | [] => Some targets
  | next :: rest =>
      match fuel with
      | 0 => None
      | S f =>
          if is_in (urn_at s next) targets then target_dependents f s rest targets
          else let targets' := urn_at s next :: targets in target_dependents f s (rest ++ depending_on s next targets' true) targets'
      end
  end.
(** deployment.go:291-311 [buildResourceMap]: the live resource with a URN. *)
Fixpoint find_live (u : string) (l : list state) (i : nat) : option nat :=
  match l with
  | [] => None
  | r :: l' => if String.eqb (s_urn r) u && negb (s_delete r) then Some i else find_live u l' (S i)
  end.
(** step_generator.go:1084-1135 [determineAllowedResourcesToDeleteFromTargets]. *)
Definition allowed_deletes (needs : verdict) (s : list state) (registered : list string) (targets : list string) : option (list string) :=
  let n := length s in
  match target_dependents (S n * S n) s (filter (fun i => is_in (urn_at s i) targets) (seq 0 n)) [] with
  | None => None
  | Some ts =>
      Some (flat_map (fun t => match find_live t s 0 with
                               | None => []
                               | Some i => t :: map (urn_at s) (dependent_replacements needs s registered i)
                               end) ts)
  end.

(** step_generator.go: what matters here of [stepGenerator].  [g_kept]: sames, updates,
    replaces, reads and aliased; [g_replaced]: old resources whose replacements are made, so that
    they are marked [Delete] (step.go:258, 674, 1039). *)
Record gen : Type := mkGen { g_urns : list string; g_kept : list string; g_deletes : list string; g_condemned : list nat; g_replaced : list nat }.
Definition new_gen : gen := mkGen [] [] [] [] [].
(** Steps: deletions, as parts of replacements or not, and other ones. *)
Inductive step : Type := Del (i : nat) (replacing : bool) | Drop (i : nat) | Other.

(** deploy/deployment.go:53-70 [Options].  No targets: everything is updated. *)
Record options : Type := mkOptions { o_trust : bool; o_targets : option (list string); o_dependents : bool; o_preview : bool }.
Inductive planned : Type := Steps (l : list nat) | Bail | Endless.
(** step_generator.go:905-1044 [GenerateDeletes], after [GeneratePendingDeletes] (1140-1157) has
    taken those that were marked in the recorded state.  Left out: update plans. *)
Definition wanted (s : list state) (g : gen) (i : nat) : bool :=
  match nth_error s i with
  | None => false
  | Some r => if has_place i (g_replaced g) then true else if s_delete r then false else negb (is_in (s_urn r) (g_kept g))
  end.
Definition generate_deletes (needs : verdict) (o : options) (s : list state) (g : gen) : planned :=
  let dels := filter (wanted s g) (rev (seq 0 (length s))) in
  match o_targets o with
  | None => Steps dels
  | Some ts =>
      match allowed_deletes needs s (g_urns g) ts with
      | None => Endless
      | Some allowed =>
          let dels := filter (fun i => is_in (urn_at s i) allowed) dels in
          if existsb (fun i => negb (is_in (urn_at s i) ts)) dels && negb (o_dependents o) && negb (o_preview o) then Bail
          else Steps dels
      end
  end.
Definition step_for (s : list state) (g : gen) (i : nat) : step :=
  if has_place i (g_replaced g) then Del i true
  else if flag_at s_pending s i || has_place i (g_condemned g) then Drop i else Del i false.
(** step_generator.go:1140-1157 [GeneratePendingDeletes]. *)
Definition pending_deletes (s : list state) : list nat := filter (flag_at s_delete s) (rev (seq 0 (length s))).

(** step.go:338-370 [DeleteStep.Apply] up to the provider's answer, and 398-400
    [RemovePendingReplaceStep.Apply]: an error; success without asking; or asking the provider. *)
Inductive applied : Type := Refused | Silent | Asking.
Definition apply (preview : bool) (s : list state) (st : step) : applied :=
  match st with
  | Del i replacing =>
      if negb replacing && flag_at s_protect s i then Refused
      else if preview || flag_at s_external s i || flag_at s_retain s i || negb (flag_at s_custom s i) then Silent
      else Asking
  | Drop _ | Other => Silent
  end.

(** What a program registers or reads, with what the provider's Diff says about it
    (step_generator.go:717-745, 815-824: [Differs before] if it must be replaced), that its
    import ID is another one (446), or that it is read and whether the ID is that of the recorded
    resource (212). *)
Inductive answer : Type := Equal | Changed | Differs (before : bool) | Imported | Read (same_id : bool).
Record registration : Type := mkReg {
  q_urn : string; q_aliases : list string; q_protect : bool; q_targeted : bool; q_answer : answer; q_needs : verdict }.
Fixpoint find_old (s : list state) (urns : list string) : option nat :=
  match urns with
  | [] => None
  | u :: us => match find_live u s 0 with Some i => Some i | None => find_old s us end
  end.
Definition keep (g : gen) (us : list string) : gen := mkGen (g_urns g) (us ++ g_kept g) (g_deletes g) (g_condemned g) (g_replaced g).
Definition replaced (g : gen) (i : nat) : gen := mkGen (g_urns g) (g_kept g) (g_deletes g) (g_condemned g) (i :: g_replaced g).
(** step_generator.go:167-235 [GenerateReadSteps], 329-466 and 585-712 [generateSteps], 717-903
    [generateStepsFromDiff]; [None]: the update stops.  Left out: what providers find wrong. *)
Definition register (o : options) (s : list state) (g : gen) (q : registration) : option (gen * list step) :=
  let u := q_urn q in
  if is_in u (g_urns g) then None
  else
    let g := mkGen (u :: g_urns g) (g_kept g) (g_deletes g) (g_condemned g) (g_replaced g) in
    match q_answer q with
    | Read same_id =>
        match find_live u s 0 with
        | Some i => if flag_at s_external s i || same_id then Some (keep g [u], [Other]) else Some (replaced (keep g [u]) i, [Other; Other])
        | None => Some (keep g [u], [Other])
        end
    | a =>
        let old := find_old s (u :: q_aliases q) in
        let g := match old with Some i => if String.eqb (urn_at s i) u then g else keep g [urn_at s i] | None => g end in
        let recreating := is_in u (g_deletes g) in
        match a, old with
        | Imported, Some i => if recreating then Some (g, [Other]) else Some (replaced g i, [Other; Other])
        | Imported, None => Some (g, [Other])
        | _, _ =>
            if recreating then
              Some (mkGen (g_urns g) (u :: g_kept g) (filter (fun d => negb (String.eqb d u)) (g_deletes g)) (g_condemned g) (g_replaced g), [Other; Other])
            else
              match old with
              | None => Some (if q_targeted q then g else keep g [u], [Other])
              | Some i =>
                  if flag_at s_external s i then Some (replaced g i, [Other; Other])
                  else if negb (q_targeted q) then Some (keep g [u], [Other])
                  else
                    match a with
                    | Differs before =>
                        if q_protect q && flag_at s_protect s i then None
                        else if before then
                          let ds := if o_trust o then filter (fun d => negb (is_in (urn_at s d) (g_deletes g))) (rev (dependent_replacements (q_needs q) s (g_urns g) i)) else [] in
                          Some (mkGen (g_urns g) (u :: g_kept g) (map (urn_at s) ds ++ g_deletes g) (ds ++ g_condemned g) (g_replaced g),
                                map (fun d => Del d true) ds ++ [Del i true; Other; Other])
                        else Some (replaced (keep g [u]) i, [Other; Other])
                    | _ => Some (keep g [u], [Other])
                    end
              end
        end
    end.
(** The chains for what the program registers, and the generator if nothing stops the update. *)
Fixpoint register_all (o : options) (s : list state) (g : gen) (qs : list registration) : list (list step) * option gen :=
  match qs with
  | [] => ([], Some g)
  | q :: qs' =>
      match register o s g q with
      | None => ([], None)
      | Some (g', c) => let r := register_all o s g' qs' in (c :: fst r, snd r)
      end
  end.

(** Performing scheduled deletions: deployment_executor.go:414-419, 481-489 and step_executor.go.
    A chain is taken by a worker, which looks whether the context is cancelled (243-251)
    and executes the step (291-380). *)
Inductive phase : Type := Taken | Checked | Running.
Inductive fact : Type := Asked (i : nat) | Gone (i : nat).
Record exec : Type := mkExec {
  x_rounds : list (list nat); x_queue : list nat; x_open : list (nat * phase); x_cancelled : bool; x_facts : list fact }.
(** What happens next: a worker takes a chain of the round; one is given up since the context is
    cancelled; a worker looks at the context; it announces the step, which may fail, and
    begins it; the provider has answered, and the result is saved or not; the user interrupts;
    the next round begins.  Any number of workers. *)
Inductive event : Type :=
| Take (i : nat) | Give_up (i : nat) | Check (i : nat) | Begin (i : nat) (announced : bool) | Answer (i : nat) (successful saved : bool)
| Interrupt | Advance.
Definition drop_place (i : nat) (l : list nat) : list nat := filter (fun j => negb (Nat.eqb i j)) l.
Definition close_chain (i : nat) (l : list (nat * phase)) : list (nat * phase) := filter (fun c => negb (Nat.eqb i (fst c))) l.
Definition is_open (i : nat) (p : phase) (l : list (nat * phase)) : bool :=
  existsb (fun c => Nat.eqb i (fst c) && match snd c, p with Taken, Taken | Checked, Checked | Running, Running => true | _, _ => false end) l.
Definition move_chain (i : nat) (p : phase) (l : list (nat * phase)) : list (nat * phase) := (i, p) :: close_chain i l.
Definition perform (ap : nat -> applied) (x : exec) (e : event) : exec :=
  match e with
  | Take i => if has_place i (x_queue x) then mkExec (x_rounds x) (drop_place i (x_queue x)) (move_chain i Taken (x_open x)) (x_cancelled x) (x_facts x) else x
  | Give_up i => if x_cancelled x then mkExec (x_rounds x) (drop_place i (x_queue x)) (x_open x) true (x_facts x) else x
  | Check i =>
      if is_open i Taken (x_open x) then
        mkExec (x_rounds x) (x_queue x) (if x_cancelled x then close_chain i (x_open x) else move_chain i Checked (x_open x)) (x_cancelled x) (x_facts x)
      else x
  | Begin i announced =>
      if is_open i Checked (x_open x) then
        if announced then
          match ap i with
          | Refused => mkExec (x_rounds x) (x_queue x) (close_chain i (x_open x)) true (x_facts x)
          | Silent => mkExec (x_rounds x) (x_queue x) (move_chain i Running (x_open x)) (x_cancelled x) (x_facts x)
          | Asking => mkExec (x_rounds x) (x_queue x) (move_chain i Running (x_open x)) (x_cancelled x) (x_facts x ++ [Asked i])
          end
        else mkExec (x_rounds x) (x_queue x) (close_chain i (x_open x)) true (x_facts x)
      else x
  | Answer i successful saved =>
      if is_open i Running (x_open x) then
        mkExec (x_rounds x) (x_queue x) (close_chain i (x_open x)) (x_cancelled x || negb (successful && saved)) (if successful then x_facts x ++ [Gone i] else x_facts x)
      else x
  | Interrupt => mkExec (x_rounds x) (x_queue x) (x_open x) true (x_facts x)
  | Advance =>
      match x_rounds x, x_queue x with
      | r :: rounds, [] => if x_cancelled x || match x_open x with [] => true | _ => false end then mkExec rounds r (x_open x) (x_cancelled x) (x_facts x) else x
      | _, _ => x
      end
  end.
Definition perform_all (ap : nat -> applied) (rounds : list (list nat)) (es : list event) : exec :=
  fold_left (perform ap) es (mkExec rounds [] [] false []).
