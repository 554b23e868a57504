(** A resource over several updates, with and without it among the targets: what is recorded of its
    inputs, and with which inputs it exists. *)
From Verif Require Import Base Model_Paths.
Open Scope string_scope.
Open Scope list_scope.

Record world : Type := mkWorld { w_recorded : dict tree; w_applied : tree }.
(** What a provider says of a change, given the inputs the resource exists with (which its outputs
    tell of), the recorded inputs and the checked ones.  A provider that leaves the answer open
    makes the engine compare the recorded inputs (pkg/resource/deploy/step_generator.go:1373-1392);
    dynamic providers do unless their diff method says otherwise
    (sdk/python/lib/pulumi/dynamic/dynamic.py:92-106, __main__.py:63-88). *)
Definition told : Type := tree -> tree -> tree -> diff.
Definition fields (t : tree) : dict tree := match t with Obj l => l | _ => [] end.
(** One update: the steps of step_generator.go:372-715 (see [register]) and what they leave.
    deploy/step.go:123-126 and pkg/backend/snapshot.go:268-301: a resource that is kept is recorded
    with the new inputs and the outputs it had.  [None] if the update is refused. *)
Definition update (check : option tree -> tree -> tree) (answer : told) (w : world) (target : bool) (goal : dict tree) : option world :=
  match register check (answer (w_applied w)) [] [] (mkSituation (w_recorded w) false false false target false) goal with
  | Refuses | Crashes => None
  | Keeps i => Some (mkWorld (fields i) (w_applied w))
  | Updates i | Replaces i => Some (mkWorld (fields i) i)
  end.
Fixpoint updates (check : option tree -> tree -> tree) (answer : told) (w : world) (l : list (bool * dict tree)) : option world :=
  match l with
  | [] => Some w
  | (target, goal) :: l => match update check answer w target goal with Some w' => updates check answer w' l | None => None end
  end.
