(** retain_on_delete, protect and deletions that fail (Go: pkg/resource/deploy): one resource of a
    program over a history of operations. *)
From Verif Require Import Base.
Open Scope string_scope.
Open Scope list_scope.

Section Retain.
  (** Inputs. *)
  Variable P : Type.
  Inductive change : Type := Same | Changed | Needs_replacement.
  (** [check]: the inputs as they are checked; [None]: they are not valid.  [fresh]: the ID of a new
      resource, given those that exist. *)
  Record provider : Type := mkProvider { check : option P -> P -> option P; differs : P -> P -> change; fresh : list string -> string }.
  (** What is recorded, sdk/go/common/resource/resource_state.go:26-52 [State]. *)
  Record entry : Type := mkEntry { e_id : string; e_inputs : P; e_retain : bool; e_protect : bool }.
  (** The resources that exist, what is recorded for the resource of the program, and those that
      are recorded to be deleted. *)
  Record world : Type := mkWorld { things : list (string * P); live : option entry; pending : list entry }.
  (** What the program says of the resource. *)
  Record goal : Type := mkGoal { g_inputs : P; g_retain : bool; g_protect : bool }.
  (** Which deletions succeed, by ID, and whether creations and updates do. *)
  Record luck : Type := mkLuck { deletes : string -> bool; works : bool }.

  (** What a provider's Delete and Update do to what exists (step.go:364, 470: [prov.Delete],
      [prov.Update]); there is no code for it in the repository. *)
  Definition drop (id : string) (l : list (string * P)) : list (string * P) := filter (fun kv => negb (String.eqb (fst kv) id)) l.
  Definition set (id : string) (p : P) (l : list (string * P)) : list (string * P) :=
    map (fun kv => if String.eqb (fst kv) id then (id, p) else kv) l.

  (** step.go:338-370 [DeleteStep.Apply]: what exists afterwards; [None]: it fails.  Left out: previews,
      external resources and components. *)
  Definition delete (replacing : bool) (lk : luck) (e : entry) (l : list (string * P)) : option (list (string * P)) :=
    if negb replacing && e_protect e then None
    else if e_retain e then Some l
    else if deletes lk (e_id e) then Some (drop (e_id e) l)
    else None.

  (** deployment_executor.go:462-505 [retirePendingDeletes], step_generator.go:1140-1155 [GeneratePendingDeletes]: what
      earlier operations left is deleted with [NewDeleteStep], that is, not as a replacement.  The second
      component: those that are left. *)
  Fixpoint retire (lk : luck) (es : list entry) (l : list (string * P)) : list (string * P) * list entry :=
    match es with
    | [] => (l, [])
    | e :: es' =>
        match delete false lk e l with
        | Some l' => retire lk es' l'
        | None => let (l', left) := retire lk es' l in (l', e :: left)
        end
    end.

  (** step_generator.go:329-712 [generateSteps], 717-903 [generateStepsFromDiff], 905-963
      [GenerateDeletes] and the steps in step.go, in deployment_executor.go:143-373 [Execute]: an update of a program that
      declares the resource, or, with [None], that does not, or a destroy.  The result: the world and
      whether it succeeds.  Left out: deletion before replacement, creations that fail halfway, imports,
      targets. *)
  Definition operate (pr : provider) (w : world) (declared : option goal) (lk : luck) : world * bool :=
    let (l, left) := retire lk (pending w) (things w) in
    match left with
    | _ :: _ => (mkWorld l (live w) left, false)
    | [] =>
        let stop := (mkWorld l (live w) [], false) in
        match declared, live w with
        | None, None => (mkWorld l None [], true)
        | None, Some old =>
            match delete false lk old l with
            | Some l' => (mkWorld l' None [], true)
            | None => stop
            end
        | Some g, None =>
            match check pr None (g_inputs g) with
            | None => stop
            | Some i =>
                if works lk then
                  let id := fresh pr (map fst l) in
                  (mkWorld ((id, i) :: l) (Some (mkEntry id i (g_retain g) (g_protect g))) [], true)
                else stop
            end
        | Some g, Some old =>
            match check pr (Some (e_inputs old)) (g_inputs g) with
            | None => stop
            | Some i =>
                match differs pr (e_inputs old) i with
                | Same => (mkWorld l (Some (mkEntry (e_id old) i (g_retain g) (g_protect g))) [], true)
                | Changed =>
                    if works lk then (mkWorld (set (e_id old) i l) (Some (mkEntry (e_id old) i (g_retain g) (g_protect g))) [], true) else stop
                | Needs_replacement =>
                    if g_protect g && e_protect old then stop
                    else
                      match check pr None (g_inputs g) with
                      | None => stop
                      | Some i =>
                          if works lk then
                            let id := fresh pr (map fst l) in
                            let new := mkEntry id i (g_retain g) (g_protect g) in
                            match delete true lk old ((id, i) :: l) with
                            | Some l' => (mkWorld l' (Some new) [], true)
                            | None => (mkWorld ((id, i) :: l) (Some new) [old], false)
                            end
                          else stop
                      end
                end
            end
        end
    end.
  Fixpoint operates (pr : provider) (w : world) (history : list (option goal * luck)) : world :=
    match history with
    | [] => w
    | (d, lk) :: h => operates pr (fst (operate pr w d lk)) h
    end.
End Retain.
Arguments mkProvider {P}. Arguments check {P}. Arguments differs {P}. Arguments fresh {P}.
Arguments mkEntry {P}. Arguments e_id {P}. Arguments e_inputs {P}. Arguments e_retain {P}. Arguments e_protect {P}.
Arguments mkWorld {P}. Arguments things {P}. Arguments live {P}. Arguments pending {P}.
Arguments mkGoal {P}. Arguments g_inputs {P}. Arguments g_retain {P}. Arguments g_protect {P}.
Arguments drop {P}. Arguments set {P}. Arguments delete {P}. Arguments retire {P}. Arguments operate {P}. Arguments operates {P}.
