(** Previews and updates (Go: pkg/resource/deploy and the provider client; Python: what a program
    sees of the outputs). *)
From Verif Require Import Base.
Open Scope string_scope.
Open Scope list_scope.

Section Preview.
  (** Values. *)
  Variable V : Type.
  (** Inputs by name; [None]: not known yet. *)
  Definition inputs : Type := list (string * option V).
  (** Outputs by name.  Null outputs are left out: they are treated like missing ones, runtime/rpc.py:1105,
      1112. *)
  Definition outputs : Type := list (string * V).
  (** An output of a resource, for the program: not known, None, or a value. *)
  Inductive seen : Type := Unknown | Nothing | Value (v : V).
  Definition view : Type := string -> seen.
  (** What the program has of the resources that it declared, by URN. *)
  Definition env : Type := list (string * view).
  (** What the program does about a resource: declares it, or not, or it cannot tell yet, as the
      declaration is inside of an apply on an output that is not known.  The flag: whether the
      configuration of its provider is known. *)
  Inductive decision : Type := Declare (configured : bool) (i : inputs) | Skip | Undecided.
  (** A program: URNs with what is done about them.  Simplification: one after the other. *)
  Definition program : Type := list (string * (env -> decision)).

  Inductive change : Type := Unchanged | Changed | Needs_replacement.
  (** A provider.  [check]: given the recorded inputs, if any.  [diff]: after
      step_generator.go:1365-1392 [diffResource].  [previews]: whether it supports previews, and if so
      what it says then.  Left out: failures. *)
  Record provider : Type := mkProvider {
    check : option inputs -> inputs -> inputs; diff : outputs -> inputs -> change;
    create : inputs -> outputs; update : outputs -> inputs -> outputs;
    previews : bool; preview_create : inputs -> inputs; preview_update : outputs -> inputs -> inputs }.

  (** What is recorded, sdk/go/common/resource/resource_state.go:26-52 [State]. *)
  Record entry : Type := mkEntry { e_urn : string; e_inputs : inputs; e_outputs : outputs }.

  Inductive op : Type := Same | Create | Update | Replace | Delete.

  Fixpoint look {A} (k : string) (l : list (string * A)) : option A :=
    match l with [] => None | (k', v) :: l' => if String.eqb k k' then Some v else look k l' end.
  Fixpoint find_entry (urn : string) (l : list entry) : option entry :=
    match l with [] => None | e :: l' => if String.eqb urn (e_urn e) then Some e else find_entry urn l' end.
  Definition known (o : outputs) : inputs := map (fun kv => (fst kv, Some (snd kv))) o.

  (** runtime/rpc.py:992-1057 [resolve_outputs], 1060-1112 [resolve_properties]: what the program sees.  In a
      preview, what is missing is not known; otherwise it is the input of that name, or None. *)
  Definition resolve (preview : bool) (i : inputs) (o : inputs) : view := fun k =>
    match look k o with
    | Some (Some v) => Value v
    | Some None => Unknown
    | None =>
        if preview then Unknown
        else match look k i with Some (Some v) => Value v | Some None => Unknown | None => Nothing end
    end.

  (** provider_plugin.go:739-840 [Create], 963-1073 [Update]: in a preview.  Left out: legacyPreview and
      disableProviderPreview. *)
  Definition foreseen (p : provider) (configured : bool) (i said : inputs) : inputs :=
    if negb configured then [] else if previews p then said else i.

  (** provider_plugin.go:567-646 [Check]. *)
  Definition checked (p : provider) (configured : bool) (old : option inputs) (i : inputs) : inputs :=
    if configured then check p old i else i.
  (** provider_plugin.go:649-736 [Diff], step_generator.go:725-733: it is taken for an update if the configuration
      is not known. *)
  Definition differs (p : provider) (configured : bool) (old : outputs) (i : inputs) : change :=
    if configured then diff p old i else Changed.

  (** step_generator.go:329-712 [generateSteps], 717-903 [generateStepsFromDiff], step.go:123-143 [SameStep.Apply],
      223-264 [CreateStep.Apply], 456-495 [UpdateStep.Apply]: the operation and the outputs the engine answers
      with.  Left out: targets, protection, imports, aliases, replacements of dependent
      resources. *)
  Definition register (preview : bool) (p : provider) (recorded : list entry) (urn : string) (configured : bool) (i : inputs) : op * inputs :=
    match find_entry urn recorded with
    | None =>
        let i' := checked p configured None i in
        (Create, if preview then foreseen p configured i' (preview_create p i') else known (create p i'))
    | Some e =>
        let i' := checked p configured (Some (e_inputs e)) i in
        match differs p configured (e_outputs e) i' with
        | Unchanged => (Same, known (e_outputs e))
        | Changed =>
            (Update, if preview then foreseen p configured i' (preview_update p (e_outputs e) i') else known (update p (e_outputs e) i'))
        | Needs_replacement =>
            let i' := checked p configured None i in
            (Replace, if preview then foreseen p configured i' (preview_create p i') else known (create p i'))
        end
    end.

  (** The program: the operations in order. *)
  Fixpoint run (preview : bool) (p : provider) (recorded : list entry) (prog : program) (ev : env) : list (string * op) :=
    match prog with
    | [] => []
    | (urn, f) :: prog' =>
        match f ev with
        | Declare configured i =>
            let (o, outs) := register preview p recorded urn configured i in
            (urn, o) :: run preview p recorded prog' ((urn, resolve preview i outs) :: ev)
        | _ => run preview p recorded prog' ev
        end
    end.

  (** step_generator.go:905-975 [GenerateDeletes]: what was not registered is deleted at the end. *)
  Definition operations (preview : bool) (p : provider) (recorded : list entry) (prog : program) : list (string * op) :=
    let done := run preview p recorded prog [] in
    done ++ map (fun e => (e_urn e, Delete)) (filter (fun e => negb (existsb (String.eqb (e_urn e)) (map fst done))) (rev recorded)).
End Preview.
Arguments Unknown {V}. Arguments Nothing {V}. Arguments Value {V} v.
Arguments Declare {V} configured i. Arguments Skip {V}. Arguments Undecided {V}.
Arguments mkProvider {V}. Arguments mkEntry {V}. Arguments check {V}. Arguments diff {V}. Arguments create {V}. Arguments update {V}.
Arguments previews {V}. Arguments preview_create {V}. Arguments preview_update {V}.
Arguments e_urn {V}. Arguments e_inputs {V}. Arguments e_outputs {V}.
Arguments resolve {V}. Arguments run {V}. Arguments operations {V}. Arguments register {V}. Arguments find_entry {V}. Arguments known {V}.
Arguments foreseen {V}. Arguments checked {V}. Arguments differs {V}.
