(** Commands of the CLI that work on one stack at the same time, with the states
    of stacks in files (Go: pkg/backend/filestate). *)
From Verif Require Import Base PyVal Model_Urn Model_Cmd.
Open Scope string_scope.
Open Scope list_scope.

Section Lock.
  (** The states of the stack.  [run i d]: the states that the command with number
      [i] saves one after another when it finds [d].  Commands have different
      lock IDs, backend.go:165: here their numbers. *)
  Variable D : Type.
  Variable run : nat -> D -> list D.

  Inductive outcome : Type := Completed | Failed | LockedOut.
  (** Where a command is: lock.go:105-132 [Lock] and [Unlock], 60-103
      [checkForLock]; backend.go:305-341 [CreateStack], 384-404 [RemoveStack],
      495-543 [Update], [Import], [Refresh], [Destroy], 803-825
      [ImportDeployment]. *)
  Inductive place : Type :=
  | Start                                      (* before lock.go:107 *)
  | Checked                                    (* before lock.go:119 *)
  | Marked                                     (* before lock.go:123 *)
  | Backing (o : outcome)                      (* before lock.go:125 *)
  | Holding                                    (* has the lock; before [getStack] *)
  | Working (read : D) (saved rest : list D)   (* saved some, has yet to save others *)
  | Leaving (o : outcome)                      (* before the deferred [Unlock] *)
  | Ended (o : outcome)
  | Crashed.
  (** [w_locks]: the files in the directory of locks of the stack.  [w_state]: its
      state. *)
  Record world : Type := mkWorld { w_locks : list nat; w_state : D; w_at : nat -> place }.

  (** A bucket operation works; or it fails, and may have been performed
      nevertheless. *)
  Inductive io : Type := Fine | Fault (performed : bool).
  (** What happens next: a command goes on; it gives up its work (the engine fails,
      or is interrupted); it dies; or "pulumi cancel" removes a lock,
      backend.go:954-980 [CancelCurrentUpdate]. *)
  Inductive event : Type := Go (i : nat) (r : io) | Quit (i : nat) | Crash (i : nat) | Cancel (i : nat).

  Definition move (w : world) (i : nat) (p : place) : world :=
    mkWorld (w_locks w) (w_state w) (fun j => if Nat.eqb j i then p else w_at w j).
  Definition with_locks (w : world) (l : list nat) : world := mkWorld l (w_state w) (w_at w).
  Definition with_state (w : world) (d : D) : world := mkWorld (w_locks w) d (w_at w).
  Definition performed (r : io) : bool := match r with Fine => true | Fault b => b end.
  (** lock.go:60-103: there is a lock of another. *)
  Definition others (w : world) (i : nat) : bool := existsb (fun j => negb (Nat.eqb j i)) (w_locks w).
  Definition write_lock (w : world) (i : nat) : world := with_locks w (i :: w_locks w).
  Definition delete_lock (w : world) (i : nat) : world := with_locks w (filter (fun j => negb (Nat.eqb j i)) (w_locks w)).

  Definition go (w : world) (i : nat) (r : io) : world :=
    match w_at w i, r with
    (** lock.go:107-110. *)
    | Start, Fault _ => move w i (Ended Failed)
    | Start, Fine => move w i (if others w i then Ended LockedOut else Checked)
    (** 111-122. *)
    | Checked, Fine => move (write_lock w i) i Marked
    | Checked, Fault b => move (if b then write_lock w i else w) i (Ended Failed)
    (** 123-129. *)
    | Marked, Fault _ => move w i (Backing Failed)
    | Marked, Fine => move w i (if others w i then Backing LockedOut else Holding)
    | Backing o, _ => move (if performed r then delete_lock w i else w) i (Ended o)
    (** state.go:132-160 [getStack]: [newUpdate], [ImportDeployment] and so on. *)
    | Holding, Fault _ => move w i (Leaving Failed)
    | Holding, Fine => move w i (Working (w_state w) [] (run i (w_state w)))
    (** state.go:182-272 [saveStack], here in one step (see [Model_Save]). *)
    | Working read saved (d :: rest), Fine => move (with_state w d) i (Working read (saved ++ [d]) rest)
    | Working read saved (d :: rest), Fault b =>
        if b then move (with_state w d) i (Leaving Failed) else move w i (Leaving Failed)
    | Working read saved [], _ => move w i (Leaving Completed)
    (** lock.go:134-142 [Unlock]: failures are only reported. *)
    | Leaving o, _ => move (if performed r then delete_lock w i else w) i (Ended o)
    | Ended _, _ | Crashed, _ => w
    end.
  Definition step (w : world) (e : event) : world :=
    match e with
    | Go i r => go w i r
    | Quit i => match w_at w i with Working _ _ _ => move w i (Leaving Failed) | _ => w end
    | Crash i => match w_at w i with Ended _ => w | _ => move w i Crashed end
    | Cancel i => delete_lock w i
    end.
  Fixpoint execute (w : world) (es : list event) : world :=
    match es with [] => w | e :: es' => execute (step w e) es' end.
  Definition before_all (d : D) : world := mkWorld [] d (fun _ => Start).
End Lock.
Arguments Start {D}. Arguments Checked {D}. Arguments Marked {D}. Arguments Backing {D} o. Arguments Holding {D}.
Arguments Working {D} read saved rest. Arguments Leaving {D} o. Arguments Ended {D} o. Arguments Crashed {D}.
Arguments mkWorld {D} w_locks w_state w_at. Arguments w_locks {D} w. Arguments w_state {D} w. Arguments w_at {D} w i.
Arguments move {D} w i p. Arguments with_locks {D} w l. Arguments with_state {D} w d. Arguments others {D} w i.
Arguments write_lock {D} w i. Arguments delete_lock {D} w i. Arguments go {D} run w i r. Arguments step {D} run w e.
Arguments execute {D} run w es. Arguments before_all {D} d.

(** lock.go:81-99: what [checkForLock] says, and how the CLI prints it
    (sdk/go/common/util/cmdutil/exit.go:43-100).  [number]: fmt for integers. *)
Record lock_file : Type := mkLock { k_key : string; k_user : string; k_host : string; k_pid : string; k_time : string }.
Definition lock_line (url : string) (k : lock_file) : string :=
  (nl ++ "  " ++ url ++ "/" ++ k_key k ++ ": created by " ++ k_user k ++ "@" ++ k_host k ++ " (pid " ++ k_pid k ++ ") at " ++ k_time k)%string.
Definition lock_message (number url : string) (locks : list lock_file) : string :=
  ("the stack is currently locked by " ++ number ++ " lock(s). Either wait for the other "
  ++ "process(es) to end or delete the lock file with `pulumi cancel`." ++ String.concat "" (map (lock_line url) locks))%string.
Definition lock_error (number url : string) (locks : list lock_file) : string := ("error: " ++ lock_message number url locks ++ nl)%string.
