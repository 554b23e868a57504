(** Saving the state of a stack to files (Go: pkg/backend/filestate/state.go). *)
From Verif Require Import Base Model_Lock.
Open Scope string_scope.
Open Scope list_scope.

Section Save.
  (** Contents of files: checkpoints, compressed or not. *)
  Variable D : Type.
  (** Contents and times of modification. *)
  Definition bucket : Type := dict (D * nat).
  (** [path]: where the state of the stack is, without ".gz"; state.go:362-364. *)
  Variable path : string.
  Definition gzip_path : string := (path ++ ".gz")%string.
  (** state.go:352-388 [stackPath].  Simplification: listing does not fail. *)
  Definition stack_path (b : bucket) : string :=
    match dget b gzip_path with
    | Some (_, t) =>
        match dget b path with
        | Some (_, u) => if Nat.ltb t u then path else gzip_path
        | None => gzip_path
        end
    | None => path
    end.
  (** state.go:167-180 [getCheckpoint]. *)
  Definition current (b : bucket) : option D := match dget b (stack_path b) with Some (d, _) => Some d | None => None end.

  (** The operations on buckets.  An operation that fails may have been performed
      nevertheless; gocloud.dev/blob makes each of them atomic. *)
  Inductive op : Type := Copy (dst src : string) | Delete (key : string) | Write (key : string) (d : D).
  Definition effect (b : bucket) (o : op) (t : nat) : bucket :=
    match o with
    | Copy dst src => match dget b src with Some (d, _) => dset b dst (d, t) | None => b end
    | Delete key => ddel b key
    | Write key d => dset b key (d, t)
    end.
  (** Operations with their results and times. *)
  Definition perform (b : bucket) (x : op * io * nat) : bucket :=
    let '(o, r, t) := x in if performed r then effect b o t else b.
  Definition perform_all (b : bucket) (xs : list (op * io * nat)) : bucket := fold_left perform xs b.

  (** [r], [clock]: the result and the time of each operation. *)
  Variable r : nat -> io.
  Variable clock : nat -> nat.
  Definition at_step (i : nat) (o : op) : op * io * nat := (o, r i, clock i).
  (** state.go:292-311 [backupTarget]: failures are ignored. *)
  Definition backup_target (i : nat) (file : string) (keep : bool) : list (op * io * nat) :=
    at_step i (Copy (file ++ ".bak")%string file) :: (if keep then [] else [at_step (S i) (Delete file)]).
  (** state.go:227-254: the first attempt to write, and those of [retry.Until]. *)
  Fixpoint attempts (i : nat) (o : op) (n : nat) : list (op * io * nat) :=
    match n with
    | O => []
    | S n' => at_step i o :: match r i with Fine => [] | Fault _ => attempts (S i) o n' end
    end.
  (** state.go:182-272 [saveStack]. *)
  Definition save_stack (gzip : bool) (d : D) : list (op * io * nat) :=
    backup_target 0 gzip_path gzip ++ backup_target 2 path (negb gzip) ++ attempts 4 (Write (if gzip then gzip_path else path) d) 13.
  Definition succeeded (xs : list (op * io * nat)) : bool :=
    match List.last xs (Delete "", Fault false, 0) with (Write _ _, Fine, _) => true | _ => false end.
End Save.
Arguments Copy {D}. Arguments Delete {D}. Arguments Write {D}. Arguments stack_path {D}. Arguments current {D}. Arguments perform_all {D}. Arguments effect {D}. Arguments perform {D}.
Arguments save_stack {D}. Arguments succeeded {D}. Arguments attempts {D}. Arguments backup_target {D}. Arguments at_step {D}.
