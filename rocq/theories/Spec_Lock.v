(** What it means that commands do not interfere (C111). *)
From Verif Require Import Base Model_Lock.
From Verif Require Spec_Cmd.
Open Scope string_scope.
Open Scope list_scope.

Section Serial.
  Variable D : Type.
  Variable run : nat -> D -> list D.
  Inductive prefix_of : list D -> list D -> Prop :=
  | Pre_nil l : prefix_of [] l
  | Pre_cons x l l' : prefix_of l l' -> prefix_of (x :: l) (x :: l').
  (** One command after another: each found the state that was left by the one
      before, and saved what it would then save, or the first few of it. *)
  Definition command : Type := (nat * D * list D)%type.
  Inductive serial (d0 : D) : list command -> D -> Prop :=
  | Ser_none : serial d0 [] d0
  | Ser_next h d i saved : serial d0 h d -> prefix_of saved (run i d) -> serial d0 (h ++ [(i, d, saved)]) (List.last saved d).
  Definition number (c : command) : nat := fst (fst c).

  (** [explains d0 w h]: the commands [h] one after another, and then the one that
      is at work, if any, have made the state what it is in [w].  All that
      completed are among them and saved everything; none of those that were
      locked out is. *)
  Record explains (d0 : D) (w : world D) (h : list command) : Prop := {
    ex_state : exists d, serial d0 h d /\
      ((w_state w = d /\ forall i read saved rest, w_at w i <> Working read saved rest) \/
       (exists i saved rest, w_at w i = Working d saved rest /\ w_state w = List.last saved d /\ saved ++ rest = run i d /\
          forall j read s r, w_at w j = Working read s r -> j = i));
    ex_once : NoDup (map number h);
    ex_completed : forall i, w_at w i = Ended Completed -> exists d, In (i, d, run i d) h;
    ex_locked_out : forall i, w_at w i = Ended LockedOut -> ~ In i (map number h)
  }.
End Serial.
Arguments prefix_of {D}. Arguments serial {D}. Arguments number {D}. Arguments explains {D}.
(** No lock is removed by "pulumi cancel". *)
Definition no_cancel (es : list event) : Prop := forall i, ~ In (Cancel i) es.
(** At work on the stack: from having the lock until giving it back. *)
Definition at_work {D} (p : place D) : Prop :=
  match p with Holding | Working _ _ _ | Leaving _ => True | _ => False end.

(** The details of locks as they are usual: without brackets. *)
Definition usual (s : string) : Prop := ~ Spec_Cmd.has_char "["%char s.
Definition usual_lock (k : lock_file) : Prop := usual (k_key k) /\ usual (k_user k) /\ usual (k_host k) /\ usual (k_pid k) /\ usual (k_time k).
