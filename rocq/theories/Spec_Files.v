(** What stacks are (C114). *)
From Verif Require Import Base Model_Lock Model_Files.
From Coq Require Import Ascii.
Open Scope string_scope.
Open Scope list_scope.

Section Stacks.
  Variables S U : Type.
  Variable has_resources : S -> bool.
  (** A stack: its state, if it was updated, and its updates, the newest first. *)
  Record stack : Type := mkStack { s_state : option S; s_history : list U }.
  Definition stacks : Type := string -> option stack.
  Definition set (a : stacks) (name : string) (x : option stack) : stacks := fun n => if String.eqb n name then x else a n.
  (** What commands do: creating fails if the stack exists, the others if it does not;
      a stack with resources is not removed. *)
  Definition does (a : stacks) (c : command S U) : stacks * bool :=
    match c with
    | Create n => match a n with Some _ => (a, false) | None => (set a n (Some (mkStack None [])), true) end
    | Update n ss u =>
        match a n with
        | Some x => (set a n (Some (mkStack (List.last (map Some ss) (s_state x)) (u :: s_history x))), true)
        | None => (a, false)
        end
    | Remove n =>
        match a n with
        | Some x => if match s_state x with Some s => has_resources s | None => false end then (a, false) else (set a n None, true)
        | None => (a, false)
        end
    end.
  Fixpoint does_all (a : stacks) (cs : list (command S U)) : stacks * list bool :=
    match cs with [] => (a, []) | c :: cs' => let (a1, ok) := does a c in let (a2, oks) := does_all a1 cs' in (a2, ok :: oks) end.
  Definition no_stacks : stacks := fun _ => None.
  Definition about (c : command S U) : string := match c with Create n | Update n _ _ | Remove n => n end.
End Stacks.
Arguments mkStack {S U}. Arguments s_state {S U}. Arguments s_history {S U}. Arguments does {S U}. Arguments does_all {S U}. Arguments no_stacks {S U}. Arguments about {S U}. Arguments set {S U}.

(** Names of stacks: without slashes, and neither "." nor "..". *)
Definition proper (name : string) : Prop := (forall a b, name <> (a ++ "/" ++ b)%string) /\ name <> "." /\ name <> "..".
(** The storage works, and all states can be read. *)
Definition working {S} (e : env S) : Prop := (forall p i, e_io e p i = Fine) /\ forall s, e_readable e s = true.
(** Times go on: of the same number of digits, each later than the one before. *)
Fixpoint going_on (last : string) (stamps : list string) : Prop :=
  match stamps with
  | [] => True
  | t :: ts => String.length t = String.length last /\ String.compare last t = Lt /\ (forall a b, t <> (a ++ "/" ++ b)%string) /\ going_on t ts
  end.
