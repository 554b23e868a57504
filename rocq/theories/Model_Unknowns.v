(** runtime/rpc.py: contains_unknowns on object graphs. *)
From Verif Require Import Base.

(** Python objects by address: the unknown value, dicts (string keys), lists
    and everything else (which the function does not look into). *)
Inductive node : Type :=
| NUnknown
| NDict (entries : list (string * nat))
| NList (items : list nat)
| NLeaf.
Definition graph : Type := list node.
Definition node_at (g : graph) (a : nat) : node := nth a g NLeaf.

(** [any] over a generator (rpc.py:984, 986): stops at the first true; [rec] is
    the recursive call, [stack] the list of objects seen so far, which the calls
    share. *)
Fixpoint any_ (rec : nat -> list nat -> option (bool * list nat)) (l : list nat) (stack : list nat) : option (bool * list nat) :=
  match l with
  | [] => Some (false, stack)
  | x :: l' =>
      match rec x stack with
      | None => None
      | Some (true, stack') => Some (true, stack')
      | Some (false, stack') => any_ rec l' stack'
      end
  end.
(** rpc.py:976-989, the body of [impl]. *)
Definition impl_body (rec : nat -> list nat -> option (bool * list nat)) (g : graph) (val : nat) (stack : list nat) : option (bool * list nat) :=
  match node_at g val with
  | NUnknown => Some (true, stack)
  | n =>
      if negb (existsb (Nat.eqb val) stack) then
        let stack' := stack ++ [val] in
        match n with
        | NDict es => any_ rec (map snd es) stack'
        | NList l => any_ rec l stack'
        | _ => Some (false, stack')
        end
      else Some (false, stack)
  end.
(** [impl]; the result is None when the fuel (the depth of nested calls) runs
    out. *)
Fixpoint impl (fuel : nat) (g : graph) (val : nat) (stack : list nat) {struct fuel} : option (bool * list nat) :=
  match fuel with
  | 0 => None
  | S fuel' => impl_body (impl fuel' g) g val stack
  end.
Definition contains_unknowns (fuel : nat) (g : graph) (val : nat) : option bool :=
  match impl fuel g val [] with Some (b, _) => Some b | None => None end.
