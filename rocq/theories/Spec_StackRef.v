(** Specification for stack references (C48). *)
From Verif Require Import Base PyVal Model_Output Spec_Output.

(** Is the output [n] secret?  [names] is the list of secret outputs: the value
    and whether it is known; [name_known]: whether the name asked for is known;
    [whole]: whether the outputs as a whole are secret. *)
Inductive secret_verdict (name_known : bool) (n : string) (names : pyval) (names_known whole : bool) : bool -> Prop :=
| SV_unavailable : name_known = false \/ names_known = false \/ names = VNone ->
    secret_verdict name_known n names names_known whole whole
| SV_listed l : name_known = true -> names_known = true -> names = VList (map VStr l) -> In n l ->
    secret_verdict name_known n names names_known whole true
| SV_not_listed l : name_known = true -> names_known = true -> names = VList (map VStr l) -> ~ In n l ->
    secret_verdict name_known n names names_known whole false.

(** Stack outputs: lists and maps of data, assets, archives and resources,
    without Outputs, awaitables, unknowns and input-type objects. *)
Fixpoint finished (v : pyval) : Prop :=
  match v with
  | VList l => (fix go (l : list pyval) : Prop := match l with [] => True | x :: l' => finished x /\ go l' end) l
  | VDict d => (fix go (d : list (string * pyval)) : Prop := match d with [] => True | kv :: d' => finished (snd kv) /\ go d' end) d
  | VUnknown | VAwait _ | VOut _ _ _ _ | VInput _ _ => False
  | _ => True
  end.
