(** Independent specifications for Outputs (C01-C09). *)
From Verif Require Import Base PyVal Model_Output.

(** An output all of whose parts have resolved normally. *)
Definition settled (o : output) (rs : list rsrc) (v : pyval) (known secret : bool) : Prop :=
  o_res o = Done rs /\ o_val o = Done v /\ o_known o = Done known /\ o_secret o = Done secret.

(** Every Output object satisfies this: it never claims to be known while its
    value is missing or contains an unknown (the constructor enforces it, see
    [C01_outputs_well_formed]). *)
Definition well_formed (o : output) : Prop :=
  o_known o = Done true -> exists v, o_val o = Done v /\ contains_unknowns v = false.

(** Nothing is left hanging. *)
Definition all_resolved (o : output) : Prop :=
  resolved (o_res o) /\ resolved (o_val o) /\ resolved (o_known o) /\ resolved (o_secret o).

(** What a callback's return value contributes: [yields x rs v known secret].
    A plain value contributes itself; an awaitable its result; an Output its
    value, resources, knownness and secretness. *)
Inductive yields : pyval -> list rsrc -> pyval -> bool -> bool -> Prop :=
| Y_plain x :
    is_prompt x = true -> yields x [] x (negb (contains_unknowns x)) false
| Y_await x :
    yields (VAwait (Done x)) [] x (negb (contains_unknowns x)) false
| Y_output rs x known secret :
    (known = true -> contains_unknowns x = false) ->
    yields (VOut (Done rs) (Done x) (Done known) (Done secret)) rs x known secret.

(** Two outputs a program cannot tell apart. *)
Definition out_equiv (a b : output) : Prop :=
  (exists rs rs', o_res a = Done rs /\ o_res b = Done rs' /\ same_set rs rs') /\
  o_val a = o_val b /\ o_known a = o_known b /\ o_secret a = o_secret b.

(** [nested dry o v]: output [o] is nested somewhere in value [v], through
    lists, dicts, input-type objects, awaitables and the values of other
    outputs.  During a preview the value behind a not-known output counts as
    the unknown, unless it contains unknowns itself. *)
Inductive nested (dry : bool) (o : output) : pyval -> Prop :=
| N_here : nested dry o (VO o)
| N_list x l : In x l -> nested dry o x -> nested dry o (VList l)
| N_dict k x d : In (k, x) d -> nested dry o x -> nested dry o (VDict d)
| N_input k x c d : In (k, x) d -> nested dry o x -> nested dry o (VInput c d)
| N_await x : nested dry o x -> nested dry o (VAwait (Done x))
| N_inside rs x known s :
    dry = false \/ known = Done true \/ contains_unknowns x = true ->
    nested dry o x -> nested dry o (VOut rs (Done x) known s).

(** [bare_unknown dry v]: an unknown is nested in [v] the same way. *)
Inductive bare_unknown (dry : bool) : pyval -> Prop :=
| B_here : bare_unknown dry VUnknown
| B_list x l : In x l -> bare_unknown dry x -> bare_unknown dry (VList l)
| B_dict k x d : In (k, x) d -> bare_unknown dry x -> bare_unknown dry (VDict d)
| B_input k x c d : In (k, x) d -> bare_unknown dry x -> bare_unknown dry (VInput c d)
| B_await x : bare_unknown dry x -> bare_unknown dry (VAwait (Done x))
| B_inside rs x known s : bare_unknown dry x -> bare_unknown dry (VOut rs (Done x) known s).

(** Everything nested in [v] has resolved normally, every nested output is
    well formed, and no nested input-type object is empty. *)
Fixpoint settled_value (v : pyval) : Prop :=
  let all_d := fix go (d : list (string * pyval)) : Prop :=
    match d with [] => True | kv :: d' => settled_value (snd kv) /\ go d' end in
  match v with
  | VList l => (fix go (l : list pyval) : Prop :=
                  match l with [] => True | x :: l' => settled_value x /\ go l' end) l
  | VDict d => all_d d
  | VInput _ d => d <> [] /\ all_d d
  | VAwait (Done x) => settled_value x
  | VAwait _ => False
  | VOut (Done _) (Done x) (Done k) (Done _) =>
      (k = true -> contains_unknowns x = false) /\ settled_value x
  | VOut _ _ _ _ => False
  | _ => True
  end.

(** Nothing nested in [v] is pending (failures are allowed). *)
Fixpoint never_pending (v : pyval) : Prop :=
  let all_d := fix go (d : list (string * pyval)) : Prop :=
    match d with [] => True | kv :: d' => never_pending (snd kv) /\ go d' end in
  match v with
  | VList l => (fix go (l : list pyval) : Prop :=
                  match l with [] => True | x :: l' => never_pending x /\ go l' end) l
  | VDict d => all_d d
  | VInput _ d => all_d d
  | VAwait (Done x) => never_pending x
  | VAwait (Fail _) => True
  | VAwait Pending => False
  | VOut rs x k s =>
      resolved rs /\ resolved k /\ resolved s /\
      match x with Done y => never_pending y | Fail _ => True | Pending => False end
  | _ => True
  end.

(** The value with every Output and awaitable replaced by what it holds.
    During a preview a not-known output holds the unknown (unless its value
    contains unknowns itself). *)
Fixpoint unwrapped (dry : bool) (v : pyval) : pyval :=
  match v with
  | VList l => VList (map (unwrapped dry) l)
  | VDict d => VDict (map (fun kv => (fst kv, unwrapped dry (snd kv))) d)
  | VInput c d => VInput c (map (fun kv => (fst kv, unwrapped dry (snd kv))) d)
  | VAwait (Done x) => unwrapped dry x
  | VOut _ (Done x) (Done k) _ =>
      if dry && negb k && negb (contains_unknowns x) then VUnknown else unwrapped dry x
  | _ => v
  end.

(** No Output and no awaitable is nested in the value (through lists, dicts
    and input-type objects). *)
Fixpoint fully_unwrapped (v : pyval) : Prop :=
  let all_d := fix go (d : list (string * pyval)) : Prop :=
    match d with [] => True | kv :: d' => fully_unwrapped (snd kv) /\ go d' end in
  match v with
  | VList l => (fix go (l : list pyval) : Prop :=
                  match l with [] => True | x :: l' => fully_unwrapped x /\ go l' end) l
  | VDict d => all_d d
  | VInput _ d => all_d d
  | VAwait _ => False
  | VOut _ _ _ _ => False
  | _ => True
  end.
