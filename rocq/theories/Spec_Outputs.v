(** Specification for C105, C106: what a stack exports is what the automation API gives as its
    outputs. *)
From Verif Require Import Base PyVal Model_Rpc Spec_Rpc Model_Engine Spec_Engine Model_State Spec_State.

(** [worth v x]: with all awaitables and Outputs in [v] resolved, and known, [v] is the data
    [x]. *)
Inductive worth : pyval -> pyval -> Prop :=
| Wo_none : worth VNone VNone
| Wo_bool b : worth (VBool b) (VBool b)
| Wo_num z : worth (VNum z) (VNum z)
| Wo_str s : ordinary s -> worth (VStr s) (VStr s)
| Wo_await v x : worth v x -> worth (VAwait (Done v)) x
| Wo_out rs v x s : ~ within VUnknown v -> worth v x -> worth (VOut (Done rs) (Done v) (Done true) (Done s)) x
| Wo_list l xs : worth_list l xs -> worth (VList l) (VList xs)
| Wo_dict d xs : NoDup (map fst d) -> ~ In reserved_key (map fst d) -> worth_dict d xs -> worth (VDict d) (VDict xs)
with worth_list : list pyval -> list pyval -> Prop :=
| Wo_nil : worth_list [] []
| Wo_cons v x l xs : worth v x -> worth_list l xs -> worth_list (v :: l) (x :: xs)
with worth_dict : list (string * pyval) -> list (string * pyval) -> Prop :=
| Wo_empty : worth_dict [] []
| Wo_entry k v x d xs : worth v x -> worth_dict d xs -> worth_dict ((k, v) :: d) ((k, x) :: xs).

(** The value is, as a whole, a secret. *)
Inductive whole_secret : pyval -> Prop :=
| Wh_out rs v known : whole_secret (VOut rs v known (Done true))
| Wh_in rs v known s : whole_secret v -> whole_secret (VOut rs (Done v) known s)
| Wh_await v : whole_secret v -> whole_secret (VAwait (Done v)).
(** There is a secret in it. *)
Inductive some_secret : pyval -> Prop :=
| Sm_out rs v known : some_secret (VOut rs v known (Done true))
| Sm_in rs v known s : some_secret v -> some_secret (VOut rs (Done v) known s)
| Sm_await v : some_secret v -> some_secret (VAwait (Done v))
| Sm_list l v : In v l -> some_secret v -> some_secret (VList l)
| Sm_dict d k v : In (k, v) d -> some_secret v -> some_secret (VDict d).

(** The program exports values worth the data [data k]. *)
Definition exports_data (exports : dict pyval) (data : string -> pyval) : Prop :=
  NoDup (map fst exports) /\ ~ In reserved_key (map fst exports) /\ forall k v, In (k, v) exports -> worth v (data k).
(** An export that is nothing: None, and not a secret. *)
Definition nothing (v x : pyval) : Prop := x = VNone /\ ~ whole_secret v.

(** What outputs() is to give: the value of every export that is not nothing, and whether there is
    a secret in it. *)
Definition gives_outputs (exports : dict pyval) (data : string -> pyval) (d : dict (pyval * bool)) : Prop :=
  NoDup (map fst d) /\
  forall k x b, In (k, (x, b)) d <->
    exists v, In (k, v) exports /\ ~ nothing v (data k) /\ x = data k /\ (b = true <-> some_secret v).
