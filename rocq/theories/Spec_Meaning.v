(** Specification for C94, C95: what a value means once everything in it has resolved. *)
From Verif Require Import Base PyVal Model_Output Model_Rpc Spec_Rpc.

(** The keys of a map that can be sent: distinct and not reserved. *)
Definition sendable_keys (d : list (string * pyval)) : Prop :=
  wf_dict d /\ ~ In sig_key (dkeys d) /\ (forall k, In k (dkeys d) -> internal_key k = false).

(** [means ov v x s]: with all awaitables and Outputs in [v] resolved, [v] is the data [x], in
    which [VUnknown] stands for what is not known, and entries of maps that are null are left out;
    [s]: whether a known part of it is secret (an entry that is a secret null is not left out).
    [ov]: Outputs travel as Outputs; then the value of a known Output has to be known throughout
    and may not itself contain secret Outputs. *)
Inductive means (ov : bool) : pyval -> pyval -> bool -> Prop :=
| Me_none : means ov VNone VNone false
| Me_bool b : means ov (VBool b) (VBool b) false
| Me_num z : means ov (VNum z) (VNum z) false
| Me_str s : s <> "04da6b54-80e4-46f7-96ec-b56ff0331ba9" -> means ov (VStr s) (VStr s) false
| Me_asset a : asset_tree a -> means ov a a false
| Me_unknown : means ov VUnknown VUnknown false
| Me_await v x s : means ov v x s -> means ov (VAwait (Done v)) x s
| Me_out rs v x s s' : ~ within VUnknown v -> means ov v x s' ->
    (ov = true -> s' = false /\ ~ within VUnknown x) ->
    means ov (VOut (Done rs) (Done v) (Done true) (Done s)) x (s || s')
| Me_not_known rs v s : within VUnknown v ->
    means ov (VOut (Done rs) (Done v) (Done false) (Done s)) VUnknown false
| Me_hidden rs v x s s' : ~ within VUnknown v -> means ov v x s' ->
    means ov (VOut (Done rs) (Done v) (Done false) (Done s)) VUnknown false
| Me_list l xs s : means_list ov l xs s -> means ov (VList l) (VList xs) s
| Me_dict d xs s : sendable_keys d -> means_dict ov d xs s -> means ov (VDict d) (VDict xs) s
with means_list (ov : bool) : list pyval -> list pyval -> bool -> Prop :=
| Me_nil : means_list ov [] [] false
| Me_cons v x s l xs s' : means ov v x s -> means_list ov l xs s' -> means_list ov (v :: l) (x :: xs) (s || s')
with means_dict (ov : bool) : list (string * pyval) -> list (string * pyval) -> bool -> Prop :=
| Me_empty : means_dict ov [] [] false
| Me_null k v d xs s : means ov v VNone false -> means_dict ov d xs s -> means_dict ov ((k, v) :: d) xs s
| Me_entry k v x s d xs s' : means ov v x s -> x <> VNone \/ s = true -> means_dict ov d xs s' ->
    means_dict ov ((k, v) :: d) ((k, x) :: xs) (s || s').

(** [v] holds the data [x] with secretness [s]: as Outputs if [ov], otherwise marked if secret. *)
Definition holds (ov : bool) (x : pyval) (s : bool) (v : pyval) : Prop :=
  if ov then means true v x s else if s then marked_secret v x else v = x.

(** The URNs of all resources are there, and are not the marker of unknown values. *)
Definition urns_ready (c : cfg) : Prop :=
  forall r, (exists u, r_urn (c_res c r) = Done u) /\
    exists us, r_expand (c_res c r) = Done us /\ ~ In "04da6b54-80e4-46f7-96ec-b56ff0331ba9" us.
