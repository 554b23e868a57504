(** Independent specification of stack exports (C46, C47). *)
From Verif Require Import Base Model_Stack.
Open Scope string_scope.

(** No key starts with an underscore. *)
Inductive clean : mval -> Prop :=
| cl_prim p : clean (MPrim p)
| cl_out a : clean (MOut a)
| cl_ref a : clean (MRef a)
| cl_list l : Forall clean l -> clean (MList l)
| cl_dict d : Forall (fun kv => (forall s, fst kv <> "_" ++ s) /\ clean (snd kv)) d -> clean (MDict d).

(** References between objects. *)
Inductive refers (g : ograph) (a b : nat) : Prop :=
| rf_entry k es : obj_at g a = ODict es -> In (k, b) es -> refers g a b
| rf_item l : obj_at g a = OIter l -> In b l -> refers g a b
| rf_output : obj_at g a = OOutput b -> refers g a b
| rf_await : obj_at g a = OAwait b -> refers g a b
| rf_attrs u : obj_at g a = OResource b u -> refers g a b
| rf_object : obj_at g a = OObject b -> refers g a b.
Definition closed (g : ograph) : Prop := forall a b, a < length g -> refers g a b -> b < length g.
(** The attributes of a resource are a dict. *)
Definition attrs_dict (g : ograph) : Prop := forall a d u, obj_at g a = OResource d u -> exists es, obj_at g d = ODict es.
Definition string_keys (g : ograph) : Prop := forall a es k b, obj_at g a = ODict es -> In (k, b) es -> exists s, k = KStr s.
(** Nothing but the resource itself refers to the dict of its attributes. *)
Definition own_attrs (g : ograph) : Prop := forall a d u b, obj_at g a = OResource d u -> refers g b d -> b = a.
(** Graphs that can be exported without exception. *)
Definition exportable (dry : bool) (g : ograph) : Prop :=
  closed g /\ attrs_dict g /\ string_keys g /\ (dry = true -> own_attrs g).
Definition is_attrs (g : ograph) (v : nat) : Prop := exists a u, obj_at g a = OResource v u.

(** [tree g a m l]: the object [a] is plain data (primitives, dicts without
    private keys, iterables, and outputs, which are kept), with value [m], and
    [l] lists the places where it has objects other than primitives. *)
Inductive tree (g : ograph) : nat -> mval -> list nat -> Prop :=
| tr_prim a p : obj_at g a = OPrim p -> tree g a (MPrim p) []
| tr_out a v : obj_at g a = OOutput v -> tree g a (MOut a) [a]
| tr_list a l ms ls : obj_at g a = OIter l -> trees g l ms ls -> tree g a (MList ms) (a :: ls)
| tr_dict a es ks ms ls : obj_at g a = ODict es -> map fst es = map KStr ks ->
    (forall k s, In k ks -> k <> "_" ++ s) -> trees g (map snd es) ms ls -> tree g a (MDict (combine ks ms)) (a :: ls)
with trees (g : ograph) : list nat -> list mval -> list nat -> Prop :=
| trs_nil : trees g [] [] []
| trs_cons a l m ms la ls : tree g a m la -> trees g l ms ls -> trees g (a :: l) (m :: ms) (la ++ ls)%list.

Definition is_output (g : ograph) (a : nat) : Prop := exists v, value_of g a = Some v.
(** The exports so far: the last value for each name. *)
Definition exported (exports : list (string * nat)) (k : string) (v : nat) : Prop :=
  exists l1 l2, exports = (l1 ++ (k, v) :: l2)%list /\ ~ In k (map fst l2).
