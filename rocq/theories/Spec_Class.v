(** Independent specification for declared properties (C92). *)
From Verif Require Import Base PyVal Model_Annot Model_Class.
Open Scope string_scope.

(** [declared_in b py pul a]: the class statement [b] declares the property
    [py], called [pul] by the engine, with annotation [a]. *)
Inductive declared_in (b : base) : string -> string -> option ann -> Prop :=
| di_getter py pul a : In (py, PGetter pul a) (b_attrs b) -> declared_in b py pul a
| di_property py pul a : In (py, a) (b_anns b) -> In (py, PProperty pul) (b_attrs b) -> declared_in b py pul (Some a)
| di_plain py a : In (py, a) (b_anns b) -> (forall p, ~ In (py, PProperty p) (b_attrs b)) ->
    (forall p r, ~ In (py, PGetter p r) (b_attrs b)) -> declared_in b py py (Some a).
Definition mentions (b : base) (py : string) : Prop := In py (map fst (b_anns b)) \/ In py (map fst (b_attrs b)).

(** [has_property c py pul a]: the declaration that counts for a class is the
    one of the most derived class that mentions the name. *)
Definition has_property (c : class) (py pul : string) (a : option ann) : Prop :=
  exists front b back, c = (front ++ b :: back)%list /\ declared_in b py pul a /\ forall b', In b' back -> ~ mentions b' py.

Definition well_formed (c : class) : Prop :=
  c <> [] /\ forall b, In b c -> NoDup (map fst (b_anns b)) /\ NoDup (map fst (b_attrs b)).
(** Along the bases a Python name keeps its Pulumi name, and no two share one. *)
Definition consistent (c : class) : Prop :=
  forall b b' py pul a py' pul' a', In b c -> In b' c -> declared_in b py pul a -> declared_in b' py' pul' a' ->
    (py = py' <-> pul = pul').
(** Names are not empty. *)
Definition named (c : class) : Prop := forall b py pul a, In b c -> declared_in b py pul a -> py <> "" /\ pul <> "".
(** Only the class itself declares properties by annotations, and none that is
    a getter somewhere. *)
Definition annotations_in_class (c : class) : Prop :=
  forall front b back, c = (front ++ b :: back)%list ->
    (back <> [] -> b_anns b = [] /\ forall n p, ~ In (n, PProperty p) (b_attrs b)) /\
    (back = [] -> forall n b' p r, In n (map fst (b_anns b)) -> In b' c -> ~ In (n, PGetter p r) (b_attrs b')).
