(** Independent specification for the translation of outputs (C55). *)
From Verif Require Import Base PyVal Model_Translate.
Open Scope string_scope.

(** The wire representation of a secret. *)
Definition marks_secret (d : list (string * pyval)) : Prop :=
  In ("4dabf18193072939515e22adb298388d", VStr "1b47061264138c4ac30d75fd1eb44270") d.

(** What deserialisation produces: keys are distinct, also after name
    translation, and a secret has one value that is not a secret. *)
Inductive engine_value (c : ocfg) : pyval -> Prop :=
| ev_secret d x : wf_dict d -> marks_secret d -> In ("value", x) d ->
    (forall d', x = VDict d' -> ~ marks_secret d') -> engine_value c x -> engine_value c (VDict d)
| ev_dict d : wf_dict d -> ~ marks_secret d -> NoDup (map (o_transform c) (dkeys d)) ->
    Forall (fun kv => engine_value c (snd kv)) d -> engine_value c (VDict d)
| ev_list l : Forall (engine_value c) l -> engine_value c (VList l)
| ev_leaf v : (forall d, v <> VDict d) -> (forall l, v <> VList l) -> engine_value c v.

(** No usable type; declared as [u], perhaps optionally. *)
Definition untyped (t : option oty) : Prop := t = None \/ t = Some OAny \/ t = Some (OOptional OAny).
Definition declared (t : option oty) (u : oty) : Prop := t = Some u \/ t = Some (OOptional u).
Definition scalar (v : pyval) : Prop := (exists b, v = VBool b) \/ (exists z, v = VNum z) \/ (exists s, v = VStr s).

Definition field_type (fs : list ofield) (k : string) (t : option oty) : Prop :=
  (exists f, In f fs /\ of_pulumi f = k /\ of_ty f = t) \/ ((forall f, In f fs -> of_pulumi f <> k) /\ t = None).
Definition good_class (fs : list ofield) : Prop := NoDup (map of_py fs) /\ NoDup (map of_pulumi fs).

(** [becomes c t v r]: the value [v] declared with type [t] is seen as [r]. *)
Inductive becomes (c : ocfg) : option oty -> pyval -> tval -> Prop :=
| b_secret t d x r : marks_secret d -> In ("value", x) d -> becomes c t x r ->
    becomes c t (VDict d) (TSecret r)
| b_list t l r : untyped t \/ declared t OListBare -> Forall2 (becomes c None) l r -> becomes c t (VList l) (TList r)
| b_list_of t e l r : declared t (OList e) -> Forall2 (becomes c (Some e)) l r -> becomes c t (VList l) (TList r)
| b_dict t d r : ~ marks_secret d -> untyped t \/ declared t ODictBare ->
    Forall2 (fun kv kv' => fst kv' = o_transform c (fst kv) /\ becomes c None (snd kv) (snd kv')) d r ->
    becomes c t (VDict d) (TDict r)
| b_dict_of t e d r : ~ marks_secret d -> declared t (ODict e) ->
    Forall2 (fun kv kv' => fst kv' = (if o_meta c then fst kv else o_transform c (fst kv)) /\
                           becomes c (Some e) (snd kv) (snd kv')) d r ->
    becomes c t (VDict d) (TDict r)
| b_class t cls d r args : ~ marks_secret d -> declared t (OClass cls) ->
    Forall2 (fun kv kv' => fst kv' = fst kv /\
       exists ft, field_type (o_class c cls) (fst kv) ft /\ becomes c ft (snd kv) (snd kv')) d r ->
    Forall2 (fun f a => fst a = of_py f /\
       ((exists y, In (of_pulumi f, y) r /\ snd a = Some y) \/ ((forall y, ~ In (of_pulumi f, y) r) /\ snd a = None)))
      (o_class c cls) args ->
    becomes c t (VDict d) (TObj cls args)
| b_enum t cls v : scalar v -> declared t (OEnum cls) -> o_enum c cls v = true -> becomes c t v (TEnum cls v)
| b_scalar t v : scalar v -> (forall cls, ~ declared t (OEnum cls)) -> becomes c t v (TLeaf v)
| b_leaf t v : ~ scalar v -> (forall d, v <> VDict d) -> (forall l, v <> VList l) -> becomes c t v (TLeaf v).

(** The value does not have the declared type. *)
Inductive mismatch (c : ocfg) : option oty -> pyval -> Prop :=
| m_dict t d : ~ marks_secret d -> ~ untyped t -> ~ declared t ODictBare -> (forall e, ~ declared t (ODict e)) ->
    (forall cls, ~ declared t (OClass cls)) -> mismatch c t (VDict d)
| m_list t l : ~ untyped t -> ~ declared t OListBare -> (forall e, ~ declared t (OList e)) -> mismatch c t (VList l)
| m_enum t cls v : scalar v -> declared t (OEnum cls) -> o_enum c cls v = false -> mismatch c t v
| m_secret t d x : marks_secret d -> In ("value", x) d -> mismatch c t x -> mismatch c t (VDict d)
| m_in_list t u l x : (untyped t \/ declared t OListBare) /\ u = None \/ (exists e, declared t (OList e) /\ u = Some e) ->
    In x l -> mismatch c u x -> mismatch c t (VList l)
| m_in_dict t u d k x : ~ marks_secret d ->
    (untyped t \/ declared t ODictBare) /\ u = None \/ (exists e, declared t (ODict e) /\ u = Some e) \/
      (exists cls, declared t (OClass cls) /\ field_type (o_class c cls) k u) ->
    In (k, x) d -> mismatch c u x -> mismatch c t (VDict d).
