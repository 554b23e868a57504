(** Specification for C98: a program that changed, and where its resources come
    from. *)
From Verif Require Import Base Model_Urn Spec_Urn Model_Refactor.
Open Scope string_scope.

(** Strings that can be written in programs: names neither contain the
    separator of URNs nor start with a colon; types contain neither the
    separator nor "$", are not empty and not the stack's. *)
Definition type_word (s : string) : Prop := s <> "" /\ piece s /\ ~ has_char "$" s.
Definition proper_env (v : env) : Prop := stack_name (v_stack v) /\ piece (v_project v).
Definition proper_alias (a : alias) : Prop :=
  match a with
  | AliasUrn _ => True
  | AliasObj n t _ _ _ => (forall x, n = Some x -> last_piece x) /\ (forall x, t = Some x -> type_word x)
  end.
Definition proper (d : decl) : Prop :=
  last_piece (k_name d) /\ type_word (k_type d) /\ k_type d <> "pulumi:pulumi:Stack" /\ Forall proper_alias (k_aliases d).

(** [at_top p]: the resource is directly in the stack. *)
Definition at_top (p : given_parent) : Prop := p = Top \/ p = Stack.

Section Changed.
  (** The program as it was deployed, with the URNs its resources got, and as
      it is now.  [was i = Some j]: the [i]-th resource is what was the
      [j]-th; [was i = None]: it is new. *)
  Variables (old new : env) (before after : list decl) (urns : list string) (was : nat -> option nat).

  (** [same_place d o name]: [d] has a parent, which is what was the parent of
      [o], and under that parent [name] is what the name of [o] was. *)
  Inductive same_place (d o : decl) : string -> Prop :=
  | Place_child p q dp oq name :
      k_parent d = Under p -> k_parent o = Under q -> was p = Some q ->
      nth_error after p = Some dp -> nth_error before q = Some oq ->
      k_name o = renamed (k_name dp) (k_name oq) name -> same_place d o name.

  (** [comes_from d o urn]: the program says that the resource [d] is what was
      [o], whose URN is [urn]: it is declared as before; or one of its aliases
      tells the difference. *)
  Inductive comes_from (d o : decl) (urn : string) : Prop :=
  (* declared as before *)
  | At_top : at_top (k_parent d) -> at_top (k_parent o) -> old = new ->
      k_name o = k_name d -> k_type o = k_type d -> comes_from d o urn
  | In_place : same_place d o (k_name d) -> k_type o = k_type d -> comes_from d o urn
  (* [aliases=[urn]] *)
  | Alias_urn : In (AliasUrn urn) (k_aliases d) -> comes_from d o urn
  (* [aliases=[Alias(name=..., type_=...)]] of a resource that has a parent *)
  | Alias_in_place n t pr st : In (AliasObj n t APDefault pr st) (k_aliases d) ->
      same_place d o (or_default n (k_name d)) -> k_type o = or_default t (k_type d) -> comes_from d o urn
  (* [aliases=[Alias(name=..., type_=..., project=..., stack=...)]] of one that
     has none, or with [parent=None] *)
  | Alias_top n t p pr st : In (AliasObj n t p pr st) (k_aliases d) ->
      p = APNone \/ p = APDefault /\ k_parent d = Top -> at_top (k_parent o) ->
      k_name o = or_default n (k_name d) -> k_type o = or_default t (k_type d) ->
      v_project old = or_default pr (v_project new) -> v_stack old = or_default st (v_stack new) -> comes_from d o urn
  (* [aliases=[Alias(parent=urn, ...)]] *)
  | Alias_under n t pr st q u : In (AliasObj n t (APUrn u) pr st) (k_aliases d) ->
      k_parent o = Under q -> nth_error urns q = Some u ->
      k_name o = or_default n (k_name d) -> k_type o = or_default t (k_type d) -> comes_from d o urn.
End Changed.
