(** What a refresh should leave, without the model's functions. *)
From Verif Require Import Base Model_Rebuild.
Open Scope string_scope.
Open Scope list_scope.

(** What the next operation asks of a record: each resource comes after its parent, what it depends
    on and its provider, and there is one resource of a name that is not to be deleted, which
    comes before the others of the name. *)
Definition usable (l : list res) : Prop :=
  forall before r after, l = before ++ r :: after ->
    (r_parent r = "" \/ exists q, In q before /\ r_urn q = r_parent r)
    /\ (forall d, In d (r_deps r) -> exists q, In q before /\ r_urn q = d)
    /\ (forall urn id, r_provider r = Some (urn, id) -> exists q, In q (before ++ [r]) /\ r_kind q = true /\ r_urn q = urn /\ r_id q = id)
    /\ (r_delete r = false -> forall q, In q before -> r_urn q <> r_urn r).

(** A value without the marks of secrets. *)
Fixpoint revealed (v : value) : value :=
  match v with
  | Plain s => Plain s
  | Secret w => revealed w
  | Arr l => Arr (map revealed l)
  | Obj l => Obj (map (fun kv => (fst kv, revealed (snd kv))) l)
  end.
Definition all_revealed (l : props) : props := map (fun kv => (fst kv, revealed (snd kv))) l.

(** What is to be recorded for the resource [r], apart from the names of others; [a]: the answer of
    its provider. *)
Definition about_the_same (r r' : res) : Prop :=
  r_urn r' = r_urn r /\ r_kind r' = r_kind r /\ r_custom r' = r_custom r /\ r_delete r' = r_delete r
  /\ r_pending r' = r_pending r /\ r_props r' = r_props r /\ r_provider r' = r_provider r
  /\ r_secret r' = r_secret r /\ r_rest r' = r_rest r.
Definition unchanged (r r' : res) : Prop :=
  about_the_same r r' /\ r_id r' = r_id r /\ r_inputs r' = r_inputs r /\ r_errors r' = r_errors r
  /\ all_revealed (r_outputs r') = all_revealed (r_outputs r).
Definition as_reported (r : res) (id : string) (state : props) (inputs : option (option props)) (reasons : list string) (r' : res) : Prop :=
  about_the_same r r' /\ r_id r' = id /\ r_errors r' = reasons
  /\ all_revealed (r_outputs r') = all_revealed state
  /\ match inputs with
     | None => r_inputs r' = r_inputs r
     | Some None => False
     | Some (Some i) => all_revealed (r_inputs r') = all_revealed i
     end.
Definition is_read (targets : list string) (r : res) : Prop :=
  (targets = [] \/ In (r_urn r) targets) /\ r_custom r = true /\ r_kind r = false /\ r_pending r = false.
Inductive fate (targets : list string) (r : res) : option reply -> option res -> Prop :=
| fate_not_read : forall a r', ~ is_read targets r -> unchanged r r' -> fate targets r a (Some r')
| fate_cancelled : forall r', unchanged r r' -> fate targets r None (Some r')
| fate_failed : forall r', unchanged r r' -> fate targets r (Some Fails) (Some r')
| fate_not_understood : forall id s i r', id <> "" -> s = None \/ i = Some None -> unchanged r r' -> fate targets r (Some (Found id s i)) (Some r')
| fate_gone : forall s i, is_read targets r -> fate targets r (Some (Found "" s i)) None
| fate_found : forall id s i r', is_read targets r -> id <> "" -> as_reported r id s i [] r' -> fate targets r (Some (Found id (Some s) i)) (Some r')
| fate_unhealthy : forall id s i reasons r', is_read targets r -> id <> "" -> as_reported r id s i reasons r' ->
    fate targets r (Some (Unhealthy id (Some s) i reasons)) (Some r')
| fate_unhealthy_not_understood : forall id s i reasons r', id = "" \/ s = None \/ i = Some None -> unchanged r r' ->
    fate targets r (Some (Unhealthy id s i reasons)) (Some r').
(** An answer that says that a resource exists, and what is the matter with it, and that is
    complete. *)
Definition complete (a : option reply) : Prop :=
  forall id s i reasons, a = Some (Unhealthy id s i reasons) -> id <> "" /\ s <> None /\ i <> Some None.

(** The resources that are left: [fates] has the one at each place of the old record, if any. *)
Fixpoint left_of (fates : list (option res)) : list res :=
  match fates with [] => [] | Some r :: l => r :: left_of l | None :: l => left_of l end.

(** The names that [r'], which was [r], has of others; [before]: what is recorded before it. *)
Definition names_kept (before l' : list res) (r r' : res) : Prop :=
  r_deps r' = filter (fun d => existsb (fun q => String.eqb (r_urn q) d) before) (r_deps r)
  /\ ((exists q, In q l' /\ r_urn q = r_parent r /\ r_delete q = false) -> r_parent r' = r_parent r)
  /\ ((forall q, In q l' -> r_urn q = r_parent r -> r_delete q = true) ->
      (forall q, In q before -> r_urn q <> r_parent r) -> r_parent r' = "").
(** The parent that the first resource above [r] has that is recorded: what the code describes. *)
Inductive nearest (l l' : list res) : string -> string -> Prop :=
| nearest_none : nearest l l' "" ""
| nearest_here : forall u q, u <> "" -> In q l' -> r_urn q = u -> nearest l l' u u
| nearest_above : forall u q v, u <> "" -> (forall q', In q' l' -> r_urn q' <> u) -> In q l -> r_urn q = u -> nearest l l' (r_parent q) v -> nearest l l' u v.

(** The value at a path of keys, not inside of a secret. *)
Inductive shown : props -> list string -> value -> Prop :=
| shown_here : forall l k v, In (k, v) l -> shown l [k] v
| shown_below : forall l k l' p v, In (k, Obj l') l -> shown l' p v -> shown l (k :: p) v.
Inductive has_secret : value -> Prop :=
| has_secret_itself : forall v, has_secret (Secret v)
| has_secret_item : forall l v, In v l -> has_secret v -> has_secret (Arr l)
| has_secret_entry : forall l k v, In (k, v) l -> has_secret v -> has_secret (Obj l).
Definition no_object (v : value) : Prop := forall l, v <> Obj l.
(** Maps have one value for each key. *)
Inductive keys_once : props -> Prop :=
| keys_once_at : forall l, NoDup (map fst l) -> (forall k l', In (k, Obj l') l -> keys_once l') -> keys_once l.
