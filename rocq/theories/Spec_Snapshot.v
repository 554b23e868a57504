(** What the saved state says about resources (C118, C119). *)
From Verif Require Import Base Model_Lock Model_Snapshot.
Open Scope string_scope.
Open Scope list_scope.

(** The resource with this ID is recorded. *)
Definition recorded (s : snapshot) (id : nat) : Prop := exists r, In r (fst s) /\ r_id r = Some id.
(** It is noted that a resource with this URN is being created. *)
Definition being_created (s : snapshot) (urn : string) : Prop := exists r, In (Creating, r) (snd s) /\ r_urn r = urn.
(** It is noted that the resource with this ID is being deleted. *)
Definition being_deleted (s : snapshot) (id : nat) : Prop := exists r, In (Deleting, r) (snd s) /\ r_id r = Some id.
Definition exists_in (w : list (nat * string)) (id : nat) : Prop := exists u, In (id, u) w.
Definition gone (m : machine) (p : nat) : Prop := forall id, r_id (m_heap m p) = Some id -> ~ exists_in (m_world m) id.

(** No answer of a provider is lost; and a resource that is marked as pending replacement is
    gone when it is dropped, or created anew without being deleted before. *)
Definition orderly (m : machine) (e : event) : Prop :=
  match e with
  | Apply _ a => a <> Lost
  | Plan (D_drop p) | Plan (D_recreate p _) => gone m p
  | Plan (D_replace_after p _) => r_marked (m_heap m p) = true -> gone m p
  | _ => True
  end.
Fixpoint all_orderly (m : machine) (es : list event) : Prop :=
  match es with [] => True | e :: es' => orderly m e /\ all_orderly (react m e) es' end.

(** Moreover, no resource that is marked is kept or updated, and no update begins while it is
    noted that a resource is being deleted. *)
Definition steady (m : machine) (e : event) : Prop :=
  orderly m e /\
  match e with
  | Plan (D_same p _ _) | Plan (D_update p _) => r_marked (m_heap m p) = false
  | Next => forall r, ~ In (Deleting, r) (snd (m_saved m))
  | _ => True
  end.
Fixpoint all_steady (m : machine) (es : list event) : Prop :=
  match es with [] => True | e :: es' => steady m e /\ all_steady (react m e) es' end.
