(** Shared vocabulary of the model: results, exceptions, futures, Python dicts.
    Nothing here models a particular function of the SDK. *)
From Coq Require Export String Ascii ZArith Bool Arith Lia List Permutation.
Export ListNotations.
Open Scope string_scope.
Open Scope list_scope.

(** A Python exception: its class and its message. *)
Inductive exn : Type := Exn (cls : string) (msg : string).

(** The outcome of a synchronous call: a value or a raised exception. *)
Inductive res (A : Type) : Type :=
| Ok (a : A)
| Err (e : exn).
Arguments Ok {A} a.
Arguments Err {A} e.

Definition rbind {A B} (m : res A) (f : A -> res B) : res B :=
  match m with Ok a => f a | Err e => Err e end.

Definition is_ok {A} (m : res A) : bool :=
  match m with Ok _ => true | Err _ => false end.

(** An asyncio future as an awaiting coroutine observes it: completed with a
    value, completed with an exception, or never completed.  [await] is
    [fbind]. *)
Inductive fut (A : Type) : Type :=
| Done (a : A)
| Fail (e : exn)
| Pending.
Arguments Done {A} a.
Arguments Fail {A} e.
Arguments Pending {A}.

Definition fbind {A B} (m : fut A) (f : A -> fut B) : fut B :=
  match m with Done a => f a | Fail e => Fail e | Pending => Pending end.

Definition fmap {A B} (f : A -> B) (m : fut A) : fut B :=
  match m with Done a => Done (f a) | Fail e => Fail e | Pending => Pending end.

Definition resolved {A} (m : fut A) : Prop := m <> Pending.

Definition of_res {A} (m : res A) : fut A :=
  match m with Ok a => Done a | Err e => Fail e end.

Declare Scope monad_scope.
Notation "'let*' x ':=' m 'in' k" := (fbind m (fun x => k))
  (at level 200, x pattern, m at level 100, k at level 200) : monad_scope.
Notation "'let+' x ':=' m 'in' k" := (rbind m (fun x => k))
  (at level 200, x pattern, m at level 100, k at level 200) : monad_scope.
Open Scope monad_scope.

(** Python dicts with string keys: insertion-ordered association lists.
    [dget] is [d.get(k)], [dset] is [d[k] = v] (an existing key keeps its
    position), [ddel] is [del d[k]]. *)
Definition dict (V : Type) : Type := list (string * V).

Fixpoint dget {V} (d : dict V) (k : string) : option V :=
  match d with
  | [] => None
  | (k', v) :: d' => if String.eqb k k' then Some v else dget d' k
  end.

Fixpoint dset {V} (d : dict V) (k : string) (v : V) : dict V :=
  match d with
  | [] => [(k, v)]
  | (k', v') :: d' =>
      if String.eqb k k' then (k', v) :: d' else (k', v') :: dset d' k v
  end.

Fixpoint ddel {V} (d : dict V) (k : string) : dict V :=
  match d with
  | [] => []
  | (k', v') :: d' =>
      if String.eqb k k' then ddel d' k else (k', v') :: ddel d' k
  end.

Definition dkeys {V} (d : dict V) : list string := map fst d.
Definition dmem {V} (d : dict V) (k : string) : bool :=
  match dget d k with Some _ => true | None => false end.
Definition wf_dict {V} (d : dict V) : Prop := NoDup (dkeys d).

Definition dupdate {V} (d e : dict V) : dict V :=
  fold_left (fun acc kv => dset acc (fst kv) (snd kv)) e d.

(** Membership test in a list of strings / numbers. *)
Fixpoint smem (s : string) (l : list string) : bool :=
  match l with [] => false | x :: l' => if String.eqb s x then true else smem s l' end.
Fixpoint nmem (n : nat) (l : list nat) : bool :=
  match l with [] => false | x :: l' => if Nat.eqb n x then true else nmem n l' end.

(** Same elements, whatever the order and multiplicity: equality of Python
    sets represented by lists. *)
Definition same_set {A} (l m : list A) : Prop := forall x, In x l <-> In x m.

(* ------------------------------------------------------------------ *)
(** Basic facts. *)

Lemma smem_In s l : smem s l = true <-> In s l.
Proof.
  induction l as [|x l IH]; simpl; [easy|].
  destruct (String.eqb_spec s x) as [->|n]; [tauto|].
  rewrite IH. intuition congruence.
Qed.

Lemma smem_notIn s l : smem s l = false <-> ~ In s l.
Proof. rewrite <- smem_In. destruct (smem s l); intuition congruence. Qed.

Lemma nmem_In s l : nmem s l = true <-> In s l.
Proof.
  induction l as [|x l IH]; simpl; [easy|].
  destruct (Nat.eqb_spec s x) as [->|n]; [tauto|].
  rewrite IH. intuition congruence.
Qed.

Lemma nmem_notIn s l : nmem s l = false <-> ~ In s l.
Proof. rewrite <- nmem_In. destruct (nmem s l); intuition congruence. Qed.

Lemma dget_In {V} (d : dict V) k v : dget d k = Some v -> In (k, v) d.
Proof.
  induction d as [|[k' v'] d IH]; simpl; [easy|].
  destruct (String.eqb_spec k k') as [->|n].
  - intros [= ->]; auto.
  - auto.
Qed.

Lemma dget_key {V} (d : dict V) k v : dget d k = Some v -> In k (dkeys d).
Proof. intros H; apply dget_In in H. now apply (in_map fst) in H. Qed.

Lemma dget_None {V} (d : dict V) k : dget d k = None <-> ~ In k (dkeys d).
Proof.
  induction d as [|[k' v'] d IH]; simpl; [tauto|].
  destruct (String.eqb_spec k k') as [->|n].
  - split; [easy|tauto].
  - rewrite IH. intuition congruence.
Qed.

Lemma dget_Some_key {V} (d : dict V) k : In k (dkeys d) -> exists v, dget d k = Some v.
Proof.
  intros H. destruct (dget d k) eqn:E; eauto.
  apply dget_None in E. contradiction.
Qed.

Lemma In_dget {V} (d : dict V) k v :
  wf_dict d -> In (k, v) d -> dget d k = Some v.
Proof.
  unfold wf_dict. induction d as [|[k' v'] d IH]; simpl; [easy|].
  intros Hn [[= -> ->]|H].
  - now rewrite String.eqb_refl.
  - inversion Hn; subst. destruct (String.eqb_spec k k') as [->|n]; [|auto].
    exfalso. apply H2. now apply (in_map fst) in H.
Qed.

Lemma dget_dset {V} (d : dict V) k v k' :
  dget (dset d k v) k' = if String.eqb k' k then Some v else dget d k'.
Proof.
  induction d as [|[k1 v1] d IH]; simpl.
  - reflexivity.
  - destruct (String.eqb_spec k k1) as [->|n]; simpl.
    + destruct (String.eqb_spec k' k1); reflexivity.
    + rewrite IH. destruct (String.eqb_spec k' k1) as [->|]; [|reflexivity].
      destruct (String.eqb_spec k1 k); congruence.
Qed.

Lemma dkeys_dset {V} (d : dict V) k v x :
  In x (dkeys (dset d k v)) <-> x = k \/ In x (dkeys d).
Proof.
  induction d as [|[k1 v1] d IH]; simpl.
  - intuition.
  - destruct (String.eqb_spec k k1) as [->|n]; simpl; [intuition|].
    unfold dkeys in IH. rewrite IH. intuition.
Qed.

Lemma wf_dset {V} (d : dict V) k v : wf_dict d -> wf_dict (dset d k v).
Proof.
  unfold wf_dict. induction d as [|[k1 v1] d IH]; simpl; intros H.
  - repeat constructor; auto.
  - inversion H; subst.
    destruct (String.eqb_spec k k1) as [->|n]; simpl; constructor; auto.
    intros Hin. apply (dkeys_dset d k v k1) in Hin. intuition congruence.
Qed.

Lemma dget_ddel {V} (d : dict V) k k' :
  dget (ddel d k) k' = if String.eqb k' k then None else dget d k'.
Proof.
  induction d as [|[k1 v1] d IH]; simpl.
  - now destruct (String.eqb k' k).
  - destruct (String.eqb_spec k k1) as [->|n]; simpl.
    + rewrite IH. destruct (String.eqb_spec k' k1); auto.
    + rewrite IH. destruct (String.eqb_spec k' k1) as [->|]; auto.
      destruct (String.eqb_spec k1 k); congruence.
Qed.

Lemma wf_dupdate {V} (e d : dict V) : wf_dict d -> wf_dict (dupdate d e).
Proof.
  unfold dupdate. revert d. induction e as [|[k v] e IH]; simpl; auto using @wf_dset.
Qed.

Lemma dget_dupdate {V} (e d : dict V) k :
  wf_dict e ->
  dget (dupdate d e) k = match dget e k with Some v => Some v | None => dget d k end.
Proof.
  unfold dupdate, wf_dict. revert d.
  induction e as [|[k1 v1] e IH]; simpl; intros d Hn; [reflexivity|].
  inversion Hn; subst. rewrite IH, dget_dset by auto.
  destruct (String.eqb_spec k k1) as [->|n].
  - destruct (dget e k1) eqn:E; [|reflexivity].
    apply dget_key in E. contradiction.
  - reflexivity.
Qed.

Lemma same_set_refl {A} (l : list A) : same_set l l.
Proof. intros x; tauto. Qed.
Lemma same_set_sym {A} (l m : list A) : same_set l m -> same_set m l.
Proof. intros H x; symmetry; apply H. Qed.
Lemma same_set_trans {A} (l m n : list A) : same_set l m -> same_set m n -> same_set l n.
Proof. intros H K x; rewrite (H x); apply K. Qed.
