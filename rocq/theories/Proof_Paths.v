(** Reading and changing values at paths. *)
From Verif Require Import Base Model_Paths Spec_Paths.
Open Scope string_scope.
Open Scope list_scope.

Lemma at_path_get t p v : at_path t p v <-> get t p = Some v.
Proof.
  split.
  - induction 1 as [t|l n c p v E A IH|l i c p v E A IH]; cbn; trivial; [now rewrite E|].
    destruct (Z.ltb_spec (Z.of_nat i) 0); [lia|]. now rewrite Nat2Z.id, E.
  - revert t. induction p as [|k p IH]; cbn; intros t E; [injection E as ->; constructor|].
    destruct (child t k) as [c|] eqn:C; [|discriminate]. destruct t, k; try discriminate; cbn in C.
    + destruct (Z.ltb_spec i 0) as [|L]; [discriminate|]. rewrite <- (Z2Nat.id i L). econstructor; eauto.
    + econstructor; eauto.
Qed.

Lemma get_app t p q : get t (p ++ q) = match get t p with Some c => get c q | None => None end.
Proof. revert t. induction p as [|k p IH]; intro t; cbn; trivial. destruct (child t k); auto. Qed.

Lemma nth_set {A} (l : list A) i j x : nth_error (set_nth l i x) j = if Nat.eqb i j then (if Nat.ltb j (length l) then Some x else None) else nth_error l j.
Proof.
  revert i j. induction l as [|y l IH]; intros [|i] [|j]; cbn; trivial; [now destruct (Nat.eqb i j)|]. rewrite IH.
  destruct (Nat.eqb_spec i j); trivial.
Qed.
Lemma set_nth_same {A} (l : list A) i x : nth_error l i = Some x -> set_nth l i x = l.
Proof. revert i. induction l as [|y l IH]; intros [|i]; cbn; trivial; [now intros [= ->]|]. intro E. now rewrite IH. Qed.
Lemma dget_set {V} (d : dict V) k k' v : dget (dset d k v) k' = if String.eqb k k' then Some v else dget d k'.
Proof.
  induction d as [|[a b] d IH]; cbn.
  - rewrite (String.eqb_sym k' k). now destruct (String.eqb k k').
  - destruct (String.eqb_spec k a) as [->|N]; cbn.
    + rewrite (String.eqb_sym k' a). now destruct (String.eqb a k').
    + rewrite IH. destruct (String.eqb_spec k' a) as [->|M]; trivial. destruct (String.eqb_spec k a); congruence.
Qed.
Lemma dset_id {V} (d : dict V) k v : dget d k = Some v -> dset d k v = d.
Proof. induction d as [|[a b] d IH]; cbn; [discriminate|]. destruct (String.eqb_spec k a) as [->|]; [now intros [= ->]|]. intro E. now rewrite IH. Qed.
Lemma dget_del {V} (d : dict V) k k' : dget (ddel d k) k' = if String.eqb k k' then None else dget d k'.
Proof.
  induction d as [|[a b] d IH]; cbn; [now destruct (String.eqb k k')|].
  destruct (String.eqb_spec k a) as [->|N]; cbn.
  - rewrite IH, (String.eqb_sym k' a). now destruct (String.eqb a k').
  - rewrite IH. destruct (String.eqb_spec k' a) as [->|M]; trivial. destruct (String.eqb_spec k a); congruence.
Qed.
Lemma ddel_id {V} (d : dict V) k : dget d k = None -> ddel d k = d.
Proof. induction d as [|[a b] d IH]; cbn; trivial. destruct (String.eqb_spec k a) as [->|]; [discriminate|]. intro E. now rewrite IH. Qed.

Lemma key_dec (a b : key) : {a = b} + {a <> b}.
Proof. decide equality; [apply string_dec|apply Z.eq_dec]. Qed.

Lemma child_set t k c t' : set_child t k c = Some t' -> child t' k = Some c /\ forall k', k' <> k -> child t' k' = child t k'.
Proof.
  destruct t as [?| |?|l|l], k as [n|i]; cbn; try discriminate.
  - destruct (Z.ltb_spec i 0) as [|A]; [discriminate|]. destruct (Z.leb_spec (Z.of_nat (length l)) i) as [|B]; [discriminate|]. cbn. intros [= <-]. split.
    + cbn. destruct (Z.ltb_spec i 0); [lia|]. rewrite nth_set, Nat.eqb_refl. destruct (Nat.ltb_spec (Z.to_nat i) (length l)); [trivial|lia].
    + intros [n|j] N; cbn; trivial. destruct (Z.ltb_spec j 0); trivial. rewrite nth_set. destruct (Nat.eqb_spec (Z.to_nat i) (Z.to_nat j)) as [E|]; trivial.
      exfalso. apply N. f_equal. lia.
  - intros [= <-]. cbn. split; [now rewrite dget_set, String.eqb_refl|]. intros [m|j] N; cbn; trivial. rewrite dget_set. destruct (String.eqb_spec n m); congruence.
Qed.
Lemma set_child_ok t k c c' : child t k = Some c -> exists t', set_child t k c' = Some t'.
Proof.
  destruct t as [?| |?|l|l], k as [n|i]; cbn; try discriminate; [|eauto].
  destruct (Z.ltb_spec i 0) as [|A]; [discriminate|]. intro E. assert (Z.to_nat i < length l) by (apply nth_error_Some; congruence).
  destruct (Z.leb_spec (Z.of_nat (length l)) i); [lia|]. cbn. eauto.
Qed.
Lemma set_child_id t k c : child t k = Some c -> set_child t k c = Some t.
Proof.
  destruct t as [?| |?|l|l], k as [n|i]; cbn; try discriminate.
  - destruct (Z.ltb_spec i 0) as [|A]; [discriminate|]. intro E. assert (Z.to_nat i < length l) by (apply nth_error_Some; congruence).
    destruct (Z.leb_spec (Z.of_nat (length l)) i); [lia|]. cbn. now rewrite set_nth_same.
  - intro E. now rewrite dset_id.
Qed.
Lemma set_child_obj l k c t' : set_child (Obj l) k c = Some t' -> exists l', t' = Obj l'.
Proof. destruct k; cbn; [|discriminate]. intros [= <-]. eauto. Qed.

(** What changing the last key does: it is [r] afterwards, and nothing else changes. *)
Record does (last : tree -> key -> option tree) (k : key) (r : option tree) : Prop := {
  does_key : forall t t', last t k = Some t' -> child t' k = r;
  does_other : forall t t' k', last t k = Some t' -> k' <> k -> child t' k' = child t k';
  does_id : forall t t', last t k = Some t' -> child t k = r -> t' = t;
  does_obj : forall l t', last (Obj l) k = Some t' -> exists l', t' = Obj l'
}.
Lemma set_does v k : does (fun t k => set_child t k v) k (Some v).
Proof.
  split.
  - intros t t' E. now apply child_set in E.
  - intros t t' k' E N. apply child_set in E as [_ E]. now apply E.
  - intros t t' E C. apply set_child_id in C. congruence.
  - intros l t' E. now apply set_child_obj in E.
Qed.
Lemma delete_does n : does delete_child (Name n) None.
Proof.
  split.
  - intros [] t'; cbn; try discriminate. intros [= <-]. cbn. now rewrite dget_del, String.eqb_refl.
  - intros [] t' [m|j]; cbn; try discriminate; intros [= <-] N; cbn; trivial. rewrite dget_del. destruct (String.eqb_spec n m); congruence.
  - intros [] t'; cbn; try discriminate. intros [= <-] E. now rewrite ddel_id.
  - intros l t'. cbn. intros [= <-]. eauto.
Qed.

Section Alter.
Context (last : tree -> key -> option tree) (k : key) (r : option tree) (D : does last k r).

Lemma alter_cons a p t : alter last t (a :: p ++ [k]) = match child t a with None => None | Some c => match alter last c (p ++ [k]) with None => None | Some c' => set_child t a c' end end.
Proof. cbn [alter]. now destruct (p ++ [k]) eqn:E; [destruct p|]. Qed.

Lemma alter_same p : forall t t', alter last t (p ++ [k]) = Some t' -> get t' (p ++ [k]) = r.
Proof.
  induction p as [|a p IH]; intros t t' E.
  - cbn in *. rewrite (does_key _ _ _ D _ _ E). now destruct r.
  - rewrite <- app_comm_cons in E. rewrite alter_cons in E. destruct (child t a) as [c|] eqn:C; [|discriminate].
    destruct (alter last c (p ++ [k])) as [c'|] eqn:A; [|discriminate]. apply child_set in E as [E _]. cbn. rewrite E. eauto.
Qed.
Lemma alter_other p q : forall t t', alter last t (p ++ [k]) = Some t' -> ~ prefix (p ++ [k]) q -> ~ prefix q (p ++ [k]) -> get t' q = get t q.
Proof.
  revert q. induction p as [|a p IH]; intros q t t' E N M.
  - cbn in *. destruct q as [|b q]; [exfalso; apply M; now exists [k]|]. cbn. rewrite (does_other _ _ _ D _ _ b E); trivial.
    intros ->. apply N. now exists q.
  - rewrite <- app_comm_cons in E. rewrite alter_cons in E. destruct (child t a) as [c|] eqn:C; [|discriminate].
    destruct (alter last c (p ++ [k])) as [c'|] eqn:A; [|discriminate]. apply child_set in E as [E O].
    destruct q as [|b q]; [exfalso; apply M; now exists (a :: p ++ [k])|]. cbn. destruct (key_dec b a) as [->|Nb].
    + rewrite E, C. eapply IH; [exact A|..]; intros [s S].
      * apply N. exists s. cbn. now rewrite S.
      * apply M. exists s. cbn. now rewrite S.
    + now rewrite O.
Qed.
Lemma alter_id p : forall t t', alter last t (p ++ [k]) = Some t' -> get t (p ++ [k]) = r -> t' = t.
Proof.
  induction p as [|a p IH]; intros t t' E G.
  - cbn in *. apply (does_id _ _ _ D _ _ E). now destruct (child t k).
  - rewrite <- app_comm_cons in E, G. rewrite alter_cons in E. cbn in G. destruct (child t a) as [c|] eqn:C; [|discriminate].
    destruct (alter last c (p ++ [k])) as [c'|] eqn:A; [|discriminate]. rewrite (IH _ _ A G) in E. apply set_child_id in C. congruence.
Qed.
(** Objects above stay objects. *)
Lemma alter_above p q : forall t t' s l, alter last t (p ++ [k]) = Some t' -> p ++ [k] = q ++ s -> s <> [] -> get t q = Some (Obj l) -> exists l', get t' q = Some (Obj l').
Proof.
  revert p. induction q as [|a q IH]; intros p t t' s l E P Ns G.
  - cbn in *. injection G as ->. destruct p as [|b p]; [cbn in E; destruct (does_obj _ _ _ D _ _ E) as [l' ->]; eauto|].
    rewrite <- app_comm_cons in E. rewrite alter_cons in E. destruct (child (Obj l) b); [|discriminate]. destruct (alter _ _ _); [|discriminate].
    apply set_child_obj in E as [l' ->]. eauto.
  - destruct p as [|b p]; cbn in P.
    + injection P as -> P. destruct q; cbn in P; [subst; easy|discriminate].
    + injection P as -> P. rewrite <- app_comm_cons in E. rewrite alter_cons in E. cbn in G. destruct (child t a) as [c|] eqn:C; [|discriminate].
      destruct (alter last c (p ++ [k])) as [c'|] eqn:A; [|discriminate]. apply child_set in E as [E _]. cbn. rewrite E. eauto.
Qed.
Lemma alter_ok p : forall t c, get t p = Some c -> (exists c', last c k = Some c') -> exists t', alter last t (p ++ [k]) = Some t'.
Proof.
  induction p as [|a p IH]; intros t c G L.
  - cbn in *. injection G as ->. exact L.
  - rewrite <- app_comm_cons, alter_cons. cbn in G. destruct (child t a) as [d|] eqn:C; [|discriminate].
    destruct (IH _ _ G L) as [d' ->]. eapply set_child_ok; eauto.
Qed.
Lemma alter_obj p l t' : alter last (Obj l) (p ++ [k]) = Some t' -> exists l', t' = Obj l'.
Proof.
  intro E. destruct (alter_above p [] _ _ (p ++ [k]) l E eq_refl) as [l' G]; [now destruct p|reflexivity|]. cbn in G. injection G as ->. eauto.
Qed.
End Alter.

Lemma prefix_cases (p q : path) : prefix p q \/ prefix q p \/ (~ prefix p q /\ ~ prefix q p).
Proof.
  revert q. induction p as [|a p IH]; intro q; [left; now exists q|]. destruct q as [|b q]; [right; left; now exists (a :: p)|].
  destruct (key_dec a b) as [->|N].
  - destruct (IH q) as [[s ->]|[[s ->]|[A B]]]; [left; now exists s|right; left; now exists s|].
    right; right. split; intros [s [= ->]]; [apply A|apply B]; now exists s.
  - right; right. split; intros [s [= -> _]]; congruence.
Qed.
Lemma prefix_app_not p p' q : ~ prefix p p' -> ~ prefix p' p -> ~ prefix p (p' ++ q) /\ ~ prefix (p' ++ q) p.
Proof.
  revert p'. induction p as [|a p IH]; intros p' A B; [exfalso; apply A; now exists p'|]. destruct p' as [|b p']; [exfalso; apply B; now exists (a :: p)|].
  destruct (key_dec a b) as [->|N].
  - destruct (IH p') as [C D]; [intros [s ->]; apply A; now exists s|intros [s ->]; apply B; now exists s|].
    split; intros [s E]; cbn in E; injection E as E; [apply C|apply D]; now exists s.
  - split; intros [s E]; cbn in E; injection E as -> _; congruence.
Qed.
