From Verif Require Import Base Model_Unknowns Spec_Unknowns.

Definition children (n : node) : list nat := match n with NDict es => map snd es | NList l => l | _ => [] end.
Definition edge (g : graph) (a b : nat) : Prop := In b (children (node_at g a)).
Lemma reaches_step g a b c : edge g a b -> reaches g b c -> reaches g a c.
Proof.
  unfold edge. destruct (node_at g a) as [|es|l|] eqn:E; simpl; intros H R; try contradiction.
  - apply in_map_iff in H as ([k x] & <- & H). eapply reach_dict; eauto.
  - eapply reach_list; eauto.
Qed.
Lemma reaches_ind' g (P : nat -> Prop) c : P c -> (forall a b, edge g a b -> reaches g b c -> P b -> P a) -> forall a, reaches g a c -> P a.
Proof.
  intros H0 H1 a R. induction R as [a|a k b c es E I R IH|a b c l E I R IH]; [exact H0| |].
  - apply (H1 a b); auto. unfold edge. rewrite E. simpl. apply in_map_iff. exists (k, b). auto.
  - apply (H1 a b); auto. unfold edge. rewrite E. exact I.
Qed.
Lemma closed_edge g a b : closed g -> a < length g -> edge g a b -> b < length g.
Proof.
  intros C L. destruct (C a L) as [C1 C2]. unfold edge. destruct (node_at g a) as [|es|l|] eqn:E; simpl; intros H; try contradiction.
  - apply in_map_iff in H as ([k x] & <- & H). eapply C1; eauto.
  - eapply C2; eauto.
Qed.

Definition known (g : graph) (a : nat) : Prop := node_at g a <> NUnknown.
(** What a call guarantees about the objects it has seen. *)
Definition good (g : graph) (vs : list nat) (st st' : list nat) (b : bool) : Prop :=
  incl st st' /\ NoDup st' /\ (forall x, In x st' -> x < length g) /\
  (if b then exists v u, In v vs /\ reaches g v u /\ node_at g u = NUnknown
   else (forall v, In v vs -> In v st' /\ known g v) /\
        (forall x, In x st' -> ~ In x st -> known g x /\ forall y, edge g x y -> In y st' /\ known g y)).

Lemma stack_bound N st : NoDup st -> (forall x, In x st -> x < N) -> length st <= N.
Proof.
  intros D B. rewrite <- (seq_length N 0). apply NoDup_incl_length; [exact D|]. intros x H. apply in_seq. specialize (B x H). lia.
Qed.

Lemma impl_good g : closed g -> forall fuel v st,
  NoDup st -> (forall x, In x st -> x < length g /\ known g x) -> v < length g -> length g - length st < fuel ->
  exists b st', impl fuel g v st = Some (b, st') /\ good g [v] st st' b.
Proof.
  intros C. induction fuel as [|fuel IH]; intros v st D B L F; [lia|].
  cbn [impl]. unfold impl_body.
  assert (AnyOK : forall l st, NoDup st -> (forall x, In x st -> x < length g /\ known g x) -> (forall x, In x l -> x < length g) ->
            length g - length st < fuel -> exists b st', any_ (impl fuel g) l st = Some (b, st') /\ good g l st st' b).
  { intros l. induction l as [|x l IHl]; intros s Ds Bs Ls Fs.
    - exists false, s. split; [reflexivity|]. repeat split; auto using incl_refl; try (apply Bs; assumption); try contradiction.
    - destruct (IH x s Ds Bs) as (b & s1 & E & I1 & D1 & B1 & K1); [apply Ls; left; reflexivity|exact Fs|].
      cbn [any_]. rewrite E. destruct b.
      + exists true, s1. split; [reflexivity|]. repeat split; auto. destruct K1 as (v' & u & [<-|[]] & R & U). exists x, u. split; [left; reflexivity|auto].
      + destruct K1 as [K1 K2].
        assert (B1' : forall y, In y s1 -> y < length g /\ known g y).
        { intros y Hy. split; [apply B1; exact Hy|]. destruct (in_dec Nat.eq_dec y s) as [i|n]; [apply Bs; exact i|apply K2; assumption]. }
        assert (Len : length s <= length s1) by (apply NoDup_incl_length; assumption).
        destruct (IHl s1 D1 B1') as (b & s2 & E2 & I2 & D2 & B2 & K3); [intros y Hy; apply Ls; right; exact Hy|lia|].
        exists b, s2. split; [exact E2|]. split; [eapply incl_tran; eauto|]. split; [exact D2|]. split; [exact B2|].
        destruct b.
        * destruct K3 as (v' & u & Hv & R & U). exists v', u. split; [right; exact Hv|auto].
        * destruct K3 as [K3 K4]. split.
          -- intros y [<-|Hy]; [|apply K3; exact Hy]. destruct (K1 x) as [Hx Kx]; [left; reflexivity|]. split; [apply I2; exact Hx|exact Kx].
          -- intros y Hy Ny. destruct (in_dec Nat.eq_dec y s1) as [i|n]; [|apply K4; assumption].
             destruct (K2 y i Ny) as [Ky Ey]. split; [exact Ky|]. intros z Hz. destruct (Ey z Hz) as [Iz Kz]. split; [apply I2; exact Iz|exact Kz]. }
  destruct (existsb (Nat.eqb v) st) eqn:Ex.
  - apply existsb_exists in Ex as (x & Hx & E). apply Nat.eqb_eq in E. subst x.
    destruct (B v Hx) as [_ Kv]. exists false, st. split; [unfold known in Kv; destruct (node_at g v); [congruence|reflexivity..]|].
    repeat split; auto using incl_refl; try (apply B; assumption); try (destruct H as [<-|[]]; assumption); try contradiction.
  - assert (Nv : ~ In v st).
    { intros H. assert (existsb (Nat.eqb v) st = true) by (apply existsb_exists; exists v; split; [exact H|apply Nat.eqb_refl]). congruence. }
    destruct (node_at g v) as [|es|l|] eqn:En.
    1: { exists true, st. split; [reflexivity|]. repeat split; auto using incl_refl; [apply B|]. exists v, v. split; [left; reflexivity|]. split; [constructor|exact En]. }
    all: cbv beta iota zeta; cbn [negb].
    3: change (Some (false, st ++ [v])) with (any_ (impl fuel g) [] (st ++ [v])).
    all: assert (Kv : known g v) by (unfold known; congruence).
    all: assert (D' : NoDup (st ++ [v])) by (apply NoDup_app_snoc || (rewrite <- (rev_involutive (st ++ [v])); apply NoDup_rev; rewrite rev_app_distr; simpl; constructor; [rewrite <- in_rev; exact Nv|apply NoDup_rev; exact D])).
    all: assert (B' : forall x, In x (st ++ [v]) -> x < length g /\ known g x) by (intros x Hx; apply in_app_or in Hx as [Hx|[<-|[]]]; [apply B; exact Hx|split; assumption]).
    all: assert (Lb : length (st ++ [v]) <= length g) by (apply stack_bound; [exact D'|intros x Hx; apply B'; exact Hx]).
    all: rewrite app_length in Lb; simpl in Lb.
    all: match goal with |- exists b st', any_ _ ?cs _ = _ /\ _ =>
           assert (Ce : forall y, edge g v y <-> In y cs) by (intros y; unfold edge; rewrite En; reflexivity);
           destruct (AnyOK cs (st ++ [v]) D' B') as (b & s1 & E & I1 & D1 & B1 & K1);
             [intros x Hx; eapply closed_edge; [exact C|exact L|]; apply Ce; exact Hx|rewrite app_length; simpl; lia|] end.
    all: exists b, s1; split; [exact E|]; split; [intros x Hx; apply I1; apply in_or_app; left; exact Hx|]; split; [exact D1|]; split; [exact B1|].
    all: destruct b.
    all: try (destruct K1 as (v' & u & Hv & R & U); exists v, u; split; [left; reflexivity|]; split; [|exact U]; eapply reaches_step; [apply Ce; exact Hv|exact R]).
    all: destruct K1 as [K1 K2]; split; [intros x [<-|[]]; split; [apply I1; apply in_or_app; right; left; reflexivity|exact Kv]|].
    all: intros x Hx Nx; destruct (Nat.eq_dec x v) as [->|Nxv]; [split; [exact Kv|intros y Hy; apply K1; apply Ce; exact Hy]|].
    all: apply K2; [exact Hx|]; intros H; apply in_app_or in H as [H|[H|[]]]; [contradiction|congruence].
Qed.

Lemma contains_ok g v fuel : closed g -> v < length g -> length g < fuel ->
  exists b, contains_unknowns fuel g v = Some b /\ (b = true <-> exists u, reaches g v u /\ node_at g u = NUnknown).
Proof.
  intros C L F. destruct (impl_good g C fuel v []) as (b & st & E & I1 & D1 & B1 & K); [constructor|contradiction|exact L|simpl; lia|].
  exists b. unfold contains_unknowns. rewrite E. split; [reflexivity|]. destruct b.
  - split; [|reflexivity]. intros _. destruct K as (v' & u & [<-|[]] & R & U). exists u. auto.
  - split; [discriminate|]. intros (u & R & U). exfalso. destruct K as [K1 K2].
    assert (G : forall a c, reaches g a c -> In a st -> In c st).
    { intros a c Rac. revert a Rac. refine (reaches_ind' g (fun a => In a st -> In c st) c _ _); [auto|].
      intros a b Ed _ IH Ha. apply IH. apply (proj2 (K2 a Ha (fun x => x)) b Ed). }
    destruct (K1 v) as [Iv _]; [left; reflexivity|]. pose proof (G _ _ R Iv) as Iu. apply (K2 u Iu (fun x => x)). exact U.
Qed.
