(** What is left of the inputs after the changes to be ignored have been taken back. *)
From Verif Require Import Base Model_Paths Spec_Paths Proof_Paths Proof_PathsParse.
Open Scope string_scope.
Open Scope list_scope.

Local Arguments alter : simpl never.

Definition obj_at (t : tree) (q : path) : Prop := exists l, get t q = Some (Obj l).

Record inv (new old : tree) (g : ignoring) (done : list path) : Prop := {
  i_objs : exists a b, i_copy g = Obj a /\ i_goal g = Obj b;
  i_parted : forall n, In n (i_apart g) -> child (i_copy g) (Name n) = child old (Name n);
  i_same : forall n, ~ In n (i_apart g) -> child (i_copy g) (Name n) = child (i_goal g) (Name n);
  i_done : forall p q, In p done -> get (i_copy g) (p ++ q) = get old (p ++ q);
  i_rest : forall q, (forall p, In p done -> ~ prefix p q /\ ~ prefix q p) -> get (i_copy g) q = get new q;
  i_kept : forall q, obj_at new q -> obj_at old q -> obj_at (i_copy g) q
}.

(** Below the top, the copy is as the recorded inputs or as the program's. *)
Lemma inv_either new old g done n p : inv new old g done ->
  get (i_copy g) (Name n :: p) = if smem n (i_apart g) then get old (Name n :: p) else get (i_goal g) (Name n :: p).
Proof.
  intro I. cbn [get]. destruct (smem n (i_apart g)) eqn:M.
  - apply smem_In in M. now rewrite (i_parted _ _ _ _ I _ M).
  - apply smem_notIn in M. now rewrite (i_same _ _ _ _ I _ M).
Qed.

(** One change, for a path the recorded inputs have [r] at. *)
Lemma step_inv new old g done last q n r g' : does last (Name n) r -> inv new old g done -> get old (q ++ [Name n]) = r ->
  on_both (fun t => alter last t (q ++ [Name n])) (q ++ [Name n]) g = Some g' -> inv new old g' ((q ++ [Name n]) :: done).
Proof.
  intros D I O E. set (p := q ++ [Name n]) in *. unfold on_both in E. destruct (alter last (i_copy g) p) as [c|] eqn:A; [|discriminate].
  destruct (i_objs _ _ _ _ I) as (a & b & Ea & Eb).
  assert (Cg : i_copy g' = c).
  { destruct p as [|[m|] [|? ?]]; try (injection E as <-; reflexivity). destruct (smem m (i_apart g)); injection E as <-; reflexivity. }
  assert (Same : get c p = r) by (apply (alter_same last (Name n) r D q (i_copy g)); exact A).
  assert (Below : forall s, get c (p ++ s) = get old (p ++ s)).
  { intro s. rewrite !get_app, Same, O. reflexivity. }
  assert (Other : forall s, ~ prefix p s -> ~ prefix s p -> get c s = get (i_copy g) s) by (intros s N M; apply (alter_other last (Name n) r D q s); trivial).
  assert (Idem : get (i_copy g) p = r -> c = i_copy g) by (intro G; apply (alter_id last (Name n) r D q); trivial).
  split.
  - rewrite Cg. rewrite Ea in A. destruct (alter_obj last (Name n) r D q _ _ A) as [a' ->]. exists a'.
    destruct q as [|[m|] q']; cbn in p; subst p.
    + injection E as <-. exists b. auto.
    + cbn in E. destruct (q' ++ [Name n]) as [|y l] eqn:Q; [now destruct q'|]. destruct (smem m (i_apart g)); injection E as <-; cbn; [eauto|].
      rewrite Eb. change (Name m :: y :: l) with (Name m :: (y :: l)). rewrite <- Q.
      destruct (alter last (Obj b) (Name m :: q' ++ [Name n])) as [t|] eqn:At; [|eauto].
      destruct (alter_obj last (Name n) r D (Name m :: q') b t At) as [b' ->]. eauto.
    + exfalso. rewrite alter_cons in A. discriminate.
  - intros m Im. rewrite Cg. destruct q as [|[m'|] q']; cbn in p; subst p.
    + injection E as <-. cbn in Im. cbn in Same, O. destruct (string_dec m n) as [->|N].
      * destruct (child c (Name n)), (child old (Name n)); congruence.
      * assert (G : get c [Name m] = get (i_copy g) [Name m]).
        { apply Other; intros [s S]; injection S; congruence. }
        destruct Im as [->|Im]; [easy|]. apply (i_parted _ _ _ _ I) in Im. rewrite <- Im. cbn in G.
        destruct (child c (Name m)), (child (i_copy g) (Name m)); congruence.
    + cbn in E. destruct (q' ++ [Name n]) as [|y l] eqn:Q; [now destruct q'|].
      assert (Im' : In m (i_apart g)) by (destruct (smem m' (i_apart g)); injection E as <-; exact Im). clear Im E.
      destruct (string_dec m m') as [->|N].
      * rewrite Idem; [now apply (i_parted _ _ _ _ I)|]. rewrite (inv_either _ _ _ _ _ _ I).
        apply smem_In in Im'. rewrite Im'. exact O.
      * rewrite <- (i_parted _ _ _ _ I _ Im').
        assert (G : get c [Name m] = get (i_copy g) [Name m]).
        { apply Other; intros [s S]; injection S; congruence. }
        cbn in G. destruct (child c (Name m)), (child (i_copy g) (Name m)); congruence.
    + exfalso. rewrite Ea, alter_cons in A. discriminate.
  - intros m Im. rewrite Cg. destruct q as [|[m'|] q']; cbn in p; subst p.
    + injection E as <-. cbn in Im. assert (G : get c [Name m] = get (i_copy g) [Name m]).
      { apply Other; intros [s S]; injection S; intros; subst; tauto. }
      cbn in G |- *. rewrite <- (i_same _ _ _ _ I m) by tauto. destruct (child c (Name m)), (child (i_copy g) (Name m)); congruence.
    + cbn in E. destruct (q' ++ [Name n]) as [|y l] eqn:Q; [now destruct q'|].
      destruct (smem m' (i_apart g)) eqn:Sm; injection E as <-; cbn in Im |- *.
      * assert (G : get c [Name m] = get (i_copy g) [Name m]).
        { apply Other; intros [s S]; injection S; intros; subst; apply smem_In in Sm; tauto. }
        cbn in G |- *. rewrite <- (i_same _ _ _ _ I m) by trivial. destruct (child c (Name m)), (child (i_copy g) (Name m)); congruence.
      * apply smem_notIn in Sm. pose proof (i_same _ _ _ _ I _ Sm) as S'. cbn [app] in A. rewrite <- Q in *.
        assert (Gm : exists t, alter last (i_goal g) (Name m' :: q' ++ [Name n]) = Some t /\ child t (Name m') = child c (Name m') /\ forall k, k <> Name m' -> child t k = child (i_goal g) k).
        { rewrite alter_cons in A |- *. rewrite S' in A. destruct (child (i_goal g) (Name m')) as [cc|] eqn:Cc; [|discriminate].
          destruct (alter last cc (q' ++ [Name n])) as [cc'|]; [|discriminate]. destruct (set_child_ok (i_goal g) (Name m') cc cc' Cc) as [t Et].
          exists t. split; trivial. apply child_set in Et as [E1 E2]. apply child_set in A as [A1 _]. split; [congruence|exact E2]. }
        destruct Gm as (t & -> & T1 & T2). destruct (string_dec m m') as [->|N]; [now rewrite T1|].
        rewrite T2 by congruence. rewrite <- (i_same _ _ _ _ I m) by trivial.
        assert (G : get c [Name m] = get (i_copy g) [Name m]).
        { apply Other; intros [s S]; injection S; congruence. }
        cbn in G. destruct (child c (Name m)), (child (i_copy g) (Name m)); congruence.
    + exfalso. rewrite Ea, alter_cons in A. discriminate.
  - intros p' s [<-|Ip]; rewrite Cg; [apply Below|]. destruct (prefix_cases p p') as [[u ->]|[[u U]|[N M]]].
    + rewrite <- app_assoc. apply Below.
    + rewrite Idem; [now apply (i_done _ _ _ _ I)|]. rewrite U, (i_done _ _ _ _ I); trivial. now rewrite <- U.
    + destruct (prefix_app_not _ _ s N M) as [N' M']. rewrite Other; trivial. now apply (i_done _ _ _ _ I).
  - intros s N. rewrite Cg. destruct (N p) as [N1 N2]; [now left|]. rewrite Other; trivial. apply (i_rest _ _ _ _ I). intros p' Ip. apply N. now right.
  - intros s On [l Oo]. rewrite Cg. destruct (prefix_cases p s) as [[u ->]|[[u U]|[N M]]].
    + exists l. now rewrite Below.
    + destruct u as [|y u]; [rewrite app_nil_r in U; subst s; exists l; rewrite <- (app_nil_r p); rewrite Below; now rewrite app_nil_r|].
      destruct (i_kept _ _ _ _ I s On (ex_intro _ l Oo)) as [l' G]. eapply (alter_above last (Name n) r D q s); eauto. discriminate.
    + destruct (i_kept _ _ _ _ I s On (ex_intro _ l Oo)) as [l' G]. exists l'. now rewrite Other.
Qed.

Lemma parent_get t q n : parent_in t (q ++ [Name n]) <-> obj_at t q.
Proof. unfold parent_in, obj_at. rewrite removelast_last. split; intros [l E]; exists l; now apply at_path_get. Qed.

Lemma get_parent t q n v : get t (q ++ [Name n]) = Some v -> obj_at t q.
Proof.
  rewrite get_app. destruct (get t q) as [c|] eqn:G; [|discriminate]. cbn. destruct c; cbn; try discriminate. intros _. eexists. exact G.
Qed.
Lemma set_alter t p v : set t p v = alter (fun t k => set_child t k v) t p.
Proof. reflexivity. Qed.
Lemma alter_obj_ok last q n t : (forall l, exists t', last (Obj l) (Name n) = Some t') -> obj_at t q -> exists t', alter last t (q ++ [Name n]) = Some t'.
Proof. intros L [l G]. eapply alter_ok; eauto. Qed.
Lemma on_both_ok change p g c : change (i_copy g) = Some c -> exists g', on_both change p g = Some g'.
Proof.
  unfold on_both. intros ->. destruct p as [|[n|] [|? ?]]; eauto. destruct (smem n (i_apart g)); eauto.
Qed.

Lemma one_inv new old g done s q n : inv new old g done -> written s (q ++ [Name n]) ->
  match ignore_one old g s with
  | Fine g' => inv new old g' ((q ++ [Name n]) :: done)
  | Missing => ~ (obj_at new q /\ obj_at old q)
  | Assertion => False
  end.
Proof.
  intros I W. unfold ignore_one. rewrite (written_read _ _ W). set (p := q ++ [Name n]).
  assert (Ob : forall last, (forall l, exists t', last (Obj l) (Name n) = Some t') -> on_both (fun t => alter last t p) p g = None -> ~ obj_at (i_copy g) q).
  { intros last L N K. destruct (alter_obj_ok last q n _ L K) as [t' T]. destruct (on_both_ok (fun t => alter last t p) p g t' T) as [g' G]. congruence. }
  assert (Ls : forall v l, exists t', set_child (Obj l) (Name n) v = Some t') by (intros; cbn; eauto).
  assert (Ld : forall l, exists t', delete_child (Obj l) (Name n) = Some t') by (intros; cbn; eauto).
  destruct (get old p) as [v|] eqn:Go, (get (i_goal g) p) as [w|] eqn:Gg.
  - destruct (on_both (fun t => set t p v) p g) as [g'|] eqn:B; [eapply step_inv; [apply set_does|exact I|exact Go|exact B]|].
    refine (Ob _ (Ls v) B _). destruct q as [|[m|] q']; cbn in p; subst p.
    + destruct (i_objs _ _ _ _ I) as (a & _ & E & _). exists a. cbn. now rewrite E.
    + assert (G : exists v', get (i_copy g) (Name m :: q' ++ [Name n]) = Some v').
      { rewrite (inv_either _ _ _ _ _ _ I). destruct (smem m (i_apart g)); eauto. }
      destruct G as [v' G]. exact (get_parent _ (Name m :: q') n v' G).
    + exfalso. destruct (i_objs _ _ _ _ I) as (_ & b & _ & E). rewrite E in Gg. discriminate.
  - destruct (on_both (fun t => set t p v) p g) as [g'|] eqn:B; [eapply step_inv; [apply set_does|exact I|exact Go|exact B]|].
    intros [K1 K2]. exact (Ob _ (Ls v) B (i_kept _ _ _ _ I _ K1 K2)).
  - destruct (on_both (fun t => delete t p) p g) as [g'|] eqn:B; [eapply step_inv; [apply delete_does|exact I|exact Go|exact B]|].
    intros [K1 K2]. exact (Ob _ Ld B (i_kept _ _ _ _ I _ K1 K2)).
  - assert (Gc : get (i_copy g) p = None).
    { destruct q as [|[m|] q']; cbn in p; subst p.
      - rewrite (inv_either _ _ _ _ _ [] I). destruct (smem n (i_apart g)); trivial.
      - rewrite (inv_either _ _ _ _ _ _ I). destruct (smem m (i_apart g)); trivial.
      - destruct (i_objs _ _ _ _ I) as (a & _ & E & _). now rewrite E. }
    split; try apply I.
    + intros p' s' [<-|Ip]; [|now apply (i_done _ _ _ _ I)]. now rewrite !get_app, Gc, Go.
    + intros s' N. apply (i_rest _ _ _ _ I). intros p' Ip. apply N. now right.
Qed.

Lemma all_inv new old : forall names paths, Forall2 written names paths -> Forall ends_with_name paths -> forall g done bad, inv new old g done ->
  match ignore_all old g bad names with
  | Ignored t _ => bad = false /\ exists g', t = i_copy g' /\ inv new old g' (rev paths ++ done)
  | Invalid => bad = true \/ exists p, In p paths /\ ~ (parent_in new p /\ parent_in old p)
  | Crash => False
  end.
Proof.
  induction 1 as [|s p names paths W F IH]; intros E g done bad I.
  - cbn. destruct bad; [now left|]. split; trivial. exists g. auto.
  - inversion E as [|? ? (q & n & Ep) E']; subst. cbn [ignore_all]. pose proof (one_inv _ _ _ _ _ _ _ I W) as O.
    destruct (ignore_one old g s) as [g'| |]; [|specialize (IH E' g done true I)|easy].
    + specialize (IH E' g' _ bad O). destruct (ignore_all old g' bad names) as [t u| |]; trivial.
      * destruct IH as [B (h & -> & J)]. split; trivial. exists h. split; trivial. cbn [rev]. rewrite <- app_assoc. exact J.
      * destruct IH as [B|(p & Ip & N)]; [now left|right]. exists p. split; trivial. now right.
    + destruct (ignore_all old g true names) as [t u| |]; trivial; [now destruct IH|].
      right. exists (q ++ [Name n]). split; [now left|]. now rewrite !parent_get.
Qed.

Theorem ignored_spec new old names paths : Forall2 written names paths -> Forall ends_with_name paths ->
  match process_ignore_changes (Obj new) (Obj old) names with
  | Ignored t _ => as_recorded t (Obj old) paths /\ as_given t (Obj new) paths
  | Invalid => exists p, In p paths /\ ~ (parent_in (Obj new) p /\ parent_in (Obj old) p)
  | Crash => False
  end.
Proof.
  intros F E. unfold process_ignore_changes. assert (I : inv (Obj new) (Obj old) (mkIgnoring (Obj new) (Obj new) []) []).
  { split; cbn; eauto; easy. }
  pose proof (all_inv _ _ _ _ F E _ _ false I) as A. destruct (ignore_all _ _ _ _) as [t u| |]; trivial.
  - destruct A as [_ (g & -> & J)]. rewrite app_nil_r in J. split.
    + intros p q v Ip. rewrite !at_path_get, (i_done _ _ _ _ J); [tauto|now apply in_rev in Ip].
    + intros q v N. rewrite !at_path_get, (i_rest _ _ _ _ J); [tauto|]. intros p Ip. apply N. now apply in_rev.
  - now destruct A as [A|A].
Qed.
