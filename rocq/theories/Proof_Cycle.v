(** Proofs about the dependency cycle breaker. *)
From Verif Require Import Base Model_Cycle Spec_Cycle.

Definition gedge (g : dep_heap) (a b : rid) : Prop := In b (deps_of g a).

Lemma path_trans E a b c : path E a b -> path E b c -> path E a c.
Proof. induction 1; eauto using path. Qed.

Lemma path_incl (E F : rid -> rid -> Prop) a b :
  (forall x y, E x y -> F x y) -> path E a b -> path F a b.
Proof. intros H; induction 1; eauto using path. Qed.

Lemma path_snoc E a b c : path E a b -> E b c -> path E a c.
Proof. intros; eapply path_trans; eauto using path. Qed.

Section Order.
Variable ord : rid -> list rid -> list rid.
Hypothesis ord_ok : forall r l, same_set (ord r l) l.

Definition unvisited (g : dep_heap) (vis : list rid) : nat :=
  length (filter (fun k => negb (nmem k vis)) (map fst g)).

Lemma filter_le {A} (p q : A -> bool) l :
  (forall x, In x l -> p x = true -> q x = true) ->
  length (filter p l) <= length (filter q l).
Proof.
  induction l as [|a l IH]; simpl; intros H; [lia|].
  assert (IH' := IH (fun x Hx => H x (or_intror Hx))).
  destruct (p a) eqn:P; [rewrite (H a (or_introl eq_refl) P); simpl; lia|].
  destruct (q a); simpl; lia.
Qed.

Lemma filter_len {A} (p : A -> bool) l : length (filter p l) <= length l.
Proof. induction l as [|a l IH]; simpl; [lia|]. destruct (p a); simpl; lia. Qed.

Lemma filter_lt {A} (p q : A -> bool) l a :
  (forall x, In x l -> p x = true -> q x = true) ->
  In a l -> p a = false -> q a = true ->
  length (filter p l) < length (filter q l).
Proof.
  induction l as [|b l IH]; simpl; intros H Hin Hp Hq; [easy|].
  assert (H' := fun x Hx => H x (or_intror Hx)).
  assert (Hle := filter_le p q l H').
  destruct Hin as [->|Hin].
  - rewrite Hp, Hq; simpl; lia.
  - specialize (IH H' Hin Hp Hq).
    destruct (p b) eqn:P; [rewrite (H b (or_introl eq_refl) P); simpl; lia|].
    destruct (q b); simpl; lia.
Qed.

Lemma unvisited_le g v w : incl v w -> unvisited g w <= unvisited g v.
Proof.
  intros H. apply filter_le. intros x _ Hx.
  apply negb_true_iff in Hx. apply negb_true_iff.
  apply nmem_notIn in Hx. apply nmem_notIn. auto.
Qed.

Lemma unvisited_lt g v r : In r (map fst g) -> ~ In r v ->
  unvisited g (r :: v) < unvisited g v.
Proof.
  intros Hk Hn. apply filter_lt with (a := r); auto.
  - intros x _ Hx. apply negb_true_iff in Hx. apply negb_true_iff.
    apply nmem_notIn in Hx. apply nmem_notIn. simpl in Hx; tauto.
  - apply negb_false_iff. apply nmem_In. now left.
  - apply negb_true_iff. now apply nmem_notIn.
Qed.

Lemma deps_of_nokey g r : ~ In r (map fst g) -> deps_of g r = [].
Proof.
  induction g as [|[r' ds] g IH]; simpl; auto.
  destruct (Nat.eqb_spec r r') as [->|n]; intros H; [exfalso; apply H; auto|]. apply IH; auto.
Qed.

(** What one call of the generator guarantees. *)
Definition dfs_post (g : dep_heap) (roots vis ys vis' : list rid) : Prop :=
  same_set vis' (vis ++ ys) /\
  (forall y, In y ys -> exists r, In r roots /\ path (gedge g) r y) /\
  (forall y z, In y ys -> gedge g y z -> In z vis') /\
  (forall r, In r roots -> In r vis').

Lemma dfs_ok fuel : forall g r vis,
  unvisited g vis < fuel ->
  exists ys vis', with_transitive_deps ord fuel g r vis = Some (ys, vis') /\
    dfs_post g [r] vis ys vis'.
Proof.
  induction fuel as [|fuel IH]; intros g r vis Hf; [lia|].
  simpl. destruct (nmem r vis) eqn:Hm.
  { apply nmem_In in Hm. exists [], vis. split; auto.
    split; [|split; [|split]]; simpl; try tauto.
    - intros x. rewrite app_nil_r. tauto.
    - intros r' [<-|[]]; auto. }
  apply nmem_notIn in Hm.
  set (loop := fix loop (xs visited : list rid) {struct xs} : option (list rid * list rid) :=
         match xs with
         | [] => Some ([], visited)
         | x :: xs' =>
             match with_transitive_deps ord fuel g x visited with
             | Some (ys, visited') =>
                 match loop xs' visited' with
                 | Some (zs, visited'') => Some (ys ++ zs, visited'')
                 | None => None
                 end
             | None => None
             end
         end).
  assert (HL : forall xs v, unvisited g v < fuel ->
     exists ys v', loop xs v = Some (ys, v') /\ dfs_post g xs v ys v').
  { induction xs as [|x xs IHx]; intros v Hv; simpl.
    - exists [], v. split; auto. split; [|split; [|split]]; simpl; try tauto.
      intros y; rewrite app_nil_r; tauto.
    - destruct (IH g x v Hv) as (ys & v1 & E1 & (S1 & R1 & C1 & T1)).
      assert (Hv1 : unvisited g v1 < fuel).
      { eapply Nat.le_lt_trans; [apply (unvisited_le g v v1)|auto].
        intros y Hy. apply S1. apply in_or_app; auto. }
      destruct (IHx v1 Hv1) as (zs & v2 & E2 & (S2 & R2 & C2 & T2)).
      rewrite E1, E2. exists (ys ++ zs), v2. split; auto.
      split; [|split; [|split]].
      + intros y. rewrite (S2 y), !in_app_iff, (S1 y), in_app_iff. tauto.
      + intros y Hy. apply in_app_iff in Hy. destruct Hy as [Hy|Hy].
        * destruct (R1 y Hy) as (r' & [<-|[]] & P). exists x; simpl; auto.
        * destruct (R2 y Hy) as (r' & Hr & P). exists r'; simpl; auto.
      + intros y z Hy Hz. apply in_app_iff in Hy. destruct Hy as [Hy|Hy].
        * apply S2, in_or_app. left. eauto.
        * eauto.
      + intros r' [<-|Hr]; auto. apply S2, in_or_app. left. apply T1; now left. }
  assert (HX : exists ys v', loop (ord r (deps_of g r)) (r :: vis) = Some (ys, v') /\
     dfs_post g (ord r (deps_of g r)) (r :: vis) ys v').
  { destruct (in_dec Nat.eq_dec r (map fst g)) as [Hk|Hk].
    - apply HL. pose proof (unvisited_lt g vis r Hk Hm). lia.
    - assert (Eo : ord r (deps_of g r) = []).
      { pose proof (ord_ok r (deps_of g r)) as Ho. rewrite (deps_of_nokey g r Hk) in *.
        destruct (ord r []) as [|x l]; auto. exfalso. apply (Ho x). now left. }
      rewrite Eo. exists [], (r :: vis). split; auto.
      split; [|split; [|split]]; simpl; try tauto.
      intros y; rewrite app_nil_r; tauto. }
  destruct HX as (ys & v' & E & (S1 & R1 & C1 & T1)).
  rewrite E. exists (r :: ys), v'. split; auto.
  split; [|split; [|split]].
  - intros y. rewrite (S1 y). simpl. rewrite !in_app_iff. simpl. tauto.
  - intros y [<-|Hy].
    + exists r. simpl. split; eauto using path.
    + destruct (R1 y Hy) as (x & Hx & P). apply ord_ok in Hx.
      exists r. split; [now left|]. eapply path_step; eauto.
  - intros y z [<-|Hy] Hz; [|eauto]. apply T1. now apply ord_ok.
  - intros r' [<-|[]]. apply S1. simpl. auto.
Qed.

Lemma reachable_ok g f t :
  exists b, reachable ord g f t = Some b /\ (b = true <-> path (gedge g) f t).
Proof.
  unfold reachable, heap_size.
  destruct (dfs_ok (S (length g)) g f []) as (ys & v & E & (S1 & R1 & C1 & T1)).
  { unfold unvisited. apply Nat.lt_succ_r.
    rewrite <- (map_length fst g). apply filter_len. }
  rewrite E. eexists; split; eauto.
  rewrite existsb_exists. split.
  - intros (x & Hx & Heq). apply Nat.eqb_eq in Heq. subst x.
    destruct (R1 t Hx) as (r & [<-|[]] & P). exact P.
  - intros P. exists t. split; [|apply Nat.eqb_refl].
    assert (K : forall a b, path (gedge g) a b -> In a ys -> In b ys).
    { induction 1 as [|a b c Hab _ IHp]; auto. intros Ha. apply IHp.
      pose proof (C1 a b Ha Hab) as Hb. apply S1 in Hb. exact Hb. }
    eapply K; eauto. pose proof (T1 f (or_introl eq_refl)) as Hf.
    apply S1 in Hf. exact Hf.
Qed.

Lemma gedge_add_dep g f t a b :
  gedge (add_dep g f t) a b <-> gedge g a b \/ (a = f /\ b = t).
Proof.
  unfold gedge. induction g as [|[r ds] g IH]; simpl.
  - destruct (Nat.eqb_spec a f); simpl; intuition congruence.
  - destruct (Nat.eqb_spec f r) as [->|n]; simpl.
    + destruct (Nat.eqb_spec a r) as [->|n'].
      * unfold set_add. destruct (nmem t ds) eqn:M.
        -- apply nmem_In in M. split; [auto|intros [H|[_ ->]]; auto].
        -- rewrite in_app_iff; simpl. intuition congruence.
      * intuition congruence.
    + destruct (Nat.eqb_spec a r) as [->|n']; [intuition congruence|]. exact IH.
Qed.

Lemma path_iff (E F : rid -> rid -> Prop) :
  (forall x y, E x y <-> F x y) -> forall a b, path E a b <-> path F a b.
Proof. intros H a b; split; apply path_incl; intros; now apply H. Qed.

Lemma path_add_edge (E : rid -> rid -> Prop) f t :
  ~ cyclic E -> ~ path E t f ->
  ~ cyclic (fun a b => E a b \/ (a = f /\ b = t)).
Proof.
  intros HE Hn (a & b & Hab & P).
  set (F := fun a b => E a b \/ (a = f /\ b = t)) in *.
  (* any F-path either is an E-path or passes f->t: prefix E-path to f and E-path from t *)
  assert (K : forall x y, path F x y -> path E x y \/ (path E x f /\ path E t y)).
  { induction 1 as [|x y z Hxy _ IH]; [left; constructor|].
    destruct Hxy as [Hxy|[-> ->]].
    - destruct IH as [IH|[IH1 IH2]]; [left|right; split; auto]; eapply path_step; eauto.
    - right. destruct IH as [IH|[IH1 IH2]].
      + split; [constructor|auto].
      + split; [constructor|auto]. }
  destruct Hab as [Hab|[-> ->]].
  - destruct (K _ _ P) as [Q|[Q1 Q2]].
    + apply HE. exists a, b; auto.
    + apply Hn. eapply path_trans; [exact Q2|]. eapply path_step; eauto.
  - destruct (K _ _ P) as [Q|[Q1 Q2]]; auto.
Qed.

Lemma declare_all_ok calls : forall g acc,
  (forall a b, gedge g a b <-> edges acc a b) ->
  ~ cyclic (edges acc) ->
  exists answers g', declare_all ord g calls = Some (answers, g') /\ answers_ok acc calls answers /\ (forall a b, gedge g' a b <-> edges (rev (accepted calls answers) ++ acc) a b) /\ ~ cyclic (edges (rev (accepted calls answers) ++ acc)).
Proof.
  induction calls as [|[f t] calls IH]; intros g acc Hg Hc; simpl.
  - exists [], g. simpl. repeat split; auto using answers_ok; apply Hg.
  - unfold declare_dependency.
    destruct (reachable_ok g t f) as (b & -> & Hb).
    rewrite (path_iff _ _ Hg) in Hb.
    destruct b.
    + destruct (IH g acc Hg Hc) as (ans & g' & -> & A & B & C).
      exists (false :: ans), g'. simpl. repeat split; auto; try apply B.
      constructor; auto. now apply Hb.
    + assert (Hn : ~ path (edges acc) t f) by (intros P; apply Hb in P; discriminate).
      assert (Hg' : forall a b, gedge (add_dep g f t) a b <-> edges ((f, t) :: acc) a b).
      { intros a b. rewrite gedge_add_dep, Hg. unfold edges; simpl.
        split; [intros [H|[-> ->]]; auto|intros [[= -> ->]|H]; auto]. }
      assert (Hc' : ~ cyclic (edges ((f, t) :: acc))).
      { intros (a & b & Hab & P). apply (path_add_edge (edges acc) f t Hc Hn).
        assert (Q : forall x y, edges ((f, t) :: acc) x y -> edges acc x y \/ x = f /\ y = t).
        { unfold edges; simpl; intros x y [[= -> ->]|H]; auto. }
        exists a, b. split; auto. eapply path_incl; [|exact P]. auto. }
      destruct (IH _ _ Hg' Hc') as (ans & g' & -> & A & B & C).
      exists (true :: ans), g'. simpl. rewrite <- app_assoc. simpl.
      repeat split; auto; try apply B. constructor; auto.
Qed.

Lemma edges_rev l a b : edges (rev l ++ []) a b <-> edges l a b.
Proof. unfold edges. now rewrite app_nil_r, <- in_rev. Qed.

Lemma declare_history_ok calls :
  exists answers g', declare_all ord [] calls = Some (answers, g') /\ answers_ok [] calls answers /\ (forall a b, In b (deps_of g' a) <-> In (a, b) (accepted calls answers)) /\ ~ cyclic (edges (accepted calls answers)).
Proof.
  destruct (declare_all_ok calls [] []) as (ans & g' & E & A & B & C).
  - unfold gedge, edges; simpl; tauto.
  - intros (a & b & [] & _).
  - exists ans, g'. repeat split; auto.
    + intros H. apply edges_rev, B. exact H.
    + intros H. apply B, edges_rev. exact H.
    + intros (a & b & Hab & P). apply C. exists a, b. split; [now apply edges_rev|].
      eapply path_incl; [|exact P]. intros; now apply edges_rev.
Qed.

End Order.
