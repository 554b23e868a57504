(** Proofs about deletions. *)
From Verif Require Import Base Model_Deletes Spec_Deletes.
From Coq Require Import Permutation Lia Arith.
Open Scope string_scope.
Open Scope list_scope.
Ltac inv H := inversion H; subst; clear H.

Lemma is_in_spec u l : is_in u l = true <-> In u l.
Proof.
  unfold is_in. rewrite existsb_exists. split.
  - intros (x & I & E). apply String.eqb_eq in E. now subst.
  - intro I. exists u. now rewrite String.eqb_refl.
Qed.
Lemma has_place_spec i l : has_place i l = true <-> In i l.
Proof.
  unfold has_place. rewrite existsb_exists. split.
  - intros (x & I & E). apply Nat.eqb_eq in E. now subst.
  - intro I. exists i. now rewrite Nat.eqb_refl.
Qed.
Lemma urn_at_some s i r : nth_error s i = Some r -> urn_at s i = s_urn r.
Proof. unfold urn_at. now intros ->. Qed.
Lemma flag_at_some f s i r : nth_error s i = Some r -> flag_at f s i = f r.
Proof. unfold flag_at. now intros ->. Qed.
Lemma nth_some {A} (l : list A) i : i < length l -> exists r, nth_error l i = Some r.
Proof. intro L. destruct (nth_error l i) eqn:E; eauto. apply nth_error_None in E. lia. Qed.
Lemma same_urn s i j a b : NoDup (map s_urn s) -> nth_error s i = Some a -> nth_error s j = Some b -> s_urn a = s_urn b -> i = j.
Proof.
  intros N A B E. apply (proj1 (NoDup_nth_error (map s_urn s)) N).
  - rewrite map_length. apply nth_error_Some. congruence.
  - rewrite !nth_error_map, A, B. cbn. now rewrite E.
Qed.

(* ------------------------------------------------------------------ *)
(** The dependency graph. *)
Lemma dependencies_lt s i j : In j (dependencies_of s i) -> j < i.
Proof.
  unfold dependencies_of. destruct (nth_error s i); [|intros []]. intros [I _]%filter_In. apply in_seq in I. lia.
Qed.
Lemma uses_spec r u : uses r u = true <-> In u (s_deps r) \/ (s_provider r = u /\ s_provider r <> "").
Proof.
  unfold uses. rewrite orb_true_iff, andb_true_iff, negb_true_iff, is_in_spec, String.eqb_neq, String.eqb_eq. tauto.
Qed.
Lemma relies_dependencies s i j : relies s i j -> In j (dependencies_of s i).
Proof.
  intros R. assert (L : j < i /\ exists a b, nth_error s i = Some a /\ nth_error s j = Some b /\ (uses a (s_urn b) = true \/ s_urn b = s_parent a)).
  { destruct R as [(L & a & b & A & B & U)|(L & a & b & A & B & P & _)]; split; trivial; exists a, b; repeat split; trivial.
    - left. now apply uses_spec.
    - now right. }
  destruct L as (L & a & b & A & B & U). unfold dependencies_of. rewrite A. apply filter_In. split; [apply in_seq; lia|].
  rewrite (urn_at_some _ _ _ B). destruct U as [U|U]; [now rewrite U|]. rewrite U, String.eqb_refl. now rewrite orb_true_r.
Qed.
Lemma place_found u l : forall i found m b, NoDup (map s_urn l) -> nth_error l m = Some b -> s_urn b = u -> place_of u l i found = i + m.
Proof.
  induction l as [|r l IH]; intros i found [|m] b N E U; cbn [nth_error] in E; try discriminate.
  - injection E as ->. cbn [place_of]. rewrite (proj2 (String.eqb_eq _ _) U). inv N.
    assert (G : forall i f, place_of (s_urn b) l i f = f).
    { clear IH. induction l as [|x l IH]; intros; trivial. cbn [place_of map] in *.
      destruct (String.eqb (s_urn x) (s_urn b)) eqn:E; [apply String.eqb_eq in E; exfalso; apply H1; left; trivial|].
      inv H2. apply IH; trivial. intro; apply H1; now right. }
    rewrite G. lia.
  - inv N. cbn [place_of]. rewrite (IH (S i) _ m b); trivial. lia.
Qed.
Lemma nodup_firstn {A} n : forall l : list A, NoDup l -> NoDup (firstn n l).
Proof.
  induction n; intros [|x l] N; cbn; try constructor; inv N.
  - intro I. apply H1. rewrite <- (firstn_skipn n l). apply in_or_app. now left.
  - now apply IHn.
Qed.
Lemma nth_firstn {A} n : forall (l : list A) i, i < n -> nth_error (firstn n l) i = nth_error l i.
Proof. induction n; intros [|x l] [|i] L; cbn; trivial; try lia. apply IHn. lia. Qed.
Lemma above_below s i f m k c : NoDup (map s_urn s) -> (forall x r, nth_error s x = Some r -> s_urn r <> "") -> i < length s ->
  clos_trans_1n _ (child_at s) m k -> nth_error s k = Some c -> m <= i -> m <= f ->
  forall r, nth_error s m = Some r -> In (s_urn c) (above f s i (s_parent r)).
Proof.
  intros N Ne Li C. revert f. induction C as [m k C|m m' k C C' IH]; intros f K Lm Lf r Em.
  - destruct C as (L & a & b & A & B & P & Pn). rewrite A in Em. injection Em as <-. rewrite B in K. injection K as <-.
    destruct f as [|f]; [lia|]. cbn [above]. rewrite (proj2 (String.eqb_neq _ _) Pn). left. exact P.
  - destruct C as (L & a & b & A & B & P & Pn). rewrite A in Em. injection Em as <-.
    destruct f as [|f]; [lia|]. cbn [above]. rewrite (proj2 (String.eqb_neq _ _) Pn). right.
    rewrite (place_found _ _ 0 0 m' b).
    + cbn [Nat.add]. rewrite B. apply IH; trivial; lia.
    + rewrite <- firstn_map. now apply nodup_firstn.
    + rewrite nth_firstn by lia. exact B.
    + now rewrite P.
Qed.
Lemma inside_dependencies s i j : consistent s -> uses_inside s i j -> In j (dependencies_of s i).
Proof.
  intros (N & C) (L & k & c & (Lk & a & b & A & B & U) & K & Cu & T).
  unfold dependencies_of. rewrite A. apply filter_In. split; [apply in_seq; lia|].
  apply orb_true_iff. right. apply existsb_exists. exists k. split; [apply in_seq; lia|].
  rewrite B in K. injection K as ->. rewrite (urn_at_some _ _ _ B), (flag_at_some _ _ _ _ B), Cu, (proj2 (uses_spec _ _) U).
  cbn [negb andb]. unfold is_below. assert (Li : i < length s) by (apply nth_error_Some; congruence).
  destruct (nth_some s j) as [r R]; [lia|]. rewrite R. apply is_in_spec.
  apply (above_below s j (length s) j k c); trivial; try lia.
  - intros x q Q. now destruct (C x q Q).
  - now apply clos_trans_t1n.
Qed.

(* ------------------------------------------------------------------ *)
(** Rounds. *)
Lemma least (l : list nat) : l <> [] -> exists m, In m l /\ forall x, In x l -> m <= x.
Proof.
  induction l as [|a l IH]; [congruence|]. intros _. destruct l as [|b l].
  - exists a. split; [now left|]. intros x [->|[]]. lia.
  - destruct IH as (m & I & M); [discriminate|]. destruct (le_lt_dec a m).
    + exists a. split; [now left|]. intros x [->|X]; [lia|]. specialize (M x X). lia.
    + exists m. split; [now right|]. intros x [->|X]; [lia|]. now apply M.
Qed.
Lemma filter_split {A} (f : A -> bool) l : Permutation (filter f l ++ filter (fun x => negb (f x)) l) l.
Proof.
  induction l as [|x l IH]; cbn; trivial. destruct (f x); cbn.
  - now constructor.
  - rewrite <- Permutation_middle. now constructor.
Qed.
Lemma cons_split {A} (x : A) l P r Q : x :: l = P ++ r :: Q -> (P = [] /\ x = r /\ l = Q) \/ exists P', P = x :: P' /\ l = P' ++ r :: Q.
Proof. destruct P as [|p P]; cbn; intros [= -> ->]; [now left|]. right. eauto. Qed.

Lemma antichains_spec s : forall fuel c, length c <= fuel ->
  exists rounds, antichains fuel s c = Some rounds /\ Permutation (concat rounds) c /\
    forall P r Q i j, rounds = P ++ r :: Q -> In i r -> In j c -> In j (dependencies_of s i) -> In j (concat P).
Proof.
  induction fuel as [|f IH]; intros c L.
  - destruct c; [|cbn in L; lia]. exists []. split; [reflexivity|]. split; [constructor|]. now intros [|] ? ?.
  - destruct c as [|a c']; [exists []; split; [reflexivity|]; split; [constructor|]; now intros [|] ? ?|].
    set (c := a :: c') in *. set (free := fun i => forallb (fun j => negb (has_place j c)) (dependencies_of s i)).
    assert (Em : exists m, In m c /\ free m = true).
    { destruct (least c) as (m & I & M); [discriminate|]. exists m. split; trivial. apply forallb_forall. intros j J.
      apply dependencies_lt in J. destruct (has_place j c) eqn:E; trivial. apply has_place_spec in E. specialize (M j E). lia. }
    destruct Em as (m & Im & Fm). pose proof (filter_split free c) as Sp.
    assert (Ll : length (filter (fun i => negb (free i)) c) <= f).
    { apply Permutation_length in Sp. rewrite app_length in Sp. assert (0 < length (filter free c)); [|lia].
      assert (In m (filter free c)) by (apply filter_In; auto). destruct (filter free c); [destruct H|cbn; lia]. }
    destruct (IH _ Ll) as (rounds & E & Pm & O). exists (filter free c :: rounds). split; [|split].
    + unfold c. cbn [antichains]. fold c. change (match antichains f s (filter (fun i => negb (free i)) c) with Some l => Some (filter free c :: l) | None => None end = Some (filter free c :: rounds)). now rewrite E.
    + cbn [concat]. rewrite Pm. exact Sp.
    + intros P r Q i j Eq I J D. apply cons_split in Eq as [(-> & <- & <-)|(P' & -> & ->)].
      * apply filter_In in I as [_ F]. unfold free in F. rewrite forallb_forall in F. specialize (F j D).
        rewrite (proj2 (has_place_spec j c) J) in F. discriminate.
      * cbn [concat]. destruct (free j) eqn:Ej; apply in_or_app; [left; apply filter_In; auto|right].
        apply (O P' r Q i j eq_refl I); trivial. apply filter_In. now rewrite Ej.
Qed.

Definition ordered (s : list state) (c : list nat) (rounds : list (list nat)) : Prop :=
  Permutation (concat rounds) c /\
  forall P r Q i j, rounds = P ++ r :: Q -> In j r -> In i c -> In j (dependencies_of s i) -> In i (concat P).

Fixpoint falling (l : list nat) : Prop := match l with [] => True | x :: l' => (forall y, In y l' -> y < x) /\ falling l' end.
Lemma falling_nodup l : falling l -> NoDup l.
Proof. induction l as [|x l IH]; cbn; constructor; [|now apply IH]. intro I. destruct H as [H _]. specialize (H x I). lia. Qed.
Lemma falling_app P j Q : falling (P ++ j :: Q) -> forall i, In i Q -> i < j.
Proof. induction P as [|p P IH]; cbn; intros [A B]; auto. Qed.
Lemma falling_filter f l : falling l -> falling (filter f l).
Proof.
  induction l as [|x l IH]; cbn; trivial. intros [A B]. destruct (f x); cbn; [split; [intros y Y; apply A; now apply filter_In in Y|]|]; auto.
Qed.
Lemma falling_rev_seq n : forall k, falling (rev (seq k n)).
Proof.
  induction n; intro k; [exact I|]. rewrite seq_S, rev_app_distr. cbn [rev app]. split; [|apply IHn].
  intros y Y. apply in_rev in Y. apply in_seq in Y. lia.
Qed.
Lemma concat_single (l : list nat) : concat (map (fun i => [i]) l) = l.
Proof. induction l; cbn; congruence. Qed.
Lemma single_split l : forall P r Q, map (fun i : nat => [i]) l = P ++ r :: Q -> exists P' j Q', l = P' ++ j :: Q' /\ P = map (fun i => [i]) P' /\ r = [j].
Proof.
  induction l as [|x l IH]; intros [|p P] r Q E; cbn in E; try discriminate; injection E as <- E.
  - exists [], x, l. auto.
  - destruct (IH _ _ _ E) as (P' & j & Q' & -> & -> & ->). exists (x :: P'), j, Q'. auto.
Qed.
Lemma in_concat_split {A} (x : A) l : In x (concat l) -> exists P r Q, l = P ++ r :: Q /\ In x r.
Proof.
  intro I. apply in_concat in I as (r & R & X). apply in_split in R as (P & Q & ->). eauto 6.
Qed.
Lemma nodup_parts {A} (a b : list A) x : NoDup (a ++ b) -> In x a -> In x b -> False.
Proof.
  induction a as [|y a IH]; cbn; intros N I J; [destruct I|]. inv N. destruct I as [->|I]; [apply H1; apply in_or_app; now right|auto].
Qed.
Lemma schedule_ordered s trust c : falling c -> exists rounds, schedule_deletes trust s c = Some rounds /\ ordered s c rounds.
Proof.
  intro F. destruct trust; cbn [schedule_deletes].
  - destruct (antichains_spec s (length c) c (le_n _)) as (l & E & Pm & O). rewrite E. exists (rev l). split; [reflexivity|].
    assert (N : NoDup (concat l)) by (eapply Permutation_NoDup; [symmetry; exact Pm|now apply falling_nodup]).
    assert (Pr : Permutation (concat (rev l)) (concat l)).
    { clear. induction l as [|x l IH]; cbn [rev concat]; trivial. rewrite concat_app. cbn [concat]. rewrite app_nil_r, IH. apply Permutation_app_comm. }
    split; [now rewrite Pr|]. intros P r Q i j Eq J I D.
    assert (El : l = rev Q ++ r :: rev P).
    { rewrite <- (rev_involutive l), Eq, rev_app_distr. cbn [rev]. now rewrite <- app_assoc. }
    assert (Ic : In j c) by (eapply Permutation_in; [exact Pm|]; rewrite El; apply in_concat; exists r; split; trivial; apply in_elt).
    assert (Ii : In i (concat l)) by (eapply Permutation_in; [symmetry; exact Pm|trivial]).
    rewrite El, concat_app in N, Ii. cbn [concat] in N, Ii.
    assert (Nj : ~ In j (concat (rev Q))) by (intro; eapply nodup_parts; [exact N|eassumption|apply in_or_app; now left]).
    apply in_app_or in Ii as [Ii|Ii]; [|apply in_app_or in Ii as [Ii|Ii]].
    + apply in_concat_split in Ii as (P1 & r1 & Q1 & E1 & I1). exfalso. apply Nj. rewrite E1, concat_app. apply in_or_app. left.
      apply (O P1 r1 (Q1 ++ r :: rev P) i j); trivial. rewrite El, E1. now rewrite <- app_assoc.
    + exfalso. apply Nj. now apply (O (rev Q) r (rev P) i j).
    + apply in_concat in Ii as (x & X & Y). apply in_concat. exists x. split; trivial. now apply in_rev.
  - exists (map (fun i => [i]) c). split; [reflexivity|]. split; [now rewrite concat_single|]. intros P r Q i j Eq J I D.
    apply single_split in Eq as (P' & x & Q' & -> & -> & ->). destruct J as [->|[]]. rewrite concat_single.
    apply in_app_or in I as [I|[<-|I]]; trivial; apply dependencies_lt in D; [lia|]. pose proof (falling_app _ _ _ F i I). lia.
Qed.
