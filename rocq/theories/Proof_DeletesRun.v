(** Proofs about performing deletions in rounds. *)
From Verif Require Import Base Model_Deletes Spec_Deletes Proof_Deletes.
From Coq Require Import Permutation Lia.
Open Scope list_scope.

Section Run.
Variable ap : nat -> applied.
Variable rounds0 : list (list nat).

Definition ready (facts : list fact) (i : nat) : Prop :=
  exists P r Q, [] :: rounds0 = P ++ r :: Q /\ In i r /\ forall k, In k (concat P) -> In (Gone k) facts.
Definition timely (facts : list fact) : Prop :=
  forall before f after j, facts = before ++ f :: after -> about j f -> ready before j.

Record sound_run (x : exec) (P : list (list nat)) (cur : list nat) : Prop := mkSound {
  sr_rounds : [] :: rounds0 = P ++ cur :: x_rounds x;
  sr_past : x_cancelled x = false -> forall i, In i (concat P) -> In (Gone i) (x_facts x);
  sr_cur : x_cancelled x = false -> forall i, In i cur -> In i (x_queue x) \/ (exists p, In (i, p) (x_open x)) \/ In (Gone i) (x_facts x);
  sr_queue : forall i, In i (x_queue x) -> In i cur;
  sr_taken : x_cancelled x = false -> forall i, In (i, Taken) (x_open x) -> In i cur;
  sr_open : forall i p, In (i, p) (x_open x) -> p <> Taken -> ready (x_facts x) i;
  sr_facts : timely (x_facts x) }.

Lemma ready_more facts more i : ready facts i -> ready (facts ++ more) i.
Proof. intros (P & r & Q & E & I & A). exists P, r, Q. repeat split; trivial. intros k K. apply in_or_app. left. auto. Qed.
Lemma snoc_split {A} (l : list A) x P y Q : l ++ [x] = P ++ y :: Q -> (exists Q', Q = Q' ++ [x] /\ l = P ++ y :: Q') \/ (Q = [] /\ x = y /\ l = P).
Proof.
  destruct Q as [|q Q] using rev_ind.
  - intro E. apply app_inj_tail in E as [-> ->]. now right.
  - intro E. replace (P ++ y :: Q ++ [q]) with ((P ++ y :: Q) ++ [q]) in E by now rewrite <- app_assoc.
    apply app_inj_tail in E as [-> ->]. left. eauto.
Qed.
Lemma timely_snoc facts f j : timely facts -> about j f -> ready facts j -> timely (facts ++ [f]).
Proof.
  intros T A R before g after k E Ak. apply snoc_split in E as [(Q & -> & ->)|(-> & <- & ->)].
  - eapply T; eauto.
  - destruct A as [->| ->], Ak as [[= <-]|[= <-]]; trivial || discriminate.
Qed.
Lemma in_close i c l : In c (close_chain i l) <-> In c l /\ fst c <> i.
Proof. unfold close_chain. rewrite filter_In, negb_true_iff, Nat.eqb_neq. intuition congruence. Qed.
Lemma in_move i p c l : In c (move_chain i p l) <-> c = (i, p) \/ (In c l /\ fst c <> i).
Proof. unfold move_chain. cbn [In]. rewrite in_close. intuition congruence. Qed.
Lemma in_drop i j l : In j (drop_place i l) <-> In j l /\ j <> i.
Proof. unfold drop_place. rewrite filter_In, negb_true_iff, Nat.eqb_neq. intuition congruence. Qed.
Lemma is_open_in i p l : is_open i p l = true -> In (i, p) l.
Proof.
  unfold is_open. rewrite existsb_exists. intros ([j q] & I & E). apply andb_true_iff in E as [E1 E2].
  cbn in E1, E2. apply Nat.eqb_eq in E1 as <-. destruct p, q; trivial || discriminate.
Qed.

Lemma perform_sound x P cur e : sound_run x P cur -> exists P' cur', sound_run (perform ap x e) P' cur'.
Proof.
  intros S. pose proof S as [R Pa C Q T O F]. destruct e as [i|i|i|i b|i b sv| |]; cbn [perform].
  - destruct (has_place i (x_queue x)) eqn:E; [|now exists P, cur]. apply has_place_spec in E.
    exists P, cur. constructor; cbn; trivial.
    + intros N k K. destruct (Nat.eq_dec k i) as [->|Nk]; [right; left; exists Taken; apply in_move; now left|].
      destruct (C N k K) as [A|[(p & A)|A]]; [left; now apply in_drop|right; left; exists p; apply in_move; right; cbn; auto|auto].
    + intros k K. apply in_drop in K. now apply Q.
    + intros N k K. apply in_move in K as [[= ->]|[K _]]; auto.
    + intros k p K Np. apply in_move in K as [[= -> ->]|[K _]]; [congruence|]. eauto.
  - destruct (x_cancelled x) eqn:Ec; [|now exists P, cur]. exists P, cur. constructor; cbn; try (intro; discriminate); trivial.
    intros k K. apply in_drop in K. now apply Q.
  - destruct (is_open i Taken (x_open x)) eqn:E; [|now exists P, cur]. apply is_open_in in E. exists P, cur.
    destruct (x_cancelled x) eqn:Ec; constructor; cbn; try (intro; discriminate); trivial.
    + intros k p K Np. apply in_close in K as [K _]. eauto.
    + intros N k K. destruct (Nat.eq_dec k i) as [->|Nk]; [right; left; exists Checked; apply in_move; now left|].
      destruct (C N k K) as [A|[(p & A)|A]]; auto. right; left; exists p; apply in_move; right; cbn; auto.
    + intros N k K. apply in_move in K as [[= ]|[K _]]; auto.
    + intros k p K Np. apply in_move in K as [[= -> ->]|[K _]]; [|eauto]. exists P, cur, (x_rounds x). repeat split; auto.
  - destruct (is_open i Checked (x_open x)) eqn:E; [|now exists P, cur]. apply is_open_in in E. exists P, cur.
    assert (Rd : ready (x_facts x) i) by (apply (O _ _ E); discriminate).
    destruct b; [destruct (ap i)|]; constructor; cbn; try (intro; discriminate); trivial.
    all: try (intros k p K Np; apply in_close in K as [K _]; now eauto).
    all: try (intros N k K; apply in_move in K as [[= ]|[K _]]; now auto).
    + intros N k K. destruct (Nat.eq_dec k i) as [->|Nk]; [right; left; exists Running; apply in_move; now left|].
      destruct (C N k K) as [A|[(p & A)|A]]; auto. right; left; exists p; apply in_move; right; cbn; auto.
    + intros k p K Np. apply in_move in K as [[= -> ->]|[K _]]; eauto.
    + intros N k K. apply in_or_app. left. auto.
    + intros N k K. destruct (Nat.eq_dec k i) as [->|Nk]; [right; left; exists Running; apply in_move; now left|].
      destruct (C N k K) as [A|[(p & A)|A]]; auto; [|right; right; apply in_or_app; now left]. right; left; exists p; apply in_move; right; cbn; auto.
    + intros k p K Np. apply ready_more. apply in_move in K as [[= -> ->]|[K _]]; eauto.
    + eapply timely_snoc; eauto. now left.
  - destruct (is_open i Running (x_open x)) eqn:E; [|now exists P, cur]. apply is_open_in in E. exists P, cur.
    assert (Rd : ready (x_facts x) i) by (apply (O _ _ E); discriminate).
    destruct b; cbn [andb]; constructor; cbn; trivial; try (rewrite orb_true_r; intro; discriminate).
    + intros N k K. apply orb_false_iff in N as [N _]. apply in_or_app. left. auto.
    + intros N k K. apply orb_false_iff in N as [N _]. destruct (Nat.eq_dec k i) as [->|Nk]; [right; right; apply in_or_app; right; now left|].
      destruct (C N k K) as [A|[(p & A)|A]]; auto; [|right; right; apply in_or_app; now left]. right; left; exists p; apply in_close; cbn; auto.
    + intros N k K. apply orb_false_iff in N as [N _]. apply in_close in K as [K _]. auto.
    + intros k p K Np. apply in_close in K as [K _]. apply ready_more. eauto.
    + eapply timely_snoc; eauto. now right.
    + intros k p K Np. apply in_close in K as [K _]. eauto.
  - exists P, cur. constructor; cbn; try (intro; discriminate); trivial.
  - destruct (x_rounds x) as [|r rounds] eqn:Er; [now exists P, cur|]. destruct (x_queue x) as [|q qs] eqn:Eq; [|now exists P, cur].
    destruct (x_cancelled x || match x_open x with [] => true | _ => false end) eqn:Eo; [|now exists P, cur].
    exists (P ++ [cur]), r. constructor; cbn; trivial.
    + now rewrite <- app_assoc.
    + intros N i I. rewrite N in Eo. cbn in Eo. destruct (x_open x) eqn:Ex; [|discriminate]. rewrite concat_app in I. apply in_app_or in I as [I|I]; [auto|].
      cbn in I. rewrite app_nil_r in I. destruct (C N i I) as [[]|[(p & [])|A]]; trivial.
    + auto.
    + intros N i I. rewrite N in Eo. cbn in Eo. destruct (x_open x); [destruct I|discriminate].
Qed.
Lemma perform_all_sound es : exists P cur, sound_run (perform_all ap rounds0 es) P cur.
Proof.
  unfold perform_all. assert (H : exists P cur, sound_run (mkExec rounds0 [] [] false []) P cur).
  { exists [], []. constructor; cbn; trivial; try (now intros; trivial).
    intros before f after j E. now destruct before. }
  revert H. generalize (mkExec rounds0 [] [] false []). induction es as [|e es IH]; intros x (P & cur & S); cbn [fold_left]; [eauto|].
  apply IH. eapply perform_sound; eauto.
Qed.
Lemma run_complete es : let x := perform_all ap rounds0 es in
  x_rounds x = [] -> x_queue x = [] -> x_open x = [] -> x_cancelled x = false -> forall i, In i (concat rounds0) -> In (Gone i) (x_facts x).
Proof.
  intros x R Q O C i I. destruct (perform_all_sound es) as (P & cur & S). fold x in S.
  change (In i (concat ([] :: rounds0))) in I. rewrite (sr_rounds _ _ _ S), R, concat_app in I. cbn in I. rewrite app_nil_r in I.
  apply in_app_or in I as [I|I]; [now apply (sr_past _ _ _ S)|]. destruct (sr_cur _ _ _ S C i I) as [A|[(p & A)|A]]; trivial.
  - rewrite Q in A. destruct A.
  - rewrite O in A. destruct A.
Qed.

(** Nothing is done twice. *)
Definition ahead (x : exec) : list nat := concat (x_rounds x) ++ x_queue x.
Record single (x : exec) : Prop := mkSingle {
  si_left : NoDup (ahead x ++ map fst (x_open x));
  si_ahead : forall i f, In i (ahead x) -> about i f -> ~ In f (x_facts x);
  si_asked : forall i p, In (i, p) (x_open x) -> p <> Running -> ~ In (Asked i) (x_facts x);
  si_gone : forall i p, In (i, p) (x_open x) -> ~ In (Gone i) (x_facts x);
  si_facts : NoDup (x_facts x);
  si_once : forall f, In f (x_facts x) -> exists i, about i f /\ In i (concat rounds0) }.
Lemma nodup_filter {A} f (l : list A) : NoDup l -> NoDup (filter f l).
Proof. apply NoDup_filter. Qed.
Lemma nodup_sub {A} (a b a' b' : list A) : NoDup (a ++ b) -> NoDup a' -> NoDup b' -> incl a' a -> incl b' b -> NoDup (a' ++ b').
Proof.
  intros N Na Nb Ia Ib. induction a' as [|x a' IH]; cbn; trivial. inv Na. constructor.
  - rewrite in_app_iff. intros [K|K]; [auto|]. eapply nodup_parts; [exact N|apply Ia; now left|now apply Ib].
  - apply IH; trivial. intros y Y. apply Ia. now right.
Qed.
Lemma nodup_l {A} (a b : list A) : NoDup (a ++ b) -> NoDup a.
Proof. induction a; cbn; intro N; constructor; inv N; [intro; apply H1; apply in_or_app; now left|auto]. Qed.
Lemma nodup_r {A} (a b : list A) : NoDup (a ++ b) -> NoDup b.
Proof. induction a; cbn; intro N; trivial. inv N; auto. Qed.
Lemma nodup_snoc {A} (l : list A) x : NoDup l -> ~ In x l -> NoDup (l ++ [x]).
Proof. intros N I. apply (Permutation_NoDup (l := x :: l)); [apply Permutation_cons_append|now constructor]. Qed.
Lemma map_close i l : map fst (close_chain i l) = drop_place i (map fst l).
Proof. unfold close_chain, drop_place. induction l as [|[j p] l IH]; trivial. cbn [map filter fst]. destruct (Nat.eqb i j); cbn [negb map fst]; congruence. Qed.
Lemma incl_drop i l : incl (drop_place i l) l.
Proof. intros x X. now apply in_drop in X. Qed.
Lemma in_fst (i : nat) (p : phase) l : In (i, p) l -> In i (map fst l).
Proof. intro. apply in_map_iff. now exists (i, p). Qed.

Lemma nodup_close i x : NoDup (ahead x ++ map fst (x_open x)) -> NoDup (ahead x ++ map fst (close_chain i (x_open x))).
Proof.
  intro N. rewrite map_close. eapply nodup_sub; [exact N|eapply nodup_l; exact N|apply nodup_filter; eapply nodup_r; exact N|apply incl_refl|apply incl_drop].
Qed.
Lemma nodup_move i p q x : In (i, q) (x_open x) -> NoDup (ahead x ++ map fst (x_open x)) -> NoDup (ahead x ++ map fst (move_chain i p (x_open x))).
Proof.
  intros I N. unfold move_chain. cbn [map fst]. rewrite map_close. apply in_fst in I.
  eapply nodup_sub; [exact N|eapply nodup_l; exact N| |apply incl_refl|].
  - constructor; [intro K; now apply in_drop in K|]. apply nodup_filter. eapply nodup_r. exact N.
  - intros k [<-|K]; trivial. now apply in_drop in K.
Qed.
Lemma perform_single x P cur e : sound_run x P cur -> single x -> single (perform ap x e).
Proof.
  intros Sr S. pose proof S as [L A As G N On]. destruct e as [i|i|i|i b|i b sv| |]; cbn [perform].
  - destruct (has_place i (x_queue x)) eqn:E; [|trivial]. apply has_place_spec in E.
    assert (Ia : In i (ahead x)) by (apply in_or_app; now right).
    constructor; cbn; trivial.
    + unfold ahead. cbn [x_rounds x_queue]. rewrite map_close. unfold ahead in L.
      assert (Pm : Permutation ((concat (x_rounds x) ++ drop_place i (x_queue x)) ++ i :: drop_place i (map fst (x_open x))) (i :: (concat (x_rounds x) ++ drop_place i (x_queue x)) ++ drop_place i (map fst (x_open x)))) by (symmetry; apply Permutation_middle).
      eapply Permutation_NoDup; [symmetry; exact Pm|]. constructor.
      * rewrite !in_app_iff. intros [[K|K]|K]; try (apply in_drop in K; tauto).
        apply nodup_l in L. eapply nodup_parts; eauto.
      * eapply nodup_sub; [exact L| | | |apply incl_drop].
        -- apply nodup_l in L. eapply nodup_sub; [exact L|eapply nodup_l; exact L|apply nodup_filter; eapply nodup_r; exact L|apply incl_refl|apply incl_drop].
        -- apply nodup_filter. eapply nodup_r. exact L.
        -- intros k K. apply in_app_or in K as [K|K]; apply in_or_app; [now left|right; now apply in_drop in K].
    + intros k f K. apply A. unfold ahead in *. cbn in K. apply in_app_or in K as [K|K]; apply in_or_app; [now left|right; now apply in_drop in K].
    + intros k p K Np. apply in_move in K as [[= -> ->]|[K _]]; [|eauto]. apply (A i); trivial. now left.
    + intros k p K. apply in_move in K as [[= -> ->]|[K _]]; [|eauto]. apply (A i); trivial. now right.
  - destruct (x_cancelled x) eqn:Ec; [|trivial]. constructor; cbn; trivial.
    + unfold ahead. cbn. unfold ahead in L. eapply nodup_sub; [exact L| |eapply nodup_r; exact L| |apply incl_refl].
      * apply nodup_l in L. eapply nodup_sub; [exact L|eapply nodup_l; exact L|apply nodup_filter; eapply nodup_r; exact L|apply incl_refl|apply incl_drop].
      * intros k K. apply in_app_or in K as [K|K]; apply in_or_app; [now left|right; now apply in_drop in K].
    + intros k f K. apply A. unfold ahead in *. cbn in K. apply in_app_or in K as [K|K]; apply in_or_app; [now left|right; now apply in_drop in K].
  - destruct (is_open i Taken (x_open x)) eqn:E; [|trivial]. apply is_open_in in E.
    assert (NA : ~ In (Asked i) (x_facts x)) by (apply (As _ _ E); discriminate).
    destruct (x_cancelled x); constructor; cbn; trivial.
    + now apply nodup_close.
    + intros k p K. apply in_close in K as [K _]. eauto.
    + intros k p K. apply in_close in K as [K _]. eauto.
    + eapply nodup_move; eauto.
    + intros k p K Np. apply in_move in K as [[= -> ->]|[K _]]; eauto.
    + intros k p K. apply in_move in K as [[= -> ->]|[K _]]; eauto.
  - destruct (is_open i Checked (x_open x)) eqn:E; [|trivial]. apply is_open_in in E.
    assert (NA : ~ In (Asked i) (x_facts x)) by (apply (As _ _ E); discriminate).
    assert (Ci : In i (concat rounds0)).
    { destruct (sr_open _ _ _ Sr _ _ E) as (P1 & r & Q & Eq & I & _); [discriminate|]. change (In i (concat ([] :: rounds0))). rewrite Eq. apply in_concat. exists r. split; trivial. apply in_elt. }
    destruct b; [destruct (ap i)|]; constructor; cbn; trivial.
    all: try (now apply nodup_close).
    all: try (eapply nodup_move; now eauto).
    all: try (intros k p K; apply in_close in K as [K _]; now eauto).
    + intros k p K Np. apply in_move in K as [[= -> ->]|[K _]]; [congruence|]. eauto.
    + intros k p K. apply in_move in K as [[= -> ->]|[K _]]; eauto.
    + intros k f K Af J. apply in_app_or in J as [J|[<-|[]]]; [eapply A; eauto|]. destruct Af as [[= ->]|Af]; [|discriminate].
      eapply nodup_parts; [exact L|exact K|]. eapply in_fst; eauto.
    + intros k p K Np J. apply in_app_or in J as [J|[[= ->]|[]]].
      * apply in_move in K as [[= -> ->]|[K _]]; [congruence|]. eapply As; eauto.
      * apply in_move in K as [[= ->]|[K Nk]]; [congruence|]. now cbn in Nk.
    + intros k p K J. apply in_app_or in J as [J|[J|[]]]; [|discriminate]. apply in_move in K as [[= -> ->]|[K _]]; eapply G; eauto.
    + now apply nodup_snoc.
    + intros f J. apply in_app_or in J as [J|[<-|[]]]; [auto|]. exists i. split; trivial. now left.
  - destruct (is_open i Running (x_open x)) eqn:E; [|trivial]. apply is_open_in in E.
    assert (Ci : In i (concat rounds0)).
    { destruct (sr_open _ _ _ Sr _ _ E) as (P1 & r & Q & Eq & I & _); [discriminate|]. change (In i (concat ([] :: rounds0))). rewrite Eq. apply in_concat. exists r. split; trivial. apply in_elt. }
    destruct b; constructor; cbn; trivial.
    all: try (now apply nodup_close).
    all: try (intros k p K; apply in_close in K as [K _]; now eauto).
    + intros k f K Af J. apply in_app_or in J as [J|[<-|[]]]; [eapply A; eauto|]. destruct Af as [Af|[= ->]]; [discriminate|].
      eapply nodup_parts; [exact L|exact K|]. eapply in_fst; eauto.
    + intros k p K Np J. apply in_app_or in J as [J|[J|[]]]; [|discriminate]. apply in_close in K as [K _]. eapply As; eauto.
    + intros k p K J. apply in_close in K as [K Nk]. apply in_app_or in J as [J|[[= ->]|[]]]; [eapply G; eauto|]. now cbn in Nk.
    + apply nodup_snoc; trivial. eapply G; eauto.
    + intros f J. apply in_app_or in J as [J|[<-|[]]]; [auto|]. exists i. split; trivial. now right.
  - constructor; cbn; trivial.
  - destruct (x_rounds x) as [|r rounds] eqn:Er; [trivial|]. destruct (x_queue x) as [|q qs] eqn:Eq; [|trivial].
    destruct (x_cancelled x || match x_open x with [] => true | _ => false end) eqn:Eo; [|trivial].
    assert (Pm : Permutation (concat rounds ++ r) (ahead x)).
    { unfold ahead. rewrite Er, Eq. cbn. rewrite app_nil_r. apply Permutation_app_comm. }
    constructor; cbn; trivial.
    + unfold ahead. cbn. eapply Permutation_NoDup; [|exact L]. apply Permutation_app_tail. now symmetry.
    + intros k f K. apply A. eapply Permutation_in; [exact Pm|]. exact K.
  Unshelve. all: exact Taken.
Qed.
Lemma perform_all_single es : NoDup (concat rounds0) -> single (perform_all ap rounds0 es).
Proof.
  intro N0. unfold perform_all. assert (H : exists P cur, sound_run (mkExec rounds0 [] [] false []) P cur).
  { exists [], []. constructor; cbn; trivial; try (now intros; trivial).
    intros before f after j E. now destruct before. }
  assert (S : single (mkExec rounds0 [] [] false [])).
  { constructor; cbn.
    - unfold ahead. cbn. now rewrite !app_nil_r.
    - intros i f _ _ [].
    - intros i p [].
    - intros i p [].
    - constructor.
    - intros f []. }
  revert H S. generalize (mkExec rounds0 [] [] false []). induction es as [|e es IH]; intros x (P & cur & Sr) S; cbn [fold_left]; [exact S|].
  apply IH; [exact (perform_sound x P cur e Sr)|exact (perform_single x P cur e Sr S)].
Qed.
End Run.

(** Together with the order of the rounds. *)
Lemma run_ordered ap s c rounds es : ordered s c rounds ->
  forall before f after i j, x_facts (perform_all ap rounds es) = before ++ f :: after -> about j f ->
    In i c -> In j (dependencies_of s i) -> In (Gone i) before.
Proof.
  intros [_ O] before f after i j E Af I D. destruct (perform_all_sound ap rounds es) as (P0 & cur & S).
  destruct (sr_facts _ _ _ _ S before f after j E Af) as (P & r & Q & Eq & J & A). apply A.
  destruct P as [|p P]; injection Eq; intros; subst; [destruct J|]. cbn [concat app]. eapply O; eauto.
Qed.
