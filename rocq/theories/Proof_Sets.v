(** C95: invariants of the sets of resources. *)
From Coq Require Import List Arith Bool Lia.
Import ListNotations.
From Verif Require Import Model_Sets Spec_Sets.

Section Ind.
  Variable P : sval -> Prop.
  Hypothesis H1 : P SData.
  Hypothesis H2 : P SUnknown.
  Hypothesis H3 : forall l, Forall P l -> P (SList l).
  Hypothesis H4 : forall r, P (SRes r).
  Hypothesis H5 : forall l x, P x -> P (SOut l x).
  Fixpoint sval_ind' (v : sval) : P v :=
    match v with
    | SData => H1
    | SUnknown => H2
    | SList l => H3 l ((fix all l : Forall P l := match l with [] => Forall_nil _ | x :: l' => Forall_cons _ (sval_ind' x) (all l') end) l)
    | SRes r => H4 r
    | SOut l x => H5 l x (sval_ind' x)
    end.
End Ind.

Lemma has_unknown_spec v : has_unknown v = true <-> not_known v.
Proof.
  split.
  - induction v using sval_ind'; cbn; try discriminate; [constructor|]. intros K. apply existsb_exists in K as (x & Hx & K).
    rewrite Forall_forall in H. econstructor; eauto.
  - induction 1; cbn; [reflexivity|]. apply existsb_exists. eauto.
Qed.

Lemma insert_In s r x : In x (insert s r) <-> In x s \/ x = r.
Proof.
  unfold insert. destruct (existsb (Nat.eqb r) s) eqn:E.
  - apply existsb_exists in E as (y & Hy & E). apply Nat.eqb_eq in E as <-. split; [auto|]. intros [K| ->]; auto.
  - rewrite in_app_iff. cbn. intuition.
Qed.
Lemma insert_NoDup s r : NoDup s -> NoDup (insert s r).
Proof.
  unfold insert. intros N. destruct (existsb (Nat.eqb r) s) eqn:E; [exact N|].
  assert (K : ~ In r s). { intros K. assert (existsb (Nat.eqb r) s = true) by (apply existsb_exists; exists r; split; [exact K|apply Nat.eqb_refl]). congruence. }
  apply NoDup_rev in N. rewrite <- (rev_involutive (s ++ [r])), rev_app_distr. apply NoDup_rev. cbn. constructor; [now rewrite <- in_rev|exact N].
Qed.
Lemma add_all_In rs : forall s x, In x (add_all s rs) <-> In x s \/ In x rs.
Proof.
  unfold add_all. induction rs as [|r rs IH]; intros s x; cbn; [intuition|]. rewrite IH, insert_In. intuition.
Qed.
Lemma add_all_NoDup rs : forall s, NoDup s -> NoDup (add_all s rs).
Proof. unfold add_all. induction rs as [|r rs IH]; intros s N; cbn; [exact N|]. apply IH. now apply insert_NoDup. Qed.
Lemma update_In h l rs l' r : In r (update h l rs l') <-> In r (h l') \/ l' = l /\ In r rs.
Proof.
  unfold update. destruct (Nat.eqb_spec l' l) as [->|N]; [rewrite add_all_In|]; intuition.
Qed.
Lemma update_NoDup h l rs l' : (forall l, NoDup (h l)) -> NoDup (update h l rs l').
Proof. unfold update. intros N. destruct (Nat.eqb l' l); auto using add_all_NoDup. Qed.

Lemma Forall2_weaken {A B} (P Q : A -> B -> Prop) l m : (forall a b, P a b -> Q a b) -> Forall2 P l m -> Forall2 Q l m.
Proof. intros K. induction 1; auto. Qed.

Definition later (h h' : sets) : Prop := forall l, incl (h l) (h' l).
Lemma later_refl h : later h h.
Proof. intros l r. auto. Qed.
Lemma later_trans a b c : later a b -> later b c -> later a c.
Proof. intros H K l r I. apply K, H, I. Qed.
Lemma later_update h l rs : later h (update h l rs).
Proof. intros l' r I. apply update_In. auto. Qed.

(** What holds of a task whatever the others do within [above]. *)
Section Good.
  Variable above : sets -> Prop.
  Variable crash : Prop.

  Fixpoint good (Q : list nat -> list (list nat) -> Prop) (h : sets) (t : task) : Prop :=
    match t with
    | Ret d s => Q d s
    | Crash => crash
    | Read l k => forall h', later h h' -> above h' -> good Q h' (k (h' l))
    | Update l rs k => forall h', later h h' -> above h' -> above (update h' l rs) /\ good Q (update h' l rs) k
    end.

  Lemma good_later Q h h' t : good Q h t -> later h h' -> good Q h' t.
  Proof. destruct t; cbn; auto; intros H L h2 L2; apply H; eapply later_trans; eauto. Qed.

  Lemma step1_good Q h t h' t' : above h -> good Q h t -> step1 h t = (h', t') -> above h' /\ later h h' /\ good Q h' t'.
  Proof.
    intros A G E. destruct t as [d s| |l k|l rs k]; cbn in E; injection E as <- <-; try (split; [exact A|]; split; [apply later_refl|exact G]).
    - split; [exact A|]. split; [apply later_refl|]. apply G; [apply later_refl|exact A].
    - destruct (G h (later_refl h) A) as [A' G']. split; [exact A'|]. split; [apply later_update|exact G'].
  Qed.

  Lemma step_nth_good Qs h ts i h' ts' : above h -> Forall2 (fun Q t => good Q h t) Qs ts -> step_nth h ts i = (h', ts') ->
    above h' /\ later h h' /\ Forall2 (fun Q t => good Q h' t) Qs ts'.
  Proof.
    intros A G. revert i h' ts'. induction G as [|Q t Qs ts G1 G2 IH]; intros i h' ts' E; cbn in E.
    - assert (h' = h /\ ts' = []) as [-> ->] by (destruct i; now injection E as <- <-). split; [exact A|]. split; [apply later_refl|constructor].
    - destruct i as [|i].
      + destruct (step1 h t) as [h1 t1] eqn:E1. injection E as <- <-. destruct (step1_good _ _ _ _ _ A G1 E1) as (A1 & L1 & G1').
        split; [exact A1|]. split; [exact L1|]. constructor; [exact G1'|]. eapply Forall2_weaken; [|exact G2]. intros Q' t' K. cbn in K. eapply good_later; eauto.
      + destruct (step_nth h ts i) as [h1 ts1] eqn:E1. injection E as <- <-. destruct (IH _ _ _ E1) as (A1 & L1 & G').
        split; [exact A1|]. split; [exact L1|]. constructor; [eapply good_later; eauto|exact G'].
  Qed.

  Lemma run_good Qs sch : forall h ts h' ts', above h -> Forall2 (fun Q t => good Q h t) Qs ts -> run h ts sch = (h', ts') ->
    above h' /\ Forall2 (fun Q t => good Q h' t) Qs ts'.
  Proof.
    induction sch as [|i sch IH]; intros h ts h' ts' A G E; cbn in E; [injection E as <- <-; auto|].
    destruct (step_nth h ts i) as [h1 ts1] eqn:E1. destruct (step_nth_good _ _ _ _ _ _ A G E1) as (A1 & _ & G1). eauto.
  Qed.
End Good.

(** A task that is given enough steps ends. *)
Definition ended (t : task) : Prop := match t with Ret _ _ | Crash => True | _ => False end.
Lemma step_nth_split h ts1 t ts2 : step_nth h (ts1 ++ t :: ts2) (length ts1) = (fst (step1 h t), ts1 ++ snd (step1 h t) :: ts2).
Proof.
  induction ts1 as [|x ts1 IH]; cbn; [now destruct (step1 h t)|]. rewrite IH. reflexivity.
Qed.
Lemma ends t : forall h ts1 ts2, exists n h' t', run h (ts1 ++ t :: ts2) (repeat (length ts1) n) = (h', ts1 ++ t' :: ts2) /\ ended t'.
Proof.
  induction t as [d s| |l k IH|l rs k IH]; intros h ts1 ts2.
  - exists 0, h, (Ret d s). cbn. auto.
  - exists 0, h, Crash. cbn. auto.
  - destruct (IH (h l) h ts1 ts2) as (n & h' & t' & E & D). exists (S n), h', t'. cbn [repeat run]. rewrite step_nth_split. cbn. auto.
  - destruct (IH (update h l rs) ts1 ts2) as (n & h' & t' & E & D). exists (S n), h', t'. cbn [repeat run]. rewrite step_nth_split. cbn. auto.
Qed.

Lemma needs_cons h x l r : needs h (SList (x :: l)) r <-> needs h x r \/ needs h (SList l) r.
Proof.
  split.
  - intros K. inversion K as [y l' r' I K'| | |]; subst. destruct I as [->|I]; [now left|right; econstructor; eauto].
  - intros [K|K]; [econstructor; [now left|exact K]|]. inversion K; subst. econstructor; [right|]; eauto.
Qed.
Lemma needs_nil h r : ~ needs h (SList []) r.
Proof. intros K. inversion K; subst. contradiction. Qed.
Lemma needs_out h l x r : needs h (SOut l x) r <-> In r (h l) \/ has_unknown x = false /\ needs h x r.
Proof.
  split.
  - intros K. inversion K as [| |? ? ? I|? ? ? N K']; subst; [now left|right]. split; [|exact K'].
    apply not_true_is_false. now rewrite has_unknown_spec.
  - intros [K|[N K]]; [now apply N_own|]. apply N_value; [|exact K]. rewrite <- has_unknown_spec. congruence.
Qed.
Lemma needs_data h l r : needs h (SOut l SData) r <-> In r (h l).
Proof. rewrite needs_out. split; [|auto]. intros [K|[_ K]]; [exact K|inversion K]. Qed.

Section Exact.
  Variable e : senv.
  Variable h0 : sets.
  Variable vs : list sval.
  Hypothesis Hready : ready e h0.
  Hypothesis Hagree : shares_agree e h0 vs.

  Definition above (h : sets) : Prop :=
    forall l, NoDup (h l) /\ incl (h0 l) (h l) /\ forall x r, among e vs (SOut l x) -> In r (h l) -> needs h0 (SOut l x) r.
  Lemma above_start : above h0.
  Proof. intros l. split; [apply Hready|]. split; [intros r; auto|]. intros x r _ I. now apply N_own. Qed.

  Lemma above_update h l x rs : above h -> among e vs (SOut l x) -> (forall r, In r rs -> needs h0 (SOut l x) r) -> above (update h l rs).
  Proof.
    intros A M K l'. split; [apply update_NoDup; intros; apply A|]. split; [intros r I; apply update_In; left; now apply A|].
    intros y r Hy I. apply update_In in I as [I|[-> I]]; [now apply (A l')|]. eapply Hagree; [exact M|exact Hy|auto].
  Qed.
  Lemma urn_set h r x : above h -> (In x (h (v_urn e r)) <-> x = r) /\ (In x (h (v_id e r)) <-> x = r).
  Proof.
    intros A. destruct Hready as [_ Hr]. destruct (Hr r) as [E1 E2]. split; split.
    - intros I. apply (proj2 (proj2 (A (v_urn e r))) SData) in I; [|right; eauto]. apply needs_data in I. rewrite E1 in I. destruct I as [<-|[]]. reflexivity.
    - intros ->. apply (A (v_urn e r)). rewrite E1. now left.
    - intros I. apply (proj2 (proj2 (A (v_id e r))) SData) in I; [|right; eauto]. apply needs_data in I. rewrite E2 in I. destruct I as [<-|[]]. reflexivity.
    - intros ->. apply (A (v_id e r)). rewrite E2. now left.
  Qed.

  (** Everything the Output with this set object depends on is in the set. *)
  Definition full (l : nat) (x : sval) (h : sets) : Prop := forall r, needs h0 (SOut l x) r -> In r (h l).
  Lemma full_later l x h h' : full l x h -> later h h' -> full l x h'.
  Proof. intros F L r K. apply L, F, K. Qed.
  Lemma full_size l x h h' : among e vs (SOut l x) -> above h -> above h' -> full l x h -> full l x h' -> length (h l) = length (h' l).
  Proof.
    intros M A A' F F'. destruct (A l) as (N & _ & U). destruct (A' l) as (N' & _ & U').
    apply Nat.le_antisymm; apply NoDup_incl_length; auto; intros r I; eauto.
  Qed.

  Lemma collect_good Q l x s : forall acc n k h, among e vs (SOut l x) -> full l x h ->
    (forall h', later h h' -> above h' -> length (h' l) = n) ->
    (forall h' acc', later h h' -> above h' -> (forall r, In r acc' -> In r acc \/ In r s) -> good above False Q h' (k acc')) ->
    good above False Q h (iterate_collect l n s (v_urn e) acc k).
  Proof.
    induction s as [|r s IH]; intros acc n k h M F Hn Hk; cbn; intros h' L A; rewrite (proj2 (Nat.eqb_eq _ _) (Hn h' L A)).
    - apply Hk; auto.
    - cbn. intros h2 L2 A2. apply IH; [exact M|eapply full_later; [exact F|eapply later_trans; eauto]| |].
      + intros h3 L3. apply Hn. eapply later_trans; [exact L|]. eapply later_trans; eauto.
      + intros h3 acc' L3 A3 K. apply Hk; [eapply later_trans; [exact L|eapply later_trans; eauto]|exact A3|].
        intros y I. destruct (K y I) as [K1|K1]; [|right; now right]. apply in_app_iff in K1 as [K1|K1]; [now left|].
        apply (urn_set h2 r y A2) in K1. subst. right. now left.
  Qed.
  Lemma iterate_good Q l x s : forall n k h, among e vs (SOut l x) -> full l x h ->
    (forall h', later h h' -> above h' -> length (h' l) = n) ->
    (forall h', later h h' -> above h' -> good above False Q h' k) ->
    good above False Q h (iterate l n s (fun _ t => t) k).
  Proof.
    induction s as [|r s IH]; intros n k h M F Hn Hk; cbn; intros h' L A; rewrite (proj2 (Nat.eqb_eq _ _) (Hn h' L A)).
    - auto.
    - apply IH; [exact M|eapply full_later; eauto| |]; intros h2 L2; [apply Hn|apply Hk]; eapply later_trans; eauto.
  Qed.

  Definition sent_ok (keep : bool) (v : sval) (s : list (list nat)) : Prop :=
    if keep && v_outvals e then exists os, outermost v os /\ Forall2 (exactly h0) os s else s = [].

  Lemma send_good Q v : forall keep k h,
    (forall o, part o v -> among e vs o) -> above h ->
    (forall h' d s, later h h' -> above h' -> exactly h0 v d -> sent_ok keep v s -> good above False Q h' (k d s)) ->
    good above False Q h (send e keep v k).
  Proof.
    induction v as [| |l IH|r|l x IH] using sval_ind'; intros keep k h M A Hk.
    - cbn. apply Hk; [apply later_refl|exact A| |]; [|unfold sent_ok; destruct (keep && v_outvals e); [exists []; split; constructor|reflexivity]].
      intros r. split; [intros []|intros K; inversion K].
    - cbn. apply Hk; [apply later_refl|exact A| |]; [|unfold sent_ok; destruct (keep && v_outvals e); [exists []; split; constructor|reflexivity]].
      intros r. split; [intros []|intros K; inversion K].
    - revert k h A Hk. cbn [send]. induction l as [|x l IHl]; intros k h A Hk.
      + apply Hk; [apply later_refl|exact A| |]; [|unfold sent_ok; destruct (keep && v_outvals e); [exists []; split; constructor|reflexivity]].
        intros r. split; [intros []|intros K; now apply needs_nil in K].
      + inversion IH as [|? ? IH1 IH2]; subst. apply IH1; [intros o P; apply M; eapply P_list; [now left|exact P]|exact A|].
        intros h1 d s L1 A1 D1 S1. apply IHl; [exact IH2| |exact A1|].
        { intros o P. apply M. inversion P as [? ? E|? ? I P'|]; subst; [discriminate|]. eapply P_list; [right; exact I|exact P']. }
        intros h2 d' s' L2 A2 D2 S2. apply Hk; [eapply later_trans; eauto|exact A2| |].
        * intros r. rewrite in_app_iff, (D1 r), (D2 r), needs_cons. reflexivity.
        * unfold sent_ok in *. destruct (keep && v_outvals e); [|now subst]. destruct S1 as (os & O1 & F1). destruct S2 as (os' & O2 & F2).
          exists (os ++ os'). split; [now constructor|now apply Forall2_app].
    - assert (S0 : sent_ok keep (SRes r) []) by (unfold sent_ok; destruct (keep && v_outvals e); [exists []; split; constructor|reflexivity]).
      assert (N : forall y, needs h0 (SRes r) y <-> y = r) by (intros y; split; [intros K; inversion K; reflexivity|intros ->; constructor]).
      cbn. destruct (v_refs e); [|destruct (v_custom e r)]; cbn.
      + intros h1 L1 A1. destruct (v_custom e r); cbn.
        * intros h2 L2 A2. apply Hk; [eapply later_trans; eauto|exact A2| |exact S0]. intros y.
          rewrite in_app_iff, N, (proj1 (urn_set h1 r y A1)), (proj2 (urn_set h2 r y A2)). intuition.
        * apply Hk; [exact L1|exact A1| |exact S0]. intros y. rewrite N. apply (urn_set h1 r y A1).
      + intros h1 L1 A1. apply Hk; [exact L1|exact A1| |exact S0]. intros y. rewrite N. apply (urn_set h1 r y A1).
      + intros h1 L1 A1. apply Hk; [exact L1|exact A1| |exact S0]. intros y. rewrite N. apply (urn_set h1 r y A1).
    - cbn [send]. cbn zeta. intros h1 L1 A1.
      assert (Mo : among e vs (SOut l x)) by (apply M; now apply (P_here _ l x)).
      assert (Rest : forall h2 inner s, later h1 h2 -> above h2 -> (forall r, In r inner <-> has_unknown x = false /\ needs h0 x r) ->
        good above False Q h2 ((fun inner (_ : list (list nat)) => Update l inner (if keep && v_outvals e then
             Read l (fun s => iterate_collect l (length s) s (v_urn e) [] (fun urn_deps =>
             Update l urn_deps (Read l (fun s' => iterate l (length s') s' (fun _ t => t) (k (h1 l ++ inner) [s'])))))
           else k (h1 l ++ inner) [])) inner s)).
      { intros h2 inner s L2 A2 Hin. cbn. intros h3 L3 A3.
        assert (A4 : above (update h3 l inner)).
        { apply (above_update _ _ x); auto. intros r I. apply needs_out. right. now apply Hin. }
        assert (L4 : later h1 (update h3 l inner)) by (eapply later_trans; [exact L2|]; eapply later_trans; [exact L3|apply later_update]).
        assert (Fu : full l x (update h3 l inner)).
        { intros r K. apply needs_out in K as [K|K]; apply update_In; [left; now apply A3|right; split; [reflexivity|now apply Hin]]. }
        assert (D : exactly h0 (SOut l x) (h1 l ++ inner)).
        { intros r. rewrite in_app_iff, Hin, needs_out. split.
          - intros [K|K]; [|now right]. apply A1 with (x := x) in K; [|exact Mo]. now apply needs_out in K.
          - intros [K|K]; [left; now apply A1|now right]. }
        split; [exact A4|]. destruct (keep && v_outvals e) eqn:Ek.
        - cbn. intros h5 L5 A5. apply (collect_good _ _ x); [exact Mo|eapply full_later; eauto| |].
          { intros h6 L6 A6. apply (full_size l x); auto; eapply full_later; eauto using later_trans. }
          intros h6 acc L6 A6 Hacc. cbn. intros h7 L7 A7.
          assert (Hx : forall r, In r acc -> needs h0 (SOut l x) r).
          { intros r I. destruct (Hacc r I) as [[]|K]. now apply (A5 l). }
          assert (A8 : above (update h7 l acc)) by (apply (above_update _ _ x); auto). split; [exact A8|].
          intros h9 L9 A9.
          assert (L9' : later (update h3 l inner) h9).
          { eapply later_trans; [exact L5|]. eapply later_trans; [exact L6|]. eapply later_trans; [exact L7|]. eapply later_trans; [apply later_update|exact L9]. }
          assert (F9 : full l x h9) by (eapply full_later; [exact Fu|exact L9']).
          apply (iterate_good _ _ x); [exact Mo|exact F9| |].
          { intros h10 L10 A10. apply (full_size l x); auto. eapply full_later; eauto. }
          intros h10 L10 A10. apply Hk; [|exact A10|exact D|].
          { eapply later_trans; [exact L1|]. eapply later_trans; [exact L4|]. eapply later_trans; eauto. }
          unfold sent_ok. rewrite Ek. exists [SOut l x]. split; [constructor|]. constructor; [|constructor].
          intros r. split; [intros I; now apply (A9 l)|apply F9].
        - apply Hk; [eapply later_trans; eauto|exact A4|exact D|]. unfold sent_ok. now rewrite Ek. }
      destruct (has_unknown x) eqn:Eu.
      + apply (Rest h1 [] []); [apply later_refl|exact A1|]. intros r. split; [intros []|intros [? _]; discriminate].
      + apply IH; [intros o P; apply M; now apply P_value|exact A1|]. intros h2 d s L2 A2 D2 _. apply (Rest h2 d s); auto.
        intros r. rewrite (D2 r). tauto.
  Qed.
End Exact.

Section Lost.
  Variable e : senv.
  Variable h0 : sets.
  Hypothesis Hready : ready e h0.
  Definition over (h : sets) : Prop := later h0 h.
  Lemma over_update h l rs : over h -> over (update h l rs).
  Proof. intros O. eapply later_trans; [exact O|apply later_update]. Qed.
  Definition covers (v : sval) (s : list nat) : Prop := forall r, needs h0 v r -> In r s.
  Definition sent_covers (keep : bool) (v : sval) (s : list (list nat)) : Prop :=
    if keep && v_outvals e then exists os, outermost v os /\ Forall2 covers os s else s = [].

  Lemma collect_over Q l s from : forall acc n k h,
    (forall h' acc', later h h' -> over h' -> good over True Q h' (k acc')) ->
    good over True Q h (iterate_collect l n s from acc k).
  Proof.
    induction s as [|r s IH]; intros acc n k h Hk; cbn; intros h' L A; destruct (Nat.eqb (length (h' l)) n); try exact I; auto.
    cbn. intros h2 L2 A2. apply IH. intros h3 acc' L3 A3. apply Hk; [|exact A3]. eapply later_trans; [exact L|]. eapply later_trans; eauto.
  Qed.
  Lemma iterate_over Q l s : forall n k h, (forall h', later h h' -> over h' -> good over True Q h' k) ->
    good over True Q h (iterate l n s (fun _ t => t) k).
  Proof.
    induction s as [|r s IH]; intros n k h Hk; cbn; intros h' L A; destruct (Nat.eqb (length (h' l)) n); try exact I; auto.
    apply IH. intros h2 L2. apply Hk. eapply later_trans; eauto.
  Qed.

  Lemma send_over Q v : forall keep k h, over h ->
    (forall h' d s, later h h' -> over h' -> covers v d -> sent_covers keep v s -> good over True Q h' (k d s)) ->
    good over True Q h (send e keep v k).
  Proof.
    induction v as [| |l IH|r|l x IH] using sval_ind'; intros keep k h A Hk.
    - cbn. apply Hk; [apply later_refl|exact A| |]; [intros r K; inversion K|unfold sent_covers; destruct (keep && v_outvals e); [exists []; split; constructor|reflexivity]].
    - cbn. apply Hk; [apply later_refl|exact A| |]; [intros r K; inversion K|unfold sent_covers; destruct (keep && v_outvals e); [exists []; split; constructor|reflexivity]].
    - revert k h A Hk. cbn [send]. induction l as [|x l IHl]; intros k h A Hk.
      + apply Hk; [apply later_refl|exact A| |]; [intros r K; now apply needs_nil in K|unfold sent_covers; destruct (keep && v_outvals e); [exists []; split; constructor|reflexivity]].
      + inversion IH as [|? ? IH1 IH2]; subst. apply IH1; [exact A|]. intros h1 d s L1 A1 D1 S1. apply IHl; [exact IH2|exact A1|].
        intros h2 d' s' L2 A2 D2 S2. apply Hk; [eapply later_trans; eauto|exact A2| |].
        * intros r K. apply in_app_iff. apply needs_cons in K as [K|K]; auto.
        * unfold sent_covers in *. destruct (keep && v_outvals e); [|now subst]. destruct S1 as (os & O1 & F1). destruct S2 as (os' & O2 & F2).
          exists (os ++ os'). split; [now constructor|now apply Forall2_app].
    - assert (S0 : sent_covers keep (SRes r) []) by (unfold sent_covers; destruct (keep && v_outvals e); [exists []; split; constructor|reflexivity]).
      destruct Hready as [_ Hr]. destruct (Hr r) as [E1 E2].
      assert (U1 : forall h, over h -> In r (h (v_urn e r))) by (intros h1 O; apply O; rewrite E1; now left).
      assert (U2 : forall h, over h -> In r (h (v_id e r))) by (intros h1 O; apply O; rewrite E2; now left).
      cbn. destruct (v_refs e); [|destruct (v_custom e r)]; cbn; intros h1 L1 A1; try destruct (v_custom e r); cbn;
        try (intros h2 L2 A2); apply Hk; try exact S0; try assumption; try (eapply later_trans; eassumption);
        intros y K; inversion K; subst; auto. apply in_app_iff; auto.
    - cbn [send]. cbn zeta. intros h1 L1 A1.
      assert (Rest : forall h2 inner s, later h1 h2 -> over h2 -> (forall r, has_unknown x = false -> needs h0 x r -> In r inner) ->
        good over True Q h2 ((fun inner (_ : list (list nat)) => Update l inner (if keep && v_outvals e then
             Read l (fun s => iterate_collect l (length s) s (v_urn e) [] (fun urn_deps =>
             Update l urn_deps (Read l (fun s' => iterate l (length s') s' (fun _ t => t) (k (h1 l ++ inner) [s'])))))
           else k (h1 l ++ inner) [])) inner s)).
      { intros h2 inner s L2 A2 Hin. cbn. intros h3 L3 A3.
        assert (A4 : over (update h3 l inner)) by now apply over_update.
        assert (L4 : later h1 (update h3 l inner)) by (eapply later_trans; [exact L2|]; eapply later_trans; [exact L3|apply later_update]).
        assert (Fu : forall r, needs h0 (SOut l x) r -> In r (update h3 l inner l)).
        { intros r K. apply needs_out in K as [K|[K1 K2]]; apply update_In; [left; now apply A3|right; auto]. }
        assert (D : covers (SOut l x) (h1 l ++ inner)).
        { intros r K. rewrite in_app_iff. apply needs_out in K as [K|[K1 K2]]; [left; now apply A1|right; auto]. }
        split; [exact A4|]. destruct (keep && v_outvals e) eqn:Ek.
        - cbn. intros h5 L5 A5. apply collect_over. intros h6 acc L6 A6. cbn. intros h7 L7 A7. split; [now apply over_update|].
          intros h9 L9 A9.
          assert (L9' : later (update h3 l inner) h9).
          { eapply later_trans; [exact L5|]. eapply later_trans; [exact L6|]. eapply later_trans; [exact L7|]. eapply later_trans; [apply later_update|exact L9]. }
          apply iterate_over. intros h10 L10 A10. apply Hk; [|exact A10|exact D|].
          { eapply later_trans; [exact L1|]. eapply later_trans; [exact L4|]. eapply later_trans; eauto. }
          unfold sent_covers. rewrite Ek. exists [SOut l x]. split; [constructor|]. constructor; [|constructor]. intros r K. apply L9'. auto.
        - apply Hk; [eapply later_trans; eauto|exact A4|exact D|]. unfold sent_covers. now rewrite Ek. }
      destruct (has_unknown x) eqn:Eu.
      + apply (Rest h1 [] []); [apply later_refl|exact A1|]. discriminate.
      + apply IH; [exact A1|]. intros h2 d s L2 A2 D2 _. apply (Rest h2 d s); auto.
  Qed.
End Lost.
