From Verif Require Import Base Model_SyncAwait Spec_SyncAwait.

Section Proofs.
Context (task_of : nat -> option nat).
Notation lstep := (lstep task_of).

(* ------------------------------------------------------------------ *)
(** The stack. *)
Inductive low : list frame -> Prop :=
| low_nil : low []
| low_wait f nt p t n k S : k <= nt -> t = task_of n -> low S -> low (Wait f nt p t :: Body n :: Once k :: S).
Inductive stack_ok (L : nat) : option nat -> list frame -> Prop :=
| T_low S : low S -> stack_ok L None S
| T_once k S : k <= L -> low S -> stack_ok L None (Once k :: S)
| T_body n k S : k <= L -> low S -> stack_ok L (task_of n) (Body n :: Once k :: S).
Lemma stack_ok_mono L L' c S : L <= L' -> stack_ok L c S -> stack_ok L' c S.
Proof. intros H K. destruct K; constructor; auto; lia. Qed.
Definition inv (s : lstate) : Prop := stack_ok (length (l_ready s)) (l_current s) (l_stack s).

Lemma padded_length n l : length (padded n l) = Nat.max n (length l).
Proof. unfold padded. rewrite app_length, repeat_length. lia. Qed.
Lemma leave_own t cu : leave t t = Some cu -> cu = None.
Proof. destruct t; simpl; [rewrite Nat.eqb_refl|]; congruence. Qed.

Lemma low_not_once k S : low (Once k :: S) -> False. Proof. inversion 1. Qed.
Lemma low_not_body n S : low (Body n :: S) -> False. Proof. inversion 1. Qed.

Lemma inv_step a b : lstep a b -> inv a -> inv b.
Proof.
  unfold inv. intros H. destruct H; cbn [l_ready l_current l_stack]; intros I.
  - inversion I; subst. apply T_once; [lia|constructor].
  - inversion I as [? H E1 E2|k' S' H1 H2 E1 E2|n' k' S' H1 H2 E1 E2]; subst; [now apply low_not_once in H|]. apply T_once; [simpl in H1; lia|exact H2].
  - inversion I as [? H' E1 E2|k' S' H1 H2 E1 E2|n' k' S' H1 H2 E1 E2]; subst; [now apply low_not_once in H'|].
    assert (cu' = task_of n) as -> by (destruct (task_of n); simpl in H; congruence). apply T_body; [simpl in H1; lia|exact H2].
  - inversion I as [? H' E1 E2|k' S' H1 H2 E1 E2|n' k' S' H1 H2 E1 E2]; subst; [now apply low_not_once in H'|]. now apply T_low.
  - inversion I as [? H' E1 E2|k' S' H1 H2 E1 E2|n' k' S' H1 H2 E1 E2]; subst; [now apply low_not_body in H'|].
    apply leave_own in H as ->. now apply T_once.
  - inversion I as [? H' E1 E2|k' S' H1 H2 E1 E2|n' k' S' H1 H2 E1 E2]; subst; [now apply low_not_body in H'|].
    apply T_low. now constructor.
  - inversion I as [? H' E1 E2|k' S' H1 H2 E1 E2|n' k' S' H1 H2 E1 E2]; subst. apply T_once; [lia|].
    inversion H'; subst. now constructor.
  - inversion I as [? H' E1 E2|k' S' H1 H2 E1 E2|n' k' S' H1 H2 E1 E2]; subst. inversion H'; subst.
    assert (cu' = task_of n) as -> by (destruct (task_of n); simpl in H0; congruence). apply T_body; [rewrite padded_length; lia|assumption].
  - rewrite app_length. eapply stack_ok_mono; [|exact I]. lia.
  - rewrite map_length. exact I.
  - exact I.
  - exact I.
Qed.
Lemma inv_reachable s : reachable task_of s -> inv s.
Proof. unfold reachable. intros H. remember initial as i eqn:E. induction H; subst; [apply T_low; constructor|]. eauto using inv_step. Qed.

Lemma inv_safe s : inv s -> ~ crashes task_of s.
Proof.
  unfold inv. intros I K. destruct K as [s k S E1 E2|s k S n rd E1 E2 H1 H2|s n S t E1 H1 H2|s f nt p t S E1 H1]; rewrite E1 in I.
  - inversion I as [? H E3 E4|k' S' H E3 E4 E5|]; subst; [now apply low_not_once in H|]. rewrite E2 in H. simpl in H. lia.
  - inversion I; subst; congruence.
  - inversion I as [? H E3 E4|k' S' H E3 E4 E5|n' k' S' H E3 E4 E5]; subst; [now apply low_not_body in H|]. congruence.
  - inversion I; subst; congruence.
Qed.

(** There is always a step that changes the stack. *)
Lemma inv_progress s : inv s -> (l_stack s = [] -> l_stopping s = false) -> exists s', lstep s s' /\ l_stack s' <> l_stack s.
Proof.
  assert (L : forall (f : frame) S, f :: S <> S) by (intros f S K; apply (f_equal (@length _)) in K; simpl in K; lia).
  assert (L' : forall (f : frame) S, S <> f :: S) by (intros f S K; symmetry in K; revert K; apply L).
  destruct s as [S rd lg sp ca dn st cu]. unfold inv. cbn [l_stack l_stopping l_ready l_current]. intros I Hst. destruct S as [|[k|n|f nt p t] S].
  - rewrite (Hst eq_refl). eexists. split; [apply L_round|]. discriminate.
  - inversion I as [? H E3 E4|k' S' H E3 E4 E5|]; subst; [now apply low_not_once in H|]. destruct k as [|k].
    + eexists. split; [apply L_once_ends|]. apply L'.
    + destruct rd as [|[n|] rd]; [simpl in H; lia| |].
      * exists (mkLoop (Body n :: Once k :: S) rd (lg ++ [n]) sp ca dn st (task_of n)). split; [apply L_run; now destruct (task_of n)|discriminate].
      * eexists. split; [apply L_skip|]. cbn. intros [= K]. lia.
  - inversion I as [? H E3 E4|k' S' H E3 E4 E5|n' k' S' H E3 E4 E5]; subst; [now apply low_not_body in H|].
    eexists. split; [apply (L_return _ n _ _ _ _ _ _ _ _ None); destruct (task_of n); simpl; [now rewrite Nat.eqb_refl|reflexivity]|]. apply L'.
  - inversion I as [? H E3 E4| |]; subst. destruct (nmem f dn || (p && st)) eqn:E.
    + eexists. split; [apply (L_resume _ f nt p t S rd lg sp ca dn st None t E); now destruct t|]. apply L'.
    + apply orb_false_iff in E as [Ea Eb]. eexists. split; [now apply L_pump|]. cbn. intros K. apply (f_equal (@length _)) in K. simpl in K. lia.
Qed.

(* ------------------------------------------------------------------ *)
(** The queue. *)
Definition alive (ca : list nat) (n : nat) : bool := negb (nmem n ca).
Definition queue_ok (s : lstate) : Prop :=
  l_log s ++ waiting (l_ready s) = filter (alive (l_cancelled s)) (l_spawned s) /\ NoDup (l_spawned s) /\ incl (l_cancelled s) (l_spawned s).
Lemma waiting_app a b : waiting (a ++ b) = waiting a ++ waiting b.
Proof. induction a as [|[n|] a IH]; simpl; congruence. Qed.
Lemma waiting_dead n : waiting (repeat Dead n) = [].
Proof. induction n; simpl; auto. Qed.
Lemma waiting_In n l : In n (waiting l) <-> In (Real n) l.
Proof.
  induction l as [|[m|] l IH]; simpl; [tauto| |].
  - rewrite IH. intuition congruence.
  - rewrite IH. intuition congruence.
Qed.
Lemma waiting_cancel n l : waiting (map (cancel n) l) = filter (fun m => negb (Nat.eqb n m)) (waiting l).
Proof.
  induction l as [|[m|] l IH]; simpl; auto. destruct (Nat.eqb n m); simpl; [exact IH|]. now rewrite IH.
Qed.
Lemma filter_alive_cons n ca l : filter (alive (n :: ca)) l = filter (fun m => negb (Nat.eqb n m)) (filter (alive ca) l).
Proof.
  induction l as [|m l IH]; simpl; [reflexivity|]. unfold alive at 1. simpl. rewrite (Nat.eqb_sym m n).
  destruct (Nat.eqb n m) eqn:E; cbn [negb].
  - rewrite IH. destruct (alive ca m); simpl; [rewrite E|]; reflexivity.
  - fold (alive ca m). destruct (alive ca m); simpl; [rewrite E; simpl|]; now rewrite IH.
Qed.
Lemma filter_id {A} (p : A -> bool) l : (forall x, In x l -> p x = true) -> filter p l = l.
Proof. induction l as [|x l IH]; simpl; intros H; [reflexivity|]. rewrite H by now left. f_equal. apply IH. auto. Qed.
Lemma filter_ext_in' {A} (p q : A -> bool) l : (forall x, In x l -> p x = q x) -> filter p l = filter q l.
Proof. induction l as [|x l IH]; simpl; intros H; [reflexivity|]. rewrite <- (H x) by now left. rewrite IH by auto. reflexivity. Qed.

Lemma queue_step a b : lstep a b -> queue_ok a -> queue_ok b.
Proof.
  unfold queue_ok. intros H. destruct H; cbn [l_ready l_log l_spawned l_cancelled waiting]; intros (Hq & Hn & Hc);
    try (split; [exact Hq|split; [exact Hn|exact Hc]]).
  - rewrite <- app_assoc. auto.
  - unfold padded. rewrite waiting_app, waiting_dead, app_nil_r. auto.
  - rewrite waiting_app. cbn [waiting]. rewrite app_assoc, Hq, filter_app. cbn [filter].
    assert (E : alive ca n = true). { unfold alive. apply negb_true_iff. apply nmem_notIn. intros K. apply H. now apply Hc. }
    rewrite E. repeat split; auto.
    + rewrite <- (rev_involutive (sp ++ [n])). apply NoDup_rev. rewrite rev_app_distr. cbn [rev app]. constructor; [|now apply NoDup_rev]. now rewrite <- in_rev.
    + intros x Hx. apply in_or_app. left. now apply Hc.
  - apply waiting_In in H. rewrite waiting_cancel, filter_alive_cons, <- Hq, filter_app.
    assert (N : NoDup (lg ++ waiting rd)) by (rewrite Hq; now apply NoDup_filter).
    split; [|split; [exact Hn|]].
    + f_equal. symmetry. apply filter_id. intros m Hm. apply negb_true_iff. apply Nat.eqb_neq. intros ->.
      clear -N Hm H. induction lg as [|x lg IH]; [destruct Hm|]. simpl in N. inversion N as [|? ? N1 N2]; subst. destruct Hm as [->|Hm]; [|auto].
      apply N1. apply in_or_app. now right.
    + intros x [<-|Hx]; [|now apply Hc]. assert (K : In n (lg ++ waiting rd)) by (apply in_or_app; now right). rewrite Hq in K. now apply filter_In in K.
Qed.
Lemma queue_reachable s : reachable task_of s -> queue_ok s.
Proof.
  unfold reachable. intros H. remember initial as i eqn:E. induction H; subst; [|eauto using queue_step].
  repeat split; [constructor|intros x []].
Qed.

(* ------------------------------------------------------------------ *)
(** A complete round. *)
Lemma firstn_app_In {A} (x : A) k l e : In x (firstn k l) -> In x (firstn k (l ++ e)).
Proof. rewrite firstn_app. intros H. apply in_or_app. now left. Qed.
Lemma firstn_tail_In {A} (x y : A) k l : In x (firstn k (y :: l)) -> x = y \/ In x (firstn k l).
Proof.
  destruct k as [|k]; simpl; [tauto|]. intros [H|H]; [now left|right]. revert l H. induction k as [|k IH]; intros l H; [destruct H|].
  destruct l as [|z l]; simpl in *; [tauto|]. destruct H as [H|H]; [now left|right]. now apply IH.
Qed.
Lemma firstn_tail_In' {A} (x y : A) k l : In x (firstn (S k) (y :: l)) -> x = y \/ In x (firstn k l).
Proof. simpl. intuition. Qed.
Lemma firstn_cancel n m k l : In (Real n) (firstn k l) -> n = m \/ In (Real n) (firstn k (map (cancel m) l)).
Proof.
  intros H. destruct (Nat.eq_dec n m) as [->|N]; [now left|right]. rewrite firstn_map. apply in_map_iff. exists (Real n). split; [|exact H].
  simpl. apply Nat.eqb_neq in N. rewrite Nat.eqb_sym in N. now rewrite N.
Qed.

Definition accounted (rd0 : list handle) (s : lstate) (k : nat) : Prop :=
  forall n, In (Real n) rd0 -> In n (l_log s) \/ In n (l_cancelled s) \/ In (Real n) (firstn k (l_ready s)).
Definition in_round (rd0 : list handle) (S : list frame) (s : lstate) : Prop :=
  (exists F k, l_stack s = F ++ Once k :: S /\ accounted rd0 s k) \/ (l_stack s = S /\ accounted rd0 s 0).

Lemma above_not S s : l_stack s = S -> above S s -> False.
Proof. intros E (f & fs & K). rewrite E in K. apply (f_equal (@length _)) in K. rewrite app_length in K. simpl in K. lia. Qed.
Lemma app_cons_inv {A} (F : list A) x S y T : F ++ x :: S = y :: T -> (F = [] /\ x = y /\ S = T) \/ exists F', F = y :: F' /\ T = F' ++ x :: S.
Proof. destruct F as [|z F]; simpl; intros [= -> <-]; [now left|right; eauto]. Qed.

Lemma round_step rd0 S a b : lstep a b -> above S a -> in_round rd0 S a -> in_round rd0 S b.
Proof.
  intros H Ha [(F & k & E & A)|[E A]]; [|exfalso; eapply above_not; eauto].
  unfold in_round, accounted in *. clear Ha.
  destruct H; cbn [l_stack l_log l_cancelled l_ready] in *; try symmetry in E.
  - destruct F; discriminate.
  - apply app_cons_inv in E as [(-> & [= ->] & ->)|(F' & -> & ->)].
    + left. exists [], k0. split; [reflexivity|]. intros m Hm. destruct (A m Hm) as [K|[K|K]]; auto. apply firstn_tail_In' in K as [K|K]; [discriminate|auto].
    + left. exists (Once k0 :: F'), k. split; [reflexivity|]. intros m Hm. destruct (A m Hm) as [K|[K|K]]; auto. apply firstn_tail_In in K as [K|K]; [discriminate|auto].
  - apply app_cons_inv in E as [(-> & [= ->] & ->)|(F' & -> & ->)].
    + left. exists [Body n], k0. split; [reflexivity|]. intros m Hm. rewrite in_app_iff. destruct (A m Hm) as [K|[K|K]]; auto.
      apply firstn_tail_In' in K as [[= ->]|K]; [left; right; now left|auto].
    + left. exists (Body n :: Once k0 :: F'), k. split; [reflexivity|]. intros m Hm. rewrite in_app_iff. destruct (A m Hm) as [K|[K|K]]; auto.
      apply firstn_tail_In in K as [[= ->]|K]; [left; right; now left|auto].
  - apply app_cons_inv in E as [(-> & [= ->] & ->)|(F' & -> & ->)].
    + right. split; [reflexivity|exact A].
    + left. exists F', k. split; [reflexivity|exact A].
  - apply app_cons_inv in E as [(-> & [=] & _)|(F' & -> & ->)]. left. exists F', k. auto.
  - apply app_cons_inv in E as [(-> & [=] & _)|(F' & -> & ->)]. left. exists (Wait f (length rd) false cu :: Body n :: F'), k. auto.
  - apply app_cons_inv in E as [(-> & [=] & _)|(F' & -> & ->)]. left. exists (Once (length rd) :: Wait f nt true t :: F'), k. auto.
  - apply app_cons_inv in E as [(-> & [=] & _)|(F' & -> & ->)]. left. exists F', k. split; [reflexivity|].
    intros m Hm. destruct (A m Hm) as [K|[K|K]]; auto. right. right. unfold padded. now apply firstn_app_In.
  - left. exists F, k. split; [auto|]. intros m Hm. destruct (A m Hm) as [K|[K|K]]; auto. right. right. now apply firstn_app_In.
  - left. exists F, k. split; [auto|]. intros m Hm. destruct (A m Hm) as [K|[K|K]]; [auto|right; left; now right|].
    apply (firstn_cancel m n) in K as [->|K]; [right; left; now left|auto].
  - left. exists F, k. auto.
  - left. exists F, k. auto.
Qed.
Lemma round_ends S a b : lstar_above task_of S a b -> l_stack a = Once (length (l_ready a)) :: S -> l_stack b = S ->
  forall n, In (Real n) (l_ready a) -> In n (l_log b) \/ In n (l_cancelled b).
Proof.
  intros H E0 E n Hn. assert (K : in_round (l_ready a) S b).
  { clear E Hn n. induction H as [s|a b c H IH Hb Hs]; [|eauto using round_step]. left. exists [], (length (l_ready s)). split; [exact E0|].
    intros n Hn. right. right. now rewrite firstn_all. }
  destruct K as [(F & k & E' & _)|[_ A]].
  - rewrite E in E'. apply (f_equal (@length _)) in E'. rewrite app_length in E'. simpl in E'. lia.
  - destruct (A n Hn) as [K|[K|[]]]; auto.
Qed.

(* ------------------------------------------------------------------ *)
(** A complete wait. *)
Definition waited (f nt : nat) (S : list frame) (s : lstate) : Prop :=
  (exists F p t, l_stack s = F ++ Wait f nt p t :: S) \/
  (l_stack s = S /\ nt <= length (l_ready s) /\ (In f (l_done s) \/ l_stopping s = true)).
Lemma wait_step f nt S a b : lstep a b -> above S a -> waited f nt S a -> waited f nt S b.
Proof.
  intros H Ha [(F & p & t & E)|[E A]]; [|exfalso; eapply above_not; eauto].
  unfold waited. clear Ha.
  destruct H as [| | | | | | |f' nt' p' t' S' rd lg sp ca dn st cu cu' Hd He| | | |]; cbn [l_stack l_ready l_done l_stopping] in *; try symmetry in E.
  - destruct F; discriminate.
  - apply app_cons_inv in E as [(-> & [=] & _)|(F' & -> & ->)]. left. exists (Once k :: F'), p, t. reflexivity.
  - apply app_cons_inv in E as [(-> & [=] & _)|(F' & -> & ->)]. left. exists (Body n :: Once k :: F'), p, t. reflexivity.
  - apply app_cons_inv in E as [(-> & [=] & _)|(F' & -> & ->)]. left. exists F', p, t. reflexivity.
  - apply app_cons_inv in E as [(-> & [=] & _)|(F' & -> & ->)]. left. exists F', p, t. reflexivity.
  - apply app_cons_inv in E as [(-> & [=] & _)|(F' & -> & ->)]. left. exists (Wait f0 (length rd) false cu :: Body n :: F'), p, t. reflexivity.
  - apply app_cons_inv in E as [(-> & [= -> -> -> ->] & ->)|(F' & -> & ->)].
    + left. exists [Once (length rd)], true, t0. reflexivity.
    + left. exists (Once (length rd) :: Wait f0 nt0 true t0 :: F'), p, t. reflexivity.
  - apply app_cons_inv in E as [(-> & [= -> -> -> ->] & ->)|(F' & -> & ->)].
    + right. split; [reflexivity|]. split; [rewrite padded_length; lia|]. apply orb_true_iff in Hd as [Hd|Hd]; [left; now apply nmem_In|right].
      now apply andb_true_iff in Hd.
    + left. exists F', p, t. reflexivity.
  - left. exists F, p, t. auto.
  - left. exists F, p, t. auto.
  - left. exists F, p, t. auto.
  - left. exists F, p, t. auto.
Qed.
Lemma wait_ends f nt p t S a b : lstar_above task_of S a b -> l_stack a = Wait f nt p t :: S -> l_stack b = S ->
  nt <= length (l_ready b) /\ (In f (l_done b) \/ l_stopping b = true).
Proof.
  intros H E0 E. assert (K : waited f nt S b).
  { clear E. induction H as [s|a b c H IH Hb Hs]; [|eauto using wait_step]. left. exists [], p, t. exact E0. }
  destruct K as [(F & p' & t' & E')|[_ A]]; [|exact A].
  rewrite E in E'. apply (f_equal (@length _)) in E'. rewrite app_length in E'. simpl in E'. lia.
Qed.
Lemma current_body s n S : inv s -> l_stack s = Body n :: S -> l_current s = task_of n.
Proof.
  unfold inv. intros I E. rewrite E in I. inversion I as [? H E3 E4| |]; subst; [now apply low_not_body in H|congruence].
Qed.
End Proofs.
