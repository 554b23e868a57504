(** The comparison functions decide the precedence relation. *)
From Verif Require Import Base Model_Semver Spec_Semver.
Open Scope string_scope.

Lemma ascii_cmp c d : Ascii.compare c d = N.compare (N_of_ascii c) (N_of_ascii d).
Proof. reflexivity. Qed.
Lemma ascii_N_inj c d : N_of_ascii c = N_of_ascii d -> c = d.
Proof. intros H. rewrite <- (ascii_N_embedding c), <- (ascii_N_embedding d), H. reflexivity. Qed.

Lemma str_cmp_lt s : forall t, String.compare s t = Lt <-> str_lt s t.
Proof.
  induction s as [|c s IH]; intros [|d t]; simpl.
  - split; [discriminate|inversion 1].
  - split; [constructor|reflexivity].
  - split; [discriminate|inversion 1].
  - rewrite ascii_cmp. destruct (N.compare_spec (N_of_ascii c) (N_of_ascii d)) as [E|E|E].
    + apply ascii_N_inj in E. subst d. rewrite IH. split; [apply sl_tail|].
      inversion 1; subst; [lia|assumption].
    + split; [intros _; apply sl_head; assumption|reflexivity].
    + split; [discriminate|]. inversion 1; subst; lia.
Qed.
Lemma str_cmp_eq s t : String.compare s t = Eq <-> s = t.
Proof.
  split; [apply String.compare_eq_iff|intros <-].
  induction s as [|c s IH]; simpl; [reflexivity|]. rewrite ascii_cmp, N.compare_refl. exact IH.
Qed.

Lemma then_lt c d : then_cmp c d = Lt <-> c = Lt \/ (c = Eq /\ d = Lt).
Proof. destruct c, d; simpl; intuition discriminate. Qed.
Lemma then_eq c d : then_cmp c d = Eq <-> c = Eq /\ d = Eq.
Proof. destruct c, d; simpl; intuition discriminate. Qed.
Lemma then_opp c d : CompOpp (then_cmp c d) = then_cmp (CompOpp c) (CompOpp d).
Proof. destruct c, d; reflexivity. Qed.

Lemma ident_cmp_lt a b : ident_cmp a b = Lt <-> ident_lt a b.
Proof.
  destruct a as [n|s], b as [m|t]; simpl.
  - rewrite N.compare_lt_iff. split; [constructor; assumption|inversion 1; assumption].
  - split; [constructor|reflexivity].
  - split; [discriminate|inversion 1].
  - rewrite str_cmp_lt. split; [constructor; assumption|inversion 1; assumption].
Qed.
Lemma ident_cmp_eq a b : ident_cmp a b = Eq <-> a = b.
Proof.
  destruct a as [n|s], b as [m|t]; simpl; try (split; discriminate).
  - rewrite N.compare_eq_iff. split; [intros ->; reflexivity|intros [= ->]; reflexivity].
  - rewrite str_cmp_eq. split; [intros ->; reflexivity|intros [= ->]; reflexivity].
Qed.
Lemma idents_cmp_eq p : forall q, idents_cmp p q = Eq <-> p = q.
Proof.
  induction p as [|a p IH]; intros [|b q]; simpl; try (split; [discriminate||reflexivity|discriminate||reflexivity]).
  rewrite then_eq, ident_cmp_eq, IH. split; [intros [-> ->]; reflexivity|intros [= -> ->]; auto].
Qed.
Lemma idents_cmp_lt p : forall q, idents_cmp p q = Lt <-> idents_lt p q.
Proof.
  induction p as [|a p IH]; intros [|b q]; simpl.
  - split; [discriminate|inversion 1].
  - split; [constructor|reflexivity].
  - split; [discriminate|inversion 1].
  - rewrite then_lt, ident_cmp_lt, ident_cmp_eq, IH. split.
    + intros [H|[-> H]]; [apply isl_head|apply isl_tail]; assumption.
    + inversion 1; subst; auto.
Qed.
Lemma pre_cmp_lt p q : pre_cmp p q = Lt <-> pre_lt p q.
Proof.
  unfold pre_lt. destruct p as [|a p], q as [|b q].
  - simpl. intuition discriminate.
  - simpl. intuition (try discriminate; congruence).
  - simpl. split; [intros _; left; split; [discriminate|reflexivity]|reflexivity].
  - change (pre_cmp (a :: p) (b :: q)) with (idents_cmp (a :: p) (b :: q)). rewrite idents_cmp_lt.
    split; [intros H; right; repeat split; try discriminate; exact H|intros [[_ H]|(_ & _ & H)]; [discriminate|exact H]].
Qed.
Lemma pre_cmp_eq p q : pre_cmp p q = Eq <-> p = q.
Proof.
  destruct p as [|a p], q as [|b q]; try (simpl; intuition discriminate). apply idents_cmp_eq.
Qed.

Lemma version_cmp_lt a b : version_cmp a b = Lt <-> vlt a b.
Proof.
  unfold version_cmp, vlt. rewrite !then_lt, !N.compare_lt_iff, !N.compare_eq_iff, pre_cmp_lt. tauto.
Qed.
Lemma version_cmp_eq a b : version_cmp a b = Eq <-> veq a b.
Proof. unfold version_cmp, veq. rewrite !then_eq, !N.compare_eq_iff, pre_cmp_eq. tauto. Qed.

Lemma ident_cmp_opp a b : ident_cmp a b = CompOpp (ident_cmp b a).
Proof. destruct a, b; simpl; try reflexivity; [apply N.compare_antisym|apply String.compare_antisym]. Qed.
Lemma idents_cmp_opp p : forall q, idents_cmp p q = CompOpp (idents_cmp q p).
Proof.
  induction p as [|a p IH]; intros [|b q]; try reflexivity. simpl. rewrite then_opp, <- IH, <- ident_cmp_opp. reflexivity.
Qed.
Lemma version_cmp_opp a b : version_cmp a b = CompOpp (version_cmp b a).
Proof.
  unfold version_cmp. rewrite !then_opp, <- !N.compare_antisym. do 3 f_equal.
  destruct (v_pre a) as [|x p], (v_pre b) as [|y q]; try reflexivity. apply idents_cmp_opp.
Qed.
Lemma version_cmp_gt a b : version_cmp a b = Gt <-> vlt b a.
Proof. rewrite version_cmp_opp, <- version_cmp_lt. destruct (version_cmp b a); simpl; intuition discriminate. Qed.

Lemma version_gtb_spec a b : version_gtb a b = true <-> vlt b a.
Proof. unfold version_gtb. rewrite <- version_cmp_gt. destruct (version_cmp a b); intuition discriminate. Qed.
Lemma version_ltb_spec a b : version_ltb a b = true <-> vlt a b.
Proof. unfold version_ltb. rewrite <- version_cmp_lt. destruct (version_cmp a b); intuition discriminate. Qed.
Lemma version_eqb_spec a b : version_eqb a b = true <-> veq a b.
Proof. unfold version_eqb. rewrite <- version_cmp_eq. destruct (version_cmp a b); intuition discriminate. Qed.
Lemma veq_refl a : veq a a.
Proof. repeat split. Qed.
Lemma veq_sym a b : veq a b -> veq b a.
Proof. unfold veq. intuition congruence. Qed.
Lemma vlt_total a b : vlt a b \/ veq a b \/ vlt b a.
Proof. rewrite <- version_cmp_lt, <- version_cmp_eq, <- version_cmp_gt. destruct (version_cmp a b); auto. Qed.
Lemma vlt_irrefl a b : vlt a b -> ~ veq a b.
Proof. rewrite <- version_cmp_lt, <- version_cmp_eq. congruence. Qed.
Lemma vlt_asym a b : vlt a b -> ~ vlt b a.
Proof. rewrite <- version_cmp_lt, <- version_cmp_gt. congruence. Qed.
Lemma str_lt_trans a : forall b c, str_lt a b -> str_lt b c -> str_lt a c.
Proof.
  induction a as [|x a IH]; intros b c H K.
  - inversion H; subst. inversion K; subst; constructor.
  - inversion H as [|? y ? t L|? ? t L]; subst; inversion K; subst; try (apply sl_head; lia).
    apply sl_tail. eauto.
Qed.
Lemma ident_lt_trans a b c : ident_lt a b -> ident_lt b c -> ident_lt a c.
Proof.
  intros H K. inversion H; subst; inversion K; subst; constructor; try lia. eauto using str_lt_trans.
Qed.
Lemma idents_lt_trans p : forall q r, idents_lt p q -> idents_lt q r -> idents_lt p r.
Proof.
  induction p as [|a p IH]; intros q r H K.
  - inversion H; subst. inversion K; subst; constructor.
  - inversion H; subst; inversion K; subst; try solve [apply isl_head; eauto using ident_lt_trans]. apply isl_tail. eauto.
Qed.
Lemma vlt_trans a b c : vlt a b -> vlt b c -> vlt a c.
Proof.
  assert (P : forall p q r, pre_lt p q -> pre_lt q r -> pre_lt p r).
  { unfold pre_lt. intros p q r [[Hp ->]|(Hp & Hq & H)] [[Hq' ->]|(Hq' & Hr & K)]; try tauto.
    right. repeat split; try assumption. eauto using idents_lt_trans. }
  unfold vlt. intros [A|[(E & A)|[(E & E1 & A)|(E & E1 & E2 & A)]]] [B|[(F & B)|[(F & F1 & B)|(F & F1 & F2 & B)]]];
    try (left; lia); try (right; left; lia); try (right; right; left; lia).
  right; right; right. repeat split; try congruence. eauto.
Qed.
