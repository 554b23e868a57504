(** Proofs about Model_Along. *)
From Verif Require Import Base Model_Deletes Spec_Deletes Proof_Deletes Proof_DeletesTargets Model_Along Spec_Along.
Open Scope string_scope.
Open Scope list_scope.

Lemma is_in_In : forall u l, is_in u l = true <-> In u l.
Proof. intros u l. unfold is_in. rewrite existsb_exists. split; [intros [x [A B]]; apply String.eqb_eq in B; now subst | intros H; exists u; split; auto; apply String.eqb_refl]. Qed.

Section Proof.
  Variable V : Type.
  Variables (D : details V) (s : list state) (registered : list string).
  Hypothesis DEPS : forall d r k u, nth_error s d = Some r -> In u (d_deps D d k) -> In u (s_deps r).
  Hypothesis CONS : consistent s.

  Lemma affected_In : forall R d k, affected D R d k = true <-> exists u, In u (d_deps D d k) /\ In u R.
  Proof. intros R d k. unfold affected. rewrite existsb_exists. split; intros [u [A B]]; exists u; split; auto; now apply is_in_In. Qed.

  (** What is asked of one resource, given the names of what is replaced. *)
  Definition ok (R : list string) (d : nat) : Prop :=
    exists r, nth_error s d = Some r /\ ~ In (s_urn r) registered /\ s_custom r = true /\ s_external r = false
    /\ ((s_provider r <> "" /\ In (s_provider r) R) \/ requires D R d = true).
  Definition walk (root : string) (places : list nat) (found replaced : list string) : list nat :=
    replacements (requires D) s replaced (scan s root registered false places found).

  Lemma walk_bounds : forall root n p found replaced d, In d (walk root (seq p n) found replaced) -> p <= d < p + n.
  Proof.
    intros root. induction n as [|n IH]; intros p found R d; unfold walk; cbn; [intros []|].
    assert (REST : forall f' R', In d (replacements (requires D) s R' (scan s root registered false (seq (S p) n) f')) -> p <= d < p + S n).
    { intros f' R' H. apply IH in H. lia. }
    destruct (is_dependent s root registered false found p); eauto. cbn. destruct (match nth_error s p with Some _ => _ | None => _ end); eauto.
    intros [<-|H]; [lia|eauto].
  Qed.
  Lemma requires_dep : forall R d, requires D R d = true -> exists k u, In u (d_deps D d k) /\ In u R.
  Proof.
    intros R d H. unfold requires in H. destruct (existsb _ _) eqn:E; [|discriminate].
    apply existsb_exists in E as [[k v] [_ B]]. apply affected_In in B as [u B]. eauto.
  Qed.
  Lemma ok_dependent : forall root R found d, incl R found -> ok R d -> is_dependent s root registered false found d = true.
  Proof.
    intros root R found d I [r [N [G [_ [_ H]]]]]. unfold is_dependent. rewrite N.
    destruct (is_in (s_urn r) registered) eqn:Q; [apply is_in_In in Q; contradiction|]. cbn [andb]. apply Bool.orb_true_iff. destruct H as [[A B]|H].
    - right. apply Bool.andb_true_iff. split; [apply Bool.negb_true_iff, String.eqb_neq; exact A | apply is_in_In; auto].
    - left. apply requires_dep in H as [k [u [A B]]]. apply existsb_exists. exists u. split; [eapply DEPS; eauto | apply is_in_In; auto].
  Qed.
  Lemma ok_test : forall root R found d, is_dependent s root registered false found d = true ->
    match nth_error s d with
    | None => false
    | Some r => if negb (s_custom r) || s_external r then false
                else if negb (String.eqb (s_provider r) "") && is_in (s_provider r) R then true else requires D R d
    end = true <-> ok R d.
  Proof.
    intros root R found d ID. unfold is_dependent in ID. unfold ok. destruct (nth_error s d) as [r|] eqn:N; [|discriminate].
    assert (G : ~ In (s_urn r) registered). { intros H. apply is_in_In in H. rewrite H in ID. discriminate. }
    split.
    - intros H. exists r. split; auto. split; auto. destruct (s_custom r); [|discriminate]. destruct (s_external r); [discriminate|].
      cbn in H. split; auto. split; auto. destruct (negb (String.eqb (s_provider r) "") && is_in (s_provider r) R) eqn:Q; [left|now right].
      apply Bool.andb_true_iff in Q as [A B]. split; [apply String.eqb_neq, Bool.negb_true_iff; exact A | now apply is_in_In].
    - intros [r' [E [_ [C [X H]]]]]. inversion E; subst r'. rewrite C, X. cbn. destruct H as [[A B]|H].
      + apply String.eqb_neq in A. rewrite A. apply is_in_In in B. rewrite B. reflexivity.
      + rewrite H. now destruct (negb (String.eqb (s_provider r) "") && is_in (s_provider r) R).
  Qed.
  Lemma walk_spec : forall root n p found R0, incl R0 found ->
    forall d, p <= d < p + n ->
    exists R, (forall u, In u R <-> In u R0 \/ exists j, j < d /\ In j (walk root (seq p n) found R0) /\ urn_at s j = u)
      /\ (In d (walk root (seq p n) found R0) <-> ok R d).
  Proof.
    intros root. induction n as [|n IH]; intros p found R0 I d B; [lia|].
    assert (STEP : (walk root (seq p (S n)) found R0 = p :: walk root (seq (S p) n) (urn_at s p :: found) (urn_at s p :: R0) /\ ok R0 p)
      \/ (exists f', incl R0 f' /\ walk root (seq p (S n)) found R0 = walk root (seq (S p) n) f' R0 /\ ~ ok R0 p)).
    { unfold walk. cbn [seq scan]. destruct (is_dependent s root registered false found p) eqn:ID.
      - cbn [replacements]. pose proof (ok_test root R0 found p ID) as T.
        destruct (match nth_error s p with Some _ => _ | None => _ end).
        + left. split; auto. now apply T.
        + right. exists (urn_at s p :: found). split; [intros u U; right; auto|]. split; auto. intros H. apply T in H. discriminate.
      - right. exists found. split; auto. split; auto. intros H. rewrite (ok_dependent root R0 found p I H) in ID. discriminate. }
    destruct STEP as [[E O]|[f' [I' [E O]]]]; rewrite E.
    - destruct (Nat.eq_dec d p) as [->|NE].
      + exists R0. split; [|split; [auto | intros _; now left]]. intros u. split; auto. intros [H|[j [L [[<-|H] _]]]]; auto; [lia|].
        apply walk_bounds in H. lia.
      + destruct (IH (S p) (urn_at s p :: found) (urn_at s p :: R0)) with (d := d) as [R [A C]]; [|lia|].
        { intros u [U|U]; [now left | right; auto]. }
        exists R. split.
        * intros u. rewrite A. cbn. split.
          -- intros [[H|H]|[j [L [H U]]]]; auto; right; [exists p; repeat split; auto; lia | exists j; auto].
          -- intros [H|[j [L [[<-|H] U]]]]; auto. right. exists j; auto.
        * rewrite <- C. cbn. split; [intros [H|H]; [congruence|auto] | auto].
    - destruct (Nat.eq_dec d p) as [->|NE].
      + exists R0. split.
        * intros u. split; auto. intros [H|[j [L [H _]]]]; auto. apply walk_bounds in H. lia.
        * split; [intros H; apply walk_bounds in H; lia | intros H; contradiction].
      + apply IH; [auto | lia].
  Qed.

  (** Names. *)
  Lemma urn_at_eq : forall j b, nth_error s j = Some b -> urn_at s j = s_urn b.
  Proof. intros j b H. unfold urn_at. now rewrite H. Qed.
  Lemma same_place : forall i j a b, nth_error s i = Some a -> nth_error s j = Some b -> s_urn a = s_urn b -> i = j.
  Proof.
    intros i j a b A B E. destruct CONS as [ND _]. eapply (proj1 (NoDup_nth_error (map s_urn s)) ND).
    - rewrite map_length. apply nth_error_Some. congruence.
    - rewrite !nth_error_map, A, B. cbn. congruence.
  Qed.
  Lemma named_before : forall d r u j b, nth_error s d = Some r -> In u (s_deps r) \/ (s_provider r = u /\ u <> "") ->
    nth_error s j = Some b -> s_urn b = u -> j < d.
  Proof.
    intros d r u j b N H J U. destruct CONS as [_ C]. destruct (C d r N) as [_ C2].
    destruct (C2 u) as [j' [b' [L [J' U']]]]; [tauto|]. rewrite (same_place j j' b b' J J'); congruence.
  Qed.

  Variable root : nat.
  (** Only what is recorded before matters. *)
  Lemma must_go_before : forall (X : nat -> Prop) (R : list string) d,
    (forall u, In u R <-> u = urn_at s root \/ exists j, j < d /\ X j /\ urn_at s j = u) ->
    (forall j, X j -> j < length s) -> root < length s ->
    must_go V D s root registered X d <-> root < d /\ ok R d.
  Proof.
    intros X R d RS XB RB.
    assert (GO : forall r u, nth_error s d = Some r -> In u (s_deps r) \/ (s_provider r = u /\ u <> "") -> goes s root X u <-> In u R).
    { intros r u N H. rewrite RS. split.
      - intros [j [b [[->|J] [B U]]]]; [left; rewrite (urn_at_eq _ _ B); auto|]. right. exists j. split; [eapply named_before; eauto|]. split; auto.
        rewrite (urn_at_eq _ _ B). exact U.
      - intros [->|[j [L [J U]]]].
        + destruct (nth_error s root) as [b|] eqn:B; [|apply nth_error_None in B; lia]. exists root, b. split; auto. split; auto. symmetry. apply urn_at_eq; auto.
        + specialize (XB j J). destruct (nth_error s j) as [b|] eqn:B; [|apply nth_error_None in B; lia]. exists j, b. split; auto. split; auto.
          rewrite <- (urn_at_eq _ _ B). exact U. }
    assert (CO : forall r k, nth_error s d = Some r -> comes V D s root X d k <-> affected D R d k = true).
    { intros r k N. rewrite affected_In. unfold comes. split; intros [u [A B]]; exists u; split; auto; eapply GO; eauto. }
    assert (LE : forall r l, nth_error s d = Some r -> left_of V D s root X d l <-> l = inputs_for_diff D R d).
    { intros r l N. unfold left_of, inputs_for_diff. revert l. induction (d_inputs D d) as [|[k v] m IH]; intros l; cbn.
      - split; [intros H; now inversion H | intros ->; constructor].
      - split.
        + intros H. inversion H as [|? [k' w] ? l' [E [F G]] T]; subst. cbn in *. subst k'. f_equal; [|now apply IH].
          destruct (affected D R d k) eqn:Q; f_equal; [apply F; now apply (CO r k N) | apply G; intros Z; apply (CO r k N) in Z; congruence].
        + intros ->. constructor; [|now apply IH]. cbn. split; auto. split; intros Z.
          * apply (CO r k N) in Z. now rewrite Z.
          * destruct (affected D R d k) eqn:Q; auto. exfalso. apply Z. now apply (CO r k N). }
    unfold must_go, ok. split.
    - intros [L [r [N [C [E [G H]]]]]]. split; auto. exists r. split; auto. split; auto. split; auto. split; auto. destruct H as [[A B]|[[k [v [I K]]] [l [LF DF]]]].
      + left. split; auto. eapply GO; eauto.
      + right. unfold requires. apply (LE r l N) in LF. subst l.
        replace (existsb (fun kv => affected D R d (fst kv)) (d_inputs D d)) with true; auto. symmetry. apply existsb_exists. exists (k, v). split; auto.
        now apply (CO r k N).
    - intros [L [r [N [G [C [E H]]]]]]. split; auto. exists r. split; auto. split; auto. split; auto. split; auto. destruct H as [[A B]|H].
      + left. split; auto. eapply GO; eauto.
      + right. unfold requires in H. destruct (existsb _ _) eqn:Q; [|discriminate]. apply existsb_exists in Q as [[k v] [I K]]. split.
        * exists k, v. split; auto. now apply (CO r k N).
        * exists (inputs_for_diff D R d). split; auto. now apply (LE r _ N).
  Qed.
  Lemma replacements_fixpoint : root < length s ->
    forall d, In d (dependent_replacements (requires D) s registered root)
      <-> must_go V D s root registered (fun j => In j (dependent_replacements (requires D) s registered root)) d.
  Proof.
    intros RB d. set (W := dependent_replacements (requires D) s registered root).
    assert (WE : W = walk (urn_at s root) (seq (S root) (length s - S root)) [urn_at s root] [urn_at s root]) by reflexivity.
    assert (BD : forall j, In j W -> root < j < length s). { intros j J. rewrite WE in J. apply walk_bounds in J. lia. }
    destruct (Nat.lt_ge_cases root d) as [L1|L1]; [destruct (Nat.lt_ge_cases d (length s)) as [L2|L2]|].
    - destruct (walk_spec (urn_at s root) (length s - S root) (S root) [urn_at s root] [urn_at s root] (incl_refl _) d) as [R [A B]]; [lia|].
      rewrite <- WE in A, B. rewrite B. rewrite (must_go_before (fun j => In j W) R d); [tauto | | intros j J; apply BD in J; lia | auto].
      intros u. rewrite A. cbn. intuition congruence.
    - split; [intros H; apply BD in H; lia|]. intros [_ [r [N _]]]. assert (d < length s) by (apply nth_error_Some; congruence). lia.
    - split; [intros H; apply BD in H; lia|]. intros [H _]. lia.
  Qed.
  Lemma fixpoint_unique : root < length s -> forall Y : nat -> Prop, (forall d, Y d <-> must_go V D s root registered Y d) ->
    forall d, Y d <-> In d (dependent_replacements (requires D) s registered root).
  Proof.
    intros RB Y FY. change (dependent_replacements (requires D) s registered root)
      with (walk (urn_at s root) (seq (S root) (length s - S root)) [urn_at s root] [urn_at s root]).
    set (W := walk (urn_at s root) (seq (S root) (length s - S root)) [urn_at s root] [urn_at s root]).
    assert (BY : forall j, Y j -> j < length s) by (intros j J; apply FY in J as [_ [r [N _]]]; apply nth_error_Some; congruence).
    assert (BD : forall j, In j W -> root < j < length s). { intros j J. apply walk_bounds in J. lia. }
    induction d as [d IH] using lt_wf_ind.
    destruct (Nat.lt_ge_cases root d) as [L1|L1]; [destruct (Nat.lt_ge_cases d (length s)) as [L2|L2]|].
    - destruct (walk_spec (urn_at s root) (length s - S root) (S root) [urn_at s root] [urn_at s root] (incl_refl _) d) as [R [A B]]; [lia|].
      fold W in A, B. rewrite B. rewrite FY. rewrite (must_go_before Y R d); [tauto | | auto | auto].
      intros u. rewrite A. cbn. split.
      + intros [[H|[]]|[j [J [K U]]]]; auto. right. exists j. split; auto. split; auto. now apply IH.
      + intros [H|[j [J [K U]]]]; auto. right. exists j. split; auto. split; auto. now apply IH.
    - split; [intros H; apply BY in H; lia|]. intros H. apply BD in H. lia.
    - split; [intros H; apply FY in H as [H _]; lia|]. intros H. apply BD in H. lia.
  Qed.
End Proof.
