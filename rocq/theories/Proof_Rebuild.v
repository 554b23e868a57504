(** Proofs about Model_Rebuild. *)
From Verif Require Import Base Model_Rebuild Spec_Rebuild.
Open Scope string_scope.
Open Scope list_scope.

Lemma is_in_spec : forall u l, is_in u l = true <-> In u l.
Proof.
  intros u l. unfold is_in. rewrite existsb_exists. split.
  - intros [x [H E]]. apply String.eqb_eq in E. now subst.
  - intros H. exists u. split; auto. apply String.eqb_refl.
Qed.
Lemma live_in : forall l u, In u (live l) <-> exists r, In r l /\ r_urn r = u /\ r_delete r = false.
Proof.
  intros l u. unfold live. rewrite in_map_iff. split.
  - intros [r [E H]]. apply filter_In in H as [H D]. exists r. repeat split; auto. now apply Bool.negb_true_iff.
  - intros [r [H [E D]]]. exists r. split; auto. apply filter_In. split; auto. now rewrite D.
Qed.
Lemma live_cons : forall r l, live (r :: l) = if r_delete r then live l else r_urn r :: live l.
Proof. intros r l. unfold live. cbn. now destruct (r_delete r). Qed.

(* ---------------------------------------------------------------- *)
(** What [verify] checks. *)
Definition good (before : list res) (r : res) : Prop :=
  (r_parent r = "" \/ exists q, In q before /\ r_urn q = r_parent r)
  /\ (forall d, In d (r_deps r) -> exists q, In q before /\ r_urn q = d)
  /\ (forall urn id, r_provider r = Some (urn, id) -> exists q, In q (before ++ [r]) /\ r_kind q = true /\ r_urn q = urn /\ r_id q = id)
  /\ (r_delete r = false -> forall q, In q before -> r_urn q <> r_urn r).

Lemma same_reference_spec : forall p q, same_reference p q = true <-> p = q.
Proof.
  intros [a b] [c d]. unfold same_reference. cbn. rewrite Bool.andb_true_iff, !String.eqb_eq.
  split; [intros [-> ->]; auto | intros E; inversion E; auto].
Qed.

Lemma verify_good : forall l pre urns provs,
  (forall u, In u urns <-> exists q, In q pre /\ r_urn q = u) ->
  (forall u i, In (u, i) provs <-> exists q, In q pre /\ r_kind q = true /\ r_urn q = u /\ r_id q = i) ->
  (verify urns provs l = true <-> forall b r a, l = b ++ r :: a -> good (pre ++ b) r).
Proof.
  induction l as [|r l IH]; intros pre urns provs HU HP.
  - cbn. split; auto. intros _ b r a E. destruct b; discriminate.
  - set (provs' := if r_kind r then (r_urn r, r_id r) :: provs else provs).
    assert (HU' : forall u, In u (r_urn r :: urns) <-> exists q, In q (pre ++ [r]) /\ r_urn q = u).
    { intros u. cbn. rewrite HU. split.
      - intros [E|[q [H E]]]; [exists r | exists q]; split; auto; apply in_or_app; cbn; auto.
      - intros [q [H E]]. apply in_app_or in H as [H|[<-|[]]]; eauto. }
    assert (HP' : forall u i, In (u, i) provs' <-> exists q, In q (pre ++ [r]) /\ r_kind q = true /\ r_urn q = u /\ r_id q = i).
    { intros u i. unfold provs'. split.
      - intros H. assert (H' : (r_kind r = true /\ r_urn r = u /\ r_id r = i) \/ In (u, i) provs).
        { destruct (r_kind r); auto. destruct H as [H|H]; auto. inversion H; auto. }
        destruct H' as [H'|H'].
        + exists r. split; auto. apply in_or_app; cbn; auto.
        + apply HP in H' as [q [H1 H2]]. exists q. split; auto. apply in_or_app; auto.
      - intros [q [H1 [H2 [H3 H4]]]]. apply in_app_or in H1 as [H1|[<-|[]]].
        + assert (In (u, i) provs) by (apply HP; eauto). destruct (r_kind r); cbn; auto.
        + rewrite H2, H3, H4. cbn; auto. }
    assert (HR : match r_provider r with None => true | Some ref => existsb (same_reference ref) provs' end
                 && (String.eqb (r_parent r) "" || is_in (r_parent r) urns)
                 && forallb (fun d => is_in d urns) (r_deps r)
                 && negb (is_in (r_urn r) urns && negb (r_delete r)) = true <-> good pre r).
    { unfold good. rewrite !Bool.andb_true_iff, Bool.orb_true_iff, String.eqb_eq, is_in_spec, HU, forallb_forall.
      split.
      - intros [[[A B] C] D]. split; [exact B|]. split; [intros d Hd; apply HU, is_in_spec; auto|]. split.
        + intros u i E. rewrite E in A. apply existsb_exists in A as [x [A1 A2]].
          apply same_reference_spec in A2. subst x. apply HP'. exact A1.
        + intros F q Hq E. rewrite F in D. cbn in D. rewrite Bool.andb_true_r in D.
          apply Bool.negb_true_iff in D. assert (X : is_in (r_urn r) urns = true) by (apply is_in_spec, HU; eauto).
          congruence.
      - intros [A [B [C D]]]. split; [split; [split|]|].
        + destruct (r_provider r) as [[u i]|]; auto. apply existsb_exists. exists (u, i).
          split; [apply HP'; apply C; auto | now apply same_reference_spec].
        + exact A.
        + intros d Hd. apply is_in_spec, HU. auto.
        + apply Bool.negb_true_iff. destruct (r_delete r); [now rewrite Bool.andb_false_r|].
          cbn. rewrite Bool.andb_true_r. apply Bool.not_true_iff_false. rewrite is_in_spec, HU.
          intros [q [Hq E]]. now apply (D eq_refl q Hq). }
    cbn [verify]. cbv zeta. fold provs'. rewrite Bool.andb_true_iff, HR, (IH (pre ++ [r]) _ _ HU' HP').
    split.
    + intros [G H] b r0 a E. destruct b as [|b0 b]; cbn in E; inversion E; subst.
      * now rewrite app_nil_r.
      * specialize (H b r0 a eq_refl). now rewrite <- app_assoc in H.
    + intros H. split.
      * specialize (H [] r l eq_refl). now rewrite app_nil_r in H.
      * intros b r0 a E. subst l. specialize (H (r :: b) r0 a eq_refl). now rewrite <- app_assoc.
Qed.
Lemma verify_usable : forall l, verify [] [] l = true <-> usable l.
Proof.
  intros l. unfold usable. rewrite (verify_good l [] [] []).
  - reflexivity.
  - intros u; split; [intros [] | intros [q [[] _]]].
  - intros u i; split; [intros [] | intros [q [[] _]]].
Qed.

(* ---------------------------------------------------------------- *)
(** What steps leave alone. *)
Definition shape (r : res) (o : option res) : Prop :=
  match o with
  | None => r_kind r = false
  | Some r' => r_urn r' = r_urn r /\ r_kind r' = r_kind r /\ r_delete r' = r_delete r /\ r_parent r' = r_parent r
               /\ r_deps r' = r_deps r /\ r_provider r' = r_provider r /\ (r_kind r = true -> r_id r' = r_id r)
  end.
Lemma shape_refl : forall r, shape r (Some r).
Proof. intros r. cbn. auto 10. Qed.
Lemma new_state_shape : forall r d e, r_kind r = false -> shape r (new_state r d e).
Proof.
  intros r d e K. unfold new_state. destruct (d_outputs d); cbn; auto.
  repeat (split; auto). congruence.
Qed.
Lemma apply_shape : forall b r a, shape r (fst (apply_step b r a)).
Proof.
  intros b r a. unfold apply_step.
  destruct (negb (r_custom r) || r_kind r || r_pending r) eqn:E; [apply shape_refl|].
  apply Bool.orb_false_iff in E as [E _]. apply Bool.orb_false_iff in E as [_ K].
  destruct (provider_read b r a) as [[d p] t].
  destruct t; try destruct p; cbn [fst]; auto using new_state_shape, shape_refl.
Qed.
Lemma execute_shape : forall b r a, shape r (fst (execute b r a)).
Proof.
  intros b r [a|]; [|apply shape_refl]. unfold execute.
  pose proof (apply_shape b r a) as H. destruct (apply_step b r a) as [[n|] f]; cbn in *; auto.
Qed.
Lemma steps_shape : forall t acc ans l i, Forall2 shape l (map fst (steps t acc ans i l)).
Proof.
  intros t acc ans l. induction l as [|r l IH]; intros i; cbn; constructor; auto.
  destruct (targeted t r); [apply execute_shape | apply shape_refl].
Qed.

(* ---------------------------------------------------------------- *)
(** What is left can be used. *)
Lemma repair_live : forall l os refs, Forall2 shape l os -> forall u, In u (live (repair refs os)) -> In u (live l).
Proof.
  intros l os refs H. revert refs. induction H as [|r o l os S H IH]; intros refs u HU; [exact HU|].
  destruct o as [r'|]; cbn [repair] in HU.
  - cbn in S. destruct S as [U [_ [D _]]]. rewrite live_cons in HU |- *. cbn in HU. rewrite D in HU.
    destruct (r_delete r); eauto. destruct HU as [<-|HU]; [left; auto | right; eauto].
  - apply IH in HU. rewrite live_cons. destruct (r_delete r); cbn; auto.
Qed.
Lemma verify_live : forall l urns provs u, verify urns provs l = true -> In u urns -> ~ In u (live l).
Proof.
  induction l as [|r l IH]; intros urns provs u V HU; [intros []|].
  cbn in V. apply Bool.andb_true_iff in V as [V V']. apply Bool.andb_true_iff in V as [_ V].
  rewrite live_cons. destruct (r_delete r) eqn:D.
  - apply (IH _ _ u V'). now right.
  - intros [E|HL].
    + subst u. apply is_in_spec in HU. now rewrite HU in V.
    + apply (IH _ _ u V'); [now right | exact HL].
Qed.

Lemma rebuild_verifies : forall l os urns provs refs provs' avail lives,
  Forall2 shape l os -> verify urns provs l = true ->
  (forall x, In x provs -> In x provs') ->
  (forall u, In u refs -> In u urns) ->
  (forall u, In u lives -> In u refs \/ In u (live (repair refs os))) ->
  (forall u p, In (u, p) avail -> p = "" \/ In p refs) ->
  verify refs provs' (undangle lives avail (repair refs os)) = true.
Proof.
  intros l os urns provs refs provs' avail lives H.
  revert urns provs refs provs' avail.
  induction H as [|r o l os S H IH]; intros urns provs refs provs' avail V HP HR HL HA; [reflexivity|].
  pose proof V as V0. cbn in V. apply Bool.andb_true_iff in V as [V V'].
  destruct o as [r'|]; cbn [repair].
  - cbn in S. destruct S as [U [K [D [P [DE [PR ID]]]]]].
    apply Bool.andb_true_iff in V as [V VD]. apply Bool.andb_true_iff in V as [V VDE].
    apply Bool.andb_true_iff in V as [VPR VP].
    set (p := if is_in (r_parent r') lives then r_parent r'
              else match look (r_parent r') avail with Some p => p | None => "" end).
    assert (Hp : p = "" \/ In p refs).
    { unfold p. destruct (is_in (r_parent r') lives) eqn:EL.
      - apply is_in_spec in EL. rewrite P in *. apply Bool.orb_true_iff in VP as [VP|VP].
        + left. now apply String.eqb_eq.
        + right. apply is_in_spec in VP. destruct (HL _ EL) as [?|HL']; auto. exfalso.
          apply (verify_live _ _ _ _ V0 VP).
          apply (repair_live (r :: l) (Some r' :: os) refs); [constructor; auto; cbn; auto 10 | exact HL'].
      - destruct (look (r_parent r') avail) eqn:EA; auto.
        apply (HA (r_parent r')). clear - EA. induction avail as [|[a b] avail IH]; cbn in *; [discriminate|].
        destruct (String.eqb (r_parent r') a) eqn:E; auto. apply String.eqb_eq in E. inversion EA; subst; auto. }
    cbn [undangle]. cbn [verify with_parent with_deps r_kind r_urn r_id r_provider r_parent r_deps r_delete].
    fold p. repeat rewrite Bool.andb_true_iff. repeat split.
    + rewrite PR. destruct (r_provider r) as [ref|]; auto. apply existsb_exists in VPR as [x [X1 X2]].
      apply existsb_exists. exists x. split; auto. rewrite K. destruct (r_kind r); auto.
      destruct X1 as [<-|X1]; [left; rewrite U, ID; auto | right; auto].
    + apply Bool.orb_true_iff. destruct Hp as [->|Hp]; [left; reflexivity | right; now apply is_in_spec].
    + apply forallb_forall. intros d Hd. now apply filter_In in Hd.
    + rewrite U, D. apply Bool.negb_true_iff in VD. apply Bool.negb_true_iff.
      destruct (is_in (r_urn r) refs) eqn:E; auto. apply is_in_spec, HR, is_in_spec in E. now rewrite E in VD.
    + apply IH with (urns := r_urn r :: urns) (provs := if r_kind r then (r_urn r, r_id r) :: provs else provs); auto.
      * intros x HX. rewrite K. destruct (r_kind r); auto. destruct HX as [<-|HX]; [left; rewrite U, ID; auto | right; auto].
      * intros u [<-|HX]; [left; auto | right; auto].
      * intros u HU. destruct (HL u HU) as [HU'|HU']; [left; now right|].
        cbn [repair] in HU'. rewrite live_cons in HU'. cbn [with_deps r_delete r_urn] in HU'. destruct (r_delete r'); auto.
        destruct HU' as [<-|HU']; [left; now left | auto].
      * intros u q [E|HX].
        -- inversion E. subst q. destruct Hp; [auto | right; now right].
        -- destruct (HA u q HX); [auto | right; now right].
  - cbn in S. apply IH with (urns := r_urn r :: urns) (provs := if r_kind r then (r_urn r, r_id r) :: provs else provs); auto.
    + rewrite S. auto.
    + intros u HX. right. auto.
Qed.
Theorem refresh_verifies : forall t acc ans l, verify [] [] l = true -> verify [] [] (fst (refresh t acc ans l)) = true.
Proof.
  intros t acc ans l V. unfold refresh. destruct (forallb _ t); cbn; auto.
  apply rebuild_verifies with (l := l) (urns := []) (provs := []); auto.
  apply steps_shape.
Qed.
