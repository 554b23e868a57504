(** Which changes make a replacement of an update. *)
From Verif Require Import Base Model_Paths Spec_Paths Proof_PathsParse.
Open Scope string_scope.
Open Scope list_scope.

Local Arguments parse : simpl never.

Lemma contains_covers p q : contains p q = true <-> covers p q.
Proof.
  split.
  - revert q. induction p as [|[n|i] p IH]; intros q E; [constructor|..]; destruct q as [|[m|j] q]; cbn in E; try discriminate.
    + apply andb_prop in E as [E1 E2]. apply orb_prop in E1 as [E1|E1]; apply String.eqb_eq in E1 as ->; [apply c_any|apply c_key]; auto.
    + rewrite orb_false_r in E. apply andb_prop in E as [E1 E2]. apply String.eqb_eq in E1 as ->. apply c_any; auto.
    + apply andb_prop in E as [E1 E2]. apply Z.eqb_eq in E1 as ->. apply c_key; auto.
  - induction 1 as [|[n|i] p q C IH|k p q C IH]; cbn; trivial.
    + rewrite String.eqb_refl, orb_true_r. exact IH.
    + rewrite Z.eqb_refl. exact IH.
Qed.

Lemma parse_all_written names paths : Forall2 written names paths -> parse_all names = Some paths.
Proof. induction 1 as [|s p names paths W F IH]; cbn [parse_all]; trivial. now rewrite (written_read _ _ W), IH. Qed.

Lemma covered paths q : existsb (fun p => contains p q) paths = true <-> exists p, In p paths /\ covers p q.
Proof. rewrite existsb_exists. split; intros (p & I & C); exists p; split; trivial; now apply contains_covers. Qed.

(** There is a change at [q], by the detailed account or by the keys that changed. *)
Definition change_at (d : diff) (q : path) : Prop :=
  (exists l s e, d_detailed d = Some l /\ In (s, e) l /\ parse s = Some q) \/ (exists s, In s (d_changed_keys d) /\ parse s = Some q).

Lemma detail_spec paths l l' : detail paths l = Some l' ->
  (existsb (fun e => snd (snd e)) l' = true <->
   existsb (fun e => snd (snd e)) l = true \/ exists s e q p, In (s, e) l /\ parse s = Some q /\ In p paths /\ covers p q).
Proof.
  revert l'. induction l as [|[s [k r]] l IH]; intros l' E; cbn [detail] in E.
  - injection E as <-. cbn. split; [discriminate|]. intros [H|(s & e & q & p & [] & _)]. exact H.
  - destruct (parse s) as [q|] eqn:P; [|discriminate]. destruct (detail paths l) as [m|]; [|discriminate]. injection E as <-. specialize (IH m eq_refl).
    cbn. rewrite !orb_true_iff, IH, covered. split.
    + intros [[->|(p & I & C)]|[H|(s' & e & q' & p & I & Q)]]; [now left; left|right|now left; right|right].
      * exists s, (k, r), q, p. auto.
      * exists s', e, q', p. auto.
    + intros [[->|H]|(s' & e & q' & p & [[= <- <-]|I] & Q & Ip & C)]; [now left; left|now right; left|..].
      * left; right. exists p. split; trivial. assert (q' = q) by congruence. now subst q'.
      * right; right. exists s', e, q', p. auto.
Qed.

Lemma replace_on_spec names paths errors d d' : Forall2 written names paths -> replace_on_changes names errors d = Some d' ->
  let init := errors = true /\ exists p, In p paths /\ covers p [Name "#initerror"] in
  (d_changes d' = true <-> d_changes d = true \/ init) /\
  (d_changes d' = true -> (replaces d' = true <-> replaces d = true \/ init \/ exists p q, In p paths /\ change_at d q /\ covers p q)).
Proof.
  intros F E init. unfold replace_on_changes in E. destruct (negb (d_changes d) && negb errors) eqn:Q.
  - injection E as <-. apply andb_prop in Q as [A B]. apply negb_true_iff in A, B. rewrite A. split; [|discriminate].
    split; [discriminate|]. intros [H|[H _]]; congruence.
  - clear Q. rewrite (parse_all_written _ _ F) in E.
    destruct (match d_detailed d with None => Some None | Some l => option_map Some (detail paths l) end) as [det|] eqn:Ed; [|discriminate].
    set (keys := filter (fun k => match parse k with None => false | Some q => existsb (fun p => contains p q) paths end) (d_changed_keys d)) in E.
    set (ini := errors && existsb (fun p => contains p [Name "#initerror"]) paths) in E.
    assert (Ii : ini = true <-> init) by (unfold ini, init; rewrite andb_true_iff, covered; tauto).
    assert (Ik : keys <> [] <-> exists s q p, In s (d_changed_keys d) /\ parse s = Some q /\ In p paths /\ covers p q).
    { split.
      - destruct keys as [|s keys'] eqn:K; [easy|]. intros _. assert (I : In s keys) by (rewrite K; now left). apply filter_In in I as [I1 I2].
        destruct (parse s) as [q|] eqn:P; [|discriminate]. apply covered in I2 as (p & Ip & C). exists s, q, p. auto.
      - intros (s & q & p & I & P & Ip & C) K. assert (I' : In s keys).
        { apply filter_In. split; trivial. rewrite P. apply covered. eauto. }
        rewrite K in I'. exact I'. }
    injection E as <-. cbn. split; [rewrite orb_true_iff, Ii; tauto|]. intros _. unfold replaces. cbn [d_detailed d_replace_keys].
    assert (Dt : match det with Some l => existsb (fun e => snd (snd e)) l = true | None => False end <->
      match d_detailed d with Some l => existsb (fun e => snd (snd e)) l = true | None => False end \/
      exists l s e q p, d_detailed d = Some l /\ In (s, e) l /\ parse s = Some q /\ In p paths /\ covers p q).
    { destruct (d_detailed d) as [l|].
      - destruct (detail paths l) as [l'|] eqn:Dl; [|discriminate]. cbn in Ed. injection Ed as <-. rewrite (detail_spec _ _ _ Dl). split.
        + intros [H|(s & e & q & p & H)]; [now left|right]. exists l, s, e, q, p. tauto.
        + intros [H|(m & s & e & q & p & [= <-] & H)]; [now left|right]. exists s, e, q, p. tauto.
      - injection Ed as <-. split; [easy|]. intros [[]|(l & s & e & q & p & H & _)]. discriminate. }
    split.
    + intro H. apply orb_prop in H as [H|H].
      * destruct ini eqn:Iq; [right; left; now apply Ii|]. assert (T : match det with Some l => existsb (fun e => snd (snd e)) l = true | None => False end) by (destruct det; [exact H|discriminate]).
        apply Dt in T as [T|(l & s & e & q & p & D & I & P & Ip & C)].
        { left. destruct (d_detailed d); [now rewrite T|easy]. }
        right; right. exists p, q. repeat split; trivial. left. exists l, s, e. auto.
      * destruct ini eqn:Iq; [right; left; now apply Ii|]. rewrite app_nil_r in H. destruct (d_replace_keys d) as [|s rk].
        { cbn in H. destruct Ik as [Ik _]. destruct Ik as (s & q & p & I & P & Ip & C); [intros K; rewrite K in H; discriminate|].
          right; right. exists p, q. repeat split; trivial. right. eauto. }
        left. now rewrite orb_true_r.
    + intros [H|[H|(p & q & Ip & [(l & s & e & D & I & P)|(s & I & P)] & C)]]; apply orb_true_iff.
      * apply orb_prop in H as [H|H].
        { left. assert (T : match det with Some l => existsb (fun e => snd (snd e)) l = true | None => False end) by (apply Dt; left; destruct (d_detailed d); [exact H|discriminate]).
          destruct det as [l|]; [|easy]. destruct ini; cbn; trivial. now rewrite existsb_app, T. }
        right. destruct (d_replace_keys d); [discriminate|reflexivity].
      * apply Ii in H. rewrite H. right. now destruct (d_replace_keys d); [destruct keys|].
      * left. assert (T : match det with Some l => existsb (fun e => snd (snd e)) l = true | None => False end) by (apply Dt; right; exists l, s, e, q, p; auto).
        destruct det as [l'|]; [|easy]. destruct ini; cbn; trivial. now rewrite existsb_app, T.
      * right. destruct (d_replace_keys d); [|reflexivity]. cbn. destruct keys eqn:K; [|reflexivity]. exfalso. apply Ik; [|reflexivity]. exists s, q, p. auto.
Qed.

Lemma detail_total paths l : (forall s e, In (s, e) l -> exists q, parse s = Some q) -> exists l', detail paths l = Some l'.
Proof.
  induction l as [|[s [k r]] l IH]; intro H; cbn [detail]; [eauto|]. destruct (H s (k, r)) as [q ->]; [now left|].
  destruct IH as [l' ->]; eauto. intros s' e I. apply (H s' e). now right.
Qed.
Lemma replace_on_total names paths errors d : Forall2 written names paths -> (forall l s e, d_detailed d = Some l -> In (s, e) l -> exists q, parse s = Some q) ->
  exists d', replace_on_changes names errors d = Some d'.
Proof.
  intros F H. unfold replace_on_changes. destruct (negb (d_changes d) && negb errors); [eauto|]. rewrite (parse_all_written _ _ F).
  destruct (d_detailed d) as [l|]; [|eauto]. destruct (detail_total paths l) as [l' ->]; [|cbn; eauto]. intros s e. now apply H.
Qed.
