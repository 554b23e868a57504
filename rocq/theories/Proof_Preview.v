(** Proofs about Model_Preview. *)
From Verif Require Import Base Model_Preview Spec_Preview.
Open Scope string_scope.
Open Scope list_scope.

Section Proof.
  Variable V : Type.
  Implicit Types p : provider V.

  Lemma look_known : forall (o : outputs V) k, look k (known o) = option_map Some (look k o).
  Proof. induction o as [|[k' v] o IH]; intros k; cbn; auto. destruct (String.eqb k k'); auto. Qed.

  (** What two operations on a resource may have to do with each other. *)
  Definition fits (configured : bool) (a b : op) : Prop :=
    match a with
    | Same => b = Same | Create => b = Create
    | Update => b = Same \/ b = Update \/ (configured = false /\ b = Replace)
    | Replace => b = Same \/ b = Update \/ b = Replace
    | Delete => False
    end.

  Section One.
    Variable p : provider V.
    Hypothesis CK : checks_steadily p.
    Hypothesis CA : careful p.
    Hypothesis TR : truthful p.
    Variable recorded : list (entry V).

    Lemma resolve_clearer : forall (i i' outs : inputs V) (outs' : outputs V),
      (forall k v, look k outs = Some (Some v) -> look k outs' = Some v) ->
      forall k, clearer (resolve true i outs k) (resolve false i' (known outs') k).
    Proof.
      intros i i' outs outs' H k. unfold resolve, clearer. destruct (look k outs) as [[v|]|] eqn:E; auto.
      right. rewrite look_known, (H k v E). reflexivity.
    Qed.

    Lemma register_fits : forall urn c c' (i i' : inputs V), (c = true -> c' = true) -> filled i i' -> c' = true ->
      let (a, outs) := register true p recorded urn c i in
      let (b, outs') := register false p recorded urn c' i' in
      fits c a b /\ forall k, clearer (resolve true i outs k) (resolve false i' outs' k).
    Proof.
      intros urn c c' i i' HC HF ->. unfold register. destruct (find_entry urn recorded) as [e|].
      - unfold checked, differs. destruct c.
        + set (j := check p (Some (e_inputs e)) i). set (j' := check p (Some (e_inputs e)) i').
          assert (FJ : filled j j') by (apply CK; auto). destruct (CA (e_outputs e) j j' FJ) as [C1 C2].
          unfold foreseen. cbn [negb].
          set (old := Some (e_inputs e, e_outputs e)).
          assert (T : forall k v o, promises p old i k v -> ends_with p old i' o -> look k o = Some v)
            by (intros k v o A B; exact (TR old i i' k v o HF A B)).
          destruct (diff p (e_outputs e) j) eqn:D.
          * rewrite (C1 eq_refl). split; [reflexivity|]. apply resolve_clearer. intros k v H. rewrite look_known in H.
            destruct (look k (e_outputs e)); cbn in H; congruence.
          * destruct (diff p (e_outputs e) j') eqn:D'; [| |now destruct (C2 eq_refl)]; cbn; (split; [auto|]); apply resolve_clearer; intros k v H;
              (apply T; [apply by_change; auto | constructor; auto]).
          * destruct (diff p (e_outputs e) j') eqn:D'; cbn; (split; [auto|]); apply resolve_clearer; intros k v H;
              (apply T; [apply by_replacement; auto | constructor; auto]).
        + unfold foreseen. cbn [negb]. destruct (diff p (e_outputs e) _); cbn; (split; [auto|]); intros k; left; reflexivity.
      - unfold checked. destruct c.
        + set (j := check p None i). set (j' := check p None i'). assert (FJ : filled j j') by (apply CK; auto).
          unfold foreseen. cbn [negb]. split; [reflexivity|]. apply resolve_clearer. intros k v H.
          apply (TR None i i' k v); [exact HF | apply by_new; exact H | constructor].
        + unfold foreseen. cbn [negb]. split; [reflexivity|]. intros k. left. reflexivity.
    Qed.

    Lemma more_cons : forall (ev ev' : env V) urn vw vw', more ev ev' -> (forall k, clearer (vw k) (vw' k)) ->
      more ((urn, vw) :: ev) ((urn, vw') :: ev').
    Proof.
      intros ev ev' urn vw vw' H C u w E. cbn in *. destruct (String.eqb u urn); [inversion E; subst; eauto | auto].
    Qed.
    Lemma more_fresh : forall (ev ev' : env V) urn vw', more ev ev' -> look urn ev = None -> more ev ((urn, vw') :: ev').
    Proof.
      intros ev ev' urn vw' H N u w E. cbn. destruct (String.eqb u urn) eqn:Q; [|auto].
      apply String.eqb_eq in Q. subst. congruence.
    Qed.

    (** What the two runs have to do with each other. *)
    Lemma run_fits : forall prog ev ev',
      (forall urn f, In (urn, f) prog -> steady f) -> NoDup (map fst prog) ->
      (forall urn f, In (urn, f) prog -> look urn ev = None) ->
      (forall urn f x c i, In (urn, f) prog -> f x = Declare c i -> (forall u vw, look u x = Some vw -> forall k, vw k <> Unknown) -> c = true /\ forall k, look k i <> Some None) ->
      (forall u vw, look u ev' = Some vw -> forall k, vw k <> Unknown) ->
      more ev ev' ->
      (forall u a, In (u, a) (run true p recorded prog ev) -> exists b c, In (u, b) (run false p recorded prog ev') /\ fits c a b
         /\ (c = true \/ exists f i x, In (u, f) prog /\ f x = Declare false i))
      /\ (forall u b, In (u, b) (run false p recorded prog ev') ->
           (exists a, In (u, a) (run true p recorded prog ev)) \/ ~ In u (map fst (run true p recorded prog ev))).
    Proof.
      assert (DEC : forall l u, (exists a, In (u, a) l) \/ ~ In u (map (@fst string op) l)).
      { intros l u. destruct (in_dec string_dec u (map fst l)) as [H|H]; auto. left.
        apply in_map_iff in H as [[u' a] [E H]]. cbn in E. subst. eauto. }
      intros prog. induction prog as [|[urn f] prog IH]; intros ev ev' ST ND FR DT KN MO.
      - cbn. split; intros ? ? [].
      - split; [|intros; apply DEC]. cbn [run map fst] in *.
        assert (ND' : NoDup (map fst prog) /\ ~ In urn (map fst prog)) by (inversion ND; auto). destruct ND' as [ND' NI].
        assert (ST' : forall u g, In (u, g) prog -> steady g) by (intros; eapply ST; right; eauto).
        assert (DT' : forall u g x c i, In (u, g) prog -> g x = Declare c i -> (forall w vw, look w x = Some vw -> forall k, vw k <> Unknown) -> c = true /\ forall k, look k i <> Some None)
          by (intros; eapply DT; eauto; right; eauto).
        assert (LIFT : forall (c : bool) u, (c = true \/ exists g i x, In (u, g) prog /\ g x = @Declare V false i) -> c = true \/ exists g i x, In (u, g) ((urn, f) :: prog) /\ g x = @Declare V false i).
        { intros c u [C|[g [i [x [A B]]]]]; auto. right. exists g, i, x. split; [now right | auto]. }
        destruct (ST urn f (or_introl eq_refl) ev ev' MO) as [S1 S2].
        destruct (f ev) as [c i| |] eqn:FE.
        + destruct (S2 c i eq_refl) as [c' [i' [FE' [HC HF]]]]. rewrite FE'.
          destruct (DT urn f ev' c' i' (or_introl eq_refl) FE' KN) as [C' KI].
          pose proof (register_fits urn c c' i i' HC HF C') as R.
          destruct (register true p recorded urn c i) as [a outs] eqn:RA.
          destruct (register false p recorded urn c' i') as [b outs'] eqn:RB. destruct R as [R1 R2].
          assert (KV : forall k, resolve false i' outs' k <> Unknown).
          { intros k. unfold resolve. assert (KO : look k outs' <> Some None).
            { unfold register in RB. destruct (find_entry urn recorded).
              - destruct (differs p c' _ _); inversion RB; rewrite look_known; destruct (look k _); discriminate.
              - inversion RB. rewrite look_known. destruct (look k _); discriminate. }
            destruct (look k outs') as [[v|]|]; try discriminate; [congruence|].
            specialize (KI k). destruct (look k i') as [[v|]|]; try discriminate. congruence. }
          assert (KN' : forall u vw, look u ((urn, resolve false i' outs') :: ev') = Some vw -> forall k, vw k <> Unknown).
          { cbn. intros u vw E k. destruct (String.eqb u urn); [inversion E; subst; auto | eapply KN; eauto]. }
          assert (FR' : forall u g, In (u, g) prog -> look u ((urn, resolve true i outs) :: ev) = None).
          { cbn. intros u g H. destruct (String.eqb u urn) eqn:Q; [|eapply FR; right; eauto]. apply String.eqb_eq in Q. subst.
            exfalso. apply NI, in_map_iff. exists (urn, g). auto. }
          destruct (IH _ _ ST' ND' FR' DT' KN' (more_cons _ _ urn _ _ MO R2)) as [IA _].
          intros u a0 [E|H].
          * inversion E; subst. exists b, c. split; [now left|]. split; auto. destruct c; auto.
            right. exists f, i, ev. split; [now left | auto].
          * destruct (IA u a0 H) as [b0 [c0 [B1 [B2 B3]]]]. exists b0, c0. split; [now right|]. auto.
        + rewrite (S1 eq_refl). assert (FR' : forall u g, In (u, g) prog -> look u ev = None) by (intros; eapply FR; right; eauto).
          destruct (IH ev ev' ST' ND' FR' DT' KN MO) as [IA _]. intros u a H. destruct (IA u a H) as [b0 [c0 [B1 [B2 B3]]]].
          exists b0, c0. auto.
        + assert (FR' : forall u g, In (u, g) prog -> look u ev = None) by (intros; eapply FR; right; eauto).
          destruct (f ev') as [c' i'| |] eqn:FE'.
          * destruct (DT urn f ev' c' i' (or_introl eq_refl) FE' KN) as [C' KI].
            destruct (register false p recorded urn c' i') as [b outs'] eqn:RB.
            assert (KV : forall k, resolve false i' outs' k <> Unknown).
            { intros k. unfold resolve. assert (KO : look k outs' <> Some None).
              { unfold register in RB. destruct (find_entry urn recorded).
                - destruct (differs p c' _ _); inversion RB; rewrite look_known; destruct (look k _); discriminate.
                - inversion RB. rewrite look_known. destruct (look k _); discriminate. }
              destruct (look k outs') as [[v|]|]; try discriminate; [congruence|].
              specialize (KI k). destruct (look k i') as [[v|]|]; try discriminate. congruence. }
            assert (KN' : forall u vw, look u ((urn, resolve false i' outs') :: ev') = Some vw -> forall k, vw k <> Unknown).
            { cbn. intros u vw E k. destruct (String.eqb u urn); [inversion E; subst; auto | eapply KN; eauto]. }
            assert (MO' : more ev ((urn, resolve false i' outs') :: ev')) by (apply more_fresh; auto; eapply FR; left; eauto).
            destruct (IH _ _ ST' ND' FR' DT' KN' MO') as [IA _]. intros u a H.
            destruct (IA u a H) as [b0 [c0 [B1 [B2 B3]]]]. exists b0, c0. split; [now right|]. auto.
          * destruct (IH ev ev' ST' ND' FR' DT' KN MO) as [IA _]. intros u a H. destruct (IA u a H) as [b0 [c0 [B1 [B2 B3]]]].
            exists b0, c0. auto.
          * destruct (IH ev ev' ST' ND' FR' DT' KN MO) as [IA _]. intros u a H. destruct (IA u a H) as [b0 [c0 [B1 [B2 B3]]]].
            exists b0, c0. auto.
    Qed.
  End One.
End Proof.
