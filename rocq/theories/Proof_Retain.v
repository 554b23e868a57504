(** Proofs about Model_Retain. *)
From Coq Require Import Permutation.
From Verif Require Import Base Model_Retain.
Open Scope string_scope.
Open Scope list_scope.

Section Proof.
  Variable P : Type.
  Implicit Types (w : world P) (l : list (string * P)).

  Lemma drop_ids : forall id l, map fst (drop id l) = filter (fun k => negb (String.eqb k id)) (map fst l).
  Proof. intros id l. unfold drop. induction l as [|[k v] l IH]; cbn; auto. destruct (negb (String.eqb k id)); cbn; congruence. Qed.
  Lemma set_ids : forall id (p : P) l, map fst (set id p l) = map fst l.
  Proof.
    intros id p l. unfold set. rewrite map_map. apply map_ext. intros [k v]. cbn.
    destruct (String.eqb k id) eqn:E; auto. apply String.eqb_eq in E. now subst.
  Qed.

  (** If everything is retained, nothing goes. *)
  Definition retained w : Prop := forall e, In e (pending w) \/ live w = Some e -> e_retain e = true.
  Lemma delete_retained : forall r lk (e : entry P) l l', e_retain e = true -> delete r lk e l = Some l' -> l' = l.
  Proof. intros r lk e l l' R H. unfold delete in H. destruct (negb r && e_protect e); [discriminate|]. rewrite R in H. congruence. Qed.
  Lemma retire_retained : forall lk (es : list (entry P)) l, (forall e, In e es -> e_retain e = true) ->
    fst (retire lk es l) = l /\ forall e, In e (snd (retire lk es l)) -> In e es.
  Proof.
    intros lk. induction es as [|e es IH]; intros l H; cbn; [split; auto|].
    destruct (delete false lk e l) as [l'|] eqn:D.
    - apply delete_retained in D; [|apply H; now left]. subst l'. destruct (IH l) as [A B]; [intros; apply H; now right|]. split; auto.
    - destruct (retire lk es l) as [l' left] eqn:R. destruct (IH l) as [A B]; [intros; apply H; now right|]. rewrite R in A, B. cbn in *.
      split; auto. intros e' [E|Q]; auto.
  Qed.
  Lemma operate_retained : forall pr w d lk, retained w -> (forall g, d = Some g -> g_retain g = true) ->
    retained (fst (operate pr w d lk)) /\ incl (map fst (things w)) (map fst (things (fst (operate pr w d lk)))).
  Proof.
    intros pr w d lk R G. unfold operate. destruct (retire lk (pending w) (things w)) as [l left] eqn:RT.
    destruct (retire_retained lk (pending w) (things w) (fun e H => R e (or_introl H))) as [A B]. rewrite RT in A, B. cbn in A, B. subst l.
    destruct left as [|e0 left]; [|split; [intros e [H|H]; apply R; auto | apply incl_refl]].
    assert (L : forall old, live w = Some old -> e_retain old = true) by (intros; apply R; auto).
    assert (STOP : retained (mkWorld (things w) (live w) []) /\ incl (map fst (things w)) (map fst (things w))).
    { split; [|apply incl_refl]. intros e [[]|H]. cbn in H. auto. }
    assert (NEW : forall l (g : goal P) id i, d = Some g -> incl (map fst (things w)) (map fst l) ->
      retained (mkWorld l (Some (mkEntry id i (g_retain g) (g_protect g))) []) /\ incl (map fst (things w)) (map fst l)).
    { intros l g id i E I. split; auto. intros e [[]|H]. cbn in H. inversion H; subst. cbn. auto. }
    destruct d as [g|]; destruct (live w) as [old|] eqn:LV.
    - destruct (check pr _ (g_inputs g)) as [i|]; [|exact STOP]. destruct (differs pr (e_inputs old) i).
      + apply NEW; auto using incl_refl.
      + destruct (works lk); [|exact STOP]. cbn [fst things]. apply NEW; auto. pose proof (set_ids (e_id old) i (things w)) as Q. intros k K. rewrite Q. exact K.
      + destruct (g_protect g && e_protect old); [exact STOP|]. destruct (check pr None (g_inputs g)) as [j|]; [|exact STOP].
        destruct (works lk); [|exact STOP]. destruct (delete true lk old _) as [l'|] eqn:D.
        * apply delete_retained in D; auto. subst l'. apply NEW; auto. cbn. apply incl_tl, incl_refl.
        * cbn. split; [|apply incl_tl, incl_refl]. intros e [[<-|[]]|H]; auto. cbn in H. inversion H; subst. cbn. auto.
    - destruct (check pr _ (g_inputs g)) as [i|]; [|exact STOP]. destruct (works lk); [|exact STOP]. apply NEW; auto. cbn. apply incl_tl, incl_refl.
    - destruct (delete false lk old (things w)) as [l'|] eqn:D; [|exact STOP]. apply delete_retained in D; auto. subst l'.
      split; [intros e [[]|H]; discriminate | apply incl_refl].
    - cbn. split; [intros e [[]|H]; discriminate | apply incl_refl].
  Qed.
  Lemma operates_retained : forall pr h w, retained w -> (forall g lk, In (Some g, lk) h -> g_retain g = true) ->
    incl (map fst (things w)) (map fst (things (operates pr w h))).
  Proof.
    intros pr. induction h as [|[d lk] h IH]; intros w R G; cbn; [apply incl_refl|].
    destruct (operate_retained pr w d lk R) as [A B]; [intros g ->; eapply G; left; reflexivity|].
    eapply incl_tran; [exact B|]. apply IH; auto. intros; eapply G; right; eauto.
  Qed.

  (** An operation that succeeds records the options of the program and leaves nothing pending. *)
  Lemma operate_records : forall pr w g lk w', operate pr w (Some g) lk = (w', true) ->
    pending w' = [] /\ exists e, live w' = Some e /\ e_retain e = g_retain g /\ e_protect e = g_protect g.
  Proof.
    intros pr w g lk w'. unfold operate. destruct (retire lk (pending w) (things w)) as [l left]. destruct left; [|discriminate].
    assert (NEW : forall l' id i, (mkWorld l' (Some (mkEntry id i (g_retain g) (g_protect g))) [], true) = (w', true) ->
      pending w' = [] /\ exists e, live w' = Some e /\ e_retain e = g_retain g /\ e_protect e = g_protect g).
    { intros l' id i E. inversion E; subst. cbn. split; auto. eexists. split; [reflexivity|]. auto. }
    destruct (live w) as [old|].
    - destruct (check pr (Some (e_inputs old)) (g_inputs g)) as [i|]; [|discriminate]. destruct (differs pr (e_inputs old) i); eauto.
      + destruct (works lk); [eauto|discriminate].
      + destruct (g_protect g && e_protect old); [discriminate|]. destruct (check pr None (g_inputs g)) as [j|]; [|discriminate].
        destruct (works lk); [|discriminate]. destruct (delete true lk old _); [eauto|discriminate].
    - destruct (check pr None (g_inputs g)) as [i|]; [|discriminate]. destruct (works lk); [eauto|discriminate].
  Qed.

  (** If nothing is retained or protected, what exists is what is recorded. *)
  Definition lives w : list (entry P) := match live w with Some e => [e] | None => [] end.
  Definition loose (e : entry P) : Prop := e_retain e = false /\ e_protect e = false.
  Definition exact w : Prop :=
    NoDup (map fst (things w)) /\ Permutation (map fst (things w)) (map e_id (lives w ++ pending w)) /\ forall e, In e (lives w ++ pending w) -> loose e.
  Lemma filter_perm : forall (f : string -> bool) a b, Permutation a b -> Permutation (filter f a) (filter f b).
  Proof.
    intros f a b H. induction H; cbn; auto.
    - destruct (f x); auto.
    - destruct (f x), (f y); auto using perm_swap.
    - eapply perm_trans; eauto.
  Qed.
  Lemma filter_out : forall id a, ~ In id a -> filter (fun k => negb (String.eqb k id)) a = a.
  Proof.
    intros id. induction a as [|x a IH]; cbn; intros H; auto. destruct (String.eqb x id) eqn:Q.
    - apply String.eqb_eq in Q. subst. exfalso. auto.
    - cbn. f_equal. auto.
  Qed.
  Lemma drop_perm : forall id l x, NoDup (map fst l) -> Permutation (map fst l) (id :: x) ->
    NoDup (map fst (drop id l)) /\ Permutation (map fst (drop id l)) x.
  Proof.
    intros id l x ND PM. rewrite drop_ids. split; [apply NoDup_filter; auto|].
    apply (filter_perm (fun k => negb (String.eqb k id))) in PM as PF. cbn in PF. rewrite String.eqb_refl in PF. cbn in PF.
    apply (Permutation_NoDup PM) in ND. apply NoDup_cons_iff in ND as [N _]. rewrite (filter_out id x N) in PF. exact PF.
  Qed.
  Lemma retire_exact : forall lk (es : list (entry P)) l x, (forall e, In e es -> loose e) ->
    NoDup (map fst l) -> Permutation (map fst l) (x ++ map e_id es) ->
    let (l', left) := retire lk es l in
    NoDup (map fst l') /\ Permutation (map fst l') (x ++ map e_id left) /\ (forall e, In e left -> In e es)
    /\ ((forall id, deletes lk id = true) -> left = []).
  Proof.
    intros lk. induction es as [|e es IH]; intros l x LO ND PM; cbn.
    - split; auto.
    - assert (LE : loose e) by (apply LO; now left). destruct LE as [R1 R2].
      unfold delete. rewrite R1, R2. cbn [negb andb]. destruct (deletes lk (e_id e)) eqn:D.
      + cbn in PM. assert (PM' : Permutation (map fst l) (e_id e :: x ++ map e_id es)).
        { eapply perm_trans; [exact PM|]. apply Permutation_sym, Permutation_middle. }
        destruct (drop_perm _ _ _ ND PM') as [A B]. specialize (IH (drop (e_id e) l) x (fun e' H => LO e' (or_intror H)) A B).
        destruct (retire lk es (drop (e_id e) l)) as [l' left]. destruct IH as [I1 [I2 [I3 I4]]].
        split; [exact I1|]. split; [exact I2|]. split; [intros e' H; right; auto | exact I4].
      + cbn in PM. assert (PM' : Permutation (map fst l) ((x ++ [e_id e]) ++ map e_id es)) by (rewrite <- app_assoc; exact PM).
        specialize (IH l (x ++ [e_id e]) (fun e' H => LO e' (or_intror H)) ND PM').
        destruct (retire lk es l) as [l' left]. destruct IH as [I1 [I2 [I3 I4]]]. split; auto. split; [rewrite <- app_assoc in I2; exact I2|].
        split; [intros e' [E|H]; [now left | right; auto]|]. intros H. rewrite H in D. discriminate.
  Qed.

  Variable pr : provider P.
  Hypothesis FRESH : forall ids, ~ In (fresh pr ids) ids.
  Lemma operate_exact : forall w d lk, exact w -> (forall g, d = Some g -> g_retain g = false /\ g_protect g = false) ->
    exact (fst (operate pr w d lk)).
  Proof.
    intros w d lk [ND [PM LO]] G. unfold operate.
    assert (LP : forall e, In e (pending w) -> loose e) by (intros; apply LO, in_or_app; auto).
    assert (LL : forall e, live w = Some e -> loose e) by (intros e H; apply LO, in_or_app; left; unfold lives; rewrite H; now left).
    rewrite map_app in PM. pose proof (retire_exact lk (pending w) (things w) (map e_id (lives w)) LP ND PM) as R.
    destruct (retire lk (pending w) (things w)) as [l left]. destruct R as [R1 [R2 [R3 R4]]].
    destruct left as [|e0 left].
    2:{ cbn. split; auto. split; [unfold lives; cbn; rewrite map_app; exact R2|]. cbn. intros e H. apply in_app_or in H as [H|H]; auto.
        unfold lives in H. cbn in H. destruct (live w) eqn:E; [destruct H as [<-|[]]; auto | destruct H]. }
    clear R3 R4. cbn in R2. rewrite app_nil_r in R2. unfold lives in R2.
    assert (STOP : exact (mkWorld l (live w) [])).
    { split; auto. unfold lives. cbn. rewrite app_nil_r. split; auto. intros e H. destruct (live w); [destruct H as [<-|[]]; auto | destruct H]. }
    assert (NEW : forall (g : goal P) l' id i, d = Some g -> NoDup (map fst l') -> Permutation (map fst l') [id] ->
      exact (mkWorld l' (Some (mkEntry id i (g_retain g) (g_protect g))) [])).
    { intros g l' id i E A B. split; auto. split; auto. unfold lives. cbn. intros e [<-|[]]. exact (G g E). }
    assert (FN : ~ In (fresh pr (map fst l)) (map fst l)) by apply FRESH.
    destruct d as [g|]; destruct (live w) as [old|] eqn:LV; cbn in R2.
    - destruct (check pr _ (g_inputs g)) as [i|]; [|exact STOP]. destruct (differs pr (e_inputs old) i).
      + cbn. apply NEW; auto.
      + destruct (works lk); [|exact STOP]. cbn. apply NEW; rewrite ?set_ids; auto.
      + destruct (g_protect g && e_protect old); [exact STOP|]. destruct (check pr None (g_inputs g)) as [j|]; [|exact STOP].
        destruct (works lk); [|exact STOP]. unfold delete. destruct (LL old eq_refl) as [O1 O2]. rewrite O1. cbn [negb andb].
        assert (N2 : NoDup (map fst ((fresh pr (map fst l), j) :: l))) by (cbn; constructor; auto).
        destruct (deletes lk (e_id old)).
        * cbn [fst]. assert (PM2 : Permutation (map fst ((fresh pr (map fst l), j) :: l)) (e_id old :: [fresh pr (map fst l)])).
          { cbn. eapply perm_trans; [apply perm_skip; exact R2|]. apply perm_swap. }
          destruct (drop_perm _ _ _ N2 PM2) as [A B]. apply NEW; auto.
        * cbn [fst]. split; auto. split; [unfold lives; cbn; auto|]. unfold lives. cbn. intros e [<-|[<-|[]]]; [exact (G g eq_refl) | auto].
    - destruct (check pr _ (g_inputs g)) as [i|]; [|exact STOP]. destruct (works lk); [|exact STOP]. cbn [fst].
      apply Permutation_sym, Permutation_nil in R2. apply NEW; auto; cbn; [constructor; auto | rewrite R2; auto].
    - unfold delete. destruct (LL old eq_refl) as [O1 O2]. rewrite O1, O2. cbn [negb andb]. destruct (deletes lk (e_id old)); [|exact STOP].
      destruct (drop_perm (e_id old) l [] R1 R2) as [A B]. cbn. split; auto. split; auto. intros e [].
    - cbn. split; auto. split; auto. intros e [].
  Qed.
  Lemma operates_exact : forall h w, exact w -> (forall g lk, In (Some g, lk) h -> g_retain g = false /\ g_protect g = false) ->
    exact (operates pr w h).
  Proof.
    induction h as [|[d lk] h IH]; intros w E G; cbn; auto. apply IH; [|intros; eapply G; right; eauto].
    apply operate_exact; auto. intros g ->. eapply G. left. reflexivity.
  Qed.
  Lemma operate_lucky : forall w d lk, exact w -> (forall g, d = Some g -> g_retain g = false /\ g_protect g = false) ->
    (forall old i, check pr old i <> None) -> (forall id, deletes lk id = true) -> works lk = true ->
    let (w', ok) := operate pr w d lk in
    ok = true /\ pending w' = [] /\ match d with Some _ => live w' <> None | None => live w' = None end.
  Proof.
    intros w d lk [ND [PM LO]] G CK DL WK. unfold operate.
    assert (LP : forall e, In e (pending w) -> loose e) by (intros; apply LO, in_or_app; auto).
    assert (LL : forall e, live w = Some e -> loose e) by (intros e H; apply LO, in_or_app; left; unfold lives; rewrite H; now left).
    rewrite map_app in PM. pose proof (retire_exact lk (pending w) (things w) (map e_id (lives w)) LP ND PM) as R.
    destruct (retire lk (pending w) (things w)) as [l left]. destruct R as [_ [_ [_ R4]]]. rewrite (R4 DL). rewrite WK.
    destruct d as [g|]; destruct (live w) as [old|] eqn:LV.
    - destruct (check pr (Some (e_inputs old)) (g_inputs g)) as [i|] eqn:C1; [|now apply CK in C1].
      destruct (differs pr (e_inputs old) i); [split; auto; split; auto; discriminate .. | ].
      destruct (G g eq_refl) as [_ G2]. rewrite G2. cbn [andb]. destruct (check pr None (g_inputs g)) as [j|] eqn:C2; [|now apply CK in C2].
      unfold delete. destruct (LL old eq_refl) as [O1 O2]. rewrite O1, DL. cbn. split; auto. split; auto. discriminate.
    - destruct (check pr None (g_inputs g)) as [i|] eqn:C1; [|now apply CK in C1]. split; auto. split; auto. discriminate.
    - unfold delete. destruct (LL old eq_refl) as [O1 O2]. rewrite O1, O2, DL. cbn. auto.
    - auto.
  Qed.
End Proof.
