(** Proofs about Model_Adopt. *)
From Verif Require Import Base Model_Adopt.
Open Scope string_scope.
Open Scope list_scope.

Lemma look_in : forall P id (l : list (string * P)) p, look P id l = Some p -> In (id, p) l.
Proof.
  intros P id. induction l as [|[k v] l IH]; intros p H; cbn in *; [discriminate|].
  destruct (String.eqb id k) eqn:E; [apply String.eqb_eq in E; inversion H; subst; auto | auto].
Qed.
Lemma drop_in : forall P id (l : list (string * P)) k v, In (k, v) (drop P id l) <-> In (k, v) l /\ k <> id.
Proof.
  intros P id l k v. unfold drop. rewrite filter_In. cbn. rewrite Bool.negb_true_iff, String.eqb_neq. reflexivity.
Qed.
Lemma delete_all_in : forall P es (l : list (string * P)) k v,
  In (k, v) (delete_all P es l) <-> In (k, v) l /\ forall e, In e es -> e_id P e <> k.
Proof.
  intros P. unfold delete_all. induction es as [|e es IH]; intros l k v; cbn.
  - split; [intros H; split; auto; intros e [] | tauto].
  - rewrite IH, drop_in. split.
    + intros [[H1 H2] H3]. split; auto. intros e' [<-|H]; auto.
    + intros [H1 H2]. split; [split; auto|]; auto. intros E. now apply (H2 e (or_introl eq_refl)).
Qed.
Lemma set_ids : forall P id (p : P) l, map fst (set P id p l) = map fst l.
Proof.
  intros P id p l. unfold set. rewrite map_map. apply map_ext. intros [k v]. cbn.
  destruct (String.eqb k id) eqn:E; auto. apply String.eqb_eq in E. now subst.
Qed.
Lemma ids_in : forall P (l : list (string * P)) k, In k (map fst l) <-> exists v, In (k, v) l.
Proof.
  intros P l k. rewrite in_map_iff. split.
  - intros [[k' v] [E H]]. cbn in E. subst. eauto.
  - intros [v H]. exists (k, v). auto.
Qed.

(** A declaration that asks for an import. *)
Definition asks_import P (old : option (entry P)) (g : goal P) : Prop :=
  g_import P g <> "" /\ forall e, old = Some e -> (e_import P e = "" -> e_id P e <> g_import P g) /\ (e_import P e <> "" -> e_import P e <> g_import P g).
Lemma is_import_spec : forall P old g, is_import P old g = true <-> asks_import P old g.
Proof.
  intros P old g. unfold is_import, asks_import. rewrite Bool.andb_true_iff, Bool.negb_true_iff, String.eqb_neq.
  split; intros [A B]; split; auto.
  - intros e ->. apply Bool.negb_true_iff, String.eqb_neq in B. destruct (String.eqb (e_import P e) "") eqn:E.
    + apply String.eqb_eq in E. split; [auto | congruence].
    + apply String.eqb_neq in E. split; [congruence | auto].
  - destruct old as [e|]; auto. destruct (B e eq_refl) as [B1 B2]. apply Bool.negb_true_iff, String.eqb_neq.
    destruct (String.eqb (e_import P e) "") eqn:E; [apply String.eqb_eq in E | apply String.eqb_neq in E]; auto.
Qed.

Section History.
  Variable P : Type.
  Variable pr : provider P.
  Variable x : string.
  Hypothesis NE : x <> "".
  Hypothesis FIND : find P pr x = x.
  Definition inv (w : world P) : Prop :=
    (forall e, In e (pending P w) -> e_id P e <> x) /\ In x (map fst (things P w))
    /\ (forall e, live P w = Some e -> e_id P e = x -> e_import P e = "" \/ e_import P e = x).
  Lemma update_inv : forall w g a b, g_import P g = x -> inv w -> inv (fst (update P pr w g a b)).
  Proof.
    intros w g a b G I. unfold update. destruct (negb a && _); [exact I|]. destruct I as [I1 [I2 I3]].
    set (w1 := mkWorld P (delete_all P (pending P w) (things P w)) (live P w) []).
    assert (J : inv w1).
    { split; [intros e []|]. split; auto. cbn. apply ids_in in I2 as [v I2]. apply ids_in. exists v.
      apply delete_all_in. auto. }
    assert (R : forall w2 olds, register P pr w1 g = Some (w2, olds) -> inv w2 /\ pending P w2 = [] /\ forall e, In e olds -> e_id P e <> x).
    { intros w2 olds R. unfold register in R. destruct (is_import P (live P w1) g) eqn:EI.
      - apply is_import_spec in EI as [_ EI]. destruct (import P pr w1 g) as [e|] eqn:EM; [|discriminate]. inversion R; subst; clear R.
        assert (E : e_id P e = x /\ e_import P e = g_import P g).
        { unfold import in EM. rewrite G, FIND in EM. destruct (look P x (things P w1)); [|discriminate].
          destruct (check P pr _ _); [|discriminate]. destruct (differs P pr p p0); [|discriminate|discriminate]. inversion EM. rewrite G. auto. }
        split; [|split; auto].
        + split; [intros e' []|]. split; [apply J|]. cbn. intros e' E'. inversion E'; subst. right. destruct E. congruence.
        + cbn in EI |- *. destruct (live P w) as [old|] eqn:L; [|intros e' []]. intros e' [<-|[]] EX.
          destruct (EI old eq_refl) as [A B]. destruct (I3 old eq_refl EX) as [C|C].
          * apply (A C). congruence.
          * apply B; congruence.
      - destruct (live P w1) as [old|] eqn:L.
        2:{ exfalso. apply Bool.not_true_iff_false in EI. apply EI, is_import_spec. split; [congruence|]. intros e; discriminate. }
        destruct (check P pr _ _) as [i|]; [|discriminate].
        destruct (differs P pr _ i); [| |rewrite G, (proj2 (String.eqb_neq x "") NE) in R; discriminate]; inversion R; subst; clear R.
        + split; [|split; auto; intros e []]. split; [intros e []|]. split; [apply J|]. cbn. intros e E; inversion E; subst. auto.
        + split; [|split; auto; intros e []]. split; [intros e []|]. split; [|cbn; intros e E; inversion E; subst; auto].
          cbn. rewrite set_ids. apply J. }
    destruct (register P pr w1 g) as [[w2 olds]|]; [|exact J].
    destruct (R w2 olds eq_refl) as [[R1 [R2 R3]] [R4 R5]]. destruct b; cbn.
    - split; [exact R1|]. split; [|exact R3]. apply ids_in in R2 as [v R2]. apply ids_in. exists v. apply delete_all_in. auto.
    - split; [|split; [exact R2 | exact R3]]. cbn. intros e H. apply in_app_or in H as [H|H]; auto.
  Qed.
  Lemma updates_inv : forall h w, (forall g a b, In (g, a, b) h -> g_import P g = x) -> inv w -> inv (updates P pr w h).
  Proof.
    induction h as [|[[g a] b] h IH]; intros w H I; cbn; auto.
    apply IH; [intros; eapply H; right; eauto|]. apply update_inv; auto. eapply H. left. reflexivity.
  Qed.
End History.
