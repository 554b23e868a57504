From Verif Require Import Base PyVal Model_Annot Model_Class Spec_Class.
Open Scope string_scope.
Open Scope list_scope.
Ltac inv H := inversion H; subst; clear H.

(** * Tables *)
Lemma dget_upd_out {A} (l : list (string * A)) k : ~ In k (map fst l) -> forall d, dget (dupdate d l) k = dget d k.
Proof.
  induction l as [|[k1 v1] l IH]; intros N d; [reflexivity|]. change (dget (dupdate (dset d k1 v1) l) k = dget d k). cbn in N. rewrite IH by tauto.
  rewrite dget_dset. destruct (String.eqb_spec k k1); [subst; tauto|reflexivity].
Qed.
Lemma dget_upd_in {A} (l : list (string * A)) k v : (forall v', In (k, v') l -> v' = v) -> In k (map fst l) ->
  forall d, dget (dupdate d l) k = Some v.
Proof.
  induction l as [|[k1 v1] l IH]; intros F I d; [contradiction|]. change (dget (dupdate (dset d k1 v1) l) k = Some v).
  destruct (in_dec string_dec k (map fst l)) as [I'|N].
  - apply IH; [|exact I']. intros v' H. apply F. now right.
  - destruct I as [<-|I]; [|contradiction]. cbn [fst] in *. rewrite dget_upd_out by exact N.
    rewrite dget_dset, String.eqb_refl. f_equal. apply F. now left.
Qed.
Lemma dget_table {A} (l : list (string * A)) k v : (forall v', In (k, v') l -> v' = v) -> In k (map fst l) -> dget (dupdate [] l) k = Some v.
Proof. intros F I. now apply dget_upd_in. Qed.
Lemma dget_merge {A} (l m : list (string * A)) k : dget (dupdate (dupdate [] l) (dupdate [] m)) k =
  match dget (dupdate [] m) k with Some v => Some v | None => dget (dupdate [] l) k end.
Proof. apply dget_dupdate. apply wf_dupdate. constructor. Qed.
Lemma merge_table {A} (l m : list (string * A)) k v : (forall v', In (k, v') (l ++ m) -> v' = v) -> In k (map fst (l ++ m)) ->
  dget (dupdate (dupdate [] l) (dupdate [] m)) k = Some v.
Proof.
  intros F I. rewrite dget_merge. destruct (in_dec string_dec k (map fst m)) as [J|N].
  - rewrite (dget_table m k v); [reflexivity| |exact J]. intros v' H. apply F, in_app_iff. now right.
  - rewrite (dget_upd_out m k N []). cbn [dget]. apply dget_table.
    + intros v' H. apply F, in_app_iff. now left.
    + rewrite map_app, in_app_iff in I. tauto.
Qed.
Lemma merge_out {A} (l m : list (string * A)) k : ~ In k (map fst (l ++ m)) -> dget (dupdate (dupdate [] l) (dupdate [] m)) k = None.
Proof.
  intros N. rewrite map_app, in_app_iff in N. rewrite dget_merge, (dget_upd_out m), (dget_upd_out l) by tauto. reflexivity.
Qed.

(** * Entries are declarations *)
Lemma own_last c : c <> [] -> exists front, c = front ++ [own c].
Proof. intros N. exists (removelast c). exact (app_removelast_last _ N). Qed.

Lemma getattr_app c b n : getattr (c ++ [b]) n = match dget (b_attrs b) n with Some a => Some a | None => getattr c n end.
Proof. unfold getattr. rewrite fold_left_app. reflexivity. Qed.
Lemma getattr_in c n a : getattr c n = Some a -> exists b, In b c /\ In (n, a) (b_attrs b).
Proof.
  unfold getattr. rewrite <- fold_left_rev_right.
  assert (G : forall l, fold_right (fun b r => match dget (b_attrs b) n with Some a => Some a | None => r end) None l = Some a -> exists b, In b l /\ In (n, a) (b_attrs b)).
  { induction l as [|b l IH]; [discriminate|]. cbn. destruct (dget (b_attrs b) n) as [x|] eqn:E.
    - intros [= ->]. exists b. split; [now left|now apply dget_In].
    - intros H. destruct (IH H) as (b' & I & J). exists b'. split; [now right|exact J]. }
  intros H. destruct (G _ H) as (b & I & J). exists b. split; [now apply in_rev|exact J].
Qed.

Section C.
Context (c : class) (W : well_formed c) (K : consistent c) (N : named c) (A : annotations_in_class c).

Lemma own_in : In (own c) c.
Proof. destruct (own_last c (proj1 W)) as (front & E). rewrite E at 2. apply in_app_iff. right. now left. Qed.

Lemma annotated_declared py pul a : In (py, (pul, a)) (annotated c) -> declared_in (own c) py pul a /\ In py (map fst (b_anns (own c))).
Proof.
  unfold annotated. intros I. apply in_map_iff in I as ([n x] & E & I). cbn in E. injection E as <- Ep <-.
  assert (In n (map fst (b_anns (own c)))) as In1 by (apply (in_map fst) in I; exact I). split; [|exact In1].
  destruct (own_last c (proj1 W)) as (front & Ec). pose proof (A front (own c) [] Ec) as [_ A2].
  assert (NG : forall p r, ~ In (n, PGetter p r) (b_attrs (own c))) by (intros p r; apply (A2 eq_refl n (own c) p r In1 own_in)).
  destruct W as [_ W2]. destruct (W2 _ own_in) as [_ ND].
  assert (D : (exists p, In (n, PProperty p) (b_attrs (own c))) \/ (forall p, ~ In (n, PProperty p) (b_attrs (own c)))).
  { destruct (dget (b_attrs (own c)) n) as [[p|p r|]|] eqn:E.
    - left. exists p. now apply dget_In.
    - right. intros q Iq. apply In_dget in Iq; [congruence|exact ND].
    - right. intros q Iq. apply In_dget in Iq; [congruence|exact ND].
    - right. intros q Iq. apply In_dget in Iq; [congruence|exact ND]. }
  destruct D as [(p & Ip)|NP].
  - assert (getattr c n = Some (PProperty p)) as E.
    { rewrite Ec, getattr_app. rewrite (In_dget _ _ _ ND Ip). reflexivity. }
    rewrite E in Ep. subst pul. now apply di_property.
  - assert (pul = n) as ->; [|now apply di_plain].
    destruct (getattr c n) as [[p|p r|]|] eqn:E; auto. exfalso.
    apply getattr_in in E as (b & Ib & Jb). apply in_split in Ib as (f & k & Ek).
    destruct k as [|b2 k].
    + assert (b = own c) as ->. { unfold own. rewrite Ek. now rewrite last_last. } exact (NP p Jb).
    + destruct (A f b (b2 :: k) Ek) as [A1 _]. destruct (A1 ltac:(discriminate)) as [_ A3]. exact (A3 n p Jb).
Qed.
Lemma props_declared py pul a : In (py, (pul, a)) (py_properties c) -> exists b, In b c /\ In (py, PGetter pul a) (b_attrs b).
Proof.
  unfold py_properties. intros I. apply in_flat_map in I as (b & Ib & I). apply in_flat_map in I as ([n x] & J & I). cbn in I.
  destruct x as [|p r|]; cbn in I; try contradiction. destruct I as [I|[]]. injection I as <- <- <-. eauto.
Qed.
Lemma getter_props b py pul a : In b c -> In (py, PGetter pul a) (b_attrs b) -> In (py, (pul, a)) (py_properties c).
Proof.
  intros Ib I. unfold py_properties. apply in_flat_map. exists b. split; [exact Ib|]. apply in_flat_map. exists (py, PGetter pul a). split; [exact I|now left].
Qed.
Lemma all_declared py pul a : In (py, (pul, a)) (annotated c ++ py_properties c) -> exists b, In b c /\ declared_in b py pul a.
Proof.
  intros I. apply in_app_iff in I as [I|I].
  - exists (own c). split; [exact own_in|]. now apply annotated_declared.
  - apply props_declared in I as (b & Ib & J). exists b. split; [exact Ib|now constructor].
Qed.
Lemma declared_all b py pul a : In b c -> declared_in b py pul a -> In (py, (pul, a)) (annotated c ++ py_properties c).
Proof.
  intros Ib D. apply in_app_iff. inversion D as [? ? ? I|? ? x I J|? x I NP NG]; subst.
  - right. eapply getter_props; eauto.
  - left. apply in_split in Ib as (f & k & Ek). destruct k as [|b2 k].
    2:{ destruct (A f b (b2 :: k) Ek) as [A1 _]. destruct (A1 ltac:(discriminate)) as [A3 _]. rewrite A3 in I. contradiction. }
    assert (b = own c) as ->. { unfold own. rewrite Ek. now rewrite last_last. }
    unfold annotated. apply in_map_iff. exists (py, x). split; [|exact I]. cbn.
    destruct W as [_ W2]. destruct (W2 (own c) own_in) as [_ ND].
    assert (E : getattr c py = Some (PProperty pul)) by (rewrite Ek at 1; rewrite getattr_app, (In_dget _ _ _ ND J); reflexivity).
    now rewrite E.
  - left. apply in_split in Ib as (f & k & Ek). destruct k as [|b2 k].
    2:{ destruct (A f b (b2 :: k) Ek) as [A1 _]. destruct (A1 ltac:(discriminate)) as [A3 _]. rewrite A3 in I. contradiction. }
    assert (b = own c) as ->. { unfold own. rewrite Ek. now rewrite last_last. }
    unfold annotated. apply in_map_iff. exists (pul, x). split; [|exact I]. cbn. f_equal. f_equal.
    destruct (getattr c pul) as [[p|p r|]|] eqn:E; auto. exfalso.
    apply getattr_in in E as (b & Ib & Jb). apply in_split in Ib as (f' & k & Ek').
    destruct k as [|b2 k].
    + assert (b = own c) as ->. { unfold own. rewrite Ek'. now rewrite last_last. } exact (NP p Jb).
    + destruct (A f' b (b2 :: k) Ek') as [A1 _]. destruct (A1 ltac:(discriminate)) as [_ A3]. exact (A3 _ p Jb).
Qed.

Lemma in_by_py l py pul : In (py, pul) (by_py l) <-> exists a, In (py, (pul, a)) l.
Proof.
  unfold by_py. rewrite in_map_iff. split.
  - intros ([n [p a]] & E & I). cbn in E. injection E as <- <-. eauto.
  - intros (a & I). exists (py, (pul, a)). auto.
Qed.
Lemma in_by_pulumi l py pul : In (pul, py) (by_pulumi l) <-> exists a, In (py, (pul, a)) l.
Proof.
  unfold by_pulumi. rewrite in_map_iff. split.
  - intros ([n [p a]] & E & I). cbn in E. injection E as <- <-. eauto.
  - intros (a & I). exists (py, (pul, a)). auto.
Qed.

Lemma lookup_py b py pul a : In b c -> declared_in b py pul a -> lookup (resource_py_to_pulumi c) py = pul.
Proof.
  intros Ib D. unfold lookup, resource_py_to_pulumi. rewrite (merge_table _ _ py pul).
  - destruct (String.eqb_spec pul ""); [|reflexivity]. destruct (N b py pul a Ib D). contradiction.
  - intros v I. unfold by_py in I. rewrite <- map_app in I. apply (in_by_py _ py v) in I as (a' & I).
    apply all_declared in I as (b' & Ib' & D'). symmetry. now apply (K b b' py pul a py v a').
  - unfold by_py. rewrite <- map_app. apply in_map_iff. exists (py, pul). split; [reflexivity|].
    apply (in_by_py (annotated c ++ py_properties c)). exists a. eapply declared_all; eauto.
Qed.
Lemma lookup_pulumi b py pul a : In b c -> declared_in b py pul a -> lookup (resource_pulumi_to_py c) pul = py.
Proof.
  intros Ib D. unfold lookup, resource_pulumi_to_py. rewrite (merge_table _ _ pul py).
  - destruct (String.eqb_spec py ""); [|reflexivity]. destruct (N b py pul a Ib D). contradiction.
  - intros v I. unfold by_pulumi in I. rewrite <- map_app in I. apply (in_by_pulumi _ v pul) in I as (a' & I).
    apply all_declared in I as (b' & Ib' & D'). symmetry. now apply (K b b' py pul a v pul a').
  - unfold by_pulumi. rewrite <- map_app. apply in_map_iff. exists (pul, py). split; [reflexivity|].
    apply (in_by_pulumi (annotated c ++ py_properties c)). exists a. eapply declared_all; eauto.
Qed.
Lemma lookup_py_out k : (forall b pul a, In b c -> ~ declared_in b k pul a) -> lookup (resource_py_to_pulumi c) k = k.
Proof.
  intros H. unfold lookup, resource_py_to_pulumi. rewrite merge_out; [reflexivity|].
  unfold by_py. rewrite <- map_app. intros I. apply in_map_iff in I as ([k' p] & E & I). cbn in E. subst k'.
  apply (in_by_py (annotated c ++ py_properties c)) in I as (a & I). apply all_declared in I as (b & Ib & D). exact (H b p a Ib D).
Qed.
Lemma lookup_pulumi_out k : (forall b py a, In b c -> ~ declared_in b py k a) -> lookup (resource_pulumi_to_py c) k = k.
Proof.
  intros H. unfold lookup, resource_pulumi_to_py. rewrite merge_out; [reflexivity|].
  unfold by_pulumi. rewrite <- map_app. intros I. apply in_map_iff in I as ([k' p] & E & I). cbn in E. subst k'.
  apply (in_by_pulumi (annotated c ++ py_properties c)) in I as (a & I). apply all_declared in I as (b & Ib & D). exact (H b p a Ib D).
Qed.

(** * Types *)
Definition pul_keys (l : list (string * (string * option ann))) := map (fun x => fst (snd x)) l.
Lemma types_app l1 l2 : forall acc, types_of (l1 ++ l2) acc = rbind (types_of l1 acc) (fun d => types_of l2 d).
Proof.
  induction l1 as [|[n [p [a|]]] l1 IH]; intros acc; [reflexivity| |apply IH]. cbn. destruct (unwrap_type a); [apply IH|reflexivity].
Qed.
Lemma types_out l k : ~ In k (pul_keys l) -> forall acc d, types_of l acc = Ok d -> dget d k = dget acc k.
Proof.
  induction l as [|[n [p [a|]]] l IH]; intros H acc d E; cbn in *; [now injection E as <-| |].
  - destruct (unwrap_type a) as [t|]; cbn in E; [|discriminate]. rewrite (IH ltac:(tauto) _ _ E).
    assert (X : dget (dset acc p t) k = dget acc k) by (rewrite dget_dset; destruct (String.eqb_spec k p); [subst; tauto|reflexivity]).
    destruct t; try exact X. reflexivity.
  - apply (IH ltac:(tauto) _ _ E).
Qed.
Lemma types_wf l : forall acc d, wf_dict acc -> types_of l acc = Ok d -> wf_dict d.
Proof.
  induction l as [|[n [p [a|]]] l IH]; intros acc d H E; cbn in *; [now injection E as <-| |eauto].
  destruct (unwrap_type a) as [t|]; cbn in E; [|discriminate]. apply (IH _ _) in E; [exact E|].
  assert (X : wf_dict (dset acc p t)) by now apply wf_dset. destruct t; try exact X. exact H.
Qed.
Lemma types_last l1 n k a t l2 acc d : types_of (l1 ++ (n, (k, Some a)) :: l2) acc = Ok d -> unwrap_type a = Ok t -> t <> AOutput ->
  ~ In k (pul_keys l2) -> dget d k = Some t.
Proof.
  intros E U NO NI. rewrite types_app in E. destruct (types_of l1 acc) as [d1|]; cbn in E; [|discriminate].
  rewrite U in E. cbn in E. rewrite (types_out _ _ NI _ _ E).
  assert (X : dget (dset d1 k t) k = Some t) by (rewrite dget_dset, String.eqb_refl; reflexivity).
  destruct t; try exact X. congruence.
Qed.
Lemma getters_of l py pul a : In (py, (pul, a)) (py_properties l) -> exists b, In b l /\ In (py, PGetter pul a) (b_attrs b).
Proof.
  unfold py_properties. intros I. apply in_flat_map in I as (b & Ib & I). apply in_flat_map in I as ([n x] & J & I). cbn in I.
  destruct x as [|p r|]; cbn in I; try contradiction. destruct I as [I|[]]. injection I as <- <- <-. eauto.
Qed.
Lemma own_names b : NoDup (map fst (b_attrs b)) -> NoDup (map fst (py_properties [b])).
Proof.
  unfold py_properties. cbn. rewrite app_nil_r. induction (b_attrs b) as [|[n x] l IH]; intros ND; [constructor|].
  cbn in *. inv ND. destruct x as [|p r|]; cbn; auto. constructor; auto.
  intros I. apply in_map_iff in I as ([n' y] & E & I). cbn in E. subst n'. apply in_flat_map in I as ([n' x] & J & I). cbn in I.
  destruct x as [|p' r'|]; cbn in I; try contradiction. destruct I as [I|[]]. injection I as -> _. apply H1. apply (in_map fst) in J. exact J.
Qed.
Lemma py_app c1 c2 : py_properties (c1 ++ c2) = py_properties c1 ++ py_properties c2.
Proof. unfold py_properties. apply flat_map_app. Qed.

Lemma typed_annotated b py pul a t Ta Tp : In b c -> declared_in b py pul (Some a) -> In (py, a) (b_anns b) ->
  unwrap_type a = Ok t -> t <> AOutput -> types_of (annotated c) [] = Ok Ta -> types_of (py_properties c) [] = Ok Tp ->
  match dget Tp pul with Some v => Some v | None => dget Ta pul end = Some t.
Proof.
  intros Ib D I U NO Ea Ep.
  assert (b = own c) as ->.
  { apply in_split in Ib as (f & k & Ek). destruct k as [|b2 k].
    - unfold own. rewrite Ek. now rewrite last_last.
    - destruct (A f b (b2 :: k) Ek) as [A1 _]. destruct (A1 ltac:(discriminate)) as [A3 _]. rewrite A3 in I. contradiction. }
  destruct (own_last c (proj1 W)) as (front & Ec). pose proof (A front (own c) [] Ec) as [_ A2].
  pose proof (in_map fst _ _ I) as In1. cbn in In1.
  assert (X : dget Tp pul = None).
  { rewrite (types_out (py_properties c) pul) with (acc := []) (d := Tp); [reflexivity| |exact Ep].
    intros Q. unfold pul_keys in Q. apply in_map_iff in Q as ([n [p r]] & En & Q). cbn in En. subst p.
    apply props_declared in Q as (b' & I' & J).
    assert (py = n) as -> by (apply (K (own c) b' py pul (Some a) n pul r); auto; now constructor).
    exact (A2 eq_refl n b' pul r In1 I' J). }
  rewrite X.
  assert (Ix : In (py, (pul, Some a)) (annotated c)).
  { pose proof (declared_all _ _ _ _ Ib D) as Ix. apply in_app_iff in Ix as [Ix|Ix]; [exact Ix|]. exfalso.
    apply props_declared in Ix as (b' & I' & J). exact (A2 eq_refl py b' pul _ In1 I' J). }
  assert (ND : NoDup (map fst (annotated c))).
  { unfold annotated. rewrite map_map. cbn. destruct W as [_ W2]. exact (proj1 (W2 _ own_in)). }
  pose proof Ix as Ix0. apply in_split in Ix as (m1 & m2 & Em). rewrite Em in Ea, ND. rewrite map_app in ND. cbn in ND. apply NoDup_remove_2 in ND.
  eapply (types_last _ _ _ a t); [exact Ea|exact U|exact NO|].
  intros Q. unfold pul_keys in Q. apply in_map_iff in Q as ([n [p r]] & En & Q). cbn in En. subst p.
  assert (G : In (n, (pul, r)) (annotated c)) by (rewrite Em; apply in_app_iff; right; now right).
  apply annotated_declared in G as [G _].
  assert (py = n) as -> by (apply (K (own c) (own c) py pul (Some a) n pul r); auto).
  apply ND, in_app_iff. right. apply (in_map fst) in Q. exact Q.
Qed.

Lemma typed py pul a t T : has_property c py pul (Some a) -> unwrap_type a = Ok t -> t <> AOutput ->
  resource_types c = Ok T -> dget T pul = Some t.
Proof.
  intros (f & b & k & Ec & D & NM) U NO E. unfold resource_types in E.
  destruct (types_of (annotated c) []) as [Ta|] eqn:Ea; cbn in E; [|discriminate].
  destruct (types_of (py_properties c) []) as [Tp|] eqn:Ep; cbn in E; [|discriminate]. injection E as <-.
  rewrite dget_dupdate by (eapply types_wf; [|exact Ep]; constructor).
  assert (Ib : In b c) by (rewrite Ec; apply in_app_iff; right; now left).
  pose proof D as D0. remember (Some a) as oa eqn:Eo. destruct D as [py pul a1 I|py pul x I J|py x I NP NG]; [subst a1|injection Eo as ->|injection Eo as ->].
  - (* a getter *)
    assert (X : dget Tp pul = Some t); [|now rewrite X].
    rewrite Ec, py_app in Ep. change (b :: k) with ([b] ++ k) in Ep. rewrite py_app in Ep.
    assert (Ix : In (py, (pul, Some a)) (py_properties [b])).
    { unfold py_properties. cbn. rewrite app_nil_r. apply in_flat_map. exists (py, PGetter pul (Some a)). split; [exact I|now left]. }
    pose proof (own_names b (proj2 (proj2 W b Ib))) as ND.
    apply in_split in Ix as (m1 & m2 & Em). rewrite Em in Ep, ND. rewrite map_app in ND. cbn in ND. apply NoDup_remove_2 in ND.
    rewrite <- (app_assoc m1), app_assoc in Ep. cbn in Ep.
    eapply (types_last _ _ _ a t); [exact Ep|exact U|exact NO|].
    intros Q. unfold pul_keys in Q. apply in_map_iff in Q as ([n [p r]] & En & Q). cbn in En. subst p.
    apply in_app_iff in Q as [Q|Q].
    + assert (G : In (n, (pul, r)) (py_properties [b])) by (rewrite Em; apply in_app_iff; right; now right).
      apply getters_of in G as (b' & [<-|[]] & J).
      assert (py = n) as -> by (apply (K b b py pul (Some a) n pul r); auto; now constructor).
      apply ND, in_app_iff. right. apply (in_map fst) in Q. exact Q.
    + apply getters_of in Q as (b' & I' & J).
      assert (py = n) as -> by (apply (K b b' py pul (Some a) n pul r); auto; [rewrite Ec; apply in_app_iff; right; now right|now constructor]).
      apply (NM b' I'). right. apply (in_map fst) in J. exact J.
  - eapply typed_annotated; eauto.
  - eapply typed_annotated; eauto.
Qed.

(** * Decorated classes *)
Lemma decorated c' : decorate c = Ok c' -> is_marked c' = true /\ forall py pul a,
  In (py, (pul, a)) (py_properties c') <-> exists b, In b c /\ declared_in b py pul a.
Proof.
  unfold decorate. destruct (is_marked c) eqn:M; [discriminate|]. intros [= <-]. split.
  { unfold is_marked. rewrite existsb_app. cbn. apply orb_true_r. }
  set (kept := filter _ _). set (made := map _ (annotated c)). intros py pul a. rewrite py_app, in_app_iff.
  destruct (own_last c (proj1 W)) as (front & Ec). pose proof (A front (own c) [] Ec) as [_ A2].
  assert (Er : removelast c = front) by (rewrite Ec at 1; apply removelast_last). rewrite Er.
  assert (Ifr : forall b, In b front -> In b c) by (intros b Ib; rewrite Ec; apply in_app_iff; now left).
  destruct (proj2 W _ own_in) as [NDa NDt].
  assert (Wk : wf_dict kept).
  { unfold wf_dict, dkeys, kept. clear - NDt. induction (b_attrs (own c)) as [|x l IH]; [constructor|]. cbn in NDt. inv NDt. cbn.
    destruct (match snd x with PProperty _ => _ | _ => true end); cbn; auto. constructor; auto.
    intros I. apply H1. apply in_map_iff in I as (y & E & I). apply filter_In in I as [I _]. rewrite <- E. now apply in_map. }
  assert (Wm : wf_dict made).
  { unfold wf_dict, dkeys, made, annotated. rewrite !map_map. cbn. exact NDa. }
  assert (G : forall n x, In (n, x) (dupdate kept made) <-> In (n, x) made \/ (~ In n (map fst made) /\ In (n, x) kept)).
  { intros n x. assert (Wd : wf_dict (dupdate kept made)) by now apply wf_dupdate. split.
    - intros I. apply (In_dget _ _ _ Wd) in I. rewrite dget_dupdate in I by exact Wm.
      destruct (dget made n) as [y|] eqn:E; [left; injection I as ->; now apply dget_In|].
      right. split; [now apply dget_None|now apply dget_In].
    - intros H. apply dget_In. rewrite dget_dupdate by exact Wm. destruct H as [H|[H1 H2]].
      + rewrite (In_dget _ _ _ Wm H). reflexivity.
      + apply dget_None in H1. rewrite H1. now apply In_dget. }
  split.
  - intros [I|I].
    + apply getters_of in I as (b & Ib & I). exists b. split; [auto|now constructor].
    + apply getters_of in I as (b & [<-|[]] & I). cbn [b_attrs] in I. apply G in I as [I|[_ I]].
      * unfold made in I. apply in_map_iff in I as ([n [p r]] & E & I). cbn in E. injection E as <- <- <-.
        exists (own c). split; [exact own_in|]. now apply annotated_declared.
      * unfold kept in I. apply filter_In in I as [I _]. exists (own c). split; [exact own_in|now constructor].
  - intros (b & Ib & D). pose proof (declared_all b py pul a Ib D) as I. apply in_app_iff in I as [I|I].
    + right. unfold py_properties. cbn. rewrite app_nil_r. apply in_flat_map. exists (py, PGetter pul a). split; [|now left].
      apply G. left. unfold made. apply in_map_iff. exists (py, (pul, a)). split; [reflexivity|exact I].
    + apply props_declared in I as (b' & Ib' & I). rewrite Ec in Ib'. apply in_app_iff in Ib' as [Ib'|[<-|[]]].
      * left. unfold py_properties. apply in_flat_map. exists b'. split; [exact Ib'|]. apply in_flat_map. exists (py, PGetter pul a). split; [exact I|now left].
      * right. unfold py_properties. cbn. rewrite app_nil_r. apply in_flat_map. exists (py, PGetter pul a). split; [|now left].
        apply G. right. split.
        -- unfold made, annotated. rewrite !map_map. cbn. intros J. exact (A2 eq_refl py (own c) pul a J own_in I).
        -- unfold kept. apply filter_In. split; [exact I|reflexivity].
Qed.

Lemma decorated_names c' d : decorate c = Ok c' -> type_py_to_pulumi c' = Ok d ->
  (forall b py pul a, In b c -> declared_in b py pul a -> lookup d py = pul) /\
  (forall k, (forall b pul a, In b c -> ~ declared_in b k pul a) -> lookup d k = k).
Proof.
  intros E T. destruct (decorated c' E) as [M G]. unfold type_py_to_pulumi in T. rewrite M in T. injection T as <-. split.
  - intros b py pul a Ib D. unfold lookup. rewrite (dget_table _ py pul).
    + destruct (String.eqb_spec pul ""); [|reflexivity]. destruct (N b py pul a Ib D). contradiction.
    + intros v I. apply in_by_py in I as (a' & I). apply G in I as (b' & Ib' & D'). symmetry. now apply (K b b' py pul a py v a').
    + apply in_map_iff. exists (py, pul). split; [reflexivity|]. apply in_by_py. exists a. apply G. eauto.
  - intros k H. unfold lookup. rewrite dget_upd_out; [reflexivity|].
    intros I. apply in_map_iff in I as ([k' p] & E' & I). cbn in E'. subst k'.
    apply in_by_py in I as (a & I). apply G in I as (b & Ib & D). exact (H b p a Ib D).
Qed.
Lemma decorate_ok : (exists c', decorate c = Ok c') <-> forall b, In b c -> b_marked b = false.
Proof.
  unfold decorate, is_marked. destruct (existsb b_marked c) eqn:M.
  - split; [intros (c' & E); discriminate|]. intros H. apply existsb_exists in M as (b & Ib & Mb). rewrite (H b Ib) in Mb. discriminate.
  - split; [|eauto]. intros _ b Ib. destruct (b_marked b) eqn:E; [|reflexivity]. exfalso.
    assert (existsb b_marked c = true) by (apply existsb_exists; eauto). congruence.
Qed.
End C.
