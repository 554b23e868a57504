From Verif Require Import Base PyVal Model_Types Spec_Types.
Open Scope string_scope.

Lemma same_prop {A} (f : prop -> A) ps p q : NoDup (map f ps) -> In p ps -> In q ps -> f p = f q -> p = q.
Proof.
  induction ps as [|x ps IH]; simpl; [easy|]. intros N Hp Hq E. inversion N as [|? ? Nx Np]. subst.
  destruct Hp as [->|Hp], Hq as [->|Hq]; auto.
  - exfalso. apply Nx. rewrite E. now apply in_map.
  - exfalso. apply Nx. rewrite <- E. now apply in_map.
Qed.

Lemma table_spec ps : NoDup (map p_python ps) -> forall t p, In p ps ->
  dget (fold_left (fun t p => if String.eqb (p_python p) (p_pulumi p) then t else dset t (p_python p) (p_pulumi p)) ps t) (p_python p) =
  if String.eqb (p_python p) (p_pulumi p) then dget t (p_python p) else Some (p_pulumi p).
Proof.
  assert (Hout : forall ps t n, ~ In n (map p_python ps) ->
    dget (fold_left (fun t p => if String.eqb (p_python p) (p_pulumi p) then t else dset t (p_python p) (p_pulumi p)) ps t) n = dget t n).
  { induction ps0 as [|x ps0 IH]; simpl; auto. intros t n Hn. rewrite IH by tauto.
    destruct (String.eqb (p_python x) (p_pulumi x)); auto. rewrite dget_dset. destruct (String.eqb_spec n (p_python x)); [|auto]. subst. tauto. }
  induction ps as [|x ps IH]; simpl; [easy|]. intros N t p Hp. inversion N as [|? ? Nx Np]. subst.
  destruct Hp as [->|Hp].
  - rewrite Hout by assumption. destruct (String.eqb (p_python p) (p_pulumi p)); auto. now rewrite dget_dset, String.eqb_refl.
  - rewrite IH by assumption. destruct (String.eqb (p_python p) (p_pulumi p)); auto.
    destruct (String.eqb (p_python x) (p_pulumi x)); auto. rewrite dget_dset. destruct (String.eqb_spec (p_python p) (p_python x)) as [E|]; auto.
    exfalso. apply Nx. rewrite <- E. now apply in_map.
Qed.

Lemma pulumi_nonempty D p : well_declared D -> In p (d_props D) -> p_pulumi p <> "".
Proof.
  intros W Hp E. pose proof (wd_declared _ W) as H. unfold declare in H.
  destruct (existsb _ _) eqn:Ex; [discriminate|]. assert (K : existsb (fun p => String.eqb (p_pulumi p) "") (d_props D) = true).
  { apply existsb_exists. exists p. split; auto. now rewrite E. }
  congruence.
Qed.

Definition place (D : decl) (p : prop) : string :=
  match d_translate D with
  | Some tr => if d_input D then p_python p else tr (p_pulumi p)
  | None => p_python p
  end.
Lemma slot_place D p : well_declared D -> In p (d_props D) -> slot D (p_python p) = place D p.
Proof.
  intros W Hp. unfold slot, place, translate_name. destruct (d_input D), (d_translate D) as [tr|]; auto.
  unfold name_table. rewrite table_spec by (auto; apply W). simpl. f_equal.
  destruct (String.eqb_spec (p_python p) (p_pulumi p)) as [E|]; auto.
  destruct (String.eqb_spec (p_pulumi p) ""); auto. exfalso. eapply pulumi_nonempty; eauto.
Qed.
Lemma place_inj D p q : well_declared D -> In p (d_props D) -> In q (d_props D) -> place D p = place D q -> p = q.
Proof.
  intros W Hp Hq. unfold place. intros E. destruct (d_translate D) as [tr|] eqn:Et; [destruct (d_input D) eqn:Ei|].
  - eapply same_prop; eauto. apply W.
  - eapply wd_translate; eauto.
  - eapply same_prop; eauto. apply W.
Qed.

Definition stored (D : decl) (o : storage) (p : prop) : pyval := match dget o (place D p) with Some v => v | None => VNone end.
Lemma tget_stored D o p : well_declared D -> In p (d_props D) -> tget D o (p_python p) = Ok (stored D o p).
Proof.
  intros W Hp. unfold tget. pose proof (wd_names _ W _ Hp). destruct (String.eqb_spec (p_python p) ""); [easy|].
  now rewrite slot_place.
Qed.
Lemma tset_stored D o p v : well_declared D -> In p (d_props D) ->
  exists o', tset D o (p_python p) v = Ok o' /\ forall q, In q (d_props D) -> stored D o' q = if String.eqb (p_python q) (p_python p) then v else stored D o q.
Proof.
  intros W Hp. unfold tset. pose proof (wd_names _ W _ Hp). destruct (String.eqb_spec (p_python p) ""); [easy|].
  eexists. split; [reflexivity|]. intros q Hq. unfold stored. rewrite slot_place, dget_dset by assumption.
  destruct (String.eqb_spec (p_python q) (p_python p)) as [E|E].
  - assert (q = p) as -> by (eapply same_prop; eauto; apply W). now rewrite String.eqb_refl.
  - destruct (String.eqb_spec (place D q) (place D p)) as [K|K]; auto. apply place_inj in K; auto. congruence.
Qed.
Lemma init_one_stored D o p v : well_declared D -> In p (d_props D) -> stored D o p = VNone ->
  exists o', init_one D o p v = Ok o' /\ forall q, In q (d_props D) -> stored D o' q = if String.eqb (p_python q) (p_python p) then v else stored D o q.
Proof.
  intros W Hp Hn. unfold init_one. destruct (none_default p && is_none v) eqn:En.
  - eexists. split; [reflexivity|]. intros q Hq. destruct (String.eqb_spec (p_python q) (p_python p)) as [E|E]; auto.
    assert (q = p) as -> by (eapply same_prop; eauto; apply W). rewrite Hn. apply andb_true_iff in En as [_ En]. destruct v; easy.
  - destruct (d_init D).
    + change (match d_translate D with Some tr => if d_input D then p_python p else tr (p_pulumi p) | None => p_python p end) with (place D p).
      eexists. split; [reflexivity|]. intros q Hq. unfold stored. rewrite dget_dset.
      destruct (String.eqb_spec (p_python q) (p_python p)) as [E|E].
      * assert (q = p) as -> by (eapply same_prop; eauto; apply W). now rewrite String.eqb_refl.
      * destruct (String.eqb_spec (place D q) (place D p)) as [K|K]; auto. apply place_inj in K; auto. congruence.
    + now apply tset_stored.
Qed.

Lemma param_spec args p : (exists v, param args p = Ok v /\ initial args p v) \/ (dget args (p_python p) = None /\ p_default p = None /\ exists e, param args p = Err e).
Proof.
  unfold param. destruct (dget args (p_python p)) as [v|] eqn:E; [left; exists v; split; auto; now constructor|].
  destruct (p_default p) as [v|] eqn:Ed; [left; exists v; split; auto; now apply In_default|right; eauto].
Qed.
Lemma init_all_stored D args : well_declared D -> forall ps o, incl ps (d_props D) -> NoDup (map p_python ps) ->
  (forall p, In p ps -> stored D o p = VNone) ->
  (forall p, In p ps -> dget args (p_python p) = None -> p_default p <> None) ->
  exists o', init_all D args ps o = Ok o' /\
    (forall p, In p ps -> exists v, initial args p v /\ stored D o' p = v) /\
    (forall q, In q (d_props D) -> ~ In (p_python q) (map p_python ps) -> stored D o' q = stored D o q).
Proof.
  intros W. induction ps as [|p ps IH]; intros o Hi Hn Hs Hd; simpl.
  - eexists. split; [reflexivity|]. split; [easy|auto].
  - inversion Hn as [|? ? Np Nps]. subst. assert (Hp : In p (d_props D)) by (apply Hi; now left).
    destruct (param_spec args p) as [(v & -> & Hv)|(K1 & K2 & _)]; [|exfalso; exact (Hd p (or_introl eq_refl) K1 K2)].
    simpl. destruct (init_one_stored D o p v W Hp (Hs _ (or_introl eq_refl))) as (o1 & -> & H1). simpl.
    destruct (IH o1) as (o' & -> & H2 & H3).
    + intros x Hx. apply Hi. now right.
    + assumption.
    + intros q Hq. rewrite H1 by (apply Hi; now right). destruct (String.eqb_spec (p_python q) (p_python p)) as [E|]; [|apply Hs; now right].
      exfalso. apply Np. rewrite <- E. now apply in_map.
    + intros q Hq. apply Hd. now right.
    + eexists. split; [reflexivity|]. split.
      * intros q [<-|Hq]; [|auto]. exists v. split; auto. rewrite H3, H1, String.eqb_refl by assumption. reflexivity.
      * intros q Hq Hnq. simpl in Hnq. rewrite H3, H1 by tauto. destruct (String.eqb_spec (p_python q) (p_python p)) as [E|]; auto. rewrite E in Hnq. tauto.
Qed.

Lemma construct_ok D args : well_declared D ->
  (forall kv, In kv args -> declared_name D (fst kv)) ->
  (forall p, In p (d_props D) -> dget args (p_python p) = None -> p_default p <> None) ->
  exists o, construct D args = Ok o /\ forall p, In p (d_props D) -> exists v, initial args p v /\ tget D o (p_python p) = Ok v.
Proof.
  intros W Ha Hd. unfold construct.
  assert (E : forallb (fun kv => smem (fst kv) (map p_python (d_props D))) args = true).
  { apply forallb_forall. intros kv Hkv. apply smem_In. destruct (Ha _ Hkv) as (p & Hp & <-). now apply in_map. }
  rewrite E. destruct (init_all_stored D args W (d_props D) []) as (o & -> & H & _); auto.
  - apply incl_refl.
  - apply W.
  - eexists. split; [reflexivity|]. intros p Hp. destruct (H p Hp) as (v & Hv & <-). exists (stored D o p). split; auto. now apply tget_stored.
Qed.
Lemma construct_inv D args o : construct D args = Ok o ->
  (forall kv, In kv args -> declared_name D (fst kv)) /\
  (forall p, In p (d_props D) -> dget args (p_python p) = None -> p_default p <> None).
Proof.
  unfold construct. destruct (forallb _ args) eqn:E; [|discriminate]. intros H. split.
  - intros kv Hkv. rewrite forallb_forall in E. apply E in Hkv. apply smem_In in Hkv. apply in_map_iff in Hkv as (p & Hp & Hin). now exists p.
  - clear E. revert H. generalize ([] : storage). induction (d_props D) as [|q ps IH]; intros s H p; simpl in *; [easy|].
    destruct (param_spec args q) as [(v & Hv & Hi)|(K1 & K2 & e & Hv)]; rewrite Hv in H; simpl in H; [|discriminate].
    destruct (init_one D s q v) as [s'|]; simpl in H; [|discriminate].
    intros [<-|Hp]; [|eauto]. intros K1 K2. inversion Hi; congruence.
Qed.

Lemma writes D : well_declared D -> forall ws o, (forall n v, In (n, v) ws -> declared_name D n) ->
  exists o', tsets D o ws = Ok o' /\ forall p v, In p (d_props D) -> stored D o p = v ->
    last_written (p_python p) v ws (stored D o' p).
Proof.
  intros W. induction ws as [|[n x] ws IH]; intros o Hw.
  - exists o. split; auto. intros p v Hp <-. constructor.
  - destruct (Hw n x (or_introl eq_refl)) as (q & Hq & <-).
    destruct (tset_stored D o q x W Hq) as (o1 & E1 & H1).
    destruct (IH o1) as (o' & E' & H'); [intros m v Hm; apply (Hw m v); now right|].
    exists o'. split; [unfold tsets; simpl; rewrite E1; exact E'|].
    intros p v Hp Hv. destruct (String.eqb_spec (p_python p) (p_python q)) as [E|E].
    + rewrite <- E. apply LW_hit. apply H'; auto. rewrite H1, E, String.eqb_refl by assumption. reflexivity.
    + apply LW_other; auto. apply H'; auto. rewrite H1 by assumption. destruct (String.eqb_spec (p_python p) (p_python q)); congruence.
Qed.

Lemma to_dict_spec D o : well_declared D -> forall ps acc, incl ps (d_props D) -> NoDup (map p_pulumi ps) ->
  (forall p, In p ps -> dget acc (p_pulumi p) = None) ->
  exists d, to_dict_from D o ps acc = Ok d /\
    forall n v, dget d n = Some v <-> dget acc n = Some v \/ exists p, In p ps /\ p_pulumi p = n /\ stored D o p = v /\ v <> VNone.
Proof.
  intros W. induction ps as [|p ps IH]; intros acc Hi Hn Ha; simpl.
  - eexists. split; [reflexivity|]. intros n v. split; [auto|]. intros [H|(p & [] & _)]. exact H.
  - inversion Hn as [|? ? Np Nps]. subst. assert (Hp : In p (d_props D)) by (apply Hi; now left).
    rewrite tget_stored by assumption. simpl.
    destruct (IH (if is_none (stored D o p) then acc else dset acc (p_pulumi p) (stored D o p))) as (d & -> & Hd).
    + intros x Hx. apply Hi. now right.
    + assumption.
    + intros q Hq. destruct (is_none _); [apply Ha; now right|]. rewrite dget_dset.
      destruct (String.eqb_spec (p_pulumi q) (p_pulumi p)) as [E|]; [|apply Ha; now right]. exfalso. apply Np. rewrite <- E. now apply in_map.
    + eexists. split; [reflexivity|]. intros n v. rewrite Hd.
      assert (Ho : forall q, In q ps -> p_pulumi q = n -> n <> p_pulumi p) by (intros q Hq <- E; apply Np; rewrite <- E; now apply in_map).
      pose proof (Ha p (or_introl eq_refl)) as Hap.
      destruct (is_none (stored D o p)) eqn:En.
      * split; [intros [H|(q & H1 & H2)]; [now left|right; exists q; split; [now right|exact H2]]|].
        intros [H|(q & [<-|H1] & H2 & H3 & H4)]; [now left| |right; exists q; auto].
        subst v. destruct (stored D o p); easy.
      * rewrite dget_dset. destruct (String.eqb_spec n (p_pulumi p)) as [->|E].
        -- split.
           ++ intros [[= <-]|(q & H1 & H2 & _)]; [|exfalso; exact (Ho q H1 H2 eq_refl)].
              right. exists p. split; [now left|]. repeat split; auto. intros K. rewrite K in En. discriminate.
           ++ intros [H|(q & [<-|H1] & H2 & H3 & H4)]; [congruence|left; congruence|exfalso; exact (Ho q H1 H2 eq_refl)].
        -- split; [intros [H|(q & H1 & H2)]; [now left|right; exists q; split; [now right|exact H2]]|].
           intros [H|(q & [<-|H1] & H2 & H3 & H4)]; [now left|congruence|right; exists q; auto].
Qed.

Lemma from_dict_given ps (output : dict pyval) : NoDup (map p_python ps) -> forall acc p, In p ps ->
  dget (fold_left (fun args p => dset args (p_python p) (match dget output (p_pulumi p) with Some v => v | None => VNone end)) ps acc) (p_python p) =
  Some (match dget output (p_pulumi p) with Some v => v | None => VNone end).
Proof.
  assert (Hout : forall ps acc n, ~ In n (map p_python ps) ->
    dget (fold_left (fun args p => dset args (p_python p) (match dget output (p_pulumi p) with Some v => v | None => VNone end)) ps acc) n = dget acc n).
  { induction ps0 as [|x ps0 IH]; simpl; auto. intros acc n Hn. rewrite IH by tauto. rewrite dget_dset.
    destruct (String.eqb_spec n (p_python x)); [subst; tauto|auto]. }
  induction ps as [|x ps IH]; simpl; [easy|]. intros N acc p Hp. inversion N as [|? ? Nx Np]. subst.
  destruct Hp as [->|Hp]; [|now apply IH]. rewrite Hout by assumption. now rewrite dget_dset, String.eqb_refl.
Qed.
Lemma from_dict_keys ps (output : dict pyval) : forall acc k,
  In k (dkeys (fold_left (fun args p => dset args (p_python p) (match dget output (p_pulumi p) with Some v => v | None => VNone end)) ps acc)) ->
  In k (dkeys acc) \/ In k (map p_python ps).
Proof.
  intros acc k H. destruct (in_dec string_dec k (dkeys acc)) as [K|K]; auto. right.
  destruct (in_dec string_dec k (map p_python ps)) as [K'|K']; auto. exfalso. revert acc H K.
  induction ps as [|p ps IH]; simpl; intros acc H K; [auto|]. simpl in K'. apply IH in H; auto.
  rewrite dkeys_dset. intros [->|Hin]; [apply K'; now left|auto].
Qed.

Lemma defaults_last_spec ps : forall seen, defaults_last seen ps = Ok tt <->
  (seen = true -> forall p, In p ps -> p_default p <> None) /\
  (forall i j p q, i < j -> nth_error ps i = Some p -> nth_error ps j = Some q -> p_default p <> None -> p_default q <> None).
Proof.
  induction ps as [|x ps IH]; intros seen; simpl.
  - split; [|easy]. split; [easy|]. intros [|i] j p q; discriminate.
  - destruct (p_default x) as [dx|] eqn:E.
    + rewrite IH. split.
      * intros [H1 H2]. split.
        -- intros _ p [<-|Hp]; [congruence|]. now apply H1.
        -- intros [|i] [|j] p q Hij Hp Hq Hd; try lia; simpl in *.
           ++ apply (H1 eq_refl). eapply nth_error_In, Hq.
           ++ apply (H2 i j p q); auto; lia.
      * intros [H1 H2]. split.
        -- intros _ p Hp. apply In_nth_error in Hp as (j & Hj). apply (H2 0 (S j) x p); simpl; auto; [lia|congruence].
        -- intros i j p q Hij Hp Hq. apply (H2 (S i) (S j)); simpl; auto; lia.
    + destruct seen.
      * split; [easy|]. intros [H1 _]. exfalso. apply (H1 eq_refl x); auto.
      * rewrite IH. split.
        -- intros [_ H2]. split; [easy|]. intros [|i] [|j] p q Hij Hp Hq Hd; try lia; simpl in *; [congruence|].
           apply (H2 i j p q); auto; lia.
        -- intros [_ H2]. split; [easy|]. intros i j p q Hij Hp Hq. apply (H2 (S i) (S j)); simpl; auto; lia.
Qed.
Lemma declare_spec D : declare D = Ok tt <-> accepted D.
Proof.
  unfold declare, accepted. destruct (existsb (fun p => String.eqb (p_pulumi p) "") (d_props D)) eqn:E.
  - apply existsb_exists in E as (p & Hp & K). apply String.eqb_eq in K. split; [easy|]. intros [H _]. now apply H in Hp.
  - assert (H : forall p, In p (d_props D) -> p_pulumi p <> "").
    { intros p Hp K. assert (existsb (fun p => String.eqb (p_pulumi p) "") (d_props D) = true); [|congruence].
      apply existsb_exists. exists p. split; [exact Hp|]. now rewrite K. }
    destruct (d_init D).
    + rewrite defaults_last_spec. split; [intros [_ H2]; auto|]. intros [_ H2]. split; [easy|]. now apply H2.
    + split; [|easy]. intros _. split; [exact H|]. discriminate.
Qed.
