(** Proofs about serialisation. *)
From Verif Require Import Base PyVal Model_Output Spec_Output Proof_Output Proof_FromInput Model_Rpc Spec_Rpc.

(* ------------------------------------------------------------------ *)
(** Combinators. *)

Lemma ser_elems_ok es t keep ws ds :
  ser_elems es t keep = Done (ws, ds) <->
  exists ps, Forall2 (fun s p => s t keep = Done p) es ps /\
             ws = map fst ps /\ ds = concat (map snd ps).
Proof.
  revert ws ds. induction es as [|s es IH]; intros ws ds; simpl.
  - split.
    + intros [= <- <-]. exists []. auto.
    + intros (ps & H & -> & ->). inv H. reflexivity.
  - split.
    + destruct (s t keep) as [[w d]| |] eqn:E; simpl; try discriminate.
      destruct (ser_elems es t keep) as [[ws' ds']| |] eqn:E'; simpl; try discriminate.
      intros [= <- <-]. destruct (proj1 (IH ws' ds') eq_refl) as (ps & H & -> & ->).
      exists ((w, d) :: ps). auto.
    + intros (ps & H & -> & ->). inv H. rewrite H2. destruct y as [w d]; simpl.
      rewrite (proj2 (IH _ _)) by eauto. reflexivity.
Qed.

Definition put_all {V} (l : list (string * V)) (acc : dict V) : dict V :=
  fold_left (fun acc kv => dset acc (fst kv) (snd kv)) l acc.

Lemma ser_entries_ok tr ty keep es acc d ds :
  ser_entries tr ty keep es acc = Done (d, ds) <->
  exists ps, Forall2 (fun e p => (snd e : ser_fn) (ty (tr (fst e))) keep = Done p) es ps /\
             d = put_all (combine (map (fun e => tr (fst e)) es) (map fst ps)) acc /\
             ds = concat (map snd ps).
Proof.
  revert acc d ds. induction es as [|[k s] es IH]; intros acc d ds; simpl.
  - split.
    + intros [= <- <-]. exists []. auto.
    + intros (ps & H & -> & ->). inv H. reflexivity.
  - split.
    + destruct (s (ty (tr k)) keep) as [[w d1]| |] eqn:E; simpl; try discriminate.
      destruct (ser_entries tr ty keep es (dset acc (tr k) w)) as [[ws' ds']| |] eqn:E'; simpl; try discriminate.
      intros [= <- <-]. destruct (proj1 (IH _ ws' ds') E') as (ps & H & -> & ->).
      exists ((w, d1) :: ps). auto.
    + intros (ps & H & -> & ->). inv H. destruct y as [w d1]; simpl in *. rewrite H2; simpl.
      rewrite (proj2 (IH _ _ _)) by eauto. reflexivity.
Qed.

Lemma dget_put_all_notin {V} (l : list (string * V)) acc k :
  ~ In k (map fst l) -> dget (put_all l acc) k = dget acc k.
Proof.
  unfold put_all. revert acc. induction l as [|[k1 v1] l IH]; simpl; intros acc H; auto.
  rewrite IH by tauto. rewrite dget_dset. destruct (String.eqb_spec k k1); auto. subst. tauto.
Qed.

Lemma dget_put_all {V} (l : list (string * V)) acc k v :
  NoDup (map fst l) -> In (k, v) l -> dget (put_all l acc) k = Some v.
Proof.
  unfold put_all. revert acc. induction l as [|[k1 v1] l IH]; simpl; intros acc Hn; [easy|].
  inv Hn. intros [[= -> ->]|H].
  - pose proof (dget_put_all_notin l (dset acc k v) k H1) as E. unfold put_all in E. rewrite E.
    rewrite dget_dset, String.eqb_refl. reflexivity.
  - now apply IH.
Qed.

Lemma dkeys_put_all {V} (l : list (string * V)) acc k :
  In k (dkeys (put_all l acc)) <-> In k (map fst l) \/ In k (dkeys acc).
Proof.
  unfold put_all. revert acc. induction l as [|[k1 v1] l IH]; simpl; intros acc; [tauto|].
  rewrite IH, dkeys_dset. intuition.
Qed.

Lemma In_put_all {V} (l : list (string * V)) acc k v :
  In (k, v) (put_all l acc) -> In (k, v) l \/ In (k, v) acc.
Proof.
  unfold put_all. revert acc. induction l as [|[k1 v1] l IH]; simpl; intros acc; [tauto|].
  intros H. apply IH in H as [H|H]; [tauto|].
  assert (G : forall d : dict V, In (k, v) (dset d k1 v1) -> (k, v) = (k1, v1) \/ In (k, v) d).
  { intros d. induction d as [|[k2 v2] d IHd]; simpl; [intuition congruence|].
    destruct (String.eqb_spec k1 k2) as [->|]; simpl.
    - intuition congruence.
    - intuition congruence. }
  apply G in H as [H|H]; auto.
Qed.

Lemma wf_put_all {V} (l : list (string * V)) acc : wf_dict acc -> wf_dict (put_all l acc).
Proof.
  unfold put_all. revert acc. induction l as [|[k1 v1] l IH]; simpl; intros acc H; auto.
  apply IH. now apply wf_dset.
Qed.

(** Fresh keys are appended in order. *)
Lemma dset_fresh {V} (acc : dict V) k v : ~ In k (dkeys acc) -> dset acc k v = acc ++ [(k, v)].
Proof.
  induction acc as [|[k1 v1] acc IH]; simpl; intros H; auto.
  destruct (String.eqb_spec k k1) as [->|]; [tauto|]. rewrite IH; auto.
Qed.
Lemma put_all_fresh {V} (l : list (string * V)) acc :
  NoDup (map fst l) -> (forall k, In k (map fst l) -> ~ In k (dkeys acc)) ->
  put_all l acc = acc ++ l.
Proof.
  unfold put_all. revert acc. induction l as [|[k1 v1] l IH]; simpl; intros acc Hn Hf.
  - now rewrite app_nil_r.
  - inv Hn. rewrite IH; auto.
    + rewrite dset_fresh by (apply Hf; auto). now rewrite <- app_assoc.
    + intros k Hk. rewrite dkeys_dset. intros [->|Hi]; [tauto|]. apply (Hf k); auto.
Qed.

(** Members of an input-type object. *)
Lemma input_entries_spec {A} (fs : list field) (vals : dict (bool * A)) k a :
  In (k, a) (input_entries fs vals) ->
  exists f, In f fs /\ f_pulumi f = k /\ dget vals (f_py f) = Some (false, a).
Proof.
  unfold input_entries.
  assert (G : forall fs acc, In (k, a) (fold_left (fun acc f => match dget vals (f_py f) with
                          | Some (false, s) => dset acc (f_pulumi f) s
                          | _ => acc
                          end) fs acc) ->
     In (k, a) acc \/ exists f, In f fs /\ f_pulumi f = k /\ dget vals (f_py f) = Some (false, a)).
  { clear fs. induction fs as [|f fs IH]; simpl; intros acc H; auto.
    apply IH in H as [H|(g & Hg & E)]; [|right; exists g; auto].
    destruct (dget vals (f_py f)) as [[[] s]|] eqn:Ev; auto.
    assert (K := In_put_all [(f_pulumi f, s)] acc k a H). simpl in K.
    destruct K as [[[= <- <-]|[]]|K]; auto. right. exists f; auto. }
  intros H. apply G in H as [[]|H]; auto.
Qed.

Lemma input_entries_complete {A} (fs : list field) (vals : dict (bool * A)) f a :
  class_ok fs -> In f fs -> dget vals (f_py f) = Some (false, a) ->
  dget (input_entries fs vals) (f_pulumi f) = Some a.
Proof.
  unfold input_entries. intros Hc Hf Hv.
  assert (G : forall gs acc, (forall g, In g gs -> In g fs) ->
     In f gs \/ dget acc (f_pulumi f) = Some a ->
     dget (fold_left (fun acc f => match dget vals (f_py f) with
                          | Some (false, s) => dset acc (f_pulumi f) s
                          | _ => acc
                          end) gs acc) (f_pulumi f) = Some a).
  { induction gs as [|g gs IH]; simpl; intros acc Hsub H; [tauto|].
    apply IH; [intros; apply Hsub; auto|].
    destruct (String.eqb_spec (f_pulumi f) (f_pulumi g)) as [E|N].
    - assert (P : f_py f = f_py g) by (apply Hc; auto).
      right. rewrite <- P, Hv, <- E, dget_dset, String.eqb_refl. reflexivity.
    - destruct H as [[->|H]|H]; [congruence|auto|]. right.
      destruct (dget vals (f_py g)) as [[[] s]|]; auto.
      rewrite dget_dset. destruct (String.eqb_spec (f_pulumi f) (f_pulumi g)); congruence. }
  apply G; auto.
Qed.

Lemma wf_input_entries {A} (fs : list field) (vals : dict (bool * A)) : wf_dict (input_entries fs vals).
Proof.
  unfold input_entries.
  assert (G : forall gs acc, wf_dict acc -> wf_dict (fold_left (fun acc f => match dget vals (f_py f) with
                          | Some (false, s) => dset acc (f_pulumi f) s
                          | _ => acc
                          end) gs acc)).
  { induction gs as [|g gs IH]; simpl; intros acc H; auto. apply IH.
    destruct (dget vals (f_py g)) as [[[] s]|]; auto. now apply wf_dset. }
  apply G. constructor.
Qed.

Lemma dget_map {A B} (f : A -> B) (d : dict A) k :
  dget (map (fun kv => (fst kv, f (snd kv))) d) k = option_map f (dget d k).
Proof.
  induction d as [|[k1 v1] d IH]; simpl; auto. destruct (String.eqb k k1); auto.
Qed.

Lemma dkeys_map {A B} (f : A -> B) (d : dict A) :
  dkeys (map (fun kv => (fst kv, f (snd kv))) d) = dkeys d.
Proof. unfold dkeys. now rewrite map_map. Qed.

Lemma F2_in_l {A B} (R : A -> B -> Prop) l m a :
  Forall2 R l m -> In a l -> exists b, In b m /\ R a b.
Proof.
  induction 1; simpl; [easy|]. intros [<-|H1]; [eauto|].
  destruct (IHForall2 H1) as (b & Hb & HR); eauto.
Qed.
Lemma F2_in_r {A B} (R : A -> B -> Prop) l m b :
  Forall2 R l m -> In b m -> exists a, In a l /\ R a b.
Proof.
  induction 1; simpl; [easy|]. intros [<-|H1]; [eauto|].
  destruct (IHForall2 H1) as (a & Ha & HR); eauto.
Qed.

Lemma In_concat_snd {A B} (ps : list (A * list B)) r :
  In r (concat (map snd ps)) <-> exists p, In p ps /\ In r (snd p).
Proof.
  rewrite in_concat. split.
  - intros (l & Hl & Hr). apply in_map_iff in Hl as (p & <- & Hp). eauto.
  - intros (p & Hp & Hr). exists (snd p). split; auto. now apply in_map.
Qed.

(** Shape of the serialisation of an input-type object. *)
Definition input_fns (c : cfg) (fields : list (string * pyval)) : dict (bool * ser_fn) :=
  map (fun kv => (fst kv, (is_none (snd kv), ser c (snd kv)))) fields.

Lemma dget_input_fns c fields k :
  dget (input_fns c fields) k =
  option_map (fun x => (is_none x, ser c x)) (dget fields k).
Proof. unfold input_fns. apply (dget_map (fun x => (is_none x, ser c x))). Qed.

(* ------------------------------------------------------------------ *)
(** C14: dependencies are exactly the mentioned resources. *)

Ltac ser_case E ws ds E' :=
  match type of E with
  | context [ser_entries ?a ?b ?k ?es ?acc] =>
      destruct (ser_entries a b k es acc) as [[ws ds]| |] eqn:E'; simpl in E; try discriminate
  end.

Section Deps.
  Variable c : cfg.
  Hypothesis Hc : forall cls, class_ok (c_class c cls).

  Lemma ser_string_deps r f w ds : ser_string_output r f = Done (w, ds) -> ds = [r].
  Proof. unfold ser_string_output. destruct f; simpl; try discriminate. now intros [= _ <-]. Qed.

  Lemma ser_deps v : forall t keep w ds,
    ser c v t keep = Done (w, ds) -> forall r, In r ds <-> mentions c r v.
  Proof.
    induction v using pyval_ind'; intros ty0 keep w ds E r0; simpl in E;
      try (injection E as <- <-; split; [intros []|intros M; inv M]; fail);
      try discriminate.
    - (* list *)
      destruct (element_type (norm_ty ty0)) as [et|]; [|discriminate].
      destruct (ser_elems (map (fun x => ser c x) l) et keep) as [[ws ds']| |] eqn:E'; simpl in E; try discriminate.
      injection E as <- <-.
      apply ser_elems_ok in E' as (ps & HF & _ & ->).
      rewrite In_concat_snd. rewrite Forall_forall in H. split.
      + intros (p & Hp & Hr). destruct (F2_in_r _ _ _ _ HF Hp) as (s & Hs & Es).
        apply in_map_iff in Hs as (x & <- & Hx). destruct p as [w' d'].
        apply M_list with x; auto. now apply (H x Hx _ _ _ _ Es).
      + intros M. inv M. destruct (F2_in_l _ _ _ (ser c x) HF) as ([w' d'] & Hp & Es).
        { apply (in_map (fun x => ser c x)); auto. }
        exists (w', d'). split; auto. now apply (H x H1 _ _ _ _ Es).
    - (* dict *)
      destruct (ser_entries _ _ keep (map (fun kv => (fst kv, ser c (snd kv))) d) []) as [[ws ds']| |] eqn:E';
        simpl in E; try discriminate. injection E as <- <-.
      apply ser_entries_ok in E' as (ps & HF & _ & ->).
      rewrite In_concat_snd. rewrite Forall_forall in H. split.
      + intros (p & Hp & Hr). destruct (F2_in_r _ _ _ _ HF Hp) as (s & Hs & Es).
        apply in_map_iff in Hs as ([k x] & <- & Hx). destruct p as [w' d']. simpl in Es.
        apply M_dict with k x; auto. now apply (H (k, x) Hx _ _ _ _ Es).
      + intros M. inv M. destruct (F2_in_l _ _ _ (k, ser c x) HF) as ([w' d'] & Hp & Es).
        { apply (in_map (fun kv => (fst kv, ser c (snd kv)))) in H1; exact H1. }
        exists (w', d'). split; auto. now apply (H (k, x) H1 _ _ _ _ Es).
    - (* archive *)
      destruct (ser_entries _ _ false (map (fun kv => (fst kv, ser c (snd kv))) d) []) as [[ws ds']| |] eqn:E';
        simpl in E; try discriminate. injection E as <- <-.
      apply ser_entries_ok in E' as (ps & HF & _ & ->).
      rewrite In_concat_snd. rewrite Forall_forall in H. split.
      + intros (p & Hp & Hr). destruct (F2_in_r _ _ _ _ HF Hp) as (s & Hs & Es).
        apply in_map_iff in Hs as ([k x] & <- & Hx). destruct p as [w' d']. simpl in Es.
        apply M_archive with k x; auto. now apply (H (k, x) Hx _ _ _ _ Es).
      + intros M. inv M. destruct (F2_in_l _ _ _ (k, ser c x) HF) as ([w' d'] & Hp & Es).
        { apply (in_map (fun kv => (fst kv, ser c (snd kv)))) in H1; exact H1. }
        exists (w', d'). split; auto. now apply (H (k, x) H1 _ _ _ _ Es).
    - (* resource *)
      assert (K : forall ds, (forall x, In x ds <-> x = r) -> (In r0 ds <-> mentions c r0 (VRes r))).
      { intros ds' Hd. rewrite Hd. split; [intros ->; constructor|intros M; now inv M]. }
      destruct (c_refs c).
      + destruct (ser_string_output r (r_urn (c_res c r))) as [[u d1]| |] eqn:E1; simpl in E; try discriminate.
        apply ser_string_deps in E1. subst d1. destruct (r_custom (c_res c r)).
        * destruct (ser_string_output r (r_id (c_res c r))) as [[u' d2]| |] eqn:E2; simpl in E; try discriminate.
          apply ser_string_deps in E2. subst d2. injection E as <- <-. apply K. simpl. intuition.
        * injection E as <- <-. apply K. simpl. intuition.
      + apply ser_string_deps in E. subst ds. apply K. simpl; intuition.
    - (* await *)
      destruct f as [x| |]; try discriminate. simpl in H. rewrite (H _ _ _ _ E). split.
      + now constructor.
      + intros M; now inv M.
    - (* output *)
      destruct rs as [rs| |]; try discriminate. destruct k as [k| |]; try discriminate.
      destruct s as [s| |]; try discriminate. simpl in E.
      destruct v as [x| |]; try discriminate. simpl in H.
      assert (K : forall pds, (forall r, In r pds <-> contains_unknowns x = false /\ mentions c r x) ->
                  In r0 (rs ++ pds) <-> mentions c r0 (VOut (Done rs) (Done x) (Done k) (Done s))).
      { intros pds Hp. rewrite in_app_iff, Hp. split.
        - intros [?|[? ?]]; [now apply M_out|now apply M_out_value].
        - intros M; inv M; auto. }
      assert (P : exists w' pds, (if contains_unknowns x then Done (WNull, []) else ser c x (norm_ty ty0) false) = Done (w', pds) /\
                  (forall r, In r pds <-> contains_unknowns x = false /\ mentions c r x)).
      { destruct (contains_unknowns x).
        - exists WNull, []. split; auto. intros r. simpl. intuition discriminate.
        - destruct (ser c x (norm_ty ty0) false) as [[w' pds]| |] eqn:E1; simpl in E; try discriminate.
          exists w', pds. split; auto. intros r. rewrite (H _ _ _ _ E1). tauto. }
      destruct P as (w' & pds & P1 & P2). rewrite P1 in E. simpl in E.
      destruct (keep && c_outvals c).
      + destruct (await_urns c (rs ++ pds)); simpl in E; try discriminate.
        destruct (expand_all c (rs ++ pds)); simpl in E; try discriminate.
        injection E as <- <-. now apply K.
      + destruct (negb k); [injection E as <- <-; now apply K|].
        destruct (s && c_secrets c); injection E as <- <-; now apply K.
    - (* input type *)
      fold (input_fns c d) in E.
      ser_case E ws ds' E'. injection E as <- <-.
      apply ser_entries_ok in E' as (ps & HF & _ & ->).
      rewrite In_concat_snd. rewrite Forall_forall in H. split.
      + intros (p & Hp & Hr). destruct (F2_in_r _ _ _ _ HF Hp) as ([k s] & Hs & Es).
        apply input_entries_spec in Hs as (f & Hf & Hk & Hg).
        rewrite dget_input_fns in Hg. destruct (dget d (f_py f)) as [x|] eqn:Hx; [|discriminate].
        injection Hg as Hn <-. destruct p as [w' d']. simpl in Es.
        apply M_input with f x; auto.
        apply dget_In in Hx. now apply (H (f_py f, x) Hx _ _ _ _ Es).
      + intros M. inv M.
        destruct (is_none x) eqn:Hn.
        { destruct x; try discriminate. inv H4. }
        assert (Hg : dget (input_fns c d) (f_py f) = Some (false, ser c x)).
        { rewrite dget_input_fns, H3. simpl. now rewrite Hn. }
        pose proof (input_entries_complete _ _ f (ser c x) (Hc c0) H2 Hg) as Hin.
        apply dget_In in Hin.
        destruct (F2_in_l _ _ _ _ HF Hin) as ([w' d'] & Hp & Es). simpl in Es.
        exists (w', d'). split; auto. apply dget_In in H3. now apply (H (f_py f, x) H3 _ _ _ _ Es).
  Qed.
End Deps.
