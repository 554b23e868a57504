(** Proofs about dependency expansion (C28) and provider references (C65). *)
From Verif Require Import Base Model_Cycle Spec_Cycle Proof_Cycle Model_Urn Model_Rpc Proof_Urn Spec_Urn Model_Deps Spec_Deps.
Open Scope string_scope.

Section RsrcInd.
  Variable P : rsrc -> Prop.
  Hypothesis H : forall r lc u cs, Forall P cs -> P (Rsrc r lc u cs).
  Fixpoint rsrc_ind' (x : rsrc) : P x :=
    match x with
    | Rsrc r lc u cs => H r lc u cs ((fix go cs := match cs return Forall P cs with
        | [] => Forall_nil _ | c :: cs' => Forall_cons _ (rsrc_ind' c) (go cs') end) cs)
    end.
End RsrcInd.

Fixpoint leaves (x : rsrc) : list rsrc :=
  match x with Rsrc r lc u cs => if lc then flat_map leaves cs else [x] end.

Lemma leaves_spec x y : In y (leaves x) <-> stands_for x y.
Proof.
  induction x as [r lc u cs IH] using rsrc_ind'. destruct lc; simpl.
  - rewrite in_flat_map. rewrite Forall_forall in IH. split.
    + intros (c & Hc & Hy). apply IH in Hy; auto. econstructor; eauto.
    + intros S. inversion S; subst. eexists. split; eauto. apply IH; auto.
  - split.
    + intros [<-|[]]. constructor.
    + intros S. inversion S; subst. now left.
Qed.
Lemma leaves_any ds y : In y (flat_map leaves ds) <-> any_of ds y.
Proof.
  rewrite in_flat_map. unfold any_of. split; intros (d & Hd & Hy); exists d; split; auto; now apply leaves_spec.
Qed.
Lemma leaf_shape x y : In y (leaves x) -> exists r u cs, y = Rsrc r false u cs.
Proof. rewrite leaves_spec. induction 1; eauto. Qed.

Definition rs_urn (x : rsrc) : res (option string) := let 'Rsrc _ _ u _ := x in u.

Section Ord.
Variable ord : rid -> list rid -> list rid.
Hypothesis ord_ok : forall r l, same_set (ord r l) l.

Fixpoint leaf_loop (from : option rid) (st : dstate) (l : list rsrc) : res dstate :=
  match l with
  | [] => Ok st
  | x :: l' => let+ st' := add_leaf ord from st (rs_id x) (rs_urn x) in leaf_loop from st' l'
  end.
Lemma leaf_loop_app from l1 l2 st :
  leaf_loop from st (l1 ++ l2)%list = (let+ st' := leaf_loop from st l1 in leaf_loop from st' l2).
Proof.
  revert st. induction l1 as [|x l1 IH]; intros st; simpl; auto.
  destruct (add_leaf _ _ _ _ _); simpl; auto.
Qed.
Lemma add_dependency_leaves from x : forall st, add_dependency ord from st x = leaf_loop from st (leaves x).
Proof.
  induction x as [r lc u cs IH] using rsrc_ind'. intros st. destruct lc; cbn [add_dependency leaves].
  - revert st. induction IH as [|c cs Hc _ IHl]; intros st; [reflexivity|].
    cbn [flat_map]. rewrite leaf_loop_app, <- Hc. destruct (add_dependency ord from st c); cbn [rbind]; auto.
  - cbn [leaf_loop rs_id rs_urn]. destruct (add_leaf _ _ _ _ _); reflexivity.
Qed.
Lemma expand_leaves from ds : forall st, expand_loop ord from st ds = leaf_loop from st (flat_map leaves ds).
Proof.
  induction ds as [|d ds IH]; intros st; [reflexivity|]. cbn [expand_loop flat_map].
  rewrite leaf_loop_app, add_dependency_leaves. destruct (leaf_loop from st (leaves d)); cbn [rbind]; auto.
Qed.

Lemma sadd_In u l x : In x (sadd u l) <-> x = u \/ In x l.
Proof.
  unfold sadd. destruct (smem u l) eqn:E.
  - apply smem_In in E. split; [auto|]. intros [->|H]; auto.
  - rewrite in_app_iff. simpl. intuition congruence.
Qed.
Lemma sadd_NoDup u l : NoDup l -> NoDup (sadd u l).
Proof.
  intros H. unfold sadd. destruct (smem u l) eqn:E; auto. apply smem_notIn in E.
  clear -H E. induction H; simpl in *; [repeat constructor; auto|].
  constructor; [rewrite in_app_iff; simpl; intuition congruence|]. apply IHNoDup. tauto.
Qed.

(** No source: every leaf contributes. *)
Lemma loop_none l : forall g deps, NoDup deps ->
  Forall urn_ok l ->
  exists urns, leaf_loop None (g, deps) l = Ok (g, urns) /\ NoDup urns /\
    forall s, In s urns <-> In s deps \/ exists x, In x l /\ has_urn x s.
Proof.
  induction l as [|x l IH]; intros g deps Hd Hu; simpl.
  - exists deps. repeat split; auto. intros [H|(x & [] & _)]; auto.
  - inversion Hu as [|? ? (r & lc & u & cs & ->) Hl]; subst. cbn [rs_urn rs_id add_leaf rbind fst snd].
    destruct u as [s|].
    + destruct (String.eqb_spec s "") as [->|Ns]; cbn [rbind].
      * destruct (IH g deps Hd Hl) as (urns & E & N & S). exists urns. repeat split; auto.
        -- intros H. apply S in H as [H|(x & Hx & H)]; eauto.
        -- intros [H|(x & [<-|Hx] & H)]; apply S; eauto. destruct H as (? & ? & ? & [= _ _ <- _] & K). congruence.
      * destruct (IH g (sadd s deps) (sadd_NoDup _ _ Hd) Hl) as (urns & E & N & S). exists urns. repeat split; auto.
        -- intros H. apply S in H as [H|(x & Hx & H)]; [|eauto]. apply sadd_In in H as [->|H]; auto.
           right. eexists. split; [now left|]. repeat eexists; auto.
        -- intros [H|(x & [<-|Hx] & H)]; apply S; eauto; left; apply sadd_In; auto.
           destruct H as (? & ? & ? & [= _ _ <- _] & K). now left.
    + destruct (IH g deps Hd Hl) as (urns & E & N & S). exists urns. repeat split; auto.
      * intros H. apply S in H as [H|(x & Hx & H)]; eauto.
      * intros [H|(x & [<-|Hx] & H)]; apply S; eauto. destruct H as (? & ? & ? & [= ] & K).
Qed.
Lemma loop_none_err l : forall g deps st, leaf_loop None (g, deps) l = Ok st -> Forall urn_ok l.
Proof.
  induction l as [|x l IH]; intros g deps st E; [constructor|]. destruct x as [r lc u cs]. simpl in E.
  destruct u as [u|e]; [|discriminate]. constructor; [exists r, lc, u, cs; reflexivity|].
  unfold add_leaf in E. cbn [rbind fst snd] in E.
  destruct u as [s|]; [destruct (String.eqb s "")|]; cbn [rbind] in E; eapply IH; exact E.
Qed.

Definition E (g : dep_heap) a b := depends g a b.

Lemma declare_step g f r : ~ cyclic (depends g) ->
  (path (depends g) r f /\ declare_dependency ord g f r = Some (false, g)) \/
  (~ path (depends g) r f /\ exists g', declare_dependency ord g f r = Some (true, g') /\ ~ cyclic (depends g') /\
     forall a b, depends g' a b <-> depends g a b \/ (a = f /\ b = r)).
Proof.
  intros Hc. unfold declare_dependency. destruct (reachable_ok ord ord_ok g r f) as (b & -> & Hb).
  destruct b.
  - left. split; auto. apply Hb. auto.
  - right. assert (Hn : ~ path (depends g) r f) by (intros P; apply Hb in P; discriminate). split; auto.
    exists (add_dep g f r). assert (G : forall a b, depends (add_dep g f r) a b <-> depends g a b \/ (a = f /\ b = r)) by apply gedge_add_dep.
    repeat split; auto; try apply G.
    intros (a & b & H1 & H2). apply (path_add_edge _ _ _ Hc Hn). exists a, b. split; [now apply G|].
    revert H2. apply path_incl. intros. now apply G.
Qed.

Definition after (f : rid) (g g' : dep_heap) (ids : list rid) : Prop :=
  ~ cyclic (depends g') /\
  (forall a b, depends g a b -> depends g' a b) /\
  (forall a b, depends g' a b -> depends g a b \/ (a = f /\ In b ids)) /\
  (forall x, In x ids -> depends g' f x \/ path (depends g') x f).

Lemma after_refused f g' ids x : after f g' g' ids -> path (depends g') x f -> ~ depends g' f x.
Proof. intros (Hc & _) P D. apply Hc. exists f, x. auto. Qed.

Lemma after_trans f g g1 g2 i1 i2 : after f g g1 i1 -> after f g1 g2 i2 -> after f g g2 (i1 ++ i2)%list.
Proof.
  intros (A1 & A2 & A3 & A4) (B1 & B2 & B3 & B4). repeat split; auto.
  - intros a b H. apply B3 in H as [H|[-> H]]; [|right; rewrite in_app_iff; auto].
    apply A3 in H as [H|[-> H]]; auto. right. rewrite in_app_iff; auto.
  - intros x Hx. apply in_app_iff in Hx as [Hx|Hx]; auto. destruct (A4 x Hx) as [H|H]; auto.
    right. revert H. apply path_incl. auto.
Qed.

Lemma loop_some f l : forall g deps, NoDup deps -> ~ cyclic (depends g) ->
  Forall urn_ok l ->
  exists g' urns, leaf_loop (Some f) (g, deps) l = Ok (g', urns) /\ NoDup urns /\
    after f g g' (map rs_id l) /\
    (forall gf, (forall a b, depends g' a b -> depends gf a b) -> ~ cyclic (depends gf) ->
      forall s, In s urns <-> In s deps \/ exists x, In x l /\ has_urn x s /\ depends gf f (rs_id x)).
Proof.
  induction l as [|x l IH]; intros g deps Hd Hc Hu.
  - exists g, deps. split; [reflexivity|]. split; auto. split.
    + repeat split; auto. intros x [].
    + intros gf _ _ s. split; auto. intros [H|(x & [] & _)]; auto.
  - inversion Hu as [|? ? (r & lc & u & cs & ->) Hl]; subst. cbn [leaf_loop rs_urn rs_id map].
    unfold add_leaf at 1. cbn [fst snd].
    destruct (declare_step g f r Hc) as [(P & ->)|(P & g1 & -> & Hc1 & G)]; cbn [rbind fst snd].
    + destruct (IH g deps Hd Hc Hl) as (g' & urns & El & N & A & S). exists g', urns. split; auto. split; auto. split.
      * destruct A as (A1 & A2 & A3 & A4). repeat split; auto.
        -- intros a b H. apply A3 in H as [H|[-> H]]; auto. right; simpl; auto.
        -- intros y [<-|Hy]; auto. right. revert P. apply path_incl. auto.
      * intros gf Hgf Hcf s. rewrite (S gf Hgf Hcf s). split.
        -- intros [H|(y & Hy & H)]; auto. right. exists y. simpl; auto.
        -- intros [H|(y & [<-|Hy] & H & D)]; auto; [|eauto].
           exfalso. apply Hcf. exists f, r. split; auto. revert P. apply path_incl. intros a b Hab. apply Hgf. now apply A.
    + assert (A0 : after f g g1 [r]).
      { repeat split; auto.
        - intros a b H. apply G. auto.
        - intros a b H. apply G in H as [H|[-> ->]]; auto. right; simpl; auto.
        - intros y [<-|[]]. left. apply G. auto. }
      assert (HH : forall deps1, NoDup deps1 ->
        (forall s, In s deps1 <-> In s deps \/ (u = Some s /\ s <> "")) ->
        exists g' urns, leaf_loop (Some f) (g1, deps1) l = Ok (g', urns) /\ NoDup urns /\
          after f g g' (r :: map rs_id l) /\
          (forall gf, (forall a b, depends g' a b -> depends gf a b) -> ~ cyclic (depends gf) ->
            forall s, In s urns <-> In s deps \/ exists x, In x (Rsrc r lc (Ok u) cs :: l) /\ has_urn x s /\ depends gf f (rs_id x))).
      { intros deps1 Hd1 S1. destruct (IH g1 deps1 Hd1 Hc1 Hl) as (g' & urns & El & N & A & S).
        exists g', urns. split; auto. split; auto. split; [exact (after_trans _ _ _ _ [r] _ A0 A)|].
        intros gf Hgf Hcf s. rewrite (S gf Hgf Hcf s), S1. split.
        - intros [[H|[-> H]]|(y & Hy & H)]; auto.
          + right. eexists. split; [now left|]. split; [repeat eexists; auto|]. cbn [rs_id].
            apply Hgf. apply A. apply G. auto.
          + right. exists y. simpl; auto.
        - intros [H|(y & [<-|Hy] & H & D)]; auto; [|eauto].
          left. right. destruct H as (? & ? & ? & [= _ _ -> _] & K). auto. }
      destruct u as [s|].
      * destruct (String.eqb_spec s "") as [->|Ns]; cbn [rbind].
        -- apply HH; auto. intros s'. split; auto. intros [H|[[= <-] K]]; auto. congruence.
        -- apply HH; auto using sadd_NoDup. intros s'. rewrite sadd_In. split.
           ++ intros [->|H]; auto.
           ++ intros [H|[[= ->] K]]; auto.
      * cbn [rbind]. apply HH; auto. intros s'. split; auto. intros [H|[K _]]; [auto|discriminate].
Qed.

Lemma all_urn_ok ds : (forall x, any_of ds x -> urn_ok x) -> Forall urn_ok (flat_map leaves ds).
Proof. intros H. apply Forall_forall. intros x Hx. apply H. now apply leaves_any. Qed.

Lemma expand_none g ds : (forall x, any_of ds x -> urn_ok x) ->
  exists urns, expand_dependencies ord None g ds = Ok (g, urns) /\ NoDup urns /\
    forall s, In s urns <-> exists x, any_of ds x /\ has_urn x s.
Proof.
  intros H. unfold expand_dependencies. rewrite expand_leaves.
  destruct (loop_none (flat_map leaves ds) g [] (NoDup_nil _) (all_urn_ok ds H)) as (urns & El & N & S).
  exists urns. split; auto. split; auto. intros s. rewrite S. split.
  - intros [[]|(x & Hx & Hs)]. apply leaves_any in Hx. eauto.
  - intros (x & Hx & Hs). right. exists x. split; auto. now apply leaves_any.
Qed.
Lemma expand_none_err g ds st : expand_dependencies ord None g ds = Ok st -> forall x, any_of ds x -> urn_ok x.
Proof.
  unfold expand_dependencies. rewrite expand_leaves. intros El x Hx. apply loop_none_err in El.
  rewrite Forall_forall in El. apply El. now apply leaves_any.
Qed.

Lemma expand_some f g ds : ~ cyclic (depends g) -> (forall x, any_of ds x -> urn_ok x) ->
  exists g' urns, expand_dependencies ord (Some f) g ds = Ok (g', urns) /\ NoDup urns /\
    after f g g' (map rs_id (flat_map leaves ds)) /\
    (forall gf, (forall a b, depends g' a b -> depends gf a b) -> ~ cyclic (depends gf) ->
       forall s, In s urns <-> exists x, any_of ds x /\ has_urn x s /\ depends gf f (rs_id x)).
Proof.
  intros Hc H. unfold expand_dependencies. rewrite expand_leaves.
  destruct (loop_some f (flat_map leaves ds) g [] (NoDup_nil _) Hc (all_urn_ok ds H)) as (g' & urns & El & N & A & S).
  exists g', urns. split; auto. split; auto. split; auto. intros gf H1 H2 s. rewrite (S gf H1 H2 s). split.
  - intros [[]|(x & Hx & Hs)]. apply leaves_any in Hx. eauto.
  - intros (x & Hx & Hs). right. exists x. split; auto. now apply leaves_any.
Qed.

Definition ids_of (ds : list rsrc) : list rid := map rs_id (flat_map leaves ds).
Lemma ids_of_spec ds b : In b (ids_of ds) <-> exists x, any_of ds x /\ rs_id x = b.
Proof.
  unfold ids_of. rewrite in_map_iff. split.
  - intros (x & <- & Hx). apply leaves_any in Hx. eauto.
  - intros (x & Hx & <-). apply leaves_any in Hx. eauto.
Qed.

Lemma fold_sadd l deps : NoDup deps -> NoDup (fold_left (fun acc u => sadd u acc) l deps) /\
  forall s, In s (fold_left (fun acc u => sadd u acc) l deps) <-> In s deps \/ In s l.
Proof.
  revert deps. induction l as [|a l IH]; intros deps H; simpl; [split; auto; intros s; tauto|].
  destruct (IH (sadd a deps) (sadd_NoDup _ _ H)) as [N S]. split; auto. intros s. rewrite S, sadd_In. intuition congruence.
Qed.

Lemma property_loop_ok f props : forall g deps pds,
  ~ cyclic (depends g) -> NoDup deps -> wf_dict props -> (forall k, In k (dkeys props) -> dget pds k = None) ->
  (forall k ds x, In (k, ds) props -> any_of ds x -> urn_ok x) ->
  exists g' deps' pds', property_deps_loop ord (Some f) g deps pds props = Ok (g', deps', pds') /\
    after f g g' (flat_map (fun kd => ids_of (snd kd)) props) /\ NoDup deps' /\
    (forall gf, (forall a b, depends g' a b -> depends gf a b) -> ~ cyclic (depends gf) ->
      (forall s, In s deps' <-> In s deps \/ exists k ds x, In (k, ds) props /\ any_of ds x /\ has_urn x s /\ depends gf f (rs_id x)) /\
      (forall k, match dget props k with
                 | None => dget pds' k = dget pds k
                 | Some ds => exists urns, dget pds' k = Some urns /\ NoDup urns /\
                      forall s, In s urns <-> exists x, any_of ds x /\ has_urn x s /\ depends gf f (rs_id x)
                 end)).
Proof.
  induction props as [|[key ds] props IH]; intros g deps pds Hc Hd Hw Hk Hu.
  - exists g, deps, pds. split; [reflexivity|]. split; [repeat split; auto; intros x []|]. split; auto.
    intros gf _ _. split; [|reflexivity]. intros s. split; auto. intros [H|(k & ds & x & [] & _)]; auto.
  - cbn [property_deps_loop].
    destruct (expand_some f g ds Hc) as (g1 & urns & E1 & N1 & A1 & S1).
    { intros x Hx. eapply Hu; [now left|eauto]. }
    rewrite E1. cbn [rbind fst snd].
    destruct (fold_sadd urns deps Hd) as [Nd Sd].
    inversion Hw as [|? ? Hnk Hw']; subst.
    destruct (IH g1 (fold_left (fun acc u => sadd u acc) urns deps) (dset pds key urns)) as (g' & deps' & pds' & E2 & A2 & N2 & S2); auto.
    { apply A1. }
    { intros k Hin. rewrite dget_dset. destruct (String.eqb_spec k key) as [->|]; [contradiction|]. apply Hk. now right. }
    { intros k ds' x Hin. apply Hu with (k := k). now right. }
    exists g', deps', pds'. split; auto. split; [exact (after_trans _ _ _ _ _ _ A1 A2)|]. split; auto.
    intros gf Hgf Hcf. destruct (S2 gf Hgf Hcf) as [S2a S2b].
    assert (H1 : forall a b, depends g1 a b -> depends gf a b) by (intros a b Hab; apply Hgf; now apply A2).
    split.
    + intros s. rewrite S2a, Sd, (S1 gf H1 Hcf s). split.
      * intros [[H|(x & Hx)]|(k & ds' & x & Hin & Hx)]; auto; right.
        -- exists key, ds, x. split; [now left|auto].
        -- exists k, ds', x. split; [now right|auto].
      * intros [H|(k & ds' & x & [[= <- <-]|Hin] & Hx)]; eauto. right. eauto 7.
    + intros k. specialize (S2b k). cbn [dget]. destruct (String.eqb_spec k key) as [->|Nk].
      * assert (Hn : dget props key = None) by now apply dget_None.
        rewrite Hn in S2b. rewrite S2b, dget_dset, String.eqb_refl. exists urns. split; [reflexivity|]. split; [assumption|].
        intros s. apply S1; auto.
      * destruct (dget props k); auto. rewrite S2b, dget_dset.
        destruct (String.eqb_spec k key); [congruence|reflexivity].
Qed.

Lemma resource_dependencies_ok self g depends_on props :
  ~ cyclic (depends g) -> wf_dict props ->
  (forall ds x, depends_on = Some ds -> any_of ds x -> urn_ok x) ->
  (forall k ds x, In (k, ds) props -> any_of ds x -> urn_ok x) ->
  let mentioned x := (exists ds, depends_on = Some ds /\ any_of ds x) \/ (exists k ds, In (k, ds) props /\ any_of ds x) in
  exists g' deps pds,
    resource_dependencies ord self g depends_on props = Ok (g', deps, pds) /\
    ~ cyclic (depends g') /\
    (forall a b, depends g' a b <-> depends g a b \/ (a = self /\ (exists x, mentioned x /\ rs_id x = b) /\ ~ path (depends g') b self)) /\
    NoDup deps /\
    (forall s, In s deps <-> exists x, mentioned x /\ has_urn x s /\ depends g' self (rs_id x)) /\
    (forall k, match dget props k with
               | None => dget pds k = None
               | Some ds => exists urns, dget pds k = Some urns /\ NoDup urns /\
                    forall s, In s urns <-> exists x, any_of ds x /\ has_urn x s /\ depends g' self (rs_id x)
               end).
Proof.
  intros Hc Hw Hd Hp mentioned. unfold resource_dependencies.
  assert (H0 : exists g1 urns, match depends_on with Some ds => expand_dependencies ord (Some self) g ds | None => Ok (g, []) end = Ok (g1, urns) /\
     NoDup urns /\ after self g g1 (match depends_on with Some ds => ids_of ds | None => [] end) /\
     (forall gf, (forall a b, depends g1 a b -> depends gf a b) -> ~ cyclic (depends gf) ->
       forall s, In s urns <-> exists ds x, depends_on = Some ds /\ any_of ds x /\ has_urn x s /\ depends gf self (rs_id x))).
  { destruct depends_on as [ds|].
    - destruct (expand_some self g ds Hc) as (g1 & urns & E1 & N1 & A1 & S1); eauto.
      exists g1, urns. split; auto. split; auto. split; auto. intros gf H1 H2 s. rewrite (S1 gf H1 H2 s). split.
      + intros (x & Hx). eauto.
      + intros (ds' & x & [= <-] & Hx). eauto.
    - exists g, []. split; auto. split; [constructor|]. split; [repeat split; auto; intros x []|].
      intros gf _ _ s. split; [intros []|]. intros (ds & x & K & _). discriminate. }
  destruct H0 as (g1 & urns & -> & N1 & A1 & S1). cbn [rbind fst snd].
  destruct (property_loop_ok self props g1 urns [] (proj1 A1) N1 Hw) as (g' & deps & pds & E2 & A2 & N2 & S2); auto.
  exists g', deps, pds. split; auto.
  pose proof (after_trans _ _ _ _ _ _ A1 A2) as A. destruct A as (B1 & B2 & B3 & B4).
  split; auto.
  assert (Hm : forall b, In b (match depends_on with Some ds => ids_of ds | None => [] end ++ flat_map (fun kd => ids_of (snd kd)) props)%list
     <-> exists x, mentioned x /\ rs_id x = b).
  { intros b. rewrite in_app_iff, in_flat_map. unfold mentioned. split.
    - intros [H|([k ds] & Hk & H)].
      + destruct depends_on as [ds|]; [|destruct H]. apply ids_of_spec in H as (x & Hx & <-). exists x. split; eauto.
      + apply ids_of_spec in H as (x & Hx & <-). exists x. split; auto. right. eauto.
    - intros (x & [(ds & -> & Hx)|(k & ds & Hk & Hx)] & <-).
      + left. apply ids_of_spec. eauto.
      + right. exists (k, ds). split; auto. apply ids_of_spec. eauto. }
  split.
  { intros a b. split.
    - intros H. pose proof (B3 a b H) as [H1|[-> H1]]; auto. right. split; auto. split; [now apply Hm|].
      intros P. apply B1. exists self, b. auto.
    - intros [H|(-> & Hx & P)]; auto. apply Hm in Hx. destruct (B4 b Hx); [auto|contradiction]. }
  split; auto.
  destruct (S2 g' (fun _ _ H => H) B1) as [S2a S2b]. split.
  - intros s. rewrite S2a. rewrite (S1 g'); auto. 2:{ apply A2. } unfold mentioned. split.
    + intros [(ds & x & H1 & H2 & H3)|(k & ds & x & H1 & H2 & H3)]; exists x; split; eauto.
    + intros (x & [(ds & H1 & H2)|(k & ds & H1 & H2)] & H3); [left|right]; eauto 7.
  - exact S2b.
Qed.
End Ord.

(* ------------------------------------------------------------------ *)
(** C65 *)
Lemma provider_reference_ok p :
  (forall i, pv_id p = Some i -> i <> "" -> provider_reference p = pv_urn p ++ "::" ++ i) /\
  (pv_id p = None \/ pv_id p = Some "" ->
     provider_reference p = pv_urn p ++ "::" ++ "04da6b54-80e4-46f7-96ec-b56ff0331ba9").
Proof.
  unfold provider_reference. split.
  - intros i -> N. apply String.eqb_neq in N. rewrite N. reflexivity.
  - intros [-> | ->]; reflexivity.
Qed.
Lemma parse_reference_ok urn id : last_piece id ->
  parse_resource_reference (urn ++ "::" ++ id) = Ok (urn, id).
Proof. exact (parse_ref_ok urn id). Qed.

Lemma no_char_app c a b : ~ has_char c a -> ~ has_char c b -> ~ has_char c (a ++ b).
Proof.
  intros A B (x & y & E). revert x E. induction a as [|d a IH]; intros x E; simpl in E.
  - apply B. exists x, y. exact E.
  - destruct x as [|e x]; simpl in E; injection E as -> E.
    + apply A. exists "", a. reflexivity.
    + apply (IH) with (x := x); auto. intros (u & v & ->). apply A. exists (String e u), v. reflexivity.
Qed.
Lemma no_has_char c s : (forall x, In x (list_ascii_of_string s) -> x <> c) -> ~ has_char c s.
Proof.
  intros H (x & y & ->). apply (H c); auto. clear H. induction x; simpl; auto.
Qed.

Lemma dependency_provider_ok p stack project ancestors name :
  stack_name stack -> piece project -> Forall piece ancestors ->
  pv_package p <> "" -> ~ has_char ":" (pv_package p) -> ~ has_char "$" (pv_package p) -> last_piece name ->
  pv_urn p = urn_of stack project (qualified ancestors ("pulumi:providers:" ++ pv_package p)) name ->
  (forall i, pv_id p = Some i -> last_piece i) ->
  exists q, dependency_provider (provider_reference p) = Ok q /\
    pv_package q = pv_package p /\ pv_urn q = pv_urn p /\ provider_reference q = provider_reference p.
Proof.
  intros Hs Hp Ha Hk0 Hk Hd [Hn Hn'] Hu Hi.
  set (i := match pv_id p with Some i => if String.eqb i "" then UNKNOWN else i | None => UNKNOWN end).
  assert (Hlp : last_piece UNKNOWN).
  { split.
    - intros (x & y & E). apply (f_equal rest2) in E. pose proof (rest2_sep x y) as H. rewrite <- E in H. vm_compute in H. lia.
    - intros (x & E). discriminate E. }
  assert (Hli : last_piece i).
  { unfold i. destruct (pv_id p) as [j|]; auto. destruct (String.eqb j ""); auto. }
  assert (Hne : i <> "").
  { unfold i. destruct (pv_id p) as [j|]; [|discriminate]. destruct (String.eqb_spec j ""); [discriminate|auto]. }
  assert (Er : provider_reference p = provider_ref (pv_urn p) i) by reflexivity.
  rewrite Er. unfold dependency_provider. rewrite parse_ref_ok by auto. cbn [rbind fst snd].
  assert (Hpk : ~ has_char "$" ("pulumi:providers:" ++ pv_package p)).
  { apply no_char_app; auto. apply no_has_char. simpl. intros x K.
    repeat (destruct K as [<-|K]; [discriminate|]). destruct K. }
  assert (Hpc : piece ("pulumi:providers:" ++ pv_package p)).
  { destruct (pv_package p) as [|c r] eqn:Ek; [congruence|].
    assert (Hc : c <> ":"%char) by (intros ->; apply Hk; exists "", r; reflexivity).
    split.
    - intros H. apply (has_sep_app "pulumi:providers:" c r Hc) in H as [(u & v & K)|(u & v & K)].
      + apply (f_equal rest2) in K. pose proof (rest2_sep u v) as H. rewrite <- K in H. vm_compute in H. lia.
      + apply Hk. exists (String c u), (":" ++ v). rewrite K. reflexivity.
    - intros H. apply (ends_app "pulumi:providers:" c r Hc) in H as (u & K). apply Hk. exists (String c u), "". rewrite K. reflexivity. }
  rewrite Hu.
  destruct (parse_urn_ok stack project (qualified ancestors ("pulumi:providers:" ++ pv_package p)) name Hs Hp) as (q & -> & Q1 & Q2 & Q3 & Q4); auto.
  { apply piece_qualified. constructor; auto. }
  cbn [rbind]. eexists. split; [reflexivity|]. cbn [pv_package pv_urn].
  assert (Et : u_typ q = "pulumi:providers:" ++ pv_package p).
  { destruct ancestors as [|a l _] using rev_ind; [now apply Q2|].
    apply (Q3 (qualified l a)); auto. now rewrite qualified_snoc. }
  destruct (Q4 "pulumi" "providers" (pv_package p)) as (_ & _ & Ht); auto.
  - apply no_has_char. simpl. intros x K. repeat (destruct K as [<-|K]; [discriminate|]). destruct K.
  - apply no_has_char. simpl. intros x K. repeat (destruct K as [<-|K]; [discriminate|]). destruct K.
  - split; auto. split; auto. unfold provider_reference. cbn [pv_id pv_urn].
    apply String.eqb_neq in Hne. rewrite Hne. reflexivity.
Qed.

Lemma convert_list_ok l : forall acc k,
  dget (fold_left (fun acc q => dset acc (pv_package q) q) l acc) k =
  match find (fun q => String.eqb (pv_package q) k) (rev l) with Some q => Some q | None => dget acc k end.
Proof.
  induction l as [|q l IH]; intros acc k; simpl; auto. rewrite IH.
  assert (F : find (fun q => String.eqb (pv_package q) k) (rev l ++ [q])%list =
     match find (fun q => String.eqb (pv_package q) k) (rev l) with Some x => Some x | None => if String.eqb (pv_package q) k then Some q else None end).
  { clear IH. induction (rev l) as [|y m IHm]; [reflexivity|]. cbn [find List.app]. destruct (String.eqb (pv_package y) k); [reflexivity|exact IHm]. }
  rewrite F. destruct (find _ (rev l)); auto. rewrite dget_dset, String.eqb_sym. destruct (String.eqb (pv_package q) k); auto.
Qed.
Lemma find_last k l q :
  find (fun q => String.eqb (pv_package q) k) (rev l) = Some q <->
  exists l1 l2, l = (l1 ++ q :: l2)%list /\ pv_package q = k /\ Forall (fun x => pv_package x <> k) l2.
Proof.
  induction l as [|y l IH] using rev_ind; simpl.
  - split; [discriminate|]. intros (l1 & l2 & E & _). destruct l1; discriminate.
  - rewrite rev_app_distr. simpl. destruct (String.eqb_spec (pv_package y) k) as [Ey|Ny].
    + split.
      * intros [= ->]. exists l, []. repeat split; auto.
      * intros (l1 & l2 & E & Eq & F). destruct l2 as [|z l2 _] using rev_ind.
        -- apply app_inj_tail in E as [_ ->]. reflexivity.
        -- rewrite app_comm_cons, app_assoc in E. apply app_inj_tail in E as [_ ->].
           rewrite Forall_app in F. destruct F as [_ F]. inversion F; subst. congruence.
    + rewrite IH. split.
      * intros (l1 & l2 & -> & Eq & F). exists l1, (l2 ++ [y])%list. rewrite <- app_assoc. repeat split; auto.
        apply Forall_app. auto.
      * intros (l1 & l2 & E & Eq & F). destruct l2 as [|z l2 _] using rev_ind.
        -- apply app_inj_tail in E as [_ ->]. congruence.
        -- rewrite app_comm_cons, app_assoc in E. apply app_inj_tail in E as [-> ->].
           exists l1, l2. repeat split; auto. now apply Forall_app in F.
Qed.
Lemma dget_map_snd {V W} (f : V -> W) (d : list (string * V)) k :
  dget (map (fun kv => (fst kv, f (snd kv))) d) k = option_map f (dget d k).
Proof. induction d as [|[k' v] d IH]; simpl; auto. destruct (String.eqb k k'); auto. Qed.

Lemma remote_refs_ok :
  (forall p ps, remote_refs true (Some p) ps = [(pv_package p, provider_reference p)]) /\
  (forall m k, dget (remote_refs true None (PMap m)) k = option_map provider_reference (dget m k)) /\
  (forall l k ref, dget (remote_refs true None (PList l)) k = Some ref <->
     exists l1 q l2, l = (l1 ++ q :: l2)%list /\ pv_package q = k /\ Forall (fun x => pv_package x <> k) l2 /\
       ref = provider_reference q) /\
  (forall p ps, remote_refs false p ps = []) /\ remote_refs true None PNone = [] /\
  (forall p, single_ref true (Some p) = Some (provider_reference p)) /\
  single_ref true None = None /\ (forall p, single_ref false p = None).
Proof.
  repeat split; auto.
  - intros m k. unfold remote_refs. simpl. apply dget_map_snd.
  - unfold remote_refs. simpl. rewrite dget_map_snd, convert_list_ok.
    destruct (find _ (rev l)) as [q|] eqn:F; simpl; [|discriminate]. intros [= <-].
    apply find_last in F as (l1 & l2 & H). exists l1, q, l2. tauto.
  - intros (l1 & q & l2 & E & Ek & F & ->). unfold remote_refs. simpl. rewrite dget_map_snd, convert_list_ok.
    assert (Fd : find (fun q => String.eqb (pv_package q) k) (rev l) = Some q) by (apply find_last; eauto).
    rewrite Fd. reflexivity.
Qed.
