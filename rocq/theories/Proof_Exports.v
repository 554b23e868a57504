(** C102: secrets from the program to the stored state. *)
From Verif Require Import Base PyVal Model_Urn Model_Rpc Spec_Rpc Model_Engine Spec_Engine Proof_RpcTop Proof_Engine Model_State Spec_State Proof_State
  Model_Register Model_Deployment Proof_Deployment Model_Reference Spec_Exports.
Open Scope string_scope.
Ltac inv H := inversion H; subst; clear H.

Section Public.
  Variable c : cfg.
  Variable h : option (pval -> res string).
  Hypothesis Hcls : forall cls, class_declared (c_class c cls).
  Hypothesis Hsec : c_secrets c = true.
  Local Notation means := (means c h).

  Lemma means_unique t v p p' : means t false v p -> means t false v p' -> p = p'.
  Proof.
    intros H H'.
    destruct (proj1 (means_reads c (mkUopts false h) Hcls) _ _ _ _ H) as (w & ds & E & U & _); [discriminate|].
    destruct (proj1 (means_reads c (mkUopts false h) Hcls) _ _ _ _ H') as (w' & ds' & E' & U' & _); [discriminate|].
    congruence.
  Qed.
  Ltac two H := inversion H; subst; clear H; try match goal with K : Spec_Engine.means _ _ None _ _ _ |- _ => inversion K; subst; clear K end.
  Lemma inv_await t x p : means t false (VAwait (Done x)) p -> means t false x p.
  Proof using. intros H. two H; [now apply Me_any|assumption]. Qed.
  Lemma inv_output t rs x p : means t false (VOut (Done rs) (Done x) (Done true) (Done false)) p -> means t false x p.
  Proof using. intros H. inv H; [|assumption]. inv H0. now apply Me_any. Qed.
  Lemma inv_unknown t rs x p : means t false (VOut (Done rs) (Done x) (Done false) (Done false)) p -> p = unknown_value.
  Proof using. intros H. inv H; try reflexivity. inv H0; reflexivity. Qed.
  Lemma inv_secret t rs x p : means t false (VOut (Done rs) (Done x) (Done true) (Done true)) p -> exists q, p = PSecret q.
  Proof. intros H. inv H; [inv H0|]; rewrite Hsec; eauto. Qed.
  Lemma inv_list t l p e : elements t e -> means t false (VList l) p -> exists ps, p = PArr ps /\ all_mean c h e false l ps.
  Proof using.
    intros E H. inv H; [inv E|].
    match goal with K : elements t _ |- _ => inv E; inv K end; eauto.
  Qed.
  Lemma inv_dict t d p : means t false (VDict d) p -> exists ps, p = PObj ps /\ (entries_mean c h t false d ps \/ t = Some TyAny /\ entries_mean c h None false d ps).
  Proof using. intros H. inv H; [inv H0|]; eauto. Qed.
  Lemma inv_input t cls d p : means t false (VInput cls d) p -> exists ps, p = PObj ps /\ fields_mean c h false d (c_class c cls) ps.
  Proof using. intros H. inv H; [inv H0|]; eauto. Qed.
  Lemma inv_any keep v p : Spec_Engine.means c h (Some TyAny) keep v p -> Spec_Engine.means c h None keep v p.
  Proof using.
    intros H. remember (Some TyAny) as t eqn:E. revert E.
    induction H; intros E; auto; try discriminate; subst; try (econstructor; eauto; fail).
    - inv H.
    - inv H; [|inv H1]. apply Me_dict; [constructor|assumption].
  Qed.

  Local Notation entries_public := (Forall2 (fun kv kv' : string * pyval => fst kv = fst kv' /\ same_public (snd kv) (snd kv'))).
  Local Notation entries_alike := (Forall2 (fun kv kv' : string * pval => fst kv = fst kv' /\ alike (snd kv) (snd kv'))).
  Lemma public_none v : same_public VNone v -> v = VNone.
  Proof using. intros H. now inv H. Qed.
  Lemma public_none' v : same_public v VNone -> v = VNone.
  Proof using. intros H. now inv H. Qed.
  Lemma public_get d d' k : entries_public d d' ->
    match dget d k with
    | Some v => exists v', dget d' k = Some v' /\ same_public v v'
    | None => dget d' k = None
    end.
  Proof using.
    induction 1 as [|[k1 v1] [k2 v2] d d' [E S] F IH]; cbn; [reflexivity|]. cbn in E, S. subst k2.
    destruct (String.eqb k k1); [eauto|exact IH].
  Qed.

  Lemma same_name t k k1 k2 : sent_as c t k k1 -> sent_as c t k k2 -> k1 = k2.
  Proof.
    intros H1 H2. pose proof (fun cls => class_declared_named _ (Hcls cls)) as Hn.
    apply sent_as_rule in H1, H2; auto. congruence.
  Qed.
  Lemma same_type t k e1 e2 : entry_type c t k e1 -> entry_type c t k e2 -> e1 = e2.
  Proof.
    intros H1 H2. destruct t as [[| | | | |n|]|]; try (inv H1; inv H2; reflexivity).
    assert (D : forall e, entry_type c (Some (TyInput n)) k e -> e = dget (declared_types (c_class c n)) k).
    { intros e H. inv H; [symmetry; now apply declared_in|symmetry; apply declared_out; auto]. }
    rewrite (D _ H1), (D _ H2). reflexivity.
  Qed.

  Lemma public_means :
    (forall t keep v p, Spec_Engine.means c h t keep v p -> keep = false -> forall v' p', same_public v v' -> means t false v' p' -> alike p p') /\
    (forall e keep l ps, all_mean c h e keep l ps -> keep = false -> forall l' ps', Forall2 same_public l l' -> all_mean c h e false l' ps' -> Forall2 alike ps ps') /\
    (forall t keep d ps, entries_mean c h t keep d ps -> keep = false -> forall d' ps', entries_public d d' -> entries_mean c h t false d' ps' -> entries_alike ps ps') /\
    (forall keep fields fs ps, fields_mean c h keep fields fs ps -> keep = false -> forall fields' ps', entries_public fields fields' -> fields_mean c h false fields' fs ps' -> entries_alike ps ps') /\
    (forall d ps, members_mean c h d ps -> True).
  Proof.
    apply means_all_mind;
      try (intros; match goal with S : same_public ?v _, K : means ?t false _ ?p' |- alike ?p ?p' =>
        assert (M : means t false v p) by (subst; econstructor; eauto; fail); inv S; rewrite (means_unique _ _ _ _ M K); apply Al_same end); auto.
    all: cbv beta; try (intros; discriminate).
    - intros keep v p H IH -> v' p' S H'. apply (IH eq_refl v'); [exact S|now apply inv_any].
    - intros t e keep l ps E H IH -> v' p' S H'. inv S; [|].
      + destruct (inv_list _ _ _ _ E H') as (ps' & -> & A). constructor. apply (IH eq_refl l); [|exact A].
        clear. induction l; constructor; auto. apply Sp_same.
      + destruct (inv_list _ _ _ _ E H') as (ps' & -> & A). constructor. exact (IH eq_refl _ _ H1 A).
    - intros t keep d ps H IH No -> v' p' S H'.
      assert (exists d', v' = VDict d' /\ entries_public d d') as (d' & -> & F).
      { inv S; [|eauto]. exists d. split; [reflexivity|]. clear. induction d; constructor; auto. split; [reflexivity|apply Sp_same]. }
      destruct (inv_dict _ _ _ H') as (ps' & -> & [A|[-> A]]); constructor; [exact (IH eq_refl _ _ F A)|].
      inv H; [|match goal with K : sent_as _ _ _ _ |- _ => inv K end]. inv F. inv A. constructor.
    - intros t keep cls d ps H IH No -> v' p' S H'.
      assert (exists d', v' = VInput cls d' /\ entries_public d d') as (d' & -> & F).
      { inv S; [|eauto]. exists d. split; [reflexivity|]. clear. induction d; constructor; auto. split; [reflexivity|apply Sp_same]. }
      destruct (inv_input _ _ _ _ H') as (ps' & -> & A). constructor. exact (IH eq_refl _ _ F A).
    - intros t keep x p H IH -> v' p' S H'.
      assert (exists x', v' = VAwait (Done x') /\ same_public x x') as (x' & -> & S').
      { inv S; eauto using Sp_same. }
      exact (IH eq_refl _ _ S' (inv_await _ _ _ H')).
    - intros t keep rs x p Hk Hu H IH -> v' p' S H'.
      assert (exists x', v' = VOut (Done rs) (Done x') (Done true) (Done false) /\ same_public x x') as (x' & -> & S').
      { inv S; eauto using Sp_same. }
      exact (IH eq_refl _ _ S' (inv_output _ _ _ _ H')).
    - intros t keep rs x p Hk Hu H IH -> v' p' S H'. rewrite Hsec.
      assert (exists rs' x', v' = VOut (Done rs') (Done x') (Done true) (Done true)) as (rs' & x' & ->) by (inv S; eauto).
      destruct (inv_secret _ _ _ _ H') as [q ->]. constructor.
    - intros t keep rs x Hk Hu -> v' p' S H'.
      assert (exists x', v' = VOut (Done rs) (Done x') (Done false) (Done false)) as (x' & ->) by (inv S; eauto).
      rewrite (inv_unknown _ _ _ _ H'). apply Al_same.
    - intros t keep rs x p Hk Hu H IH -> v' p' S H'.
      assert (exists x', v' = VOut (Done rs) (Done x') (Done false) (Done false)) as (x' & ->) by (inv S; eauto).
      rewrite (inv_unknown _ _ _ _ H'). apply Al_same.
    - intros e keep _ l' ps' F A. inv F. inv A. constructor.
    - intros e keep x l p ps H IH Hl IHl -> l' ps' F A. inv F. inv A. constructor; eauto.
    - intros t keep _ d' ps' F A. inv F. inv A. constructor.
    - intros t keep k k' e x d p ps Hs He H IH Hd IHd -> d' ps' F A. inv F. inv A. cbn [fst snd] in *.
      match goal with K : _ /\ _ |- _ => destruct K as [-> S] end.
      match goal with K : sent_as c t _ _ |- _ => pose proof (same_name _ _ _ _ Hs K) as <- end.
      match goal with K : entry_type c t _ _ |- _ => pose proof (same_type _ _ _ _ He K) as <- end.
      constructor; [cbn; eauto|eauto].
    - intros keep d _ d' ps' F A. inv A. constructor.
    - intros keep d f fs ps Hn H IH -> d' ps' F A. pose proof (public_get _ _ (f_py f) F) as G.
      inv A; [eauto|]. exfalso. destruct Hn as [Hn|Hn]; rewrite Hn in G; [congruence|].
      destruct G as (v' & Ev & S). apply public_none in S. congruence.
    - intros keep d f fs x p ps Hx Nx H IH Hf IHf -> d' ps' F A. pose proof (public_get _ _ (f_py f) F) as G. rewrite Hx in G.
      destruct G as (x' & Ex & S). inv A.
      + exfalso. match goal with K : _ \/ _ |- _ => destruct K as [K|K]; rewrite Ex in K; [discriminate|] end.
        apply Nx. apply public_none'. congruence.
      + match goal with K : dget d' _ = Some ?y |- _ => assert (y = x') as -> by congruence end.
        constructor; [cbn; eauto|eauto].
  Qed.

  Lemma alike_null p p' : alike p p' -> p = PNull <-> p' = PNull.
  Proof using. intros H. inv H; split; congruence. Qed.
  Lemma public_bag typ d ps : bag_means c h typ false d ps -> forall d' ps', entries_public d d' -> bag_means c h typ false d' ps' ->
    entries_alike ps ps'.
  Proof.
    induction 1 as [|k k' e v d ps Hs He H Hb IH|k k' e v p d ps Hs He H Hp Hb IH]; intros d' ps' F B.
    - inv F. inv B. constructor.
    - inv F. match goal with K : _ /\ _ |- _ => destruct K as [Ek S] end. destruct y as [k2 v']. cbn [fst snd] in *. subst k2.
      inv B; match goal with K : sent_as c _ _ ?x |- _ => tryif constr_eq x k' then fail else pose proof (same_name _ _ _ _ Hs K); subst end;
        match goal with K : entry_type c _ _ ?x |- _ => tryif constr_eq x e then fail else pose proof (same_type _ _ _ _ He K); subst end; [eauto|].
      exfalso. match goal with K : ?q <> PNull |- _ => apply K; refine (proj1 (alike_null PNull q _) eq_refl) end.
      eapply (proj1 public_means); [exact H|reflexivity|exact S|eassumption].
    - inv F. match goal with K : _ /\ _ |- _ => destruct K as [Ek S] end. destruct y as [k2 v']. cbn [fst snd] in *. subst k2.
      inv B; match goal with K : sent_as c _ _ ?x |- _ => tryif constr_eq x k' then fail else pose proof (same_name _ _ _ _ Hs K); subst end;
        match goal with K : entry_type c _ _ ?x |- _ => tryif constr_eq x e then fail else pose proof (same_type _ _ _ _ He K); subst end.
      + exfalso. apply Hp. refine (proj2 (alike_null p PNull _) eq_refl). eapply (proj1 public_means); [exact H|reflexivity|exact S|eassumption].
      + constructor; [|eauto]. split; [reflexivity|]. cbn. eapply (proj1 public_means); [exact H|reflexivity|exact S|eassumption].
  Qed.
End Public.

(* ---- deployments ---- *)
Definition alike_node (x y : string * node) : Prop :=
  fst x = fst y /\ n_id (snd x) = n_id (snd y) /\ alike (PObj (n_outputs (snd x))) (PObj (n_outputs (snd y))).
Definition alike_deployment (d d' : deployment) : Prop :=
  p_alive d = p_alive d' /\ p_urns d = p_urns d' /\ p_pending d = p_pending d' /\ Forall2 alike_node (p_news d) (p_news d').

Lemma alike_get l l' k : Forall2 alike_node l l' ->
  match dget l k with
  | Some n => exists n', dget l' k = Some n' /\ n_id n = n_id n'
  | None => dget l' k = None
  end.
Proof.
  induction 1 as [|[k1 n1] [k2 n2] l l' (E & I & S) F IH]; cbn; [reflexivity|]. cbn in E, I. subst k2.
  destruct (String.eqb k k1); [eauto|exact IH].
Qed.
Lemma alike_set l l' k id o o' : Forall2 alike_node l l' -> alike (PObj o) (PObj o') ->
  Forall2 alike_node (dset l k (mkNode id o)) (dset l' k (mkNode id o')).
Proof.
  intros F A. induction F as [|[k1 n1] [k2 n2] l l' (E & I & S) F IH]; cbn.
  - constructor; [|constructor]. repeat split. exact A.
  - cbn in E. subst k2. destruct (String.eqb k k1).
    + constructor; [|exact F]. repeat split. exact A.
    + constructor; [|exact IH]. repeat split; auto.
Qed.
Lemma alike_refl_deployment d : alike_deployment d d.
Proof. repeat split. induction (p_news d); constructor; auto. repeat split. apply Al_same. Qed.

Lemma registers_reads h c urn outputs r ps : registers h c urn outputs r ->
  bag_means (no_transform c) (Some h) None false outputs ps -> NoDup (map fst ps) ->
  or_urn r = urn /\ read_outputs h r = Ok ps.
Proof.
  intros (Hc & _ & Hu & _ & R) B N. destruct (sends h c urn outputs ps Hc Hu B N) as (r0 & E & Rd & S).
  destruct (R (fun _ => AResp tt)) as [e X]. rewrite S in X. injection X as ->. auto.
Qed.
Lemma registers_alike h c urn outputs outputs' r r' : same_public_bag outputs outputs' ->
  registers h c urn outputs r -> registers h c urn outputs' r' ->
  or_urn r = or_urn r' /\ exists ps ps', read_outputs h r = Ok ps /\ read_outputs h r' = Ok ps' /\ alike (PObj ps) (PObj ps').
Proof.
  intros P R R'. pose proof R as (Hc & Hs & Hu & (ps & B & N) & _). pose proof R' as (_ & _ & _ & (ps' & B' & N') & _).
  destruct (registers_reads _ _ _ _ _ _ R B N) as [E1 E2]. destruct (registers_reads _ _ _ _ _ _ R' B' N') as [E1' E2'].
  split; [congruence|]. exists ps, ps'. split; [exact E2|]. split; [exact E2'|]. constructor.
  exact (public_bag (no_transform c) (Some h) Hc Hs None _ _ B _ _ P B').
Qed.

Lemma step_alike h d d' ev ev' : alike_deployment d d' -> same_event h ev ev' -> alike_deployment (dstep h d ev) (dstep h d' ev').
Proof.
  intros A S. pose proof A as (E1 & E2 & E3 & F). unfold dstep. rewrite <- E1. destruct (p_alive d) eqn:Al; cbn [negb]; [|exact A].
  assert (Stop : alike_deployment (stop d) (stop d')) by (repeat split; assumption).
  assert (Outs : forall r r', or_urn r = or_urn r' -> forall o o', alike (PObj o) (PObj o') ->
    alike_deployment
      (if smem (or_urn r) (p_pending d) then
            mkDeployment true (p_urns d) (filter (fun u => negb (String.eqb u (or_urn r))) (p_pending d))
              (match dget (p_news d) (or_urn r) with
               | Some n => dset (p_news d) (or_urn r) (mkNode (n_id n) o)
               | None => p_news d
               end)
          else stop d)
      (if smem (or_urn r') (p_pending d') then
            mkDeployment true (p_urns d') (filter (fun u => negb (String.eqb u (or_urn r'))) (p_pending d'))
              (match dget (p_news d') (or_urn r') with
               | Some n => dset (p_news d') (or_urn r') (mkNode (n_id n) o')
               | None => p_news d'
               end)
          else stop d')).
  { intros r r' Er o o' Ho. rewrite <- Er, <- E2, <- E3. destruct (smem (or_urn r) (p_pending d)); [|exact Stop].
    repeat split. cbn [p_news]. pose proof (alike_get _ _ (or_urn r) F) as G. destruct (dget (p_news d) (or_urn r)) as [n|].
    - destruct G as (n' & -> & ->). now apply alike_set.
    - now rewrite G. }
  assert (Res : forall urn id o o', alike (PObj o) (PObj o') ->
    alike_deployment (if smem urn (p_urns d) then stop d else mkDeployment true (urn :: p_urns d) (urn :: p_pending d) (dset (p_news d) urn (mkNode id o)))
      (if smem urn (p_urns d') then stop d' else mkDeployment true (urn :: p_urns d') (urn :: p_pending d') (dset (p_news d') urn (mkNode id o')))).
  { intros urn id o o' Ho. rewrite <- E2, <- E3. destruct (smem urn (p_urns d)); [exact Stop|]. repeat split. cbn [p_news]. now apply alike_set. }
  inv S.
  - destruct ev' as [urn id o|r]; [apply Res, Al_same|]. destruct (read_outputs h r) as [o|e]; [apply Outs; [reflexivity|apply Al_same]|].
    destruct (is_panic e); [exact Stop|exact A].
  - now apply Res.
  - destruct (registers_alike _ _ _ _ _ _ _ H H0 H1) as (Er & ps & ps' & -> & -> & Ho). now apply Outs.
Qed.
Lemma run_alike h evs evs' : Forall2 (same_event h) evs evs' -> alike_deployment (drun h evs) (drun h evs').
Proof.
  intros F. unfold drun. generalize (alike_refl_deployment new_deployment). generalize new_deployment at 1 3. generalize new_deployment.
  induction F as [|ev ev' evs evs' S F IH]; intros d' d A; cbn; [exact A|]. apply IH. now apply step_alike.
Qed.
Lemma snapshot_alike d d' : alike_deployment d d' -> Forall2 alike_resources (snapshot_of d) (snapshot_of d').
Proof.
  intros (_ & _ & _ & F). unfold snapshot_of. induction F as [|[u n] [u' n'] l l' (E & I & S) F IH]; cbn; constructor; [|exact IH].
  cbn in E, I, S. subst u'. unfold alike_resources. cbn. rewrite I. repeat split; [apply Al_same|exact S].
Qed.
Lemma answer_alike h d d' c urn outputs outputs' r r' : alike_deployment d d' -> same_public_bag outputs outputs' ->
  registers h c urn outputs r -> registers h c urn outputs' r' -> outputs_answer h d r = outputs_answer h d' r'.
Proof.
  intros A P R R'. destruct (step_alike h d d' (DOutputs r) (DOutputs r') A) as (E & _); [eapply Se_outputs; eauto|].
  destruct (registers_alike _ _ _ _ _ _ _ P R R') as (Er & ps & ps' & E1 & E2 & Ho).
  unfold outputs_answer. destruct A as [<- _]. rewrite E1, E2, E. reflexivity.
Qed.
