From Verif Require Import Base PyVal Model_Output Spec_Output Model_Rpc Spec_Rpc Model_Provider Spec_Provider
  Proof_Ser2 Proof_Deser2 Proof_RpcTop Proof_Invoke Proof_FromInput.
Open Scope string_scope.

Lemma contains_outputs_spec v : contains_outputs v = true <-> holds_output v.
Proof.
  split.
  - induction v using pyval_ind'; simpl; try discriminate; intros Hc.
    + apply existsb_exists in Hc as (x & Hx & Hc). rewrite Forall_forall in H. destruct (H x Hx Hc) as [o Ho].
      exists o. exact (W_list _ x l Hx Ho).
    + apply existsb_exists in Hc as ([k x] & Hx & Hc). rewrite Forall_forall in H. destruct (H (k, x) Hx Hc) as [o Ho].
      exists o. exact (W_dict _ k x d Hx Ho).
    + exists (mkOut rs v k s). constructor.
  - intros [o Ho]. remember (VO o) as q. induction Ho; simpl; auto.
    + subst. reflexivity.
    + apply existsb_exists. eauto.
    + apply existsb_exists. exists (k, y). auto.
Qed.

Lemma to_set_acc l : forall acc, NoDup acc ->
  let f := fold_left (fun acc s => if smem s acc then acc else (acc ++ [s])%list) l acc in
  NoDup f /\ forall s, In s f <-> In s acc \/ In s l.
Proof.
  induction l as [|x l IH]; simpl; intros acc Hn; [split; auto; intros s; tauto|].
  destruct (smem x acc) eqn:Ex.
  - destruct (IH acc Hn) as [H1 H2]. split; auto. intros s. rewrite H2. apply smem_In in Ex.
    split; [tauto|]. intros [H|[<-|H]]; auto.
  - apply smem_notIn in Ex.
    assert (K : NoDup (acc ++ [x])%list).
    { assert (K : NoDup (rev (x :: rev acc))) by (apply NoDup_rev; constructor; [now rewrite <- in_rev|now apply NoDup_rev]).
      simpl in K. now rewrite rev_involutive in K. }
    destruct (IH _ K) as [H1 H2]. split; auto. intros s. rewrite H2, in_app_iff. simpl. tauto.
Qed.
Lemma to_set_spec l : NoDup (to_set l) /\ forall s, In s (to_set l) <-> In s l.
Proof.
  destruct (to_set_acc l [] (NoDup_nil _)) as [H1 H2]. split; [exact H1|]. intros s. rewrite (H2 s). simpl. tauto.
Qed.
Lemma to_set_nil l : to_set l = [] <-> l = [].
Proof.
  destruct (to_set_spec l) as [_ H]. split; [|now intros ->].
  intros E. destruct l as [|x l]; auto. specialize (H x). rewrite E in H. simpl in H. destruct H as [_ H]. destruct H; auto.
Qed.

Lemma is_resource_spec v : is_resource v = true <-> (exists r, v = VRes r) \/ (exists c n t w, v = VConstructed c n t w).
Proof.
  split.
  - destruct v; try discriminate; intros _; [left; eauto|right; eauto 10].
  - intros [[r ->]|(c & n & t & w & ->)]; reflexivity.
Qed.

Lemma reference_spec E v l b : is_resource_reference E v (to_set l) = Done b -> l <> [] -> (b = true <-> refers E v l).
Proof.
  destruct (to_set_spec l) as [Hn Hs]. unfold is_resource_reference, refers. rewrite <- is_resource_spec.
  destruct (is_resource v); [|intros [= <-] _; split; [discriminate|intros [K _]; discriminate]].
  destruct (to_set l) as [|d [|d2 ds]] eqn:El.
  - intros _ Hne. apply (proj1 (to_set_nil _)) in El. contradiction.
  - destruct (pv_urn E v) as [u| |]; simpl; try discriminate. intros [= <-] _. split.
    + destruct u as [s|]; [|discriminate]. destruct (String.eqb_spec d s) as [->|]; [|discriminate].
      intros _. split; auto. exists s. split; auto. intros u'. rewrite <- Hs. simpl. split; [intros [<-|[]]; auto|auto].
    + intros [_ (u0 & [= ->] & Hu)]. apply String.eqb_eq. apply Hu. apply Hs. now left.
  - intros [= <-] _. split; [discriminate|]. intros [_ (u0 & _ & Hu)]. exfalso.
    assert (d = u0) by (apply Hu, Hs; now left). assert (d2 = u0) by (apply Hu, Hs; right; now left). subst.
    inversion Hn as [|? ? K]. apply K. now left.
Qed.

Lemma select_spec E v l x u secret : maybe_secret secret v u -> select_value E v (to_set l) = Done x -> received E u l secret x.
Proof.
  intros Hm. unfold select_value. destruct (to_set_spec l) as [Hn Hs].
  assert (Hsec : is_rpc_secret v = secret) by (destruct secret; [rewrite Hm; reflexivity|destruct Hm as [_ Hm]; rewrite <- is_secret_iff in Hm; now destruct (is_rpc_secret v)]).
  assert (Hu : unwrap_rpc_secret v = u).
  { destruct secret; [rewrite Hm; reflexivity|]. destruct Hm as [-> _]. unfold unwrap_rpc_secret. rewrite Hsec. now destruct u. }
  rewrite Hsec, Hu.
  assert (Hout : forall k, (secret = true \/ (l <> [] /\ ~ holds_output u /\ ~ refers E u l)) ->
            k = VO (new_output (Done (map RDep (to_set l))) (Done u) (Done true) (Done secret)) -> received E u l secret k).
  { intros k Hc ->. eapply R_output with (rs := map RDep (to_set l)) (known := negb (contains_unknowns u)); auto.
    - repeat split.
    - intros r. rewrite in_map_iff. split.
      + intros (s & <- & Hin). exists s. split; auto. now apply Hs.
      + intros (s & Hin & ->). exists s. split; auto. now apply Hs.
    - rewrite <- contains_within. destruct (contains_unknowns u); simpl; intuition congruence. }
  destruct secret; cbn [fbind].
  - intros [= <-]. apply Hout; auto.
  - destruct Hm as [-> _]. destruct (to_set l) as [|s0 s1] eqn:El.
    + cbn [fbind]. intros [= <-]. apply (proj1 (to_set_nil _)) in El. apply R_itself; auto.
    + rewrite <- El in *. assert (Hne : l <> []) by (intros ->; discriminate).
      destruct (contains_outputs u) eqn:Ec.
      * cbn [fbind]. intros [= <-]. apply R_itself; auto. right. left. now apply contains_outputs_spec.
      * destruct (is_resource_reference E u (to_set l)) as [b| |] eqn:Er; cbn [fbind]; try discriminate.
        pose proof (reference_spec E u l b Er Hne) as Hb. destruct b.
        -- intros [= <-]. apply R_itself; auto. right. right. now apply Hb.
        -- intros [= <-]. apply Hout; auto. right. split; auto. split.
           ++ rewrite <- contains_outputs_spec. congruence.
           ++ rewrite <- Hb. discriminate.
Qed.

Lemma select_all_spec E deps d : forall args, select_all E deps d = Done args ->
  dkeys args = dkeys d /\
  forall k x, dget args k = Some x -> exists v, dget d k = Some v /\ select_value E v (to_set (recorded_for deps k)) = Done x.
Proof.
  induction d as [|[k0 v0] d IH]; simpl; intros args.
  - intros [= <-]. split; auto. discriminate.
  - destruct (select_value E v0 _) as [x0| |] eqn:E0; simpl; try discriminate.
    destruct (select_all E deps d) as [rest| |] eqn:E1; simpl; try discriminate. intros [= <-].
    destruct (IH rest eq_refl) as [Hk H]. split; [simpl; f_equal; exact Hk|].
    intros k x. simpl. destruct (String.eqb_spec k k0) as [->|]; [|apply H].
    intros [= <-]. exists v0. split; auto.
Qed.

Lemma inputs_received E ki inputs deps args :
  top_message inputs -> (forall k w, dget inputs k = Some w -> string_ids w) ->
  component_inputs E ki inputs deps = Done args ->
  forall k,
    (In k (dkeys args) -> exists w, dget inputs k = Some w) /\
    forall w, dget inputs k = Some w ->
      ki = true \/ is_internal k = false ->
      exists y, deser (pv_dc E) w true = Ok y /\
        (y = VNone -> ~ In k (dkeys args)) /\
        (y <> VNone -> exists x v secret, dget args k = Some x /\ maybe_secret secret y v /\ unmarked v /\
           (secret = true <-> exposes_secret w) /\ received E v (recorded_for deps k) secret x).
Proof.
  intros Ht Hid H k. unfold component_inputs in H.
  destruct (deserialize_properties (pv_dc E) inputs true ki) as [v|] eqn:Ed; [|discriminate].
  destruct (top_values _ _ _ _ _ Ht Ed) as (d & -> & Hwf & HA & HB). cbn [of_res fbind] in H.
  destruct (select_all_spec E deps d args H) as [Hk Hs].
  split.
  - rewrite Hk. intros Hin. apply dget_Some_key in Hin as [y Hy]. destruct (HA k y Hy) as (w & Hw & _). eauto.
  - intros w Hw Hi. destruct (HB k w Hw Hi) as (y & Ey & Hy). exists y. split; auto. split.
    + intros ->. rewrite Hk. intros Hin. apply dget_Some_key in Hin as [y Hy']. destruct (HA k y Hy') as (w' & Hw' & _ & Ey' & Hn).
      rewrite Hw in Hw'. injection Hw' as <-. congruence.
    + intros Hn. specialize (Hy Hn). destruct (marks_value _ _ _ _ Ey (Hid _ _ Hw)) as (x & H1 & H2 & H3 & H4 & _).
      destruct (dget args k) as [z|] eqn:Ez.
      * destruct (Hs k z Ez) as (v & Hv & Hsel). rewrite Hy in Hv. injection Hv as <-.
        assert (Hm : maybe_secret (is_rpc_secret y) y x).
        { unfold maybe_secret. destruct (is_rpc_secret y) eqn:Es.
          - apply H1, H3. reflexivity.
          - split; [apply H2; intros K; apply H3 in K; congruence|]. rewrite <- is_secret_iff. congruence. }
        exists z, x, (is_rpc_secret y). repeat split; auto; try tauto.
        eapply select_spec; eauto.
      * exfalso. apply dget_None in Ez. apply Ez. rewrite Hk. eapply dget_key; eauto.
Qed.

Lemma no_dependency_lost E v l secret x u : received E v l secret x -> secret = true \/ ~ holds_output v -> In u l -> sees_dependency E u x.
Proof.
  intros H Hs Hin. destruct H as [o rs known _ (Hr & _) Hd _ | Hf [->|[Ho|Hr]]].
  - eapply SD_output with (rs := rs); [|apply Hd; eauto]. unfold VO. rewrite Hr. constructor.
  - destruct Hin.
  - destruct Hs; [congruence|contradiction].
  - destruct Hr as (_ & u' & Hu & H). apply SD_resource. rewrite Hu. now rewrite (proj1 (H u) Hin).
Qed.

(* ------------------------------------------------------------------ *)
Lemma known_urns_spec l : forall us, known_urns l = Done us -> l = map Some us.
Proof.
  induction l as [|[u|] l IH]; simpl; intros us; try discriminate; [now intros [= <-]|].
  destruct (known_urns l) as [us'| |]; simpl; try discriminate. intros [= <-]. simpl. f_equal. auto.
Qed.
Lemma gather_map_urns E rs : forall us, gather (map (fun r => r_urn (c_res (pv_cfg E) r)) rs) = Done (map Some us) ->
  forall u, In u us <-> exists r, In r rs /\ r_urn (c_res (pv_cfg E) r) = Done (Some u).
Proof.
  induction rs as [|r rs IH]; simpl; intros us.
  - intros [= H]. destruct us; [|discriminate]. intros u. split; [intros []|intros (r & [] & _)].
  - destruct (r_urn (c_res (pv_cfg E) r)) as [x| |] eqn:Ex; simpl; try discriminate.
    + destruct (gather _) as [xs| |] eqn:Eg; try discriminate. intros [= H]. destruct us as [|u0 us]; [discriminate|].
      injection H as -> ->. intros u. simpl. rewrite (IH us eq_refl u). split.
      * intros [->|(r' & Hr & Hu)]; [exists r; auto|exists r'; auto].
      * intros (r' & [<-|Hr] & Hu); [left; congruence|right; eauto].
    + destruct (gather _); discriminate.
Qed.
Lemma urn_deps_spec E pd : forall deps, urn_deps E pd = Done deps ->
  dkeys deps = dkeys pd /\
  forall k us, dget deps k = Some us -> exists rs, dget pd k = Some rs /\
    forall u, In u us <-> exists r, In r rs /\ r_urn (c_res (pv_cfg E) r) = Done (Some u).
Proof.
  induction pd as [|[k0 rs] pd IH]; simpl; intros deps.
  - intros [= <-]. split; auto. discriminate.
  - destruct (gather _) as [xs| |] eqn:Eg; simpl; try discriminate.
    destruct (known_urns xs) as [us0| |] eqn:Ek; simpl; try discriminate.
    destruct (urn_deps E pd) as [rest| |] eqn:E2; simpl; try discriminate. intros [= <-].
    destruct (IH rest eq_refl) as [Hk H]. split; [simpl; f_equal; exact Hk|].
    intros k us. simpl. destruct (String.eqb k k0); [|apply H]. intros [= <-]. exists rs. split; auto.
    apply known_urns_spec in Ek. subst xs. now apply gather_map_urns.
Qed.

Lemma deps_of_properties E props st pd deps :
  (forall cls, class_ok (c_class (pv_cfg E) cls)) -> (forall k, transform (pv_cfg E) k = k) ->
  serialize_properties (pv_cfg E) None false props = Done (st, pd) -> urn_deps E pd = Done deps -> wf_dict props ->
  dkeys deps = dkeys st /\
  forall k v us, dget props k = Some v -> dget deps k = Some us ->
    forall u, In u us <-> exists r, mentions (pv_cfg E) r v /\ r_urn (c_res (pv_cfg E) r) = Done (Some u).
Proof.
  intros Hc Ht Hs Hd Hw. destruct (property_dependencies _ _ _ _ _ _ Hc Hs) as [Hk Hp].
  destruct (urn_deps_spec _ _ _ Hd) as [Hk' H]. split; [congruence|].
  assert (Hid : forall k, top_key (pv_cfg E) None k = k) by exact Ht.
  intros k v us Hg Hu u. destruct (H k us Hu) as (rs & Hrs & Hin). rewrite Hin.
  assert (Hn : NoDup (map (fun kv => top_key (pv_cfg E) None (fst kv)) props)).
  { erewrite map_ext; [exact Hw|]. intros kv. apply Hid. }
  specialize (Hp Hn k v rs (dget_In _ _ _ Hg)). rewrite Hid in Hp. specialize (Hp Hrs).
  split; intros (r & Hr & E0); exists r; split; auto; now apply Hp.
Qed.

Lemma filter_wf (state : dict pyval) f : wf_dict state -> wf_dict (filter f state).
Proof.
  unfold wf_dict, dkeys. induction state as [|[k v] s IH]; simpl; intros H; [constructor|]. inversion H as [|? ? Hn Hs]. subst.
  destruct (f (k, v)); simpl; auto. constructor; auto. intros K. apply Hn. apply in_map_iff in K as ([k' v'] & <- & K).
  apply filter_In in K as [K _]. apply in_map_iff. exists (k', v'). auto.
Qed.
Lemma filter_get (state : dict pyval) (f : string -> bool) k : dget (filter (fun kv => f (fst kv)) state) k = if f k then dget state k else None.
Proof.
  induction state as [|[k0 v] s IH]; simpl; [now destruct (f k)|].
  destruct (f k0) eqn:Ef; simpl.
  - destruct (String.eqb_spec k k0) as [->|]; [now rewrite Ef|auto].
  - destruct (String.eqb_spec k k0) as [->|]; [|auto]. rewrite IH. now rewrite Ef.
Qed.

Lemma not_reserved k : negb (smem k ["id"; "urn"]) = true <-> k <> "id" /\ k <> "urn".
Proof.
  rewrite negb_true_iff, smem_notIn. simpl. split; [intros H; split; intros ->; apply H; auto|].
  intros [H1 H2] [K|[K|[]]]; congruence.
Qed.

Lemma sent_properties E props st pd :
  (forall k, transform (pv_cfg E) k = k) -> wf_dict props ->
  serialize_properties (pv_cfg E) None false props = Done (st, pd) ->
  (forall k, In k (dkeys st) -> In k (dkeys props)) /\
  (forall k v, dget props k = Some v -> exists w ds, ser (pv_cfg E) v None false = Done (w, ds) /\
     dget st k = match w with WNull => None | _ => Some w end).
Proof.
  intros Ht Hw Hs. destruct (serialize_properties_spec _ _ _ _ _ _ Hs) as (_ & _ & H1 & H2).
  assert (Hid : forall k, top_key (pv_cfg E) None k = k) by exact Ht.
  split.
  - intros k Hk. destruct (H1 k Hk) as (k0 & v & Hin & ->). rewrite Hid. apply in_map_iff. exists (k0, v). auto.
  - intros k v Hg.
    assert (Hn : NoDup (map (fun kv => top_key (pv_cfg E) None (fst kv)) props)).
    { erewrite map_ext; [exact Hw|]. intros kv. apply Hid. }
    destruct (H2 Hn k v (dget_In _ _ _ Hg)) as (w & ds & E1 & E2 & _). exists w, ds. split; [exact E1|].
    rewrite Hid in E2. rewrite E2. now destruct w.
Qed.

Lemma construct_reply_spec E urn state r :
  (forall cls, class_ok (c_class (pv_cfg E) cls)) -> (forall k, transform (pv_cfg E) k = k) -> wf_dict state ->
  construct_reply E urn state = Done r ->
  (exists v, future (from_input (pv_dry E) urn) false = Done v /\ (v = VStr (cr_urn r) \/ v = VNone /\ cr_urn r = "")) /\
  (forall k, In k (dkeys (cr_state r)) -> In k (dkeys state) /\ k <> "id" /\ k <> "urn") /\
  (forall k v, dget state k = Some v -> k <> "id" -> k <> "urn" ->
     exists w ds, ser (pv_cfg E) v None false = Done (w, ds) /\ dget (cr_state r) k = match w with WNull => None | _ => Some w end) /\
  dkeys (cr_deps r) = dkeys (cr_state r) /\
  (forall k v us, dget state k = Some v -> dget (cr_deps r) k = Some us ->
     forall u, In u us <-> exists x, mentions (pv_cfg E) x v /\ r_urn (c_res (pv_cfg E) x) = Done (Some u)).
Proof.
  intros Hc Ht Hw. unfold construct_reply. destruct (future _ false) as [v| |] eqn:Ef; cbn [fbind]; try discriminate.
  destruct (serialize_properties _ _ _ _) as [[st pd]| |] eqn:Es; cbn [fbind fst snd]; try discriminate.
  destruct (urn_deps E pd) as [deps| |] eqn:Ed; cbn [fbind]; try discriminate.
  destruct (string_field v) as [u| |] eqn:Eu; cbn [fbind]; try discriminate. intros [= <-]. cbn [cr_urn cr_state cr_deps].
  destruct (deps_of_properties _ _ _ _ _ Hc Ht Es Ed (filter_wf _ _ Hw)) as [Hk Hd].
  destruct (sent_properties _ _ _ _ Ht (filter_wf _ _ Hw) Es) as [Hs1 Hs2].
  assert (Hget : forall k, dget (filter (fun kv => negb (smem (fst kv) ["id"; "urn"])) state) k = if negb (smem k ["id"; "urn"]) then dget state k else None)
    by (intros k; apply (filter_get state (fun k => negb (smem k ["id"; "urn"])))).
  assert (Hk1 : forall k, In k (dkeys st) -> In k (dkeys state) /\ k <> "id" /\ k <> "urn").
  { intros k Hin. apply Hs1 in Hin. apply dget_Some_key in Hin as [x Hx]. rewrite Hget in Hx.
    destruct (negb _) eqn:En; [|discriminate]. apply not_reserved in En. split; auto. eapply dget_key; eauto. }
  split; [|split; [exact Hk1|split; [|split; [exact Hk|]]]].
  - exists v. split; auto. destruct v; simpl in Eu; try discriminate; injection Eu as <-; auto.
  - intros k x Hg H1 H2. apply Hs2. rewrite Hget. rewrite (proj2 (not_reserved k)) by auto. exact Hg.
  - intros k w us Hg Hu. apply (Hd k w us); [|exact Hu]. rewrite Hget.
    assert (Hin : In k (dkeys st)) by (rewrite <- Hk; eapply dget_key; eauto).
    apply Hk1 in Hin as (_ & H1). now rewrite (proj2 (not_reserved k) H1).
Qed.

Lemma call_reply_spec E outputs failures r :
  (forall cls, class_ok (c_class (pv_cfg E) cls)) -> (forall k, transform (pv_cfg E) k = k) -> wf_dict outputs ->
  call_reply E outputs failures = Done r ->
  (forall k, In k (dkeys (pr_return r)) -> In k (dkeys outputs)) /\
  (forall k v, dget outputs k = Some v ->
     exists w ds, ser (pv_cfg E) v None false = Done (w, ds) /\ dget (pr_return r) k = match w with WNull => None | _ => Some w end) /\
  dkeys (pr_deps r) = dkeys (pr_return r) /\
  (forall k v us, dget outputs k = Some v -> dget (pr_deps r) k = Some us ->
     forall u, In u us <-> exists x, mentions (pv_cfg E) x v /\ r_urn (c_res (pv_cfg E) x) = Done (Some u)) /\
  pr_failures r = match failures with Some l => l | None => [] end.
Proof.
  intros Hc Ht Hw. unfold call_reply.
  destruct (serialize_properties _ _ _ _) as [[st pd]| |] eqn:Es; cbn [fbind fst snd]; try discriminate.
  destruct (urn_deps E pd) as [deps| |] eqn:Ed; cbn [fbind]; try discriminate. intros [= <-]. cbn [pr_return pr_deps pr_failures].
  destruct (deps_of_properties _ _ _ _ _ Hc Ht Es Ed Hw) as [Hk Hd].
  destruct (sent_properties _ _ _ _ Ht Hw Es) as [Hs1 Hs2]. auto.
Qed.

(** When every needed URN is known, replies are made. *)
Lemma urn_deps_done E us pd : (forall k rs r, In (k, rs) pd -> In r rs -> r_urn (c_res (pv_cfg E) r) = Done (Some (us r))) ->
  exists x, urn_deps E pd = Done x.
Proof.
  induction pd as [|[k rs] pd IH]; intros H; simpl; [eauto|].
  assert (Hg : gather (map (fun r => r_urn (c_res (pv_cfg E) r)) rs) = Done (map Some (map us rs))).
  { assert (Hr : forall r, In r rs -> r_urn (c_res (pv_cfg E) r) = Done (Some (us r))) by (intros r; apply (H k rs r); now left).
    clear - Hr. induction rs as [|r rs IH]; simpl; auto. rewrite (Hr r) by now left. rewrite IH; auto. intros r' Hr'. apply Hr. now right. }
  rewrite Hg. cbn [fbind].
  assert (Hk : forall l, known_urns (map Some l) = Done l) by (induction l as [|x l IHl]; simpl; auto; now rewrite IHl).
  rewrite Hk. cbn [fbind]. destruct IH as [y Hy]; [intros k' rs' r H1 H2; eapply H; [right; exact H1|exact H2]|].
  rewrite Hy. simpl. eauto.
Qed.
Lemma construct_reply_done E urn state us u st pd :
  future (from_input (pv_dry E) urn) false = Done (VStr u) ->
  serialize_properties (pv_cfg E) None false (filter (fun kv => negb (smem (fst kv) ["id"; "urn"])) state) = Done (st, pd) ->
  (forall r, r_urn (c_res (pv_cfg E) r) = Done (Some (us r))) -> exists r, construct_reply E urn state = Done r.
Proof.
  intros Hu Hs Hr. unfold construct_reply. rewrite Hu, Hs. cbn [fbind fst snd].
  destruct (urn_deps_done E us pd) as [d ->]; [auto|]. simpl. eauto.
Qed.
Lemma call_reply_done E outputs failures us st pd :
  serialize_properties (pv_cfg E) None false outputs = Done (st, pd) ->
  (forall r, r_urn (c_res (pv_cfg E) r) = Done (Some (us r))) -> exists r, call_reply E outputs failures = Done r.
Proof.
  intros Hs Hr. unfold call_reply. rewrite Hs. cbn [fbind fst snd].
  destruct (urn_deps_done E us pd) as [d ->]; [auto|]. simpl. eauto.
Qed.

Lemma inputs_done E ki inputs deps v :
  top_message inputs -> deserialize_properties (pv_dc E) inputs true ki = Ok v -> (forall x, exists u, pv_urn E x = Done u) ->
  exists args, component_inputs E ki inputs deps = Done args.
Proof.
  intros Ht Hd Hu. unfold component_inputs. rewrite Hd. destruct (top_values _ _ _ _ _ Ht Hd) as (d & -> & _). cbn [of_res fbind].
  clear - Hu. induction d as [|[k v] d IH]; simpl; [eauto|].
  assert (Hs : forall l, exists x, select_value E v l = Done x).
  { intros l. unfold select_value. destruct (is_rpc_secret v); simpl; [eauto|]. destruct l as [|a l]; simpl; [eauto|].
    destruct (contains_outputs v); simpl; [eauto|]. unfold is_resource_reference. destruct (is_resource v); simpl; [|eauto].
    destruct l; simpl; [|eauto]. destruct (Hu v) as [u ->]. simpl. destruct u as [s|]; [destruct (String.eqb a s)|]; eauto. }
  destruct (Hs (to_set (match dget deps k with Some us => us | None => [] end))) as [x ->]. simpl.
  destruct IH as [r ->]. simpl. eauto.
Qed.

Lemma serialize_done c props : forall st pd, (forall kv, In kv props -> exists w ds, ser c (snd kv) None false = Done (w, ds)) ->
  exists st' pd', ser_props_loop c None false props st pd = Done (st', pd').
Proof.
  induction props as [|[k v] props IH]; intros st pd H; simpl; [eauto|].
  destruct (H (k, v)) as (w & ds & E); [now left|]. cbn [snd] in E. rewrite E. cbn [fbind].
  assert (H' : forall kv, In kv props -> exists w ds, ser c (snd kv) None false = Done (w, ds)) by (intros kv Hin; apply H; now right).
  destruct w; apply IH; exact H'.
Qed.
