(** Proofs for C93. *)
From Verif Require Import Base PyVal Model_Output Model_Rpc Model_Cycle Spec_Cycle Spec_Urn Spec_Rpc.
From Verif Require Model_Urn Model_Deps Spec_Deps Proof_Deps Proof_Urn.
From Verif Require Import Model_Options Spec_Options Model_Resource Spec_Resource Proof_Resource Model_Request Spec_Request Proof_Request
  Model_Construct Spec_Construct.
Open Scope string_scope.
Ltac inv H := inversion H; subst; clear H.

Lemma reference_of u i : i <> "" -> forall k, Model_Deps.provider_reference (Model_Deps.mkProvider k u (Some i)) = u ++ "::" ++ i.
Proof.
  intros H k. unfold Model_Deps.provider_reference. cbn. destruct (String.eqb_spec i ""); [contradiction|reflexivity].
Qed.
Lemma dependency_of pkg ref urn id : provider_ref pkg ref urn id ->
  Model_Deps.dependency_provider ref = Ok (Model_Deps.mkProvider pkg urn (Some id)).
Proof.
  intros (stack & project & anc & name & Hs & Hp & Ha & Hn & K0 & K1 & K2 & Hi & I0 & Eu & Er).
  destruct (Proof_Deps.dependency_provider_ok (Model_Deps.mkProvider pkg urn (Some id)) stack project anc name Hs Hp Ha K0 K1 K2 Hn Eu)
    as (q & E & P & U & R). { intros i [= <-]. exact Hi. }
  rewrite reference_of in E by exact I0. rewrite <- Er in E. rewrite E. f_equal. cbn in P, U.
  unfold Model_Deps.dependency_provider in E. rewrite Er, (Proof_Deps.parse_reference_ok urn id Hi) in E. cbn in E.
  destruct (Model_Urn.parse_urn urn) as [parts|]; [|discriminate]. cbn in E. injection E as <-. cbn in *. now subst.
Qed.

Lemma create_one reg h pkg ref urn id : provider_ref pkg ref urn id -> reg pkg = None ->
  create_provider reg h ref = Ok (mkProvider pkg (length h), (h ++ [Done (urn, Some id)])%list).
Proof.
  intros R N. pose proof (dependency_of _ _ _ _ R) as D. unfold create_provider.
  unfold Model_Deps.dependency_provider in D. destruct (Model_Urn.parse_resource_reference ref) as [ui|] eqn:E1; cbn in D; [|discriminate].
  cbn. destruct (Model_Urn.parse_urn (fst ui)) as [parts|] eqn:E2; cbn in D; [|discriminate]. cbn. injection D as D1 D2 D3.
  rewrite D1, N. rewrite (dependency_of _ _ _ _ R). reflexivity.
Qed.
Lemma nth_app_some {A} (l m : list A) i x : nth_error l i = Some x -> nth_error (l ++ m) i = Some x.
Proof. intros H. rewrite nth_error_app1; [exact H|]. apply nth_error_Some. congruence. Qed.

Lemma create_all reg : forall d h, wf_dict d -> (forall pkg, In pkg (dkeys d) -> reg pkg = None) ->
  (forall pkg ref, dget d pkg = Some ref -> exists urn id, provider_ref pkg ref urn id) ->
  exists ps h', create_providers reg h d = Ok (ps, h') /\ dkeys ps = dkeys d /\ (forall i f, nth_error h i = Some f -> nth_error h' i = Some f) /\
    forall k p, dget ps k = Some p -> exists ref urn id, dget d k = Some ref /\ provider_ref k ref urn id /\
      p_package p = k /\ nth_error h' (p_id p) = Some (Done (urn, Some id)).
Proof.
  induction d as [|[k ref] d IH]; intros h W N R; cbn.
  - exists [], h. split; [reflexivity|]. split; [reflexivity|]. split; [auto|]. discriminate.
  - assert (Wk : ~ In k (dkeys d) /\ wf_dict d) by (unfold wf_dict in *; cbn in W; inv W; auto). destruct Wk as [Nk Wd].
    destruct (R k ref) as (urn & id & P); [cbn; now rewrite String.eqb_refl|].
    rewrite (create_one reg h k ref urn id P (N k (or_introl eq_refl))). cbn.
    destruct (IH (h ++ [Done (urn, Some id)])%list Wd) as (ps & h' & E & Ek & Mono & G).
    { intros p I. apply N. now right. }
    { intros p r G. apply R. cbn. destruct (String.eqb_spec p k); [|exact G]. subst. exfalso. apply Nk.
      apply dget_In in G. apply (in_map fst) in G. exact G. }
    rewrite E. cbn. exists ((k, mkProvider k (length h)) :: ps), h'. split; [reflexivity|]. split; [unfold dkeys in *; cbn; f_equal; exact Ek|].
    split; [intros i f H; apply Mono; now apply nth_app_some|].
    intros k' p G'. cbn in G'. destruct (String.eqb_spec k' k) as [->|Ne].
    + injection G' as <-. exists ref, urn, id. split; [reflexivity|]. split; [exact P|]. split; [reflexivity|]. cbn.
      apply Mono. rewrite nth_error_app2 by lia. now rewrite Nat.sub_diag.
    + destruct (G k' p G') as (r & u & i & H1 & H2). exists r, u, i. auto.
Qed.

(** The options. *)
Lemma options_ok reg h r : good_request r -> cq_parent r <> "" -> not_registered reg r ->
  exists o h', construct_options reg h r = Ok (o, h') /\ co_parent o = None /\
    exists ps, co_opts o = mkRopts 0 None (Some (VList (map (fun u => VRes (RDep u)) (cq_dependencies r)))) (Some (cq_protect r))
           None (Some (PMap ps)) None None None (Some (map VStr (cq_aliases r))) None None None None None None None None None /\
      dkeys ps = dkeys (cq_providers r) /\
      forall k p, dget ps k = Some p -> exists ref urn id, dget (cq_providers r) k = Some ref /\ provider_ref k ref urn id /\
        p_package p = k /\ nth_error h' (p_id p) = Some (Done (urn, Some id)).
Proof.
  intros G P N. unfold construct_options.
  destruct (create_all reg (cq_providers r) h (gr_distinct r G) N (gr_refs r G)) as (ps & h' & E & Ek & _ & H).
  rewrite E. cbn. unfold empty_as_none, falsy. destruct (String.eqb_spec (cq_parent r) "") as [?|_]; [contradiction|].
  destruct (String.eqb_spec (cq_parent r) "") as [?|_]; [contradiction|]. eexists _, _. split; [reflexivity|].
  split; [reflexivity|]. exists ps. auto.
Qed.

Lemma no_edge_in g g' self : (forall a, ~ Spec_Deps.depends g a self) ->
  (forall a b, Spec_Deps.depends g' a b -> Spec_Deps.depends g a b \/ (a = self /\ ~ path (Spec_Deps.depends g') b self)) ->
  forall b, path (Spec_Deps.depends g') b self -> b = self.
Proof.
  intros N H b P. remember self as s eqn:Es. induction P as [a|a b c E P IH]; [reflexivity|]. subst c.
  destruct (H _ _ E) as [E'|[-> E']]; [|reflexivity].
  rewrite (IH eq_refl N H) in E'. exfalso. exact (N _ E').
Qed.

Lemma run_none tf t name props o : run_transformations tf t name [] props o = Ok (props, o).
Proof. reflexivity. Qed.

Lemma component_new tf w r props o : w_root w = None -> good_request r -> co_parent o = None ->
  ro_parent (co_opts o) = None -> ro_transformations (co_opts o) = None -> ro_urn (co_opts o) = None -> ro_id (co_opts o) = None ->
  exists w' n pr rr, new_component tf w (cq_type r) (cq_name r) props o =
      Ok (w', n, RRegister (cq_type r) (cq_name r) false props (set_provider (co_opts o) (ro_protect (co_opts o)) pr)) /\
    w_root w' = None /\ wget w' n = Some rr /\ s_transformations rr = [] /\
    s_protect rr = (match ro_protect (co_opts o) with Some b => b | None => false end) /\
    s_providers rr = snd (get_providers (cq_type r) (type_package (cq_type r)) (co_opts o) [] None).
Proof.
  intros R G CP P T U I. unfold new_component. rewrite CP. unfold construct.
  destruct (String.eqb_spec (cq_type r) "") as [?|_]; [destruct (gr_type r G); assumption|].
  destruct (String.eqb_spec (cq_name r) "") as [?|_]; [destruct (gr_name r G); assumption|].
  rewrite P, R, T. cbn -[get_providers type_package set_provider]. rewrite P.
  destruct (get_providers (cq_type r) (type_package (cq_type r)) (co_opts o) [] None) as [pr provs]. cbn. rewrite U, I. cbn.
  do 4 eexists. split; [reflexivity|]. cbn. split; [first [exact R|reflexivity]|]. split.
  { unfold wget. cbn. rewrite nth_error_app2 by lia. rewrite Nat.sub_diag. reflexivity. }
  split; [reflexivity|split; reflexivity].
Qed.

Section Main.
Variable ord : rid -> list rid -> list rid.
Hypothesis Ord : forall r l, same_set (ord r l) l.
Variable tf : nat -> transformation.
Hypothesis Hon : honest tf.

Lemma aliases_of project stack t name o l : ro_aliases o = Some (map VStr l) -> component_aliases project stack t name o = map (fun u => Done (Some u)) l.
Proof.
  intros E. unfold component_aliases, Model_Urn.all_aliases, alias_urns. rewrite E. cbn. clear E. induction l; cbn; f_equal; auto.
Qed.

Lemma component_registered reg h w r props : reachable tf w -> w_root w = None -> good_request r -> cq_parent r <> "" -> not_registered reg r ->
  exists o h' w' n o', construct_options reg h r = Ok (o, h') /\
    new_component tf w (cq_type r) (cq_name r) props o = Ok (w', n, RRegister (cq_type r) (cq_name r) false props o') /\
    (forall e g self project stack, surroundings e g self h' -> ready e false props (new_ropts 0) ->
       e_aliases e = component_aliases project stack (cq_type r) (cq_name r) o' ->
       exists g' rq, register_request_of ord e None g self (cq_type r) (cq_name r) false false props o' = Done (g', rq) /\
         rq_type rq = cq_type r /\ rq_name rq = cq_name r /\ rq_protect rq = cq_protect r /\
         (NoDup (rq_dependencies rq) /\ forall s, In s (rq_dependencies rq) <->
           (s <> "" /\ In s (cq_dependencies r)) \/
           exists k x y, depends_by (e_cfg e) false props k x /\ Spec_Deps.stands_for (e_object e x) y /\ Spec_Deps.has_urn y s /\
             Model_Deps.rs_id y <> self) /\
         (NoDup (rq_aliases rq) /\ forall s, In s (rq_aliases rq) <-> In s (cq_aliases r))) /\
    reachable tf w' /\ w_root w' = None /\
    exists rr, wget w' n = Some rr /\ s_transformations rr = [] /\ s_protect rr = cq_protect r /\
      (forall k, In k (dkeys (s_providers rr)) <-> In k (dkeys (cq_providers r))) /\
      forall k p, In (k, p) (s_providers rr) -> exists ref urn id, dget (cq_providers r) k = Some ref /\ provider_ref k ref urn id /\
        p_package p = k /\ nth_error h' (p_id p) = Some (Done (urn, Some id)).
Proof.
  intros Re Ro G P N. destruct (options_ok reg h r G P N) as (o & h' & Eo & CP & ps & Ec & Ek & Hps).
  destruct (component_new tf w r props o Ro G CP) as (w' & n & pr & rr & En & Ro' & Wn & Tn & Pn & Sn); try (rewrite Ec; reflexivity).
  set (o' := set_provider (co_opts o) (ro_protect (co_opts o)) pr) in *.
  exists o, h', w', n, o'. split; [exact Eo|]. split; [exact En|].
  assert (Wps : wf_dict ps) by (unfold wf_dict; rewrite Ek; exact (gr_distinct r G)).
  assert (Wo : wf_opts (co_opts o)) by (rewrite Ec; exact Wps).
  assert (Pe : parent_exists w (co_opts o)) by (rewrite Ec; intros ? [=]).
  pose proof En as En'. unfold new_component in En'. rewrite CP in En'.
  assert (Rw : reachable tf w') by (eapply re_new; eauto).
  split; [|split; [exact Rw|split; [exact Ro'|]]].
  - intros e g self project stack S Rd Al.
    assert (Dep : forall x, depends_explicitly o' x <-> exists u, x = RDep u /\ In u (cq_dependencies r)).
    { intros x. unfold depends_explicitly, o'. rewrite Ec. cbn. split.
      - intros (d & [= <-] & D). inversion D as [|x1 l1 J1 J2| | |]; subst. apply in_map_iff in J1 as (u & <- & I). inversion J2; subst. eauto.
      - intros (u & -> & I). eexists. split; [reflexivity|]. apply De_list with (VRes (RDep u)); [|constructor].
        apply in_map_iff. eauto. }
    assert (Rd' : ready e false props o').
    { destruct Rd as [A1 A2 A3 A4 A5 A6 A7]. constructor; auto.
      - unfold o'. rewrite Ec. cbn. intros d [= <-]. apply Dg_now, Rs_list, Forall_forall. intros x I.
        apply in_map_iff in I as (u & <- & _). constructor.
      - intros x y [D|D] St; [|apply (A7 x y); auto]. apply Dep in D as (u & -> & _).
        destruct (su_dependencies _ _ _ _ S u) as (i & _ & E). rewrite E in St. inv St. do 4 eexists. reflexivity. }
    assert (Al' : e_aliases e = map (fun u => Done (Some u)) (cq_aliases r)) by (rewrite Al; apply aliases_of; unfold o'; rewrite Ec; reflexivity).
    destruct (registration_ok ord Ord tf w _ _ _ _ _ _ _ _ _ _ _ _ e g self false None Hon Re Wo Pe (gr_typed r G) En' (su_acyclic _ _ _ _ S) Rd')
      as (ts & opts & Ap & Rn & g' & rq & Eq & Say).
    { rewrite Al'. apply Forall_forall. intros x I. apply in_map_iff in I as (u & <- & _). eauto. }
    { apply Ta_none. unfold o'. rewrite Ec. reflexivity. }
    rewrite Ro in Eq. exists g', rq. split; [exact Eq|].
    assert (opts = co_opts o /\ ts = []) as [-> ->].
    { assert (ts = []) as ->.
      { destruct Ap as [(p & x & [H|[_ H]] & _)|(_ & _ & ->)]; [rewrite Ec in H; discriminate|congruence|rewrite Ec; reflexivity]. }
      inv Rn. split; reflexivity. }
    destruct Say. split; [assumption|]. split; [assumption|]. split; [|split; [split|split]].
    + inv rs_protect; rewrite Ec in *; cbn in *; congruence.
    + exact (proj1 (ds_all _ _ _ _ _ _ _ _ _ _ _ rs_dependencies)).
    + destruct rs_dependencies as [_ Gr [_ All] _ _].
      assert (Self : forall b, path (Spec_Deps.depends g') b self -> b = self).
      { apply (no_edge_in g); [exact (su_new _ _ _ _ S)|]. intros a b E. apply Gr in E as [E|(-> & E & _)]; auto. }
      assert (Edge : forall x y, (depends_explicitly (co_opts o) x \/ (exists k, depends_by (e_cfg e) false props k x)) ->
                Spec_Deps.stands_for (e_object e x) y -> Model_Deps.rs_id y <> self -> Spec_Deps.depends g' self (Model_Deps.rs_id y)).
      { intros x y D St Ne. apply Gr. right. split; [reflexivity|]. split; [intros Pa; apply Ne; now apply Self|]. exists x, y. auto. }
      assert (DepO : forall x, depends_explicitly (co_opts o) x <-> exists u, x = RDep u /\ In u (cq_dependencies r)).
      { intros x. rewrite <- Dep. unfold depends_explicitly, o'. rewrite Ec. cbn. tauto. }
      intros s. rewrite All. split.
      * intros (x & y & [D|[k D]] & St & Hu & E).
        -- left. apply DepO in D as (u & -> & I). destruct (su_dependencies _ _ _ _ S u) as (i & Ni & Eu). rewrite Eu in St. inv St.
           destruct Hu as (? & ? & ? & Hu & Hs). injection Hu as <- <- <- <-. auto.
        -- right. exists k, x, y. split; [exact D|]. split; [exact St|]. split; [exact Hu|]. intros Es.
           rewrite Es in E. apply Gr in E as [E|(_ & E & _)]; [exact (su_new _ _ _ _ S _ E)|]. apply E. constructor.
      * intros [[Hs I]|(k & x & y & D & St & Hu & Ne)].
        -- destruct (su_dependencies _ _ _ _ S s) as (i & Ni & Eu).
           exists (RDep s), (Model_Deps.Rsrc i false (Ok (Some s)) []).
           assert (D : depends_explicitly (co_opts o) (RDep s)) by (apply DepO; eauto).
           assert (St : Spec_Deps.stands_for (e_object e (RDep s)) (Model_Deps.Rsrc i false (Ok (Some s)) [])) by (rewrite Eu; constructor).
           split; [now left|]. split; [exact St|]. split; [do 3 eexists; split; [reflexivity|exact Hs]|].
           eapply Edge; eauto.
        -- exists x, y. assert (Q : depends_explicitly (co_opts o) x \/ (exists k, depends_by (e_cfg e) false props k x)) by eauto.
           split; [exact Q|]. split; [exact St|]. split; [exact Hu|]. eapply Edge; eauto.
    + exact (proj1 rs_aliases).
    + intros s. rewrite (proj2 rs_aliases). rewrite Al', in_map_iff. split.
      * intros (u & [= ->] & I). exact I.
      * intros I. eauto.
  - exists rr. split; [exact Wn|]. split; [exact Tn|]. split; [rewrite Pn, Ec; reflexivity|].
    assert (Es : s_providers rr = dupdate [] ps).
    { rewrite Sn. unfold get_providers. rewrite Ec. cbn [ro_providers ro_provider snd]. destruct (pkg_of (type_package (cq_type r))); reflexivity. }
    assert (Q : forall k p, In (k, p) (s_providers rr) <-> dget ps k = Some p).
    { intros k p. rewrite Es. assert (W0 : wf_dict (dupdate [] ps)) by (apply wf_dupdate; constructor). split; intros H.
      - apply (In_dget _ _ _ W0) in H. rewrite dget_dupdate in H by exact Wps. destruct (dget ps k); [exact H|discriminate].
      - apply dget_In. rewrite dget_dupdate by exact Wps. now rewrite H. }
    split.
    + intros k. rewrite <- Ek. split; intros I; apply in_map_iff in I as ([k' p] & E & I); cbn in E; subst k'.
      * apply Q, dget_In in I. apply (in_map fst) in I. exact I.
      * apply (In_dget _ _ _ Wps), Q in I. apply (in_map fst) in I. exact I.
    + intros k p I. apply Hps. now apply Q.
Qed.

(** A custom resource created in the component. *)
Lemma child_registered r h' w' n rr t nm cprops copts w2 m t' nm' custom' cprops' o2 e g self tm :
  reachable tf w' -> w_root w' = None -> wget w' n = Some rr -> s_transformations rr = [] -> s_protect rr = cq_protect r ->
  (forall k, In k (dkeys (s_providers rr)) <-> In k (dkeys (cq_providers r))) ->
  (forall k p, In (k, p) (s_providers rr) -> exists ref urn id, dget (cq_providers r) k = Some ref /\ provider_ref k ref urn id /\
     p_package p = k /\ nth_error h' (p_id p) = Some (Done (urn, Some id))) ->
  ro_parent copts = Some n -> ro_provider copts = None -> ro_providers copts = None -> ro_transformations copts = None -> named t ->
  construct tf w' t nm true cprops copts = Ok (w2, m, RRegister t' nm' custom' cprops' o2) ->
  (forall i f, nth_error h' i = Some f -> e_provider e i = f) -> ~ cyclic (Spec_Deps.depends g) -> ready e false cprops' o2 ->
  Forall (fun a => exists s, a = Done (Some s)) (e_aliases e) -> timeouts_are e o2 tm ->
  exists g' rq, register_request_of ord e None g self t' nm' custom' false cprops' o2 = Done (g', rq) /\
    e_urn e n = Done (Some (rq_parent rq)) /\
    (forall pkg, has_package t pkg -> rq_provider rq = match dget (cq_providers r) pkg with Some ref => ref | None => "" end) /\
    rq_protect rq = match ro_protect copts with Some b => b | None => cq_protect r end.
Proof.
  intros Re Ro Wn Tn Pn K1 K2 Cp Cv Cs Ct Nm C Hh Hg Rd Al Tm.
  assert (Wo : wf_opts copts) by (unfold wf_opts; now rewrite Cs).
  assert (Pe : parent_exists w' copts) by (intros x Hx; exists rr; congruence).
  destruct (registration_ok ord Ord tf w' _ _ _ _ _ _ _ _ _ _ _ _ e g self false tm Hon Re Wo Pe Nm C Hg Rd Al Tm)
    as (ts & opts & Ap & Rn & g' & rq & Eq & Say).
  rewrite Ro in Eq. exists g', rq. split; [exact Eq|].
  assert (opts = copts) as ->.
  { assert (ts = []) as ->.
    { destruct Ap as [(p & x & [H|[H _]] & Wp & ->)|(H & _)]; [|congruence|congruence].
      assert (x = rr) as -> by congruence. rewrite Tn, Ct. reflexivity. }
    inversion Rn; subst; reflexivity. }
  destruct Say. split; [|split].
  - destruct rs_parent as [x u H1 H2|x u H1 _ H2 _|H1 _|H1 _]; try congruence.
  - intros pkg Hp. destruct rs_provider as (p & Sel & Ref).
    assert (One : forall k, has_package t k -> k = pkg).
    { intros k Hk. apply type_package_spec in Hk, Hp. congruence. }
    assert (NO : forall k q, ~ option_gives copts k q) by (intros k q; unfold option_gives; rewrite Cs; auto).
    destruct Sel as [p E|k p E Hk O|k p E Hk O (x & y & Ex & Wx & I)|E None_].
    + congruence.
    + destruct (NO _ _ O).
    + assert (k = pkg) as -> by auto. assert (y = rr) as -> by congruence.
      destruct (K2 _ _ I) as (ref & urn & id & H1 & H2 & H3 & H4). rewrite H1. inversion Ref as [? ? Rf|]; subst.
      apply Hh in H4. destruct H2 as (? & ? & ? & ? & ? & ? & ? & ? & ? & ? & ? & ? & Ni & ? & ->).
      inversion Rf as [u i Ei Hi|u i Ei Hi]; subst; rewrite H4 in Ei; injection Ei as <- <-; [reflexivity|].
      destruct Hi as [Hi|Hi]; [discriminate|]. injection Hi as Hi. contradiction.
    + inversion Ref; subst. destruct (dget (cq_providers r) pkg) as [ref|] eqn:Er; [exfalso|reflexivity].
      assert (I : In pkg (dkeys (s_providers rr))) by (apply K1; apply dget_In in Er; apply (in_map fst) in Er; exact Er).
      apply in_map_iff in I as ([k q] & Ek & I). cbn in Ek. subst k. destruct (None_ pkg q Hp) as [_ Np]. apply Np.
      exists n, rr. auto.
  - destruct rs_protect as [b E|x y E Ex Wx|E E']; [now rewrite E| |congruence]. rewrite E.
    assert (y = rr) as -> by congruence. exact Pn.
Qed.
End Main.
