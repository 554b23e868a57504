(** C97: outputs of components. *)
From Verif Require Import Base PyVal Model_Urn Model_Rpc Spec_Rpc Model_Engine Spec_Engine Proof_Engine Proof_Engine2 Model_Translate Spec_Translate Proof_Translate
  Model_Register Spec_Register Proof_Register Model_Deployment Spec_Deployment.
Open Scope string_scope.
Ltac inv H := inversion H; subst; clear H.

(* ---- histories of a deployment ---- *)
Lemma drun_snoc h evs e : drun h (evs ++ [e]) = dstep h (drun h evs) e.
Proof. unfold drun. now rewrite fold_left_app. Qed.
Lemma dead_stays h d e : p_alive d = false -> p_alive (dstep h d e) = false.
Proof. intros H. unfold dstep. now rewrite H. Qed.
Lemma alive_before h d e : p_alive (dstep h d e) = true -> p_alive d = true.
Proof. destruct (p_alive d) eqn:E; auto. intros K. rewrite dead_stays in K; congruence. Qed.

Lemma dget_dset_eq {V} (d : dict V) k v : dget (dset d k v) k = Some v.
Proof. now rewrite dget_dset, String.eqb_refl. Qed.
Lemma dget_dset_neq {V} (d : dict V) k v k' : k' <> k -> dget (dset d k v) k' = dget d k'.
Proof. intros N. rewrite dget_dset. destruct (String.eqb_spec k' k); [contradiction|reflexivity]. Qed.

Definition registered (h : pval -> res string) (evs : list devent) (u : string) (outs : dict pval) : Prop :=
  exists r, In (DOutputs r) evs /\ or_urn r = u /\ read_outputs h r = Ok outs.
Record good (h : pval -> res string) (evs : list devent) (d : deployment) : Prop := mkGood {
  G_urns : forall u, In u (p_urns d) <-> exists id outs, In (DResource u id outs) evs;
  G_pending : forall u, In u (p_pending d) <-> In u (p_urns d) /\ forall outs, ~ registered h evs u outs;
  G_news : forall u, In u (p_urns d) -> exists n, dget (p_news d) u = Some n;
  G_outputs : forall u outs, registered h evs u outs -> In u (p_urns d) /\ exists id, dget (p_news d) u = Some (mkNode id outs)
}.
Lemma registered_snoc h evs e u outs : registered h (evs ++ [e]) u outs <-> registered h evs u outs \/ registered h [e] u outs.
Proof.
  split.
  - intros (r & K & H). apply in_app_or in K as [K|K]; [left|right]; exists r; auto.
  - intros [(r & K & H)|(r & K & H)]; exists r; (split; [apply in_or_app; auto|auto]).
Qed.
Lemma resource_snoc evs r u : (exists id outs, In (DResource u id outs) (evs ++ [DOutputs r])) <-> exists id outs, In (DResource u id outs) evs.
Proof.
  split; intros (i & o & K); exists i, o; [|apply in_or_app; auto]. apply in_app_or in K as [K|[K|[]]]; [auto|discriminate].
Qed.
Lemma history h evs : p_alive (drun h evs) = true -> good h evs (drun h evs).
Proof.
  induction evs as [|e evs IH] using rev_ind; intros A.
  - constructor; cbn; [| | easy |].
    + intros u. split; [easy|]. intros (? & ? & []).
    + intros u. split; [easy|intros [[] _]].
    + intros u outs (r & [] & _).
  - rewrite drun_snoc in *. pose proof (IH (alive_before _ _ _ A)) as [G1 G2 G3 G4]. 
    pose proof (alive_before _ _ _ A) as Ad. revert A. clear IH. generalize dependent (drun h evs). intros d G1 G2 G3 G4 Ad A.
    unfold dstep in *. rewrite Ad in *. cbn [negb] in *.
    destruct e as [urn id outs|r].
    + destruct (smem urn (p_urns d)) eqn:S; [discriminate|]. apply smem_notIn in S.
      assert (R : forall u o, registered h (evs ++ [DResource urn id outs]) u o <-> registered h evs u o).
      { intros u o. rewrite registered_snoc. split; [intros [?|(r & [K|[]] & _)]; [auto|discriminate]|auto]. }
      constructor; cbn [p_urns p_pending p_news].
      * intros u. split.
        -- intros [<-|K]; [exists id, outs; apply in_or_app; right; now left|]. apply G1 in K as (i & o & K). exists i, o. apply in_or_app; auto.
        -- intros (i & o & K). apply in_app_or in K as [K|[[= -> _ _]|[]]]; [right; apply G1; eauto|now left].
      * intros u. split.
        -- intros [<-|K].
           ++ split; [now left|]. intros o K. apply R in K. apply G4 in K as [K _]. auto.
           ++ apply G2 in K as [K1 K2]. split; [now right|]. intros o K. apply R in K. eapply K2; eauto.
        -- intros [[<-|K1] K2]; [now left|]. right. apply G2. split; [auto|]. intros o K. apply (K2 o). now apply R.
      * intros u K. destruct (String.eqb_spec u urn) as [->|N]; [rewrite dget_dset_eq; eauto|]. rewrite dget_dset_neq by auto.
        destruct K as [K|K]; [congruence|auto].
      * intros u o K. apply R in K. destruct (G4 _ _ K) as [K1 (i & K2)]. split; [now right|]. exists i.
        rewrite dget_dset_neq; [auto|]. intros ->. auto.
    + destruct (read_outputs h r) as [outs|e] eqn:E.
      * destruct (smem (or_urn r) (p_pending d)) eqn:S; [|discriminate]. apply smem_In in S. pose proof S as S0. apply G2 in S as [S1 S2].
        destruct (G3 _ S1) as [n Hn]. rewrite Hn.
        assert (R : forall u o, registered h (evs ++ [DOutputs r]) u o <-> registered h evs u o \/ u = or_urn r /\ o = outs).
        { intros u o. rewrite registered_snoc. split; intros [K|K]; auto; right.
          - destruct K as (r' & [[= <-]|[]] & K1 & K2). split; [auto|congruence].
          - destruct K as [-> ->]. exists r. cbn; auto. }
        constructor; cbn [p_urns p_pending p_news].
        -- intros u. rewrite resource_snoc. apply G1.
        -- intros u. rewrite filter_In. split.
           ++ intros [K1 K2]. apply G2 in K1 as [K1 K3]. split; [auto|]. intros o K. apply R in K as [K|[-> _]]; [eapply K3; eauto|].
              now rewrite String.eqb_refl in K2.
           ++ intros [K1 K2]. split; [apply G2; split; [auto|]; intros o K; apply (K2 o); apply R; auto|].
              destruct (String.eqb_spec u (or_urn r)) as [->|]; [|auto]. exfalso. apply (K2 outs). apply R. auto.
        -- intros u K. destruct (String.eqb_spec u (or_urn r)) as [->|N]; [rewrite dget_dset_eq; eauto|]. rewrite dget_dset_neq by auto. auto.
        -- intros u o K. apply R in K as [K|[-> ->]].
           ++ destruct (G4 _ _ K) as [K1 (i & K2)]. split; [auto|]. exists i. rewrite dget_dset_neq; [auto|]. intros ->. eapply S2; eauto.
           ++ split; [auto|]. exists (n_id n). apply dget_dset_eq.
      * assert (R : forall u o, registered h (evs ++ [DOutputs r]) u o <-> registered h evs u o).
        { intros u o. rewrite registered_snoc. split; auto. intros [K|(r' & [[= <-]|[]] & K1 & K2)]; [auto|congruence]. }
        destruct (is_panic e); [discriminate|]. constructor.
        -- intros u. rewrite resource_snoc. apply G1.
        -- intros u. rewrite G2. split; intros [K1 K2]; (split; [auto|]); intros o K; apply (K2 o); now apply R.
        -- auto.
        -- intros u o K. apply R in K. auto.
Qed.

(* ---- the reader ---- *)
Lemma carried_secret v : marks_secret [(reserved_key, VStr "1b47061264138c4ac30d75fd1eb44270"); ("value", v)].
Proof. left. reflexivity. Qed.
Lemma engine_carried c s v : is_rpc_secret v = false -> engine_value c v -> engine_value c (carried s v).
Proof.
  intros Hs E. destruct s; [|exact E]. eapply ev_secret with (x := v); auto.
  - unfold wf_dict. repeat constructor; cbn; intuition discriminate.
  - apply carried_secret.
  - right. now left.
  - intros d -> K. inv E; [|now destruct H0 |destruct (H d); reflexivity].
    apply (secret_iff d) in K; auto. congruence.
Qed.
Lemma becomes_carried c t s v r : becomes c t v r -> becomes c t (carried s v) (if s then TSecret r else r).
Proof. intros H. destruct s; [|exact H]. eapply b_secret; [apply carried_secret|right; now left|exact H]. Qed.

Lemma not_left v s : ~ left_out v s -> v <> VNone \/ s = true.
Proof. intros H. destruct s; [now right|]. left. intros ->. now apply H. Qed.
Section Reader.
  Variable c : rcfg.
  Let dc := c_deser c.
  Let a := mkMopts true false.
  Variable ps : list (string * pval).
  Variable val : string -> pyval.
  Variable sec : string -> bool.
  Hypothesis Hseen : forall key p, In (key, p) ps -> seen dc a (d_dry dc) p (val key) (sec key).
  Hypothesis Hkeys : NoDup (map fst ps) /\ ~ In reserved_key (map fst ps).
  Hypothesis Htyped : well_typed c (map fst ps) val.
  Hypothesis Hdry : c_dry c = d_dry dc.

  Definition dropped (k : string) : Prop := internal_key k = true \/ left_out (val k) (sec k).
  Lemma dropped_dec k : dropped k \/ internal_key k = false /\ ~ left_out (val k) (sec k).
  Proof using.
    unfold dropped, left_out. destruct (internal_key k); [auto|]. destruct (val k) eqn:E; try (right; split; [auto|intros [? _]; discriminate]).
    destruct (sec k); [right; split; [auto|intros [_ ?]; discriminate]|auto].
  Qed.
  Lemma bag : exists vs, bag_seen dc a (d_dry dc) false ps vs /\
    forall k x, In (k, x) vs <-> In k (map fst ps) /\ ~ dropped k /\ x = carried (sec k) (val k).
  Proof.
    clear Hkeys Htyped Hdry. induction ps as [|[k p] ps' IH].
    - exists []. split; [constructor|]. cbn. tauto.
    - destruct IH as (vs & B & I); [intros; apply Hseen; now right|]. pose proof (Hseen k p (or_introl eq_refl)) as S.
      destruct (dropped_dec k) as [D|[D1 D2]].
      + exists vs. split.
        * destruct (internal_key k) eqn:Ek.
          -- destruct (proj1 (seen_shown dc a) _ _ _ S) as (_ & w & E & _). eapply Bs_internal; eauto.
          -- destruct D as [D|[D1 D2]]; [congruence|]. rewrite D1, D2 in S. apply Bs_nothing; auto.
        * intros k' x. rewrite I. cbn. split; [tauto|]. intros ([<-|K] & K1 & K2); tauto.
      + exists ((k, carried (sec k) (val k)) :: vs). split; [apply Bs_cons; auto; now apply not_left|].
        intros k' x. cbn. rewrite I. split.
        * intros [[= <- <-]|K]; [|tauto]. split; [auto|]. split; [|auto]. unfold dropped. intros [K|K]; [congruence|auto].
        * intros ([<-|K] & K1 & ->); [now left|tauto].
  Qed.
  Lemma not_marked key p : In (key, p) ps -> is_rpc_secret (val key) = false.
  Proof. intros K. apply (proj1 (seen_shown dc a) _ _ _ (Hseen _ _ K)). Qed.
  Lemma in_keys key : In key (map fst ps) -> exists p, In (key, p) ps.
  Proof. intros K. apply in_map_iff in K as ([k p] & <- & K). eauto. Qed.

  Lemma reads_state : exists st vs, marshal_properties a ps = Ok st /\ map fst st = map fst ps /\
    deserialize_properties dc st false false = Ok (VDict vs) /\
    forall k x, In (k, x) vs <-> In k (map fst ps) /\ ~ dropped k /\ x = carried (sec k) (val k).
  Proof.
    destruct bag as (vs & B & I). destruct (bag_shown dc a false false ps vs (or_introl eq_refl) B) as (st & E & Ek & _).
    destruct (program_reads dc a false false ps vs (or_introl eq_refl) (proj2 Hkeys) B) as (st' & E' & F).
    unfold marshal_properties in E'. change (rmap (mm a) ps = Ok st') in E'. rewrite E in E'. injection E' as <-.
    exists st, vs. auto.
  Qed.

  Lemma entry_translates key : In key (map fst ps) -> forall r,
    translate (c_out c) (carried (sec key) (val key)) (c_types c key) = Ok r <->
    becomes (c_out c) (c_types c key) (carried (sec key) (val key)) r.
  Proof.
    intros K r. destruct Htyped as (T1 & T2 & T3). destruct (in_keys _ K) as [p Kp]. destruct (T3 _ K) as [T4 _].
    apply (translate_iff (c_out c) T1). apply engine_carried; auto. eapply not_marked; eauto.
  Qed.
  Lemma dup_keys {A} (d : list (string * A)) k x y : NoDup (map fst d) -> In (k, x) d -> In (k, y) d -> x = y.
  Proof.
    induction d as [|[k0 v] d IH]; cbn; [easy|]. intros W. inv W. intros [[= -> ->]|K1] [[= <-]|K2]; auto.
    - destruct H1. now apply (in_map fst) in K2.
    - subst. destruct H1. now apply (in_map fst) in K1.
  Qed.

  Lemma reader g props from urn d n : looks_up g c props from urn d -> p_alive d = true -> ordinary urn ->
    dget (p_news d) urn = Some n -> n_outputs n = ps ->
    exists l, do_get g [] = (l, Ok tt) /\ In (TUrn, OVal (TLeaf (VStr urn)) true false [c_self c]) l /\ shows c l props (map fst ps) val sec.
  Proof.
    intros (-> & Np & _) A O N Eo. destruct reads_state as (st & vs & E & Ek & F & I).
    set (ret := [("urn", WStr urn); ("id", WStr (n_id n)); ("state", WStruct st)]).
    assert (M : asks_for from urn d = AResp (mkInvokeResponse [] ret)).
    { unfold asks_for. cbn [serialize_properties ser_props_loop ser fbind]. cbn.
      assert (U : unknown_elem urn = None) by now apply ordinary_read.
      unfold get_resource_answer, unmarshal_properties. cbn. rewrite A. cbn. rewrite U. cbn. rewrite N. rewrite Eo.
      fold a. change (rmap (fun kv => let+ w := marshal a (snd kv) in Ok (fst kv, w)) ps) with (marshal_properties a ps). rewrite E. reflexivity. }
    rewrite M. set (g := mkGet c false props (Ok []) (AResp (mkInvokeResponse [] ret))).
    assert (Wr : wf_dict ret) by (unfold wf_dict, ret; cbn; repeat constructor; cbn; intuition discriminate).
    assert (W : wf_dict st) by (unfold wf_dict, dkeys; rewrite Ek; apply Hkeys).
    assert (Hs : In ("state", WStruct st) (i_return (mkInvokeResponse [] ret))) by (cbn; auto).
    assert (ND : forall e, ~ undecodable c [] st e).
    { intros e [K|[(v & K & Nd & _)|[(d0 & key & v & K & Hin & He)|(U & key & w & [] & _)]]]; fold dc in K; rewrite F in K.
      - discriminate.
      - injection K as <-. now destruct (Nd vs).
      - injection K as <-. apply I in Hin as (H1 & H2 & ->). destruct Htyped as (T1 & T2 & T3). destruct (T3 _ H1) as [_ (r & Hr)].
        apply (becomes_carried _ _ (sec key)) in Hr. apply entry_translates in Hr; auto. congruence. }
    destruct (do_get g []) as [l r] eqn:D.
    destruct (get_ok g l r Np D) as [R C].
    { intros sp resp [= <-] [= <-]. split; [exact Wr|]. intros _. split; [exists (WStr urn); now left|]. split; [discriminate|].
      exists st. split; [exact Hs|exact ND]. }
    assert (Er : r = Ok tt /\ exists o, In (TUrn, o) l /\ is_urn c urn o).
    { destruct C as [(e & _ & K & _)|[(sp & resp & u & [= <-] & [= <-] & _ & -> & K & Ho)|(sp & resp & w & _ & [= <-] & _ & _ & K & Hw)]].
      - inv K.
      - split; [auto|]. cbn in K. destruct K as [[= ->]|[K|[K|[]]]]; try discriminate. exact Ho.
      - exfalso. cbn in K. destruct K as [[= <-]|[K|[K|[]]]]; try discriminate. now destruct (Hw urn). }
    destruct Er as [-> (o & Ho1 & Ho2)]. red in Ho2. subst o. exists l. split; [reflexivity|]. split; [exact Ho1|].
    split; [exact R|]. intros k Hk Hid Hurn.
    assert (Ht : In (TProp k) (map fst l)). { apply (proj2 R). right. right. exists k. auto. }
    apply in_map_iff in Ht as ([t o] & Et & Hi). cbn in Et. subst t.
    assert (Go : good_outputs c [] st).
    { split; [exact W|]. split; [unfold dkeys; rewrite Ek; apply Hkeys|]. split; [unfold no_clash, dkeys; rewrite Ek; apply Htyped|]. split; [constructor|intros x y []]. }
    destruct (get_values g l [] _ st Np D eq_refl eq_refl Wr Hs Go k o Hi) as (v & known & secret & ds & -> & (RT1 & RT2 & RT3 & RT4) & Hds).
    assert (Dep : forall x, In x ds <-> x = c_self c).
    { intros x. rewrite (Hds x). split; [intros [?|(? & ? & ? & [] & _)]; auto|auto]. }
    split.
    - intros key K Ki Kt Kl. destruct Htyped as (T1 & T2 & T3). destruct (T3 _ K) as [_ (r & Hr)].
      assert (EG : engine_gives c st k (if sec key then TSecret r else r)).
      { exists vs, key, (carried (sec key) (val key)). split; [exact F|]. split; [apply I; split; [auto|]; split; [|auto]; unfold dropped; intros [?|?]; [congruence|auto]|].
        split; [auto|]. apply entry_translates; auto. now apply becomes_carried. }
      destruct (in_keys _ K) as [p Kp].
      apply RT1 in EG. exists r. split; [exact Hr|].
      assert (v = r /\ secret = sec key) as [-> ->].
      { destruct (sec key).
        - destruct EG as [(x & [= <-] & -> & ->)|(Nx & _)]; [auto|]. now destruct (Nx r).
        - destruct EG as [(x & -> & _)|(_ & -> & ->)]; [|auto]. exfalso.
          pose proof (not_marked _ _ Kp) as Nm. destruct (T3 _ K) as [T4 _]. destruct (val key) as [| | | | |dd| | | | | | | | | | | | |]; inv Hr.
          apply ev_inv_dict in T4 as [T4 _]. apply (secret_iff dd) in H1; [congruence|auto]. }
      exists known, ds. auto.
    - intros Nk. assert (NG : forall tv, ~ engine_gives c st k tv).
      { intros tv (d0 & key & x & K & Hin & Kt & _). fold dc in K. rewrite F in K. injection K as <-. apply I in Hin as (H1 & H2 & _). apply H2. now apply Nk. }
      destruct (RT3 NG) as [-> ->]. { right. intros tv (key & w & x & [] & _). }
      exists known, ds. auto.
  Qed.
End Reader.

(* ---- the program that registers the outputs ---- *)
Lemma sends h c urn outputs ps : (forall cls, class_declared (c_class c cls)) -> urn <> "" ->
  bag_means (no_transform c) (Some h) None false outputs ps -> NoDup (map fst ps) ->
  exists r, or_urn r = urn /\ read_outputs h r = Ok ps /\
    forall monitor, register_resource_outputs c (Done (Some urn)) (VDict outputs) (Some monitor) =
      Done ([r], let+ _ := do_call (monitor r) in Ok tt).
Proof.
  intros Hc Hu Hb Hn.
  destruct (engine_reads (no_transform c) (mkUopts false (Some h)) Hc None false outputs ps) as (st & pd & E & U); auto.
  exists (mkOutputsRequest urn st). split; [reflexivity|]. split.
  - unfold read_outputs. cbn [or_urn or_outputs]. destruct (String.eqb_spec urn ""); [contradiction|exact U].
  - intros m. unfold register_resource_outputs. cbn [fbind]. rewrite E. reflexivity.
Qed.
Lemma accepted h evs r outs : p_alive (drun h evs) = true -> (exists id o, In (DResource (or_urn r) id o) evs) ->
  (forall r', In (DOutputs r') evs -> or_urn r' <> or_urn r) -> read_outputs h r = Ok outs ->
  outputs_answer h (drun h evs) r = AResp tt /\ p_alive (drun h (evs ++ [DOutputs r])) = true.
Proof.
  intros A Hr Hn E. destruct (history h evs A) as [G1 G2 G3 G4].
  assert (P : smem (or_urn r) (p_pending (drun h evs)) = true).
  { apply smem_In. apply G2. split; [now apply G1|]. intros o (r' & K1 & K2 & _). eapply Hn; eauto. }
  assert (S : p_alive (dstep h (drun h evs) (DOutputs r)) = true).
  { unfold dstep. rewrite A. cbn [negb]. rewrite E, P. reflexivity. }
  rewrite drun_snoc. split; [|exact S]. unfold outputs_answer. rewrite A. cbn [negb]. now rewrite E, S.
Qed.
Lemma kept h evs r outs : p_alive (drun h evs) = true -> In (DOutputs r) evs -> read_outputs h r = Ok outs ->
  exists id, dget (p_news (drun h evs)) (or_urn r) = Some (mkNode id outs).
Proof.
  intros A K E. apply (G_outputs _ _ _ (history h evs A)). exists r. auto.
Qed.

(* ---- plain data ---- *)
From Verif Require Spec_State Spec_Meaning Proof_Meaning.
Section Data.
  Variable c : cfg.
  Variable h : option (pval -> res string).
  Variable dc : dcfg.
  Variable acc : bool.
  Let a := mkMopts true acc.
  Hypothesis Hsec : c_secrets c = true.
  Hypothesis Htr : c_transform c = None.
  Definition fine (x : pyval) : Prop := ~ within VUnknown x /\ plain_data x.
  Lemma fine_sub x y : (forall z, within z y -> within z x) -> fine x -> fine y.
  Proof. intros H (F1 & F2 & F3). split; [auto|]. split; intros z Hz K; [eapply F2|eapply F3]; eauto. Qed.
  Lemma fine_cons x xs : fine (VList (x :: xs)) -> fine x /\ fine (VList xs).
  Proof.
    intros F. split.
    - eapply fine_sub; [|exact F]. intros z K. eapply W_list; [now left|exact K].
    - split; [|split].
      + intros K. apply F. inv K. eapply W_list; [right; eauto|auto].
      + intros s Hs K. apply (proj1 (proj2 F) s Hs). inv K. eapply W_list; [right; eauto|auto].
      + intros s Hs K. inv K; [destruct Hs|]. apply (proj2 (proj2 F) s Hs). eapply W_list; [right; eauto|auto].
  Qed.
  Lemma fine_entry k x xs : fine (VDict ((k, x) :: xs)) -> fine x /\ fine (VDict xs).
  Proof.
    intros F. split.
    - eapply fine_sub; [|exact F]. intros z K. eapply W_dict; [now left|exact K].
    - split; [|split].
      + intros K. apply F. inv K. eapply W_dict; [right; eauto|auto].
      + intros s Hs K. apply (proj1 (proj2 F) s Hs). inv K. eapply W_dict; [right; eauto|auto].
      + intros s Hs K. inv K; [destruct Hs|]. apply (proj2 (proj2 F) s Hs). eapply W_dict; [right; eauto|auto].
  Qed.
  Lemma fine_none : fine VNone.
  Proof. split; [intros K; inv K|]. split; [intros s Hs K; inv K|]. intros s Hs K; inv K. destruct Hs. Qed.

  Lemma data_goes :
    (forall v x s, Spec_Meaning.means false v x s -> fine x -> exists p, means c h None false v p /\ seen dc a (d_dry dc) p x s /\ contains_secrets p = s /\ Spec_State.storable p) /\
    (forall l xs s, Spec_Meaning.means_list false l xs s -> fine (VList xs) -> exists ps, all_mean c h None false l ps /\ all_seen dc a (d_dry dc) ps xs s /\ existsb contains_secrets ps = s /\ Forall Spec_State.storable ps) /\
    (forall d xs s, Spec_Meaning.means_dict false d xs s -> fine (VDict xs) -> (forall k, In k (dkeys d) -> internal_key k = false) ->
       exists ps, entries_mean c h None false d ps /\ map fst ps = map fst d /\ entries_seen dc a (d_dry dc) ps xs s /\ existsb (fun kv => contains_secrets (snd kv)) ps = s /\ Forall (fun kv => Spec_State.storable (snd kv)) ps).
  Proof.
    apply (Proof_Meaning.means_all false
      (fun v x s _ => fine x -> exists p, means c h None false v p /\ seen dc a (d_dry dc) p x s /\ contains_secrets p = s /\ Spec_State.storable p)
      (fun l xs s _ => fine (VList xs) -> exists ps, all_mean c h None false l ps /\ all_seen dc a (d_dry dc) ps xs s /\ existsb contains_secrets ps = s /\ Forall Spec_State.storable ps)
      (fun d xs s _ => fine (VDict xs) -> (forall k, In k (dkeys d) -> internal_key k = false) ->
         exists ps, entries_mean c h None false d ps /\ map fst ps = map fst d /\ entries_seen dc a (d_dry dc) ps xs s /\ existsb (fun kv => contains_secrets (snd kv)) ps = s /\ Forall (fun kv => Spec_State.storable (snd kv)) ps)).
    - intros _. exists PNull. split; [constructor|]. split; [constructor|]. split; constructor.
    - intros b _. exists (PBool b). split; [constructor|]. split; [constructor|]. split; constructor.
    - intros z _. exists (PNum z). split; [constructor|]. split; [constructor|]. split; constructor.
    - intros s Hs F. exists (PStr s). split; [|split; [|split]].
      + constructor. intros K. apply (proj1 (proj2 F) s K). constructor.
      + now constructor.
      + reflexivity.
      + now constructor.
    - intros t Ht F. exfalso. apply (proj2 (proj2 F) t Ht). constructor.
    - intros F. exfalso. apply F. constructor.
    - intros v x s _ IH F. destruct (IH F) as (p & M & S & T & O). exists p. split; [now constructor|]. split; [exact S|split; [exact T|exact O]].
    - intros rs v x s s' Nu _ IH _ F. destruct (IH F) as (p & M & S & T & O). apply Proof_Meaning.all_known in Nu. destruct s.
      + exists (PSecret p). split; [|split; [eapply Se_secret; eauto|split; [reflexivity|now constructor]]].
        replace (PSecret p) with (if c_secrets c then PSecret p else p) by now rewrite Hsec. now constructor.
      + exists p. split; [now constructor|]. split; [exact S|split; [exact T|exact O]].
    - intros rs v s _ F. exfalso. apply F. constructor.
    - intros rs v x s s' _ _ _ F. exfalso. apply F. constructor.
    - intros l xs s _ IH F. destruct (IH F) as (ps & M & S & T & O). exists (PArr ps). split; [econstructor; [constructor|exact M]|]. split; [now constructor|split; [exact T|now constructor]].
    - intros d xs s Hk _ IH F. destruct Hk as (K1 & K2 & K3). destruct (IH F K3) as (ps & M & E & S & T & O). exists (PObj ps). split; [|split; [|split; [exact T|constructor; [exact O|rewrite E; exact K2]]]].
      + constructor; [exact M|]. split; rewrite E; auto.
      + constructor; [rewrite E; exact K1|rewrite E; exact K2|exact S].
    - intros _. exists []. split; [constructor|]. split; [constructor|]. split; constructor.
    - intros v x s l xs s' _ IH _ IH' F. apply fine_cons in F as [F1 F2]. destruct (IH F1) as (p & M & S & T & O), (IH' F2) as (ps & M' & S' & T' & O').
      exists (p :: ps). split; [now constructor|]. split; [now constructor|]. split; [cbn [existsb]; now rewrite T, T'|now constructor].
    - intros _ _. exists []. split; [constructor|]. split; [reflexivity|]. split; [constructor|]. split; constructor.
    - intros k v d xs s _ IH _ IH' F I. destruct (IH fine_none) as (p & M & S & T & O). destruct (IH' F) as (ps & M' & E & S' & T' & O'); [intros; apply I; now right|].
      exists ((k, p) :: ps). split; [econstructor; eauto; [now constructor|constructor]|]. split; [cbn; now f_equal|].
      split; [apply Esn_nothing; auto; apply I; now left|]. split; [cbn [existsb snd]; now rewrite T, T'|now constructor].
    - intros k v x s d xs s' _ IH Hn _ IH' F I. apply fine_entry in F as [F1 F2]. destruct (IH F1) as (p & M & S & T & O).
      destruct (IH' F2) as (ps & M' & E & S' & T' & O'); [intros; apply I; now right|].
      exists ((k, p) :: ps). split; [econstructor; eauto; [now constructor|constructor]|]. split; [cbn; now f_equal|].
      split; [apply Esn_cons; auto; apply I; now left|]. split; [cbn [existsb snd]; now rewrite T, T'|now constructor].
  Qed.

  (** A bag of such data. *)
  Lemma bag_data d data secret : NoDup (map fst d) -> ~ In reserved_key (map fst d) ->
    (forall k v, In (k, v) d -> Spec_Meaning.means false v (data k) (secret k) /\ fine (data k)) ->
    exists ps, bag_means c h None false d ps /\ NoDup (map fst ps) /\
      (forall k, In k (map fst ps) -> In k (map fst d)) /\
      (forall k, In k (map fst d) -> In k (map fst ps) \/ left_out (data k) (secret k)) /\
      forall k p, In (k, p) ps -> seen dc a (d_dry dc) p (data k) (secret k) /\ contains_secrets p = secret k /\ Spec_State.storable p.
  Proof.
    intros N R H. induction d as [|[k v] d IH].
    - exists []. split; [constructor|]. split; [constructor|]. repeat split; cbn; tauto.
    - inv N. destruct IH as (ps & B & Np & I1 & I2 & S); auto; [intros K; apply R; now right|intros; apply H; now right|].
      destruct (H k v (or_introl eq_refl)) as [M F]. destruct (proj1 data_goes _ _ _ M F) as (p & Mp & Sp & Tp & Op).
      assert (D : p = PNull \/ p <> PNull) by (destruct p; auto; right; discriminate). destruct D as [->|D].
      + exists ps. split; [eapply Bag_null; eauto; [now constructor|constructor]|]. split; [auto|]. split; [intros; right; auto|]. split; [|auto].
        intros k' [<-|K]; [|apply I2; exact K]. right. cbn [fst]. inv Sp. now split.
      + exists ((k, p) :: ps). split; [eapply Bag_cons; eauto; [now constructor|constructor]|]. split; [cbn; constructor; auto|].
        split; [intros k' [<-|K]; [now left|right; auto]|]. split; [intros k' [<-|K]; [left; now left|]; destruct (I2 _ K); [left; now right|now right]|].
        intros k' p' [[= <- <-]|K]; auto.
  Qed.
End Data.

Lemma shows_keys c l props keys keys' val sec : (forall k, In k keys -> In k keys') ->
  (forall k, In k keys' -> In k keys \/ left_out (val k) (sec k)) -> shows c l props keys val sec -> shows c l props keys' val sec.
Proof.
  intros H1 H2 [R S]. split; [exact R|]. intros k K K1 K2. destruct (S k K K1 K2) as [S1 S2]. split.
  - intros key Kk I T L. apply S1; auto. destruct (H2 _ Kk); [auto|contradiction].
  - intros D. apply S2. intros key Kk T. apply D; auto.
Qed.
Lemma typed_keys c keys keys' val : (forall k, In k keys' -> In k keys) -> well_typed c keys val -> well_typed c keys' val.
Proof.
  intros H (T1 & T2 & T3). split; [auto|]. split; [intros x y Hx Hy; apply T2; auto|]. intros key K. apply T3; auto.
Qed.
