(** C96 *)
From Verif Require Import Base PyVal Model_Output Spec_Output Proof_Output Proof_FromInput Model_Rpc Spec_Rpc Proof_Ser Proof_Ser2 Proof_Ser3
  Proof_Round Proof_Deser Proof_Deser2 Proof_RpcTop Model_Register Model_Resource Model_Invoke Proof_Invoke Spec_Meaning Proof_Meaning Spec_Calls.
From Verif Require Model_Provider Proof_Provider.

(** Nothing that is still awaited comes out of deserialisation. *)
Fixpoint no_await (v : pyval) : bool :=
  match v with
  | VAwait _ => false
  | VList l => forallb no_await l
  | VDict d => forallb (fun kv => no_await (snd kv)) d
  | _ => true
  end.
Lemma no_await_unwrap v : no_await v = true -> no_await (unwrap_rpc_secret v) = true.
Proof.
  destruct v; auto. intros H. unfold unwrap_rpc_secret. destruct (is_rpc_secret _); [|exact H].
  destruct (dget d "value") eqn:E; [|exact H]. apply dget_In in E. cbn in H. rewrite forallb_forall in H. exact (H _ E).
Qed.
Lemma no_await_wrap v : no_await v = true -> no_await (wrap_rpc_secret v) = true.
Proof. intros H. unfold wrap_rpc_secret. destruct (is_rpc_secret v); [exact H|]. cbn. now rewrite H. Qed.
Lemma no_await_entries ku ki d : Forall (fun kv : string * (wire * deser_fn) => forall v, snd (snd kv) ku = Ok v -> no_await v = true) d ->
  forall vd, deser_entries ku ki d = Ok vd -> forallb (fun kv => no_await (snd kv)) vd = true.
Proof.
  induction 1 as [|[k [w f]] d H _ IH]; cbn; intros vd; [now intros [= <-]|].
  destruct (negb ki && is_internal k); [apply IH|]. destruct (f ku) as [v|] eqn:E; [|discriminate]. cbn.
  destruct (deser_entries ku ki d) as [vd'|]; [|discriminate]. cbn. intros [= <-]. destruct (is_none v); [auto|]. cbn. rewrite IH by reflexivity.
  rewrite (H v E). reflexivity.
Qed.
Lemma no_await_struct dc es ku ki : Forall (fun kv : string * (wire * deser_fn) => forall b v, snd (snd kv) b = Ok v -> no_await v = true) es ->
  forall v, deser_struct dc es ku ki = Ok v -> no_await v = true.
Proof.
  intros H v. unfold deser_struct.
  assert (G : forall k w f b x, dget es k = Some (w, f) -> f b = Ok x -> no_await x = true).
  { intros k w f b x K1 K2. apply dget_In in K1. rewrite Forall_forall in H. exact (H _ K1 b x K2). }
  assert (St : forall b w x, mk_string b w = Ok x -> (forall s, no_await (b s) = true) -> no_await x = true).
  { intros b w x K1 K2. destruct w; try discriminate. injection K1 as <-. apply K2. }
  assert (Pl : rbind (deser_entries ku ki es) (fun d => Ok (VDict d)) = Ok v -> no_await v = true).
  { destruct (deser_entries ku ki es) as [d|] eqn:E; [|discriminate]. cbn. intros [= <-]. cbn. eapply no_await_entries; [|exact E].
    eapply Forall_impl; [|exact H]. cbn. intros kv K x. apply K. }
  destruct (dget es sig_key) as [[w0 f0]|]; [|exact Pl]. destruct w0; try discriminate.
  destruct (String.eqb _ asset_sig).
  { destruct (dget es "path") as [[w1 f1]|]; [intros K; eapply St; eauto|]. destruct (dget es "text") as [[w1 f1]|]; [intros K; eapply St; eauto|].
    destruct (dget es "uri") as [[w1 f1]|]; [intros K; eapply St; eauto|discriminate]. }
  destruct (String.eqb _ archive_sig).
  { destruct (dget es "assets") as [[w1 f1]|].
    - destruct (f1 false) as [y|]; [|discriminate]. cbn. unfold mk_asset_archive. destruct y; try discriminate. destruct (forallb _ d); [|discriminate]. now intros [= <-].
    - destruct (dget es "path") as [[w1 f1]|]; [intros K; eapply St; eauto|]. destruct (dget es "uri") as [[w1 f1]|]; [intros K; eapply St; eauto|discriminate]. }
  destruct (String.eqb _ secret_sig).
  { destruct (dget es "value") as [[w1 f1]|] eqn:E1; [|discriminate]. destruct (f1 false) as [y|] eqn:E2; [|discriminate]. cbn. intros [= <-].
    apply no_await_wrap. eauto. }
  destruct (String.eqb _ resource_sig).
  { unfold deser_resource. destruct (dget es "urn") as [[w1 f1]|]; [|discriminate]. destruct w1; try discriminate.
    destruct (match dget es "packageVersion" with None => _ | _ => _ end) as [ver|]; [|discriminate]. cbn.
    destruct (d_find dc s0 ver) as [[[[c0 n0] t0]|]|]; try discriminate; cbn; [now intros [= <-]|].
    destruct (dget es "id") as [[w2 f2]|] eqn:E2; [|now intros [= <-]].
    destruct w2 as [| | |s2| |]; try (intros K; eapply G; eauto; fail). destruct s2; [|intros K; eapply G; eauto].
    destruct (d_dry dc || ku); now intros [= <-]. }
  destruct (String.eqb _ output_sig); [|discriminate].
  unfold deser_output_value. repeat match goal with |- context [rbind ?m _] => destruct m; cbn [rbind]; [|discriminate] end. now intros [= <-].
Qed.
Lemma deser_no_await dc w : forall ku v, deser dc w ku = Ok v -> no_await v = true.
Proof.
  induction w using wire_ind'; intros ku v; cbn [deser]; try (now intros [= <-]).
  - intros [= <-]. destruct (String.eqb s UNKNOWN); [|reflexivity]. destruct (d_dry dc || ku); reflexivity.
  - destruct (rmap _ l) as [vs|] eqn:E; [|discriminate]. cbn. intros [= <-].
    assert (F : forallb no_await vs = true).
    { revert vs E. induction H as [|x l Hx _ IH]; cbn; intros vs; [now intros [= <-]|]. destruct (deser dc x ku) as [y|] eqn:Ey; [|discriminate]. cbn.
      fold (rmap (fun x => deser dc x ku) l). destruct (rmap _ l) as [ys|]; [|discriminate]. cbn. intros [= <-]. cbn. rewrite (Hx ku y Ey). now apply IH. }
    unfold bubble_list. destruct (existsb is_rpc_secret vs); [|exact F]. apply no_await_wrap. cbn. rewrite forallb_forall in *.
    intros x Hx. apply in_map_iff in Hx as (y & <- & Hy). now apply no_await_unwrap, F.
  - destruct (deser_struct _ _ _ _) as [p|] eqn:E; [|discriminate]. cbn. intros [= <-].
    assert (F : no_await p = true).
    { eapply no_await_struct; [|exact E]. apply Forall_forall. intros kv K. apply in_map_iff in K as ([k x] & <- & K). cbn.
      rewrite Forall_forall in H. exact (H _ K). }
    destruct p; auto. cbn. destruct (existsb _ d0); [|exact F]. apply no_await_wrap. cbn in *. rewrite forallb_forall in *.
    intros x Hx. apply in_map_iff in Hx as (y & <- & Hy). now apply no_await_unwrap, F.
Qed.

(** Values without Outputs. *)
Lemma plain_meaning ov :
  (forall v x s, means ov v x s -> no_await v = true -> Model_Provider.contains_outputs v = false -> s = false /\ contains_unknowns v = contains_unknowns x) /\
  (forall l xs s, means_list ov l xs s -> forallb no_await l = true -> existsb Model_Provider.contains_outputs l = false ->
     s = false /\ existsb contains_unknowns l = existsb contains_unknowns xs) /\
  (forall d xs s, means_dict ov d xs s -> forallb (fun kv => no_await (snd kv)) d = true -> existsb (fun kv => Model_Provider.contains_outputs (snd kv)) d = false ->
     s = false /\ existsb (fun kv => contains_unknowns (snd kv)) d = existsb (fun kv => contains_unknowns (snd kv)) xs).
Proof.
  apply (means_all ov
    (fun v x s _ => no_await v = true -> Model_Provider.contains_outputs v = false -> s = false /\ contains_unknowns v = contains_unknowns x)
    (fun l xs s _ => forallb no_await l = true -> existsb Model_Provider.contains_outputs l = false -> s = false /\ existsb contains_unknowns l = existsb contains_unknowns xs)
    (fun d xs s _ => forallb (fun kv => no_await (snd kv)) d = true -> existsb (fun kv => Model_Provider.contains_outputs (snd kv)) d = false ->
       s = false /\ existsb (fun kv => contains_unknowns (snd kv)) d = existsb (fun kv => contains_unknowns (snd kv)) xs));
    try (cbn; intros; now try split); try (cbn; intros; discriminate).
  - intros l xs s _ IH. exact IH.
  - intros d xs s _ _ IH. exact IH.
  - cbn. intros v x s l xs s' _ IH _ IHl Ha Ho. apply andb_true_iff in Ha as [A1 A2]. apply orb_false_iff in Ho as [O1 O2].
    destruct (IH A1 O1) as [-> E1]. destruct (IHl A2 O2) as [-> E2]. rewrite E1, E2. auto.
  - cbn. intros k v d xs s _ IH _ IHl Ha Ho. apply andb_true_iff in Ha as [A1 A2]. apply orb_false_iff in Ho as [O1 O2].
    destruct (IH A1 O1) as [_ E1]. destruct (IHl A2 O2) as [-> E2]. rewrite E1, E2. auto.
  - cbn. intros k v x s d xs s' _ IH _ _ IHl Ha Ho. apply andb_true_iff in Ha as [A1 A2]. apply orb_false_iff in Ho as [O1 O2].
    destruct (IH A1 O1) as [-> E1]. destruct (IHl A2 O2) as [-> E2]. rewrite E1, E2. auto.
Qed.

(** What the provider makes of an argument that arrived. *)
Lemma selected P ov x s v deps : (forall y, exists u, Model_Provider.pv_urn P y = Done u) ->
  (exists v0, means ov v0 x s) -> holds ov x s v -> no_await v = true ->
  exists a, Model_Provider.select_value P v deps = Done a /\ delivered x s a.
Proof.
  intros Hu (v0 & M0) H Na. pose proof (meaning_not_secret _ _ _ _ M0) as Nx.
  assert (Wrap : forall y b, VO (new_output (Done (map RDep deps)) (Done y) (Done true) (Done b)) =
    VOut (Done (map RDep deps)) (Done y) (Done (negb (contains_unknowns y))) (Done b)) by reflexivity.
  assert (Wr : forall b, b = s -> delivered x s (VO (new_output (Done (map RDep deps)) (Done x) (Done true) (Done b)))).
  { intros b ->. rewrite Wrap. destruct (contains_unknowns x) eqn:Ec; cbn [negb].
    - apply Dl_unknown. now apply contains_within.
    - apply Dl_output. rewrite <- contains_within. congruence. }
  assert (Dir : forall m : fut bool, (exists b, m = Done b) -> (forall b : bool, exists a, (if b then Done v else Done (VO (new_output (Done (map RDep deps)) (Done (unwrap_rpc_secret v)) (Done true) (Done (is_rpc_secret v))))) = Done a /\ delivered x s a) ->
    exists a, (let* direct := m in if direct : bool then Done v else Done (VO (new_output (Done (map RDep deps)) (Done (unwrap_rpc_secret v)) (Done true) (Done (is_rpc_secret v))))) = Done a /\ delivered x s a).
  { intros m (b & ->) K. cbn. apply K. }
  unfold Model_Provider.select_value. unfold holds in H. destruct ov.
  - (* Outputs as Outputs *)
    pose proof (value_not_secret _ _ _ _ H) as Nv. rewrite Nv in *.
    assert (Uw : unwrap_rpc_secret v = v) by (unfold unwrap_rpc_secret; destruct v; try reflexivity; now rewrite Nv).
    destruct deps as [|u us]; [exists v; split; [reflexivity|now apply Dl_same]|].
    destruct (Model_Provider.contains_outputs v) eqn:Eo; [exists v; split; [reflexivity|now apply Dl_same]|].
    apply Dir.
    { unfold Model_Provider.is_resource_reference. destruct (Model_Provider.is_resource v); [|eauto]. destruct us; [|eauto]. destruct (Hu v) as [u0 ->]. cbn. eauto. }
    intros [|]; eexists; (split; [reflexivity|]); [now apply Dl_same|]. rewrite Uw, Wrap.
    destruct (proj1 (plain_meaning true) _ _ _ H Na Eo) as [-> Ec]. destruct (contains_unknowns v) eqn:Ev; cbn [negb].
    + apply Dl_unknown. apply contains_within. congruence.
    + apply Dl_same. change false with (false || false). apply Me_out; [rewrite <- contains_within; congruence|exact H|].
      intros _. split; [reflexivity|]. rewrite <- contains_within. congruence.
  - destruct s.
    + unfold marked_secret in H. subst v. change (is_rpc_secret (VDict [(sig_key, VStr secret_sig); ("value", x)])) with true. cbv iota. cbn [fbind].
      change (unwrap_rpc_secret (VDict [(sig_key, VStr secret_sig); ("value", x)])) with x. eexists. split; [reflexivity|now apply Wr].
    + subst v. rewrite Nx in *. pose proof (proj1 (means_itself false true) _ _ _ M0 eq_refl) as Mx.
      assert (Uw : unwrap_rpc_secret x = x) by (unfold unwrap_rpc_secret; destruct x; try reflexivity; now rewrite Nx).
      apply Dir.
      { destruct deps as [|u us]; [eauto|]. destruct (Model_Provider.contains_outputs x); [eauto|].
        unfold Model_Provider.is_resource_reference. destruct (Model_Provider.is_resource x); [|eauto]. destruct us; [|eauto]. destruct (Hu x) as [u0 ->]. cbn. eauto. }
      intros [|]; eexists; (split; [reflexivity|]); [now apply Dl_same|]. rewrite Uw. now apply Wr.
Qed.

Lemma selected_all P deps (data : string -> pyval) (secret : string -> bool) d :
  (forall k v l, In (k, v) d -> exists a, Model_Provider.select_value P v l = Done a /\ delivered (data k) (secret k) a) ->
  exists args, Model_Provider.select_all P deps d = Done args /\ dkeys args = dkeys d /\
    forall k a, dget args k = Some a -> delivered (data k) (secret k) a.
Proof.
  induction d as [|[k v] d IH]; intros H; cbn [Model_Provider.select_all].
  - exists []. repeat split. discriminate.
  - edestruct (H k v) as (a & -> & Da); [now left|]. cbn [fbind]. destruct IH as (args & -> & Ek & Hd); [intros; apply H; now right|].
    exists ((k, a) :: args). split; [reflexivity|]. split; [cbn; f_equal; exact Ek|]. intros k0 a0. cbn.
    destruct (String.eqb_spec k0 k) as [->|]; [now intros [= <-]|apply Hd].
Qed.

Lemma no_transform c : c_transform c = None -> forall k, transform c k = k.
Proof. intros H k. unfold transform. now rewrite H. Qed.

Lemma deserialized_no_await dc st ku ki d : deserialize_properties dc st ku ki = Ok (VDict d) -> forall k v, In (k, v) d -> no_await v = true.
Proof.
  intros H k v K. unfold deserialize_properties in H.
  assert (G : no_await (VDict d) = true).
  { eapply no_await_struct; [|exact H]. apply Forall_forall. intros kv Hk. apply in_map_iff in Hk as ([k0 x] & <- & Hk). cbn. intros b y. apply deser_no_await. }
  cbn in G. rewrite forallb_forall in G. exact (G _ K).
Qed.

(** A null that is not secret is sent as a null. *)
Lemma null_sent c ov v x s : means ov v x s -> x = VNone -> s = false ->
  forall t keep, norm_ty t = None -> keep && c_outvals c = false -> exists ds, ser c v t keep = Done (WNull, ds).
Proof.
  induction 1; intros Hx Hs t keep Ht Hk; try discriminate; subst.
  - eexists; reflexivity.
  - destruct H.
  - destruct (IHmeans eq_refl eq_refl None keep eq_refl Hk) as (ds & E). exists ds. cbn [ser]. now rewrite Ht.
  - apply orb_false_iff in Hs as [-> ->].
    destruct (IHmeans eq_refl eq_refl None false eq_refl eq_refl) as (ds & E). cbn [ser fbind]. rewrite (all_known _ H), Ht, E. cbn [fbind negb]. rewrite Hk.
    cbn. rewrite ?andb_false_r. eexists. reflexivity.
Qed.

Section Call.
  Variable E : ienv.
  Variable P : Model_Provider.penv.
  Hypothesis Ht : c_transform (e_cfg E) = None.
  Hypothesis Hs : c_secrets (e_cfg E) = true.
  Hypothesis Ht' : c_transform (Model_Provider.pv_cfg P) = None.
  Hypothesis Hs' : c_secrets (Model_Provider.pv_cfg P) = true.

  Lemma arguments (props : dict pyval) (data : string -> pyval) (secret : string -> bool) deps :
    (c_outvals (e_cfg E) = true -> urns_ready (e_cfg E)) ->
    (forall x, exists u, Model_Provider.pv_urn P x = Done u) ->
    wf_dict props -> ~ In sig_key (dkeys props) ->
    (forall k v, In (k, v) props -> means (c_outvals (e_cfg E)) v (data k) (secret k) /\ (d_dry (Model_Provider.pv_dc P) = true \/ ~ within VUnknown (data k))) ->
    exists st pd, serialize_properties (e_cfg E) None true props = Done (st, pd) /\
    exists args, Model_Provider.component_inputs P true st (deps pd) = Done args /\
      (forall k, In k (dkeys args) -> In k (dkeys props)) /\ wf_dict args /\
      forall k v, In (k, v) props -> match dget args k with Some a => delivered (data k) (secret k) a | None => left_out (data k) (secret k) end.
  Proof.
    intros Hr Hu W S H.
    destruct (bag_through (e_cfg E) (Model_Provider.pv_dc P) (no_transform _ Ht) Hs true (c_outvals (e_cfg E)) true true props data secret eq_refl Hr W S)
      as (st & pd & d' & E1 & D1 & D2 & D3 & D4).
    { intros k v K. destruct (H k v K) as [M V]. split; [exact M|]. split; [|now left]. destruct V as [V|V]; [now left|right; now apply all_known]. }
    exists st, pd. split; [exact E1|]. unfold Model_Provider.component_inputs. rewrite D1. cbn [of_res fbind].
    destruct (selected_all P (deps pd) data secret d') as (args & A1 & A2 & A3).
    { intros k v l K. assert (Hk : In k (map fst props)) by (apply D2; exact (in_map fst _ _ K)). apply in_map_iff in Hk as ([k0 v0] & <- & Hk).
      cbn [fst] in *. destruct (H k0 v0 Hk) as [M _]. specialize (D4 k0 v0 Hk). rewrite (In_dget _ _ _ D3 K) in D4.
      eapply selected; eauto. eapply deserialized_no_await; eauto. }
    exists args. rewrite A1. split; [reflexivity|]. rewrite A2. split; [exact D2|]. split; [unfold wf_dict; now rewrite A2|].
    intros k v K. specialize (D4 k v K). destruct (dget args k) as [a|] eqn:Ea; [eauto|].
    apply dget_None in Ea. rewrite A2 in Ea. apply dget_None in Ea. rewrite Ea in D4. exact D4.
  Qed.

  Lemma results (us : rsrc -> string) (outputs : dict pyval) (data : string -> pyval) (secret : string -> bool) failures tok :
    (forall r, Model_Rpc.r_urn (c_res (Model_Provider.pv_cfg P) r) = Done (Some (us r))) ->
    (forall cls, class_ok (c_class (Model_Provider.pv_cfg P) cls)) ->
    sendable_keys outputs ->
    (forall k v, In (k, v) outputs -> means false v (data k) (secret k) /\ (d_dry (e_dc E) = true \/ ~ within VUnknown (data k))) ->
    exists r, Model_Provider.call_reply P outputs failures = Done r /\
      Model_Provider.pr_failures r = match failures with Some l => l | None => [] end /\
      (Model_Provider.pr_failures r = [] ->
       returned P outputs data secret
        (match call_answer E tok None (AResp (mkCallResponse (map (fun f => (snd f, fst f)) (Model_Provider.pr_failures r)) (Model_Provider.pr_return r) (Model_Provider.pr_deps r))) with
         | Err e => failed_output e
         | Ok (v, known, secret, deps) => mkCallOutput (Done deps) (Done v) (Done known) (Done secret)
         end)).
  Proof.
    intros Hu Hc (W & S & I) H.
    assert (H' : forall k v, In (k, v) outputs -> means false v (data k) (secret k) /\ visible (e_dc E) (data k) /\ (false = true \/ internal_key k = false)).
    { intros k v K. destruct (H k v K) as [M V]. split; [exact M|]. split; [|right; apply I; exact (in_map fst _ _ K)].
      destruct V as [V|V]; [now left|right; now apply all_known]. }
    destruct (bag_through (Model_Provider.pv_cfg P) (e_dc E) (no_transform _ Ht') Hs' false false false false outputs data secret eq_refl) as (st & pd & d' & E1 & D1 & D2 & D3 & D4); auto; [discriminate|].
    destruct (Proof_Provider.call_reply_done P outputs failures us st pd E1 Hu) as [r Er]. exists r. split; [exact Er|].
    destruct (Proof_Provider.call_reply_spec P outputs failures r Hc (no_transform _ Ht') W Er) as (R1 & R2 & R3 & R4 & R5). split; [exact R5|].
    intros Fn. rewrite Fn. cbn [map].
    assert (Est : Model_Provider.pr_return r = st).
    { unfold Model_Provider.call_reply in Er. rewrite E1 in Er. cbn [fbind fst snd] in Er. destruct (Model_Provider.urn_deps P pd); try discriminate.
      cbn [fbind] in Er. injection Er as <-. reflexivity. }
    rewrite Est in *.
    (* an entry is sent iff it is not left out *)
    assert (Sent : forall k v, In (k, v) outputs -> (dget st k = None <-> left_out (data k) (secret k))).
    { intros k v K. destruct (H' k v K) as (M & V & _). destruct (R2 k v (In_dget _ _ _ W K)) as (w & ds & Ew & Ek).
      destruct (one (Model_Provider.pv_cfg P) (e_dc E) (no_transform _ Ht') Hs' false false v _ _ None eq_refl eq_refl ltac:(discriminate) M V) as (w' & ds' & Ew' & Dw).
      rewrite Ew in Ew'. injection Ew' as <- <-. destruct (Dw false) as (v' & V1 & V2 & V3). split.
      - intros G. rewrite G in Ek. destruct w; try discriminate. cbn in V1. injection V1 as <-. now apply V3.
      - intros [L1 L2]. destruct (null_sent (Model_Provider.pv_cfg P) false v _ _ M L1 L2 None false eq_refl eq_refl) as (ds0 & En). rewrite Ew in En. injection En as -> _. exact Ek. }
    assert (Kst : forall k, In k (dkeys d') -> In k (dkeys st)).
    { intros k K. destruct (in_dec string_dec k (dkeys st)) as [Hi|Hn]; [exact Hi|]. exfalso.
      pose proof (proj2 (dget_None _ _) Hn) as G. unfold deserialize_properties in D1. fold (dfn (e_dc E) st) in D1.
      rewrite deser_plain_struct in D1 by (apply dget_None; intros K'; apply S; auto).
      destruct (deser_entries false false (dfn (e_dc E) st)) as [d2|] eqn:Ed; [|discriminate]. injection D1 as ->.
      apply (deser_entries_inv _ _ _ _ _ Ed) in K. contradiction. }
    assert (Got : forall k v, In (k, v) outputs -> (~ left_out (data k) (secret k) -> exists v', dget d' k = Some v') /\
      forall v', dget d' k = Some v' -> ~ left_out (data k) (secret k) /\ is_rpc_secret v' = secret k /\ unwrap_rpc_secret v' = data k /\
        contains_unknowns v' = contains_unknowns (data k)).
    { intros k v K. specialize (D4 k v K). split; [intros N; destruct (dget d' k); [eauto|contradiction]|].
      intros v' G. split; [intros L; apply (Sent k v K) in L; apply dget_None in L; apply L, Kst; eapply dget_key; eauto|].
      rewrite G in D4. destruct (H k v K) as [M _]. pose proof (meaning_not_secret _ _ _ _ M) as N. unfold holds in D4. destruct (secret k).
      - rewrite D4. repeat split. cbn. now rewrite orb_false_r.
      - subst v'. split; [exact N|]. split; [|reflexivity]. unfold unwrap_rpc_secret. destruct (data k); try reflexivity. now rewrite N. }
    assert (Of : forall k v', In (k, v') d' -> exists v, In (k, v) outputs /\ dget d' k = Some v').
    { intros k v' K. assert (Hk : In k (map fst outputs)) by (apply D2; exact (in_map fst _ _ K)). apply in_map_iff in Hk as ([k0 v0] & <- & Hk).
      exists v0. split; [exact Hk|]. now apply In_dget. }
    assert (Sec : existsb (fun kv => is_rpc_secret (snd kv)) d' = true <-> exists k v, In (k, v) outputs /\ secret k = true).
    { rewrite existsb_exists. split.
      - intros ([k v'] & K & Q). cbn in Q. destruct (Of k v' K) as (v & Kv & G). exists k, v. split; [exact Kv|].
        destruct (proj2 (Got k v Kv) v' G) as (_ & <- & _). exact Q.
      - intros (k & v & K & Q). destruct (proj1 (Got k v K)) as (v' & G); [intros [_ L]; congruence|].
        exists (k, v'). split; [now apply dget_In|]. cbn. destruct (proj2 (Got k v K) v' G) as (_ & -> & _). exact Q. }
    assert (Kn : negb (contains_unknowns (VDict d')) = true <-> forall k v, In (k, v) outputs -> ~ within VUnknown (data k)).
    { rewrite negb_true_iff. split.
      - intros Q k v K U. destruct (proj1 (Got k v K)) as (v' & G); [intros [L _]; rewrite L in U; inversion U|].
        destruct (proj2 (Got k v K) v' G) as (_ & _ & _ & Cv). apply holds_unknown in U. rewrite U in Cv.
        enough (contains_unknowns (VDict d') = true) by congruence. cbn. apply existsb_exists. exists (k, v'). split; [now apply dget_In|exact Cv].
      - intros Q. apply not_true_is_false. intros U. cbn in U. apply existsb_exists in U as ([k v'] & K & U). cbn in U.
        destruct (Of k v' K) as (v & Kv & G). destruct (proj2 (Got k v Kv) v' G) as (_ & _ & _ & Cv). rewrite U in Cv. symmetry in Cv.
        apply contains_within in Cv. exact (Q k v Kv Cv). }
    assert (Dp : forall x, In x (map RDep (flat_map snd (Model_Provider.pr_deps r))) <-> exists u k v r0, x = RDep u /\ In (k, v) outputs /\ ~ left_out (data k) (secret k) /\
       mentions (Model_Provider.pv_cfg P) r0 v /\ Model_Rpc.r_urn (c_res (Model_Provider.pv_cfg P) r0) = Done (Some u)).
    { assert (Wst : wf_dict (Model_Provider.pr_deps r)).
      { unfold wf_dict. rewrite R3. destruct (serialize_properties_spec _ _ _ _ _ _ E1) as (Q & _). exact Q. }
      intros x. rewrite in_map_iff. split.
      - intros (u & <- & K). apply in_flat_map in K as ([k ul] & K & Ku). cbn in Ku.
        assert (Kk : In k (dkeys st)) by (rewrite <- R3; exact (in_map fst _ _ K)). pose proof (R1 k Kk) as Ko. apply in_map_iff in Ko as ([k0 v] & <- & Ko). cbn [fst] in *.
        destruct (proj1 (R4 k0 v ul (In_dget _ _ _ W Ko) (In_dget _ _ _ Wst K) u) Ku) as (r0 & M1 & M2).
        exists u, k0, v, r0. split; [reflexivity|]. split; [exact Ko|]. split; [|auto]. rewrite <- (Sent k0 v Ko). intros L. apply dget_None in L. contradiction.
      - intros (u & k & v & r0 & -> & K & L & M1 & M2). exists u. split; [reflexivity|].
        rewrite <- (Sent k v K) in L.
        destruct (dget (Model_Provider.pr_deps r) k) as [ul|] eqn:G.
        + apply in_flat_map. exists (k, ul). split; [now apply dget_In|]. cbn. apply (R4 k v ul (In_dget _ _ _ W K) G). eauto.
        + exfalso. apply L. apply dget_None. rewrite <- R3. now apply dget_None. }
    unfold call_answer. cbn [do_call rbind lr_failures lr_return lr_deps]. unfold call_result. cbn [lr_return lr_deps].
    destruct st as [|e st'].
    - cbn in R3. destruct (Model_Provider.pr_deps r); [|discriminate]. cbn in D1. injection D1 as <-.
      exists INone, true, false, []. split; [reflexivity|]. split; [exact Sec|]. split; [exact Kn|]. split; [exact Dp|].
      left. split; [reflexivity|]. intros k v K. now apply (Sent k v K).
    - rewrite D1. cbn [rbind]. destruct (negb (contains_unknowns (VDict d'))).
      + do 4 eexists. split; [reflexivity|]. split; [exact Sec|]. split; [exact Kn|]. split; [exact Dp|].
        right. exists (unwrap_top d'). split; [reflexivity|].
        assert (Gu : forall k x, dget (unwrap_top d') k = Some x <-> (exists v, In (k, v) outputs) /\ x = data k /\ ~ left_out (data k) (secret k)).
        { intros k x. rewrite unwrap_top_get. split.
          - destruct (dget d' k) as [v'|] eqn:G; [|discriminate]. cbn. intros [= <-]. destruct (Of k v' (dget_In _ _ _ G)) as (v & K & _).
            destruct (proj2 (Got k v K) v' G) as (G1 & _ & G3 & _). split; [eauto|]. split; [|exact G1].
            destruct (is_rpc_secret v') eqn:Q; [exact G3|]. unfold unwrap_rpc_secret in G3. destruct v'; try exact G3. now rewrite Q in G3.
          - intros ((v & K) & -> & L). destruct (proj1 (Got k v K) L) as (v' & G). rewrite G. cbn. f_equal.
            destruct (proj2 (Got k v K) v' G) as (_ & _ & G3 & _).
            destruct (is_rpc_secret v') eqn:Q; [exact G3|]. unfold unwrap_rpc_secret in G3. destruct v'; try exact G3. now rewrite Q in G3. }
        split; [|split; [|exact Gu]].
        * intros Q. destruct e as [k w]. assert (Kk : In k (dkeys ((k, w) :: st'))) by now left. pose proof (R1 k Kk) as Ko. apply in_map_iff in Ko as ([k0 v] & <- & Ko). cbn [fst] in *.
          assert (L : ~ left_out (data k0) (secret k0)) by (rewrite <- (Sent k0 v Ko); intros L; apply dget_None in L; contradiction).
          assert (G : dget (unwrap_top d') k0 = Some (data k0)) by (apply Gu; eauto). rewrite Q in G. discriminate.
        * unfold wf_dict, dkeys, unwrap_top. rewrite map_map. exact D3.
      + do 4 eexists. split; [reflexivity|]. split; [exact Sec|]. split; [exact Kn|]. split; [exact Dp|]. reflexivity.
  Qed.
End Call.
