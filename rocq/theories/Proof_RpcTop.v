(** The C10-C23 lemmas in the form of the property statements. *)
From Verif Require Import Base PyVal Model_Output Spec_Output Proof_Output Proof_FromInput Model_Urn Model_Rpc Spec_Rpc
  Proof_Ser Proof_Ser2 Proof_Ser3 Proof_Round Proof_Deser Proof_Deser2 Proof_Secret.

Lemma is_secret_iff v : is_rpc_secret v = true <-> is_secret v.
Proof.
  unfold is_secret, is_rpc_secret. split.
  - destruct v; try discriminate. destruct (dget d sig_key) as [[]|] eqn:E; try discriminate. intros H. apply String.eqb_eq in H. subst. eauto.
  - intros (d & -> & ->). apply String.eqb_refl.
Qed.
Lemma plain_list l : plain (VList l) <-> Forall plain l.
Proof.
  split.
  - intros H. induction l; constructor; destruct H; auto.
  - intros H. induction H; simpl; auto.
Qed.
Lemma plain_dict d : plain (VDict d) <-> good_keys d /\ Forall (fun kv => plain (snd kv)) d.
Proof.
  unfold good_keys. split.
  - intros (H1 & H2 & H3 & H). repeat split; auto. clear H1 H2 H3. induction d; constructor; destruct H; auto.
  - intros ((H1 & H2 & H3) & H). simpl. repeat split; auto. clear H1 H2 H3. induction H; simpl; auto.
Qed.
Lemma plain_asset v : plain v -> asset_data v.
Proof.
  induction v using pyval_ind'; simpl; auto; try tauto.
  - intros Hp. apply (data_list l). apply (plain_list l) in Hp. rewrite Forall_forall in *. auto.
  - intros Hp. apply (data_dict d). apply (plain_dict d) in Hp as [Hg Hp]. split; auto. rewrite Forall_forall in *. auto.
Qed.

Lemma plain_round_trip c dc keep ku ki d :
  (forall k, transform c k = k) -> plain (VDict d) ->
  exists st pd, serialize_properties c None keep d = Done (st, pd) /\
    deserialize_properties dc st ku ki = Ok (drop_nulls (VDict d)).
Proof. intros H Hp. apply round_trip; auto. apply plain_asset; auto. Qed.

Lemma asset_round_trip c dc v t keep ku :
  (forall k, transform c k = k) -> norm_ty t = None -> asset_tree v ->
  exists w, ser c v t keep = Done (w, []) /\ deser dc w ku = Ok v.
Proof.
  intros Hid Ht Ha. exists (wire_of v). 
  assert (Hd : asset_data v) by now apply tree_data.
  split.
  - destruct t as [t|]; [destruct t; try discriminate|].
    + pose proof (ser_data c Hid v Hd keep) as E. destruct v; simpl in *; try contradiction; auto.
    + now apply ser_data.
  - rewrite deser_data by auto. destruct v; simpl in Ha; try contradiction; reflexivity.
Qed.

(* ------------------------------------------------------------------ *)
Lemma top_values dc d keep ki v :
  top_message d -> deserialize_properties dc d keep ki = Ok v ->
  exists d', v = VDict d' /\ wf_dict d' /\
    (forall k y, dget d' k = Some y ->
      exists w, dget d k = Some w /\ (ki = true \/ is_internal k = false) /\ deser dc w keep = Ok y /\ y <> VNone) /\
    (forall k w, dget d k = Some w -> ki = true \/ is_internal k = false -> exists y, deser dc w keep = Ok y /\ (y <> VNone -> dget d' k = Some y)).
Proof.
  intros [Hs Hw] E. destruct (internal_keys dc d keep ki v Hs Hw E) as (d' & -> & Hwf & H).
  exists d'. split; auto. split; auto. split; [intros k y Hy; now apply H|].
  intros k w Hg Hi. unfold deserialize_properties in E. fold (dfn dc d) in E. rewrite deser_plain_struct in E by auto.
  destruct (deser_entries keep ki (dfn dc d)) as [d2|] eqn:Ee; [|discriminate]. cbn [rbind] in E. injection E as ->.
  pose proof (deser_entries_inv _ _ _ _ _ Ee) as (_ & B & _).
  destruct (B k w) as (y & Ey & _); [now apply dget_In|destruct Hi as [->| ->]; auto using andb_false_r|].
  exists y. split; auto. intros Hn. apply H. exists w. auto.
Qed.

Lemma marks_value dc w keep u : deser dc w keep = Ok u -> string_ids w ->
  exists x, (exposes_secret w -> marked_secret u x) /\ (~ exposes_secret w -> u = x) /\ 
    (is_rpc_secret u = true <-> exposes_secret w) /\ unmarked x /\ (without_sig output_sig w -> deeply_unmarked x).
Proof.
  intros E Hid. destruct (deser_marks dc w keep u E Hid) as (H1 & H2 & H3 & H4).
  exists (unwrap_rpc_secret u). destruct (is_rpc_secret u) eqn:Es.
  - pose proof (H2 eq_refl) as He. destruct (H1 He) as (x & Hx). unfold marked_secret in Hx. subst u.
    repeat split; auto; intros; tauto.
  - assert (Hn : ~ exposes_secret w).
    { intros K. pose proof (exposes_is_secret dc w keep u K E). congruence. }
    repeat split; auto; try tauto; try discriminate. intros _. rewrite unwrap_plain; auto.
Qed.

Lemma secrets_bubble dc d keep ki v :
  top_message d -> (forall k w, dget d k = Some w -> string_ids w) ->
  deserialize_properties dc d keep ki = Ok v ->
  exists d', v = VDict d' /\
    (forall k u, dget d' k = Some u -> exists w x, dget d k = Some w /\
       (exposes_secret w -> marked_secret u x) /\ (~ exposes_secret w -> u = x) /\
       (is_rpc_secret u = true <-> exposes_secret w) /\
       unmarked x /\ (without_sig output_sig w -> deeply_unmarked x)) /\
    (forall k w, dget d k = Some w -> ki = true \/ is_internal k = false -> exposes_secret w ->
       exists u, dget d' k = Some u /\ is_rpc_secret u = true).
Proof.
  intros Ht Hid E. destruct (top_values _ _ _ _ _ Ht E) as (d' & -> & Hw & HA & HB). exists d'. split; auto. split.
  - intros k u Hu. destruct (HA k u Hu) as (w & Hg & _ & Ey & _).
    destruct (marks_value dc w keep u Ey (Hid _ _ Hg)) as (x & H). exists w, x. split; auto.
  - intros k w Hg Hi He. destruct (HB k w Hg Hi) as (y & Ey & Hy). exists y.
    pose proof (exposes_is_secret dc w keep y He Ey). split; auto. apply Hy. intros ->. discriminate.
Qed.

Lemma keep_unknowns dc d keep ki v k x p :
  top_message d -> dget d k = Some x -> ki = true \/ is_internal k = false ->
  msg_at x p (WStr UNKNOWN) -> string_ids x ->
  d_dry dc = true \/ keep = true /\ without_sig secret_sig x ->
  deserialize_properties dc d keep ki = Ok v ->
  exists d' s u y, v = VDict d' /\ dget d' k = Some u /\ maybe_secret s u y /\ val_at y p VUnknown.
Proof.
  intros [Hs Hw] Hg Hi Hm Hid Hd E.
  destruct (unknown_positions_top dc d keep ki v k x p Hs Hg Hi Hm Hid Hd E) as (d' & u & -> & Hu & Hat).
  destruct (top_values dc d keep ki (VDict d') (conj Hs Hw) E) as (d2 & E2 & _ & HA & _). injection E2 as <-.
  destruct (HA k u Hu) as (w & Hw' & _ & Ey & _). rewrite Hg in Hw'. injection Hw' as <-.
  destruct (deser_marks dc x keep u Ey Hid) as (H1 & H2 & _).
  exists d', (is_rpc_secret u), u, (unwrap_rpc_secret u). split; auto. split; auto. split; auto.
  unfold maybe_secret. destruct (is_rpc_secret u) eqn:Es.
  - destruct (H1 (H2 eq_refl)) as (z & Hz). unfold marked_secret in *. subst u. reflexivity.
  - rewrite unwrap_plain; auto. split; auto. rewrite <- is_secret_iff. congruence.
Qed.

Lemma sentinel_uniform :
  (forall c rs x s t keep w ds, keep && c_outvals c = false ->
     ser c (VOut rs x (Done false) s) t keep = Done (w, ds) -> w = WStr UNKNOWN) /\
  (forall c t keep, ser c VUnknown t keep = Done (WStr UNKNOWN, [])) /\
  (forall dc keep, deser dc (WStr UNKNOWN) keep = Ok (if d_dry dc || keep then VUnknown else VNone)) /\
  (forall dc w keep v, deser dc w keep = Ok v -> ~ within_deep (VStr UNKNOWN) v) /\
  (forall dc d keep ki v, top_message d -> deserialize_properties dc d keep ki = Ok v -> ~ within_deep (VStr UNKNOWN) v).
Proof.
  split; [|split; [|split; [|split]]].
  - intros c rs x s t keep w ds Hk. simpl. destruct rs as [rs| |]; simpl; try discriminate.
    destruct s as [s| |]; simpl; try discriminate.
    destruct x as [x| |]; simpl; try discriminate.
    destruct (if contains_unknowns x then Done (WNull, []) else ser c x (norm_ty t) false) as [[w' ds']| |]; simpl; try discriminate.
    rewrite Hk. now intros [= <- _].
  - reflexivity.
  - reflexivity.
  - intros dc w keep v. apply no_sentinel.
  - intros dc d keep ki v Ht E. destruct (top_values _ _ _ _ _ Ht E) as (d' & -> & Hw & HA & _).
    apply clean_dict. intros k y Hy. apply In_dget in Hy; auto. destruct (HA k y Hy) as (w & _ & _ & Ey & _).
    eapply no_sentinel; eauto.
Qed.

(* ------------------------------------------------------------------ *)
(** C21 *)
Lemma translate_in fs f : class_named fs -> In f fs -> translate_declared fs (f_py f) = f_pulumi f.
Proof.
  intros [Hn He] Hf. unfold translate_declared, py_to_pulumi. rewrite dget_dupdate.
  2:{ unfold wf_dict, dkeys. rewrite map_map. exact Hn. }
  rewrite (In_dget _ (f_py f) (f_pulumi f)).
  - specialize (He f Hf). apply String.eqb_neq in He. now rewrite He.
  - unfold wf_dict, dkeys. rewrite map_map. exact Hn.
  - apply (in_map (fun f => (f_py f, f_pulumi f))). exact Hf.
Qed.
Lemma translate_out fs k : class_named fs -> (forall f, In f fs -> f_py f <> k) -> translate_declared fs k = k.
Proof.
  intros [Hn He] Hk. unfold translate_declared, py_to_pulumi. rewrite dget_dupdate.
  2:{ unfold wf_dict, dkeys. rewrite map_map. exact Hn. }
  destruct (dget (map (fun f => (f_py f, f_pulumi f)) fs) k) eqn:E; auto.
  apply dget_In in E. apply in_map_iff in E as (f & [= Hf _] & Hi). destruct (Hk f Hi Hf).
Qed.
Lemma sent_as_rule c t k k' :
  (forall cls, class_named (c_class c cls)) -> sent_as c t k k' -> key_rule c t k = k'.
Proof.
  intros Hc. induction 1; simpl in *; auto; try (unfold transform; rewrite H; reflexivity).
  - apply translate_in; auto.
  - apply translate_out; auto.
Qed.
Lemma sent_as_total c t k : (forall cls, class_named (c_class c cls)) ->
  match t with None | Some TyDictBare | Some (TyDict _) | Some (TyInput _) => True | _ => False end ->
  sent_as c t k (key_rule c t k).
Proof.
  intros Hc Ht.
  assert (H0 : sent_as c None k (transform c k)).
  { unfold transform. destruct (c_transform c) as [f|] eqn:E; [now apply S_translated|now apply S_untyped]. }
  destruct t as [[]|]; simpl in *; try contradiction; auto.
  - constructor.
  - now constructor.
  - destruct (in_dec String.string_dec k (map f_py (c_class c cls))) as [Hi|Hi].
    + apply in_map_iff in Hi as (f & <- & Hf). rewrite translate_in by auto. now constructor.
    + rewrite translate_out; auto. constructor.
      all: intros f Hf E; apply Hi; subst k; apply in_map; exact Hf.
Qed.

(** What [serialize_properties] and [serialize_property] send, name by name. *)
Lemma names_translated c :
  (forall cls, class_ok (c_class c cls)) -> (forall cls, class_named (c_class c cls)) ->
  (* top level *)
  (forall typ keep inputs st pd,
     let t := match typ with Some cls => Some (TyInput cls) | None => None end in
     serialize_properties c typ keep inputs = Done (st, pd) ->
     (forall k, In k (dkeys st) -> exists k0 v, In (k0, v) inputs /\ sent_as c t k0 k) /\
     dkeys pd = dkeys st /\
     (NoDup (map (fun kv => top_key c typ (fst kv)) inputs) ->
      forall k v k', In (k, v) inputs -> sent_as c t k k' ->
        exists w ds, ser c v (top_type c typ k) keep = Done (w, ds) /\
          (w <> WNull -> dget st k' = Some w /\ dget pd k' = Some ds))) /\
  (* a dict *)
  (forall d t keep w ds, ser c (VDict d) t keep = Done (w, ds) ->
     match norm_ty t with None | Some TyDictBare | Some (TyDict _) | Some (TyInput _) => True | _ => False end ->
     exists es, w = WStruct es /\
     (forall k, In k (dkeys es) -> exists k0, In k0 (dkeys d) /\ sent_as c (norm_ty t) k0 k) /\
     (NoDup (map (key_rule c (norm_ty t)) (dkeys d)) ->
      forall k x k', In (k, x) d -> sent_as c (norm_ty t) k k' ->
        exists t' w' ds', dget es k' = Some w' /\ ser c x t' keep = Done (w', ds') /\
          t' = match norm_ty t with
               | Some (TyInput cls) => dget (declared_types (c_class c cls)) k'
               | Some (TyDict e) => Some e
               | _ => None
               end)) /\
  (* an input-type object: declared names, whatever the translation function *)
  (forall cls fields t keep w ds, ser c (VInput cls fields) t keep = Done (w, ds) ->
     exists es, w = WStruct es /\
     (forall k, In k (dkeys es) -> exists f x, In f (c_class c cls) /\ k = f_pulumi f /\
        dget fields (f_py f) = Some x /\ is_none x = false) /\
     (forall f x, In f (c_class c cls) -> dget fields (f_py f) = Some x -> is_none x = false ->
        exists w' ds', dget es (f_pulumi f) = Some w' /\
          ser c x (dget (declared_types (c_class c cls)) (f_pulumi f)) keep = Done (w', ds'))).
Proof.
  intros Hok Hn. split; [|split].
  - intros typ keep inputs st pd t E.
    assert (Hkey : forall k, top_key c typ k = key_rule c t k) by (intros; unfold t; destruct typ; reflexivity).
    apply serialize_properties_spec in E as (Hw & Hk & Hin & Hs). split; [|split; auto].
    + intros k Hi. apply Hin in Hi as (k0 & v & Hi & ->). exists k0, v. split; auto.
      rewrite Hkey. apply sent_as_total; auto. unfold t. now destruct typ.
    + intros Hnd k v k' Hi Hs'. apply sent_as_rule in Hs'; auto. rewrite <- Hkey in Hs'. subst k'.
      destruct (Hs Hnd k v Hi) as (w & ds & E & H1 & H2). exists w, ds. split; auto.
      intros Hne. destruct w; try congruence; auto.
  - intros d t keep w ds E Ht. apply ser_dict_keys in E as (es & -> & Hw & Hk & Hv). exists es. split; auto. split.
    + intros k Hi. apply Hk in Hi as (k0 & Hi & ->). exists k0. split; auto. now apply sent_as_total.
    + intros Hnd k x k' Hi Hs. apply sent_as_rule in Hs; auto. subst k'.
      destruct (Hv Hnd) as (_ & Hv'). destruct (Hv' k x Hi) as (w' & ds' & Hd & Es).
      eexists _, w', ds'. split; eauto. split; eauto.
      unfold value_rule. destruct (norm_ty t) as [[]|]; auto.
  - intros cls fields t keep w ds E. apply ser_input_keys in E; auto.
    destruct E as (es & -> & _ & H1 & H2). exists es. auto.
Qed.

Lemma norm_norm t : norm_ty (norm_ty t) = norm_ty t.
Proof. destruct t as [[]|]; reflexivity. Qed.
Lemma ser_norm c v t keep : ser c v (norm_ty t) keep = ser c v t keep.
Proof. destruct v; cbn [ser]; rewrite ?norm_norm; reflexivity. Qed.
Lemma ser_any c v keep : ser c v (Some TyAny) keep = ser c v None keep.
Proof. exact (eq_sym (ser_norm c v (Some TyAny) keep)). Qed.

Lemma class_declared_named fs : class_declared fs -> class_named fs.
Proof. intros (H & _ & N). split; auto. Qed.
Lemma NoDup_map_inj {A B} (f : A -> B) l x y : NoDup (map f l) -> In x l -> In y l -> f x = f y -> x = y.
Proof.
  induction l as [|a l IH]; simpl; [easy|]. intros N. inv N. intros [->|Hx] [->|Hy] E; auto.
  - exfalso. apply H1. rewrite E. now apply in_map.
  - exfalso. apply H1. rewrite <- E. now apply in_map.
Qed.
Lemma class_declared_ok fs : class_declared fs -> class_ok fs.
Proof. intros (_ & H & _) f g Hf Hg E. now rewrite (NoDup_map_inj f_pulumi fs f g). Qed.

Lemma declared_types_gen fs : forall acc,
  let d := fold_left (fun acc f => match f_ty f with Some t => dset acc (f_pulumi f) t | None => acc end) fs acc in
  (forall k, ~ In k (map f_pulumi fs) -> dget d k = dget acc k) /\
  (NoDup (map f_pulumi fs) -> forall f, In f fs -> dget d (f_pulumi f) = match f_ty f with Some t => Some t | None => dget acc (f_pulumi f) end).
Proof.
  induction fs as [|g fs IH]; intros acc; simpl; [split; [auto|easy]|].
  destruct (IH (match f_ty g with Some t => dset acc (f_pulumi g) t | None => acc end)) as [IH1 IH2].
  split.
  - intros k Hk. rewrite IH1 by tauto. destruct (f_ty g); auto. rewrite dget_dset.
    destruct (String.eqb_spec k (f_pulumi g)); auto. subst. tauto.
  - intros N. inv N. intros f [->|Hf].
    + rewrite IH1 by auto. destruct (f_ty f); auto. now rewrite dget_dset, String.eqb_refl.
    + rewrite IH2 by auto. destruct (f_ty f); auto. destruct (f_ty g); auto. rewrite dget_dset.
      destruct (String.eqb_spec (f_pulumi f) (f_pulumi g)) as [E|]; auto.
      exfalso. apply H1. rewrite <- E. now apply in_map.
Qed.
Lemma declared_in fs f : class_declared fs -> In f fs -> dget (declared_types fs) (f_pulumi f) = f_ty f.
Proof.
  intros (_ & N & _) Hf. unfold declared_types. destruct (declared_types_gen fs []) as [_ H].
  rewrite (H N f Hf). now destruct (f_ty f).
Qed.
Lemma declared_out fs k : (forall f, In f fs -> f_pulumi f <> k) -> dget (declared_types fs) k = None.
Proof.
  intros H. unfold declared_types. destruct (declared_types_gen fs []) as [E _]. rewrite E; auto.
  intros Hi. apply in_map_iff in Hi as (f & Hk & Hf). exact (H f Hf Hk).
Qed.


(** The same, by names. *)
Lemma untyped_norm t : untyped t <-> norm_ty t = None.
Proof. split; [intros [->| ->]; reflexivity|]. unfold untyped. destruct t as [[]|]; auto; discriminate. Qed.
Lemma top_key_rule c typ k : top_key c typ k = key_rule c (bag_type typ) k.
Proof. destruct typ; reflexivity. Qed.
Lemma bag_map typ : match bag_type typ with None | Some TyDictBare | Some (TyDict _) | Some (TyInput _) => True | _ => False end.
Proof. destruct typ; exact I. Qed.
Lemma distinct_rule c t l : (forall cls, class_named (c_class c cls)) ->
  match t with None | Some TyDictBare | Some (TyDict _) | Some (TyInput _) => True | _ => False end ->
  distinct_names c t l -> NoDup (map (key_rule c t) l).
Proof.
  intros Hc Ht [N D]. induction N as [|k l Hk N IH]; [constructor|]. cbn [map]. constructor.
  - intros K. apply in_map_iff in K as (k2 & E & K). apply Hk.
    rewrite (D k k2 (key_rule c t k)); [exact K|now left|now right|now apply sent_as_total|rewrite <- E; now apply sent_as_total].
  - apply IH. intros k1 k2 k' H1 H2. apply D; now right.
Qed.
Lemma distinct_top c typ (inputs : list (string * pyval)) : (forall cls, class_named (c_class c cls)) ->
  distinct_names c (bag_type typ) (map fst inputs) -> NoDup (map (fun kv => top_key c typ (fst kv)) inputs).
Proof.
  intros Hc H. apply (distinct_rule c _ _ Hc (bag_map typ)) in H. rewrite map_map in H.
  erewrite map_ext; [exact H|]. intros kv. apply top_key_rule.
Qed.
Lemma sent_top c typ k k' : (forall cls, class_named (c_class c cls)) -> sent_as c (bag_type typ) k k' -> top_key c typ k = k'.
Proof. intros Hc H. rewrite top_key_rule. now apply sent_as_rule. Qed.
Lemma top_sent c typ k : (forall cls, class_named (c_class c cls)) -> sent_as c (bag_type typ) k (top_key c typ k).
Proof. intros Hc. rewrite top_key_rule. apply sent_as_total; [exact Hc|apply bag_map]. Qed.
Lemma declared_entry c cls k : class_declared (c_class c cls) -> entry_type c (Some (TyInput cls)) k (dget (declared_types (c_class c cls)) k).
Proof.
  intros H. destruct (in_dec String.string_dec k (map f_pulumi (c_class c cls))) as [Hi|Hi].
  - apply in_map_iff in Hi as (f & <- & Hf). rewrite declared_in by auto. now constructor.
  - assert (K : forall f, In f (c_class c cls) -> f_pulumi f <> k) by (intros f Hf E; apply Hi; subst k; now apply in_map).
    rewrite declared_out by exact K. now constructor.
Qed.
Lemma named_translated c :
  (forall cls, class_declared (c_class c cls)) ->
  (* top level *)
  (forall typ keep inputs st pd,
     serialize_properties c typ keep inputs = Done (st, pd) ->
     (forall k, In k (dkeys st) -> exists k0 v, In (k0, v) inputs /\ sent_as c (bag_type typ) k0 k) /\
     dkeys pd = dkeys st /\
     (distinct_names c (bag_type typ) (map fst inputs) ->
      forall k v k', In (k, v) inputs -> sent_as c (bag_type typ) k k' ->
        exists e w ds, entry_type c (bag_type typ) k' e /\ ser c v e keep = Done (w, ds) /\
          (w <> WNull -> dget st k' = Some w /\ dget pd k' = Some ds))) /\
  (* a dict *)
  (forall d t keep w ds, ser c (VDict d) t keep = Done (w, ds) ->
     forall t', t = t' \/ (t = Some TyAny /\ t' = None) ->
     match t' with None | Some TyDictBare | Some (TyDict _) | Some (TyInput _) => True | _ => False end ->
     exists es, w = WStruct es /\
     (forall k, In k (dkeys es) -> exists k0, In k0 (dkeys d) /\ sent_as c t' k0 k) /\
     (distinct_names c t' (dkeys d) ->
      forall k x k', In (k, x) d -> sent_as c t' k k' ->
        exists e w' ds', entry_type c t' k' e /\ dget es k' = Some w' /\ ser c x e keep = Done (w', ds'))) /\
  (* an input-type object: declared names, whatever the translation function *)
  (forall cls fields t keep w ds, ser c (VInput cls fields) t keep = Done (w, ds) ->
     exists es, w = WStruct es /\
     (forall k, In k (dkeys es) -> exists f x, In f (c_class c cls) /\ k = f_pulumi f /\
        dget fields (f_py f) = Some x /\ x <> VNone) /\
     (forall f x, In f (c_class c cls) -> dget fields (f_py f) = Some x -> x <> VNone ->
        exists w' ds', dget es (f_pulumi f) = Some w' /\ ser c x (f_ty f) keep = Done (w', ds'))).
Proof.
  intros Hd. assert (Hn : forall cls, class_named (c_class c cls)) by (intros cls; apply class_declared_named, Hd).
  assert (Hok : forall cls, class_ok (c_class c cls)) by (intros cls; apply class_declared_ok, Hd).
  assert (Nn : forall x, is_none x = false <-> x <> VNone) by (intros []; cbn; split; congruence).
  destruct (names_translated c Hok Hn) as (A & B & C). split; [|split].
  - intros typ keep inputs st pd E. destruct (A typ keep inputs st pd E) as (A1 & A2 & A3). split; [exact A1|]. split; [exact A2|].
    intros D k v k' Hi Hs. destruct (A3 (distinct_top _ _ _ Hn D) k v k' Hi Hs) as (w & ds & E1 & E2).
    exists (top_type c typ k), w, ds. split; [|split; [exact E1|exact E2]].
    unfold top_type. destruct typ as [cls|]; [|constructor]. rewrite (sent_top c (Some cls) k k' Hn Hs). now apply declared_entry.
  - intros d t keep w ds E t' Ht Hm.
    assert (Et : norm_ty t = t') by (destruct Ht as [->|[-> ->]]; [destruct t' as [[]|]; try reflexivity; contradiction|reflexivity]).
    rewrite <- Et in *. destruct (B d t keep w ds E Hm) as (es & -> & B1 & B2). exists es. split; [reflexivity|]. split; [exact B1|].
    intros D k x k' Hi Hs. destruct (B2 (distinct_rule _ _ _ Hn Hm D) k x k' Hi Hs) as (e & w' & ds' & E1 & E2 & E3).
    exists e, w', ds'. split; [|auto]. rewrite E3. destruct (norm_ty t) as [[]|]; try contradiction; try constructor. now apply declared_entry.
  - intros cls fields t keep w ds E. destruct (C cls fields t keep w ds E) as (es & -> & C1 & C2). exists es. split; [reflexivity|]. split.
    + intros k Hk. destruct (C1 k Hk) as (f & x & H1 & H2 & H3 & H4). exists f, x. rewrite <- Nn. auto.
    + intros f x H1 H2 H3. apply Nn in H3. destruct (C2 f x H1 H2 H3) as (w' & ds' & E1 & E2). exists w', ds'. split; [exact E1|].
      now rewrite declared_in in E2 by auto.
Qed.

(** All parts of a message, for use in examples. *)
Fixpoint parts (w : wire) : list wire :=
  w :: match w with
       | WList l => flat_map parts l
       | WStruct d => flat_map (fun kv => parts (snd kv)) d
       | _ => []
       end.
Lemma part_parts w' w : part w' w -> In w' (parts w).
Proof.
  induction 1 as [|x l Hi Hp IH|k x d Hi Hp IH].
  - destruct w'; now left.
  - right. apply in_flat_map. eauto.
  - right. apply in_flat_map. exists (k, x). auto.
Qed.
Lemma string_ids_dec w :
  forallb (fun p => match p with
     | WStruct d => match dget d sig_key with
                    | Some (WStr s) => if String.eqb s resource_sig
                                       then match dget d "id" with Some (WStr _) | None => true | Some _ => false end
                                       else true
                    | _ => true end
     | _ => true end) (parts w) = true -> string_ids w.
Proof.
  intros H d Hp Hs. rewrite forallb_forall in H. specialize (H _ (part_parts _ _ Hp)). simpl in H.
  rewrite Hs in H. rewrite String.eqb_refl in H. destruct (dget d "id") as [[]|]; auto; discriminate.
Qed.
Lemma without_sig_dec s w :
  forallb (fun p => match p with
     | WStruct d => match dget d sig_key with Some (WStr s') => negb (String.eqb s' s) | _ => true end
     | _ => true end) (parts w) = true -> without_sig s w.
Proof.
  intros H d Hp Hs. rewrite forallb_forall in H. specialize (H _ (part_parts _ _ Hp)). simpl in H.
  rewrite Hs, String.eqb_refl in H. discriminate.
Qed.
