(** C11: a known secret output stays marked secret through serialisation and
    deserialisation. *)
From Verif Require Import Base PyVal Model_Output Spec_Output Proof_Output Proof_FromInput Model_Urn Model_Rpc Spec_Rpc
  Proof_Ser Proof_Ser2 Proof_Ser3 Proof_Round Proof_Deser Proof_Deser2.

Definition sent_secret (c : cfg) (x : pyval) (w : wire) : Prop :=
  (exists t w' ds', ser c x t false = Done (w', ds') /\ part (wsecret w') w) /\ exposes_secret w.

Lemma sent_list c x y l : In y l -> sent_secret c x y -> sent_secret c x (WList l).
Proof.
  intros Hi [(t & w' & ds' & E & P) (d & Hd & He)]. split.
  - exists t, w', ds'. split; auto. eapply P_list; eauto.
  - exists d. split; auto. eapply E_list; eauto.
Qed.
Lemma sent_struct c x k y d : dget d sig_key = None -> is_internal k = false -> dget d k = Some y ->
  sent_secret c x y -> sent_secret c x (WStruct d).
Proof.
  intros Hs Hi Hg [(t & w' & ds' & E & P) (d0 & Hd & He)]. apply dget_In in Hg. split.
  - exists t, w', ds'. split; auto. eapply P_struct; eauto.
  - exists d0. split; auto. eapply E_struct; eauto.
Qed.

Lemma ser_secret c x keep v :
  (forall cls, class_ok (c_class c cls)) -> c_secrets c = true ->
  secret_at c keep x v -> forall t w ds, ser c v t keep = Done (w, ds) -> sent_secret c x w.
Proof.
  intros Hc Hs. induction 1 as [keep x rs Ho Hu|keep x y l Hin Hsa IH|keep x k y d Hin Hk Hsa IH|
    keep x cls f y fields Hf Hg Hsig Hint Hsa IH|keep x y Hsa IH|keep x rs y s Ho Hu Hsa IH]; intros t w ds E.
  - simpl in E. destruct rs as [rs| |]; try discriminate. simpl in E. rewrite Hu in E.
    destruct (ser c x (norm_ty t) false) as [[w' ds']| |] eqn:E'; simpl in E; try discriminate.
    rewrite Ho, Hs in E. simpl in E. injection E as <- <-. split.
    + exists (norm_ty t), w', ds'. split; auto. constructor.
    + exists [(sig_key, WStr secret_sig); ("value", w')]. split; auto. constructor.
  - simpl in E. destruct (element_type (norm_ty t)) as [et|]; [|discriminate].
    destruct (ser_elems (map (fun x => ser c x) l) et keep) as [[ws ds']| |] eqn:E'; simpl in E; try discriminate.
    injection E as <- <-. apply ser_elems_ok in E' as (ps & HF & -> & _).
    destruct (F2_in_l _ _ _ (ser c y) HF) as ([w' d'] & Hp & Es).
    { apply (in_map (fun x => ser c x)); auto. }
    apply sent_list with w'; [apply (in_map fst) in Hp; exact Hp|]. eapply IH; eauto.
  - apply ser_dict_keys in E as (es & -> & Hwf & Hkeys & Hnd).
    destruct (Hk (norm_ty t)) as (N1 & N2 & N3). destruct (Hnd N1) as (Hke & Hval).
    destruct (Hval k y Hin) as (w' & ds' & Hd & Es).
    apply sent_struct with (key_rule c (norm_ty t) k) w'; auto.
    + apply dget_None. rewrite Hke. exact N2.
    + eapply IH; eauto.
  - apply ser_input_keys in E; [|apply Hc]. destruct E as (es & -> & Hwf & Hkeys & Hval).
    destruct (is_none y) eqn:Hn; [destruct y; try discriminate; inv Hsa|].
    destruct (Hval f y Hf Hg Hn) as (w' & ds' & Hd & Es).
    apply sent_struct with (f_pulumi f) w'; auto.
    + apply dget_None. intros Hi. apply Hkeys in Hi as (g & z & Hgi & Hgk & _). apply (Hsig g); auto.
    + eapply IH; eauto.
  - simpl in E. eapply IH; eauto.
  - simpl in E. destruct rs as [rs| |]; try discriminate. destruct s as [s| |]; try discriminate. simpl in E. rewrite Hu in E.
    destruct (ser c y (norm_ty t) false) as [[w' ds']| |] eqn:E'; simpl in E; try discriminate.
    rewrite Ho, Hs in E. simpl in E. destruct (IH _ _ _ E') as [(t1 & w1 & ds1 & E1 & P1) He].
    destruct s; simpl in E; injection E as <- <-.
    + split.
      * exists t1, w1, ds1. split; auto. eapply P_struct; [right; left; reflexivity|auto].
      * exists [(sig_key, WStr secret_sig); ("value", w')]. split; auto. constructor.
    + split; eauto.
Qed.

Lemma secret_travels c dc typ keep inputs st pd ku ki v' k x v :
  (forall cls, class_ok (c_class c cls)) -> c_secrets c = true ->
  NoDup (map (fun kv => top_key c typ (fst kv)) inputs) ->
  ~ In sig_key (map (fun kv => top_key c typ (fst kv)) inputs) ->
  In (k, v) inputs -> secret_at c keep x v ->
  ki = true \/ is_internal (top_key c typ k) = false ->
  serialize_properties c typ keep inputs = Done (st, pd) ->
  (exists w t w' ds', dget st (top_key c typ k) = Some w /\ ser c x t false = Done (w', ds') /\ part (wsecret w') w) /\
  (deserialize_properties dc st ku ki = Ok v' ->
   exists d u, v' = VDict d /\ dget d (top_key c typ k) = Some u /\ is_rpc_secret u = true).
Proof.
  intros Hc Hs Hnd Hns Hin Hsa Hi E.
  destruct (serialize_properties_spec _ _ _ _ _ _ E) as (Hwf & _ & Hkeys & Hval).
  destruct (Hval Hnd k v Hin) as (w & ds & Es & Hst & _).
  destruct (ser_secret c x keep v Hc Hs Hsa _ _ _ Es) as [(t & w' & ds' & E' & P) He].
  assert (Hw : is_wnull w = false).
  { destruct w; auto. destruct He as (d & _ & He). inv He. }
  rewrite Hw in Hst. split; [exists w, t, w', ds'; auto|].
  intros Ed.
  assert (Hsig : dget st sig_key = None).
  { apply dget_None. intros K. apply Hkeys in K as (k0 & v0 & Hi0 & Hk0). apply Hns. rewrite Hk0.
    apply (in_map (fun kv => top_key c typ (fst kv))) in Hi0. exact Hi0. }
  unfold deserialize_properties in Ed. fold (dfn dc st) in Ed. rewrite deser_plain_struct in Ed by auto.
  destruct (deser_entries ku ki (dfn dc st)) as [d'|] eqn:Ee; [|discriminate]. cbn [rbind] in Ed. injection Ed as <-.
  assert (Hi' : negb ki && is_internal (top_key c typ k) = false) by (destruct Hi as [->| ->]; auto using andb_false_r).
  pose proof (deser_entries_inv _ _ _ _ _ Ee) as (_ & B & _).
  destruct (B (top_key c typ k) w) as (y & Ey & _); auto; [now apply dget_In|].
  pose proof (exposes_is_secret dc w ku y He Ey) as Hsec.
  exists d', y. split; auto. split; auto.
  eapply deser_entries_dget; eauto. destruct y; auto; discriminate.
Qed.
