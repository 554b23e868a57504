(** C94: what values mean survives the wire. *)
From Verif Require Import Base PyVal Model_Output Spec_Output Proof_Output Proof_FromInput Model_Rpc Spec_Rpc Proof_Ser Proof_Ser2 Proof_Ser3
  Proof_Round Proof_Deser Proof_Deser2 Spec_Meaning.

Lemma holds_unknown v : within VUnknown v -> contains_unknowns v = true.
Proof. induction 1; cbn; auto; apply existsb_exists; [eauto|]. exists (k, y). auto. Qed.
Lemma all_known v : ~ within VUnknown v -> contains_unknowns v = false.
Proof.
  intros H. apply not_true_is_false. intros K. apply H. clear H. induction v using pyval_ind'; cbn in K; try discriminate; [| |constructor].
  - apply existsb_exists in K as (x & Hx & K). rewrite Forall_forall in H. eapply W_list; eauto.
  - apply existsb_exists in K as ([k x] & Hx & K). rewrite Forall_forall in H. eapply W_dict; [eauto|]. apply (H (k, x)); auto.
Qed.

Scheme means_mut := Induction for means Sort Prop
  with means_list_mut := Induction for means_list Sort Prop
  with means_dict_mut := Induction for means_dict Sort Prop.
Combined Scheme means_all from means_mut, means_list_mut, means_dict_mut.

Lemma dict_keys ov d xs s : means_dict ov d xs s -> forall k, In k (dkeys xs) -> In k (dkeys d).
Proof. induction 1; cbn; [easy|auto|]. intros k1 [->|K]; auto. Qed.
Lemma dict_keys_wf ov d xs s : means_dict ov d xs s -> wf_dict d -> wf_dict xs.
Proof.
  induction 1 as [|k v d xs s _ H IH|k v x s d xs s' _ _ H IH]; unfold wf_dict in *; cbn; intros W; [constructor| |]; inversion W; subst; auto.
  constructor; [|auto]. intros K. pose proof (dict_keys _ _ _ _ H _ K). auto.
Qed.
Lemma dict_sendable ov d xs s : means_dict ov d xs s -> sendable_keys d -> sendable_keys xs.
Proof.
  intros H (A & B & C). pose proof (dict_keys _ _ _ _ H) as K. repeat split; [eapply dict_keys_wf; eauto| |]; auto.
Qed.

Lemma meaning_not_secret ov v x s : means ov v x s -> is_rpc_secret x = false.
Proof.
  intros H. assert (K : forall d xs s, sendable_keys d -> means_dict ov d xs s -> is_rpc_secret (VDict xs) = false).
  { intros d xs s0 Hd Hm. apply is_rpc_secret_nosig. apply (dict_sendable _ _ _ _ Hm Hd). }
  induction H; try reflexivity; eauto. destruct a; try reflexivity; destruct H.
Qed.
Lemma value_not_secret ov v x s : means ov v x s -> is_rpc_secret v = false.
Proof.
  induction 1; try reflexivity; eauto. 2:{ apply is_rpc_secret_nosig. apply H. } destruct a; try reflexivity; destruct H.
Qed.

(** Data without secrets means itself. *)
Lemma means_itself ov ov' :
  (forall v x s, means ov v x s -> s = false -> means ov' x x false) /\
  (forall l xs s, means_list ov l xs s -> s = false -> means_list ov' xs xs false) /\
  (forall d xs s, means_dict ov d xs s -> s = false -> means_dict ov' xs xs false).
Proof.
  apply (means_all ov (fun v x s _ => s = false -> means ov' x x false) (fun l xs s _ => s = false -> means_list ov' xs xs false)
    (fun d xs s _ => s = false -> means_dict ov' xs xs false)); intros; subst; try (now constructor); auto.
  - apply orb_false_iff in H0 as [_ H0]. auto.
  - apply Me_list. auto.
  - apply Me_dict; [eapply dict_sendable; eauto|auto].
  - apply orb_false_iff in H1 as [E1 E2]. change false with (false || false). constructor; auto.
  - apply orb_false_iff in H1 as [E1 E2]. change false with (false || false). apply Me_entry; auto. destruct o as [o|o]; [now left|congruence].
Qed.

Definition mark (s : bool) (x : pyval) : pyval := if s then vsecret x else x.
Lemma mark_secret s x : is_rpc_secret x = false -> is_rpc_secret (mark s x) = s.
Proof. destruct s; auto. Qed.
Lemma unwrap_mark s x : is_rpc_secret x = false -> unwrap_rpc_secret (mark s x) = x.
Proof.
  destruct s; [reflexivity|]. cbn. unfold unwrap_rpc_secret. destruct x; auto. intros ->. reflexivity.
Qed.
Lemma wrap_mark s x : is_rpc_secret x = false -> wrap_rpc_secret (mark s x) = vsecret x.
Proof. destruct s; [reflexivity|]. cbn. unfold wrap_rpc_secret. now intros ->. Qed.

Lemma cu_list l : contains_unknowns (VList l) = existsb contains_unknowns l.
Proof. reflexivity. Qed.

Lemma deser_wsecret dc w ku : deser dc (wsecret w) ku = rbind (rbind (deser dc w false) (fun v => Ok (wrap_rpc_secret v))) (fun p => Ok (bubble_dict p)).
Proof. reflexivity. Qed.

Lemma deser_woutput dc k s w x us ku :
  (k = true -> deser dc w false = Ok x) -> ~ In UNKNOWN us ->
  deser dc (woutput k s w us) ku = Ok (VO (new_output (Done (map RDep us)) (Done (if k then x else VNone)) (Done k) (Done s))).
Proof.
  intros Hw Hus. unfold woutput. rewrite deser_wstruct.
  set (d := _ :: _).
  assert (Hsig : dget d sig_key = Some (WStr output_sig)) by reflexivity.
  assert (Hval : dget d "value" = if k then Some w else None).
  { unfold d. destruct k; simpl; auto. destruct s; simpl; destruct us; reflexivity. }
  assert (Hsec : dget d "secret" = if s then Some (WBool true) else None).
  { unfold d. destruct k, s; simpl; auto; destruct us; reflexivity. }
  assert (Hdep : dget d "dependencies" = match us with [] => None | us => Some (WList (map WStr us)) end).
  { unfold d. destruct k, s; simpl; destruct us; reflexivity. }
  rewrite (deser_struct_sig _ _ _ _ _ Hsig). cbn [String.eqb].
  change (String.eqb output_sig asset_sig) with false. change (String.eqb output_sig archive_sig) with false.
  change (String.eqb output_sig secret_sig) with false. change (String.eqb output_sig resource_sig) with false.
  change (String.eqb output_sig output_sig) with true. cbv iota.
  unfold deser_output_value. rewrite !dget_dfn, Hval, Hsec, Hdep.
  pose proof (deser_strings dc _ Hus) as Hst. pose proof (all_strings_map us) as Hall.
  clear -Hw Hst Hall. destruct us as [|u us]; destruct k, s; cbn [option_map rbind];
    rewrite ?(Hw eq_refl), ?Hst; cbn [rbind]; rewrite ?Hall;
    try change (deser dc (WBool true) false) with (Ok (VBool true)); cbn [rbind]; reflexivity.
Qed.

Lemma urns_expand c rs : urns_ready c -> await_urns c rs = Done tt /\ exists us, expand_all c rs = Done us /\ ~ In UNKNOWN us.
Proof.
  intros H. induction rs as [|r rs [IH1 (us & IH2 & IH3)]]; cbn; [split; [reflexivity|]; exists []; auto|].
  destruct (H r) as ((u & Eu) & us' & Ee & Hn). rewrite Eu, Ee. cbn. split; [exact IH1|]. rewrite IH2. cbn. exists (us' ++ us). split; [reflexivity|].
  rewrite in_app_iff. intros [K|K]; auto.
Qed.

Section Through.
  Variable c : cfg.
  Variable dc : dcfg.
  Hypothesis Hid : forall k, transform c k = k.
  Hypothesis Hsec : c_secrets c = true.
  Definition visible (x : pyval) : Prop := d_dry dc = true \/ contains_unknowns x = false.

  Lemma visible_cons x xs : visible (VList (x :: xs)) -> visible x /\ visible (VList xs).
  Proof. unfold visible. cbn. rewrite orb_false_iff. tauto. Qed.
  Lemma visible_entry k x xs : visible (VDict ((k, x) :: xs)) -> visible x /\ visible (VDict xs).
  Proof. unfold visible. cbn. rewrite orb_false_iff. tauto. Qed.

  Definition goes (keep : bool) (v x : pyval) (s : bool) : Prop :=
    forall t, norm_ty t = None -> visible x ->
      exists w ds, ser c v t keep = Done (w, ds) /\ forall ku, deser dc w ku = Ok (mark s x).
  Definition goes_list (keep : bool) (l xs : list pyval) (s : bool) : Prop :=
    visible (VList xs) ->
    exists ws ds, ser_elems (map (fun x => ser c x) l) None keep = Done (ws, ds) /\
      forall ku, exists vs, rmap (fun x => deser dc x ku) ws = Ok vs /\
        existsb is_rpc_secret vs = s /\ map unwrap_rpc_secret vs = xs /\ (s = false -> vs = xs).
  Definition goes_dict (keep : bool) (d xs : list (string * pyval)) (s : bool) : Prop :=
    visible (VDict xs) -> (forall k, In k (dkeys d) -> internal_key k = false) ->
    exists ws ds, map fst ws = map fst d /\
      (forall acc, wf_dict (acc ++ ws) ->
         ser_entries (transform c) (fun _ => None) keep (map (fun kv => (fst kv, ser c (snd kv))) d) acc = Done (acc ++ ws, ds)) /\
      forall ku ki, exists vd, deser_entries ku ki (dfn dc ws) = Ok vd /\
        existsb (fun kv => is_rpc_secret (snd kv)) vd = s /\
        map (fun kv => (fst kv, unwrap_rpc_secret (snd kv))) vd = xs /\ (s = false -> vd = xs).

  Lemma data_goes keep v : asset_data v -> is_rpc_secret v = false -> drop_nulls v = v -> goes keep v v false.
  Proof.
    intros Hd _ E t Ht _. exists (wire_of v), []. split.
    - rewrite <- (ser_data c Hid v Hd keep). destruct v; cbn [ser]; rewrite ?Ht; try reflexivity; destruct Hd.
    - intros ku. rewrite deser_data by exact Hd. now rewrite E.
  Qed.

  Lemma goes_all ov :
    (forall v x s, means ov v x s -> forall keep, keep && c_outvals c = false -> goes keep v x s) /\
    (forall l xs s, means_list ov l xs s -> forall keep, keep && c_outvals c = false -> goes_list keep l xs s) /\
    (forall d xs s, means_dict ov d xs s -> forall keep, keep && c_outvals c = false -> goes_dict keep d xs s).
  Proof.
    apply (means_all ov (fun v x s _ => forall keep, keep && c_outvals c = false -> goes keep v x s)
      (fun l xs s _ => forall keep, keep && c_outvals c = false -> goes_list keep l xs s)
      (fun d xs s _ => forall keep, keep && c_outvals c = false -> goes_dict keep d xs s)).
    - intros k Hk. now apply data_goes.
    - intros b k Hk. now apply data_goes.
    - intros z k Hk. now apply data_goes.
    - intros s Hs k Hk. now apply data_goes.
    - intros a Ha k Hk. apply data_goes; [now apply tree_data| |now apply tree_drop]. destruct a; try reflexivity; destruct Ha.
    - intros k Hk t Ht V. exists (WStr UNKNOWN), []. split; [reflexivity|]. intros ku. cbn.
      destruct V as [->|V]; [reflexivity|discriminate].
    - intros v x s _ IH k Hk t Ht V. destruct (IH k Hk None eq_refl V) as (w & ds & E & D). exists w, ds. split; [|exact D].
      cbn [ser]. rewrite Ht. exact E.
    - intros rs v x s s' Hu%all_known Hv IH _ k Hk t Ht V. destruct (IH false eq_refl None eq_refl V) as (w & ds & E & D).
      cbn [ser fbind]. rewrite Hu, Ht, E. cbn [fbind negb]. rewrite Hk, Hsec, andb_true_r.
      destruct s; cbn [orb]; do 2 eexists; (split; [reflexivity|]); [|exact D].
      intros ku. rewrite deser_wsecret, D. cbn [rbind]. rewrite wrap_mark by (eapply meaning_not_secret; eauto).
      rewrite bubble_vsecret by (eapply meaning_not_secret; eauto). reflexivity.
    - intros rs v s Hu%holds_unknown k Hk t Ht V. cbn [ser fbind]. rewrite Hu. cbn [fbind negb]. rewrite Hk.
      do 2 eexists. split; [reflexivity|]. intros ku. cbn. destruct V as [->|V]; [reflexivity|discriminate].
    - intros rs v x s s' Hu%all_known Hv IH k Hk t Ht V. destruct V as [V|V]; [|discriminate].
      destruct (IH false eq_refl None eq_refl (or_introl V)) as (w & ds & E & _).
      cbn [ser fbind]. rewrite Hu, Ht, E. cbn [fbind negb]. rewrite Hk.
      do 2 eexists. split; [reflexivity|]. intros ku. cbn. now rewrite V.
    - intros l xs s _ IH k Hk t Ht V. destruct (IH k Hk V) as (ws & ds & E & D).
      exists (WList ws), ds. split; [cbn [ser]; rewrite Ht; cbn [element_type]; now rewrite E|].
      intros ku. destruct (D ku) as (vs & D1 & D2 & D3 & D4). rewrite deser_wlist, D1. cbn [rbind]. unfold bubble_list. rewrite D2, D3.
      destruct s; [reflexivity|]. now rewrite D4.
    - intros d xs s Hd Hm IH k Hk t Ht V. destruct (IH k Hk V (proj2 (proj2 Hd))) as (ws & ds & Ek & E & D).
      assert (W : wf_dict ws) by (unfold wf_dict, dkeys; rewrite Ek; apply Hd).
      assert (S : dget ws sig_key = None) by (apply dget_None; unfold dkeys; rewrite Ek; apply Hd).
      exists (WStruct ws), ds. split.
      + cbn [ser]. rewrite Ht. cbn [key_rule value_rule]. rewrite (E [] W). reflexivity.
      + intros ku. destruct (D ku false) as (vd & D1 & D2 & D3 & D4). rewrite deser_wstruct, deser_plain_struct by exact S.
        rewrite D1. cbn [rbind bubble_dict]. rewrite D2, D3. destruct s; [|now rewrite D4].
        f_equal. apply (wrap_mark false). apply is_rpc_secret_nosig. apply (dict_sendable _ _ _ _ Hm Hd).
    - intros k Hk _. exists [], []. split; [reflexivity|]. intros ku. exists []. auto.
    - intros v x s l xs s' Hv IHv Hl IHl k Hk V. apply visible_cons in V as [V1 V2].
      destruct (IHv k Hk None eq_refl V1) as (w & ds & E & D). destruct (IHl k Hk V2) as (ws & ds' & E' & D').
      exists (w :: ws), (ds ++ ds'). split; [cbn [map ser_elems]; now rewrite E; cbn [fbind]; rewrite E'|].
      intros ku. destruct (D' ku) as (vs & D1 & D2 & D3 & D4). exists (mark s x :: vs). cbn [rmap]. fold (rmap (fun x => deser dc x ku)).
      rewrite D. cbn [rbind]. rewrite D1. split; [reflexivity|]. pose proof (meaning_not_secret _ _ _ _ Hv) as N.
      cbn [existsb map]. rewrite mark_secret, unwrap_mark, D2, D3 by exact N. repeat split.
      intros F. apply orb_false_iff in F as [-> F]. now rewrite D4.
    - intros k Hk _ _. exists [], []. split; [reflexivity|]. split; [intros acc _; cbn; now rewrite app_nil_r|]. intros ku ki. exists []. auto.
    - intros k v d xs s Hv IHv Hd IHd kp Hk V Hi.
      destruct (IHv kp Hk None eq_refl (or_intror eq_refl)) as (w & ds & E & D).
      destruct (IHd kp Hk V (fun k0 H0 => Hi k0 (or_intror H0))) as (ws & ds' & Ek & E' & D').
      exists ((k, w) :: ws), (ds ++ ds'). split; [cbn; now rewrite Ek|]. split.
      + intros acc W. cbn [map fst snd ser_entries]. rewrite E. cbn [fbind]. rewrite Hid.
        rewrite dset_fresh by (unfold wf_dict, dkeys in W; rewrite map_app in W; apply NoDup_remove_2 in W; rewrite in_app_iff in W; unfold dkeys; tauto).
        rewrite E' by (now rewrite <- app_assoc). now rewrite <- app_assoc.
      + intros ku ki. destruct (D' ku ki) as (vd & D1 & D2 & D3 & D4). exists vd.
        cbn [dfn map fst snd deser_entries]. rewrite (Hi k (or_introl eq_refl) : is_internal k = false), andb_false_r.
        rewrite D. cbn [rbind]. fold (dfn dc ws). rewrite D1. cbn [rbind is_none mark]. auto.
    - intros k v x s d xs s' Hv IHv Hn Hd IHd kp Hk V Hi. apply visible_entry in V as [V1 V2].
      destruct (IHv kp Hk None eq_refl V1) as (w & ds & E & D).
      destruct (IHd kp Hk V2 (fun k0 H0 => Hi k0 (or_intror H0))) as (ws & ds' & Ek & E' & D').
      exists ((k, w) :: ws), (ds ++ ds'). split; [cbn; now rewrite Ek|]. split.
      + intros acc W. cbn [map fst snd ser_entries]. rewrite E. cbn [fbind]. rewrite Hid.
        rewrite dset_fresh by (unfold wf_dict, dkeys in W; rewrite map_app in W; apply NoDup_remove_2 in W; rewrite in_app_iff in W; unfold dkeys; tauto).
        rewrite E' by (now rewrite <- app_assoc). now rewrite <- app_assoc.
      + intros ku ki. destruct (D' ku ki) as (vd & D1 & D2 & D3 & D4). exists ((k, mark s x) :: vd).
        cbn [dfn map fst snd deser_entries]. rewrite (Hi k (or_introl eq_refl) : is_internal k = false), andb_false_r.
        rewrite D. cbn [rbind]. fold (dfn dc ws). rewrite D1. cbn [rbind].
        replace (is_none (mark s x)) with false by (destruct s; [reflexivity|]; destruct Hn as [Hn|Hn]; [destruct x; try reflexivity; congruence|discriminate]).
        split; [reflexivity|]. pose proof (meaning_not_secret _ _ _ _ Hv) as N. cbn [existsb map fst snd].
        rewrite mark_secret, unwrap_mark, D2, D3 by exact N. repeat split. intros F. apply orb_false_iff in F as [-> F]. now rewrite D4.
  Qed.

  (** The same with Outputs sent as Outputs. *)
  Section Outputs.
    Variable keep : bool.
    Hypothesis Hkeep : keep && c_outvals c = true.
    Hypothesis Hurns : urns_ready c.

    Definition arrives (v x : pyval) (s : bool) : Prop :=
      forall t, norm_ty t = None -> visible x ->
        exists w ds, ser c v t keep = Done (w, ds) /\ forall ku, exists v', deser dc w ku = Ok v' /\ means true v' x s.
    Definition arrives_list (l xs : list pyval) (s : bool) : Prop :=
      visible (VList xs) ->
      exists ws ds, ser_elems (map (fun x => ser c x) l) None keep = Done (ws, ds) /\
        forall ku, exists vs, rmap (fun x => deser dc x ku) ws = Ok vs /\ means_list true vs xs s.
    Definition arrives_dict (d xs : list (string * pyval)) (s : bool) : Prop :=
      visible (VDict xs) -> (forall k, In k (dkeys d) -> internal_key k = false) ->
      exists ws ds, map fst ws = map fst d /\
        (forall acc, wf_dict (acc ++ ws) ->
           ser_entries (transform c) (fun _ => None) keep (map (fun kv => (fst kv, ser c (snd kv))) d) acc = Done (acc ++ ws, ds)) /\
        forall ku ki, exists vd, deser_entries ku ki (dfn dc ws) = Ok vd /\ means_dict true vd xs s /\
          (forall k, In k (dkeys vd) -> In k (dkeys d)) /\ (wf_dict d -> wf_dict vd).

    Lemma data_arrives v : asset_data v -> is_rpc_secret v = false -> drop_nulls v = v -> means true v v false -> arrives v v false.
    Proof.
      intros Hd Hn E M t Ht _. exists (wire_of v), []. split.
      - rewrite <- (ser_data c Hid v Hd keep). destruct v; cbn [ser]; rewrite ?Ht; try reflexivity; destruct Hd.
      - intros ku. exists v. split; [|exact M]. rewrite deser_data by exact Hd. now rewrite E.
    Qed.

    Lemma list_not_marked l xs s : means_list true l xs s -> existsb is_rpc_secret l = false.
    Proof. induction 1; cbn; [reflexivity|]. now rewrite IHmeans_list, (value_not_secret _ _ _ _ H). Qed.
    Lemma dict_not_marked d xs s : means_dict true d xs s -> existsb (fun kv => is_rpc_secret (snd kv)) d = false.
    Proof. induction 1; cbn; [reflexivity| |]; now rewrite IHmeans_dict, (value_not_secret _ _ _ _ H). Qed.

    Lemma arrives_all :
      (forall v x s, means true v x s -> arrives v x s) /\
      (forall l xs s, means_list true l xs s -> arrives_list l xs s) /\
      (forall d xs s, means_dict true d xs s -> arrives_dict d xs s).
    Proof.
      apply (means_all true (fun v x s _ => arrives v x s) (fun l xs s _ => arrives_list l xs s) (fun d xs s _ => arrives_dict d xs s)).
      - apply data_arrives; try easy; constructor.
      - intros b. apply data_arrives; try easy; constructor.
      - intros z. apply data_arrives; try easy; constructor.
      - intros s Hs. apply data_arrives; try easy; now constructor.
      - intros a Ha. apply data_arrives; [now apply tree_data| |now apply tree_drop|now constructor]. destruct a; try reflexivity; destruct Ha.
      - intros t Ht V. exists (WStr UNKNOWN), []. split; [reflexivity|]. intros ku. cbn.
        destruct V as [->|V]; [|discriminate]. eexists. split; [reflexivity|]. apply Me_unknown.
      - intros v x s _ IH t Ht V. destruct (IH None eq_refl V) as (w & ds & E & D). exists w, ds. split; [|exact D].
        cbn [ser]. rewrite Ht. exact E.
      - intros rs v x s s' Hu%all_known Hv _ Hf t Ht V. destruct (Hf eq_refl) as [-> Hx']. pose proof (all_known _ Hx') as Hx.
        destruct (proj1 (goes_all true) _ _ _ Hv false eq_refl None eq_refl V) as (w & ds & E & D).
        cbn [ser fbind]. rewrite Hu, Ht, E. cbn [fbind]. rewrite Hkeep. destruct (urns_expand c (rs ++ ds) Hurns) as (Ea & us & Ee & Hn).
        rewrite Ea, Ee. cbn [fbind]. do 2 eexists. split; [reflexivity|]. intros ku.
        rewrite (deser_woutput _ _ _ _ x); [|intros _; exact (D false)|rewrite sort_strings_In; exact Hn]. eexists. split; [reflexivity|].
        unfold VO, new_output. cbn [o_res o_val o_known o_secret fbind]. rewrite Hx. cbn [negb].
        apply (Me_out true _ x x s false); [exact Hx'| |auto]. exact (proj1 (means_itself true true) _ _ _ Hv eq_refl).
      - intros rs v s Hu%holds_unknown t Ht V. cbn [ser fbind]. rewrite Hu. cbn [fbind]. rewrite Hkeep.
        destruct (urns_expand c (rs ++ []) Hurns) as (Ea & us & Ee & Hn). rewrite Ea, Ee. cbn [fbind]. do 2 eexists. split; [reflexivity|]. intros ku.
        rewrite (deser_woutput _ _ _ _ VNone); [|discriminate|rewrite sort_strings_In; exact Hn]. eexists. split; [reflexivity|].
        eapply Me_hidden; [intros K; inversion K|constructor].
      - intros rs v x s s' Hu%all_known Hv IH t Ht V. destruct V as [V|V]; [|discriminate].
        destruct (proj1 (goes_all true) _ _ _ Hv false eq_refl None eq_refl (or_introl V)) as (w & ds & E & D).
        cbn [ser fbind]. rewrite Hu, Ht, E. cbn [fbind]. rewrite Hkeep.
        destruct (urns_expand c (rs ++ ds) Hurns) as (Ea & us & Ee & Hn). rewrite Ea, Ee. cbn [fbind]. do 2 eexists. split; [reflexivity|]. intros ku.
        rewrite (deser_woutput _ _ _ _ VNone); [|discriminate|rewrite sort_strings_In; exact Hn]. eexists. split; [reflexivity|].
        eapply Me_hidden; [intros K; inversion K|constructor].
      - intros l xs s _ IH t Ht V. destruct (IH V) as (ws & ds & E & D).
        exists (WList ws), ds. split; [cbn [ser]; rewrite Ht; cbn [element_type]; now rewrite E|].
        intros ku. destruct (D ku) as (vs & D1 & D2). rewrite deser_wlist, D1. cbn [rbind]. unfold bubble_list.
        rewrite (list_not_marked _ _ _ D2). eexists. split; [reflexivity|]. now apply Me_list.
      - intros d xs s Hd Hm IH t Ht V. destruct (IH V (proj2 (proj2 Hd))) as (ws & ds & Ek & E & D).
        assert (W : wf_dict ws) by (unfold wf_dict, dkeys; rewrite Ek; apply Hd).
        assert (S : dget ws sig_key = None) by (apply dget_None; unfold dkeys; rewrite Ek; apply Hd).
        exists (WStruct ws), ds. split.
        + cbn [ser]. rewrite Ht. cbn [key_rule value_rule]. rewrite (E [] W). reflexivity.
        + intros ku. destruct (D ku false) as (vd & D1 & D2 & D3 & D4). rewrite deser_wstruct, deser_plain_struct by exact S.
          rewrite D1. cbn [rbind bubble_dict]. rewrite (dict_not_marked _ _ _ D2). eexists. split; [reflexivity|].
          apply Me_dict; [|exact D2]. destruct Hd as (A & B & C). repeat split; auto.
      - intros _. exists [], []. split; [reflexivity|]. intros ku. exists []. split; [reflexivity|constructor].
      - intros v x s l xs s' Hv IHv Hl IHl V. apply visible_cons in V as [V1 V2].
        destruct (IHv None eq_refl V1) as (w & ds & E & D). destruct (IHl V2) as (ws & ds' & E' & D').
        exists (w :: ws), (ds ++ ds'). split; [cbn [map ser_elems]; now rewrite E; cbn [fbind]; rewrite E'|].
        intros ku. destruct (D' ku) as (vs & D1 & D2). destruct (D ku) as (v' & Dv & Mv). exists (v' :: vs). cbn [rmap]. fold (rmap (fun x => deser dc x ku)).
        rewrite Dv. cbn [rbind]. rewrite D1. split; [reflexivity|]. now constructor.
      - intros _ _. exists [], []. split; [reflexivity|]. split; [intros acc _; cbn; now rewrite app_nil_r|]. intros ku ki. exists [].
        repeat split; try easy. constructor.
      - intros k v d xs s Hv IHv Hd IHd V Hi.
        destruct (IHv None eq_refl (or_intror eq_refl)) as (w & ds & E & D).
        destruct (IHd V (fun k0 H0 => Hi k0 (or_intror H0))) as (ws & ds' & Ek & E' & D').
        exists ((k, w) :: ws), (ds ++ ds'). split; [cbn; now rewrite Ek|]. split.
        + intros acc W. cbn [map fst snd ser_entries]. rewrite E. cbn [fbind]. rewrite Hid.
          rewrite dset_fresh by (unfold wf_dict, dkeys in W; rewrite map_app in W; apply NoDup_remove_2 in W; rewrite in_app_iff in W; unfold dkeys; tauto).
          rewrite E' by (now rewrite <- app_assoc). now rewrite <- app_assoc.
        + intros ku ki. destruct (D' ku ki) as (vd & D1 & D2 & D3 & D4). destruct (D ku) as (v' & Dv & Mv).
          exists (if is_none v' then vd else (k, v') :: vd).
          cbn [dfn map fst snd deser_entries]. rewrite (Hi k (or_introl eq_refl) : is_internal k = false), andb_false_r.
          rewrite Dv. cbn [rbind]. fold (dfn dc ws). rewrite D1. cbn [rbind]. split; [reflexivity|]. destruct (is_none v').
          * split; [exact D2|]. split; [intros k0 K; right; auto|]. intros W. inversion W; auto.
          * split; [now apply Me_null|]. split; [intros k0 [<-|K]; [now left|right; auto]|]. intros W. inversion W as [|? ? Wn Ww]; subst.
            constructor; [|now apply D4]. intros K. apply Wn. now apply D3.
      - intros k v x s d xs s' Hv IHv Hn Hd IHd V Hi. apply visible_entry in V as [V1 V2].
        destruct (IHv None eq_refl V1) as (w & ds & E & D).
        destruct (IHd V2 (fun k0 H0 => Hi k0 (or_intror H0))) as (ws & ds' & Ek & E' & D').
        exists ((k, w) :: ws), (ds ++ ds'). split; [cbn; now rewrite Ek|]. split.
        + intros acc W. cbn [map fst snd ser_entries]. rewrite E. cbn [fbind]. rewrite Hid.
          rewrite dset_fresh by (unfold wf_dict, dkeys in W; rewrite map_app in W; apply NoDup_remove_2 in W; rewrite in_app_iff in W; unfold dkeys; tauto).
          rewrite E' by (now rewrite <- app_assoc). now rewrite <- app_assoc.
        + intros ku ki. destruct (D' ku ki) as (vd & D1 & D2 & D3 & D4). destruct (D ku) as (v' & Dv & Mv).
          exists ((k, v') :: vd).
          cbn [dfn map fst snd deser_entries]. rewrite (Hi k (or_introl eq_refl) : is_internal k = false), andb_false_r.
          rewrite Dv. cbn [rbind]. fold (dfn dc ws). rewrite D1. cbn [rbind].
          replace (is_none v') with false.
          2:{ destruct v'; try reflexivity. inversion Mv as [| | | |? K| | | | | | |]; subst; [|destruct K]. destruct Hn; congruence. }
          split; [reflexivity|]. split; [now apply Me_entry|]. split; [intros k0 [<-|K]; [now left|right; auto]|]. intros W. inversion W as [|? ? Wn Ww]; subst.
          constructor; [|now apply D4]. intros K. apply Wn. now apply D3.
    Qed.
  End Outputs.

  Lemma one keep ov v x s t : norm_ty t = None -> ov = keep && c_outvals c -> (ov = true -> urns_ready c) -> means ov v x s -> visible x ->
    exists w ds, ser c v t keep = Done (w, ds) /\ forall ku, exists v', deser dc w ku = Ok v' /\ holds ov x s v' /\ (v' = VNone -> x = VNone /\ s = false).
  Proof.
    intros Ht Hov Hurns M V. destruct ov.
    - destruct (proj1 (arrives_all keep (eq_sym Hov) (Hurns eq_refl)) _ _ _ M t Ht V) as (w & ds & E & D). exists w, ds. split; [exact E|].
      intros ku. destruct (D ku) as (v' & D1 & D2). exists v'. split; [exact D1|]. split; [exact D2|]. intros ->.
      inversion D2 as [| | | |? K| | | | | | |]; subst; [auto|destruct K].
    - destruct (proj1 (goes_all false) _ _ _ M keep (eq_sym Hov) t Ht V) as (w & ds & E & D). exists w, ds. split; [exact E|].
      intros ku. exists (mark s x). split; [exact (D ku)|]. unfold holds, mark. destruct s; [split; [reflexivity|discriminate]|auto].
  Qed.

  (** A whole bag of inputs. *)
  Section Bag.
    Variable keep ov : bool.
    Hypothesis Hov : ov = keep && c_outvals c.
    Hypothesis Hurns : ov = true -> urns_ready c.
    Variable data : string -> pyval.
    Variable secret : string -> bool.

    Lemma bag_goes ku ki d : forall st pd,
      (forall k v, In (k, v) d -> means ov v (data k) (secret k) /\ visible (data k) /\ (ki = true \/ internal_key k = false)) ->
      NoDup (map fst d) -> (forall k, In k (dkeys st) -> ~ In k (map fst d)) ->
      exists ws pd' vd, ser_props_loop c None keep d st pd = Done (st ++ ws, pd') /\ deser_entries ku ki (dfn dc ws) = Ok vd /\
        (forall k, In k (dkeys ws) -> In k (map fst d)) /\ (forall k, In k (dkeys vd) -> In k (dkeys ws)) /\ NoDup (dkeys vd) /\
        forall k v, In (k, v) d -> match dget vd k with Some v' => holds ov (data k) (secret k) v' | None => data k = VNone /\ secret k = false end.
    Proof.
      induction d as [|[k v] d IH]; intros st pd H N F; cbn [map fst] in *.
      - exists [], pd, []. cbn. rewrite app_nil_r. repeat split; try easy.
      - apply NoDup_cons_iff in N as [Nk Nd]. destruct (H k v (or_introl eq_refl)) as (M & V & Hi).
        destruct (one keep ov _ _ _ None eq_refl Hov Hurns M V) as (w & ds & E & D). cbn [ser_props_loop top_type]. rewrite E. cbn [fbind].
        destruct (D ku) as (v' & D1 & D2 & D3).
        assert (H' : forall k v, In (k, v) d -> means ov v (data k) (secret k) /\ visible (data k) /\ (ki = true \/ internal_key k = false)) by (intros; apply (H k0 v0); now right).
        assert (Skip : forall vd : dict pyval, (forall k, In k (dkeys vd) -> In k (map fst d)) -> dget vd k = None).
        { intros vd Hs. apply dget_None. intros K. apply Nk. auto. }
        destruct (match w with WNull => true | _ => false end) eqn:Ew.
        + assert (w = WNull) as -> by (destruct w; try discriminate; reflexivity).
          destruct (IH st pd H' Nd) as (ws & pd' & vd & I1 & I2 & I3 & I4 & I6 & I5); [intros k0 K0 K1; apply (F k0 K0); now right|].
          exists ws, pd', vd. split; [exact I1|]. split; [exact I2|]. split; [intros; right; auto|]. split; [exact I4|]. split; [exact I6|].
          intros k0 v0 [[= <- <-]|K]; [|now apply (I5 k0 v0)]. rewrite Skip by auto. cbn in D1. injection D1 as <-. auto.
        + assert (Fk : ~ In k (dkeys st)) by (intros K; apply (F k K); now left).
          destruct (IH (st ++ [(k, w)]) (dset pd (top_key c None k) ds) H' Nd) as (ws & pd' & vd & I1 & I2 & I3 & I4 & I6 & I5).
          { intros k0 K0. unfold dkeys in K0. rewrite map_app, in_app_iff in K0. cbn in K0. destruct K0 as [K0|[<-|[]]]; [|exact Nk].
            intros K1. apply (F k0 K0). now right. }
          exists ((k, w) :: ws), pd', (if is_none v' then vd else (k, v') :: vd).
          assert (EL : ser_props_loop c None keep d (dset st (top_key c None k) w) (dset pd (top_key c None k) ds) = Done (st ++ (k, w) :: ws, pd')).
          { cbn [top_key]. rewrite Hid. rewrite dset_fresh by exact Fk. cbn [top_key] in I1. rewrite Hid in I1. rewrite I1. now rewrite <- app_assoc. }
          split; [destruct w; try discriminate; exact EL|].
          split. { cbn [dfn map fst snd deser_entries]. replace (negb ki && is_internal k) with false.
            2:{ destruct Hi as [->|Hi]; [reflexivity|]. change (is_internal k) with (internal_key k). rewrite Hi. now rewrite andb_false_r. }
            rewrite D1. cbn [rbind]. fold (dfn dc ws). rewrite I2. cbn [rbind]. reflexivity. }
          split; [intros k0 [<-|K]; [now left|right; auto]|].
          split. { intros k0 K. destruct (is_none v'); [right; auto|]. destruct K as [<-|K]; [now left|right; auto]. }
          split. { destruct (is_none v'); [exact I6|]. constructor; [|exact I6]. intros K. apply Nk. auto. }
          intros k0 v0 [[= <- <-]|K].
          * destruct (is_none v') eqn:Ev; [|cbn; rewrite String.eqb_refl; exact D2].
            rewrite Skip by auto. apply D3. destruct v'; try discriminate; reflexivity.
          * specialize (I5 k0 v0 K). destruct (is_none v'); [exact I5|]. cbn [dget].
            destruct (String.eqb_spec k0 k) as [->|_]; [|exact I5]. exfalso. apply Nk. exact (in_map fst _ _ K).
    Qed.
  End Bag.

  Lemma bag_through keep ov ku ki d data secret :
    ov = keep && c_outvals c -> (ov = true -> urns_ready c) -> NoDup (map fst d) -> ~ In sig_key (map fst d) ->
    (forall k v, In (k, v) d -> means ov v (data k) (secret k) /\ visible (data k) /\ (ki = true \/ internal_key k = false)) ->
    exists st pd d', serialize_properties c None keep d = Done (st, pd) /\ deserialize_properties dc st ku ki = Ok (VDict d') /\
      (forall k, In k (dkeys d') -> In k (map fst d)) /\ NoDup (dkeys d') /\
      forall k v, In (k, v) d -> match dget d' k with Some v' => holds ov (data k) (secret k) v' | None => data k = VNone /\ secret k = false end.
  Proof.
    intros Ho Hu N S H. destruct (bag_goes keep ov Ho Hu data secret ku ki d [] [] H N) as (ws & pd & vd & B1 & B2 & B3 & B4 & B6 & B5); [intros k []|].
    exists ws, pd, vd. split; [exact B1|]. split.
    - unfold deserialize_properties. fold (dfn dc ws). rewrite deser_plain_struct by (apply dget_None; intros K; apply S; auto). now rewrite B2.
    - auto.
  Qed.
End Through.
