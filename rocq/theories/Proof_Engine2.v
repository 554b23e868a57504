(** Proofs: what the program reads of the engine's answers (C82). *)
From Verif Require Import Base PyVal Model_Output Spec_Output Proof_Output Proof_FromInput Model_Urn Model_Rpc Spec_Rpc
  Proof_Ser Proof_Round Proof_Deser Model_Engine Spec_Engine Proof_Engine.

Lemma carried_unwrap s v : is_rpc_secret v = false -> unwrap_rpc_secret (carried s v) = v.
Proof. intros H. destruct s; [reflexivity|now apply unwrap_plain]. Qed.
Lemma carried_is s v : is_rpc_secret v = false -> is_rpc_secret (carried s v) = s.
Proof. intros H. destruct s; [reflexivity|exact H]. Qed.
Lemma carried_none s v : is_none (carried s v) = is_none v && negb s.
Proof. destruct s; [now rewrite andb_false_r|now rewrite andb_true_r]. Qed.
Lemma wrap_carried s v : is_rpc_secret v = false -> wrap_rpc_secret (carried s v) = carried true v.
Proof.
  intros H. unfold wrap_rpc_secret. rewrite carried_is by auto. destruct s; auto.
Qed.

Lemma bubble_list_carried us : bubble_list us =
  carried (existsb is_rpc_secret us) (VList (map unwrap_rpc_secret us)).
Proof.
  unfold bubble_list. destruct (existsb is_rpc_secret us) eqn:E; [reflexivity|]. cbn [carried]. f_equal.
  induction us as [|u us IH]; cbn in *; auto. apply orb_false_iff in E as [E1 E2].
  rewrite (unwrap_plain u E1). f_equal. auto.
Qed.
Lemma bubble_dict_carried d : ~ In sig_key (dkeys d) -> bubble_dict (VDict d) =
  carried (existsb (fun kv => is_rpc_secret (snd kv)) d) (VDict (map (fun kv => (fst kv, unwrap_rpc_secret (snd kv))) d)).
Proof.
  intros Hs. unfold bubble_dict. destruct (existsb _ d) eqn:E.
  - unfold wrap_rpc_secret. rewrite is_rpc_secret_nosig; [reflexivity|].
    intros Hi. apply Hs. revert Hi. unfold dkeys. now rewrite map_map.
  - cbn [carried]. f_equal. induction d as [|[k u] d IH]; cbn in *; auto. apply orb_false_iff in E as [E1 E2].
    rewrite (unwrap_plain u E1). f_equal. apply IH; auto.
Qed.

Lemma unknown_marshal e : unknown_string (PComputed e) -> marshal_unknown e = Ok (WStr UNKNOWN).
Proof.
  intros H. remember (PComputed e) as q eqn:Eq. revert e Eq.
  induction H as [s|e H IH|e k s us H IH]; intros e0 Eq; injection Eq as <-; cbn [marshal_unknown]; auto.
Qed.
Lemma deser_unknown dc keep : deser dc (WStr UNKNOWN) keep = Ok (if d_dry dc || keep then VUnknown else VNone).
Proof. reflexivity. Qed.
Lemma deser_plain_string dc s keep : s <> UNKNOWN -> deser dc (WStr s) keep = Ok (VStr s).
Proof. intros H. cbn [deser]. apply String.eqb_neq in H. now rewrite H. Qed.

Definition mm (a : mopts) (kv : string * pval) : res (string * wire) :=
  let+ w := marshal a (snd kv) in Ok (fst kv, w).
Lemma mm_ok a k p w : marshal a p = Ok w -> mm a (k, p) = Ok (k, w).
Proof. intros H. unfold mm. cbn [fst snd]. now rewrite H. Qed.

Lemma deser_secret dc w keep : deser dc (WStruct [(go_SigKey, WStr go_SecretSig); ("value", w)]) keep =
  rbind (rbind (deser dc w false) (fun v => Ok (wrap_rpc_secret v))) (fun p => Ok (bubble_dict p)).
Proof. reflexivity. Qed.

Section Seen.
  Variable dc : dcfg.
  Variable a : mopts.

  Definition shown (p : pval) (v : pyval) (s : bool) : Prop :=
    is_rpc_secret v = false /\
    exists w, marshal a p = Ok w /\
      forall keep, keep = false \/ d_dry dc = true -> deser dc w keep = Ok (carried s v).
  Definition all_shown (l : list pval) (vs : list pyval) (s : bool) : Prop :=
    exists ws, rmap (marshal a) l = Ok ws /\
      forall keep, keep = false \/ d_dry dc = true ->
      exists us, rmap (fun x => deser dc x keep) ws = Ok us /\ map unwrap_rpc_secret us = vs /\
                 existsb is_rpc_secret us = s.
  Definition entries_shown (d : list (string * pval)) (vs : list (string * pyval)) (s : bool) : Prop :=
    exists ws, rmap (mm a) d = Ok ws /\ map fst ws = map fst d /\ incl (map fst vs) (map fst d) /\
      forall keep, keep = false \/ d_dry dc = true ->
      exists us, deser_entries keep false (dfn dc ws) = Ok us /\
        map (fun kv => (fst kv, unwrap_rpc_secret (snd kv))) us = vs /\
        existsb (fun kv => is_rpc_secret (snd kv)) us = s.
  Definition members_shown (d : list (string * pval)) (vs : list (string * pyval)) : Prop :=
    exists ws, rmap (mm a) d = Ok ws /\ map fst ws = map fst d /\
      Forall (fun kv => is_asset_or_archive (snd kv) = true) vs /\
      forall keep, keep = false \/ d_dry dc = true -> deser_entries keep false (dfn dc ws) = Ok vs.

  Lemma plain_shown p v w : is_rpc_secret v = false -> marshal a p = Ok w ->
    (forall keep, keep = false \/ d_dry dc = true -> deser dc w keep = Ok v) -> shown p v false.
  Proof. intros H E G. split; auto. exists w. split; auto. Qed.

  Lemma dry_unk keep : keep = false \/ d_dry dc = true -> d_dry dc || keep = d_dry dc.
  Proof. intros [-> | ->]; [apply orb_false_r|reflexivity]. Qed.

  Lemma secret_shown v s w : is_rpc_secret v = false ->
    (forall keep, keep = false \/ d_dry dc = true -> deser dc w keep = Ok (carried s v)) ->
    forall keep, keep = false \/ d_dry dc = true ->
    deser dc (WStruct [(go_SigKey, WStr go_SecretSig); ("value", w)]) keep = Ok (carried true v).
  Proof.
    intros Hv H keep _. rewrite deser_secret, H by auto. cbn [rbind]. rewrite wrap_carried by auto.
    f_equal. exact (bubble_vsecret v Hv).
  Qed.

  Lemma marshal_obj d ws : rmap (mm a) d = Ok ws -> marshal a (PObj d) = Ok (WStruct ws).
  Proof. intros H. unfold mm in H. cbn [marshal]. rewrite H. reflexivity. Qed.
  Lemma marshal_arch h d ws : rmap (mm a) d = Ok ws -> marshal a (PArchive h (Some d) "" "") =
    Ok (WStruct ((go_SigKey, WStr go_ArchiveSig) :: go_field "hash" h ++ [("assets", WStruct ws)])).
  Proof. intros H. unfold mm in H. cbn [marshal]. rewrite H. reflexivity. Qed.

  Lemma not_reserved ws (d : list (string * pval)) : map fst ws = map fst d -> ~ In reserved_key (map fst d) ->
    dget (ws : dict wire) sig_key = None.
  Proof. intros E H. apply dget_None. unfold dkeys. rewrite E. exact H. Qed.

  Lemma class_found urn u version r : parse_urn urn = Ok u -> class_for dc u version = Ok r ->
    d_find dc urn version = Ok (option_map (fun n => (n, u_name u, u_typ u)) r).
  Proof. intros E F. unfold d_find. rewrite E. cbn [rbind]. unfold class_for in F. rewrite F. reflexivity. Qed.

  Definition ref_wire (urn : string) (id : list (string * wire)) (version : string) : wire :=
    WStruct ((go_SigKey, WStr go_ResourceReferenceSig) :: ("urn", WStr urn) :: id ++ go_field "packageVersion" version).
  Lemma ref_deser urn (i : option string) version keep :
    deser dc (ref_wire urn (match i with Some s => [("id", WStr s)] | None => [] end) version) keep =
    rbind (let+ found := d_find dc urn version in
           match found with
           | Some (ctor, name, typ) => Ok (VConstructed ctor name typ urn)
           | None => match i with
                     | Some EmptyString => Ok (if d_dry dc || keep then VUnknown else VNone)
                     | Some s => deser dc (WStr s) keep
                     | None => Ok (VStr urn)
                     end
           end) (fun p => Ok (bubble_dict p)).
  Proof.
    unfold ref_wire, go_field. rewrite deser_wstruct. f_equal.
    rewrite (deser_struct_sig dc _ keep false resource_sig) by reflexivity.
    change (String.eqb resource_sig asset_sig) with false. change (String.eqb resource_sig archive_sig) with false.
    change (String.eqb resource_sig secret_sig) with false. change (String.eqb resource_sig resource_sig) with true.
    cbv iota. unfold deser_resource. rewrite !dget_dfn.
    destruct (String.eqb_spec version "") as [->|N]; destruct i as [s|]; cbn [app dget String.eqb Ascii.eqb Bool.eqb option_map rbind];
      try reflexivity; destruct (d_find dc urn _) as [[[[n nm] ty]|]|]; cbn [rbind]; try reflexivity; destruct s; reflexivity.
  Qed.

  Lemma seen_shown :
    (forall p v s, seen dc a (d_dry dc) p v s -> shown p v s) /\
    (forall l vs s, all_seen dc a (d_dry dc) l vs s -> all_shown l vs s) /\
    (forall d vs s, entries_seen dc a (d_dry dc) d vs s -> entries_shown d vs s) /\
    (forall d vs, members_seen dc a (d_dry dc) d vs -> members_shown d vs).
  Proof.
    apply seen_all_mind.
    - apply plain_shown with WNull; auto.
    - intros b. apply plain_shown with (WBool b); auto.
    - intros z. apply plain_shown with (WNum z); auto.
    - intros s Hs. apply plain_shown with (WStr s); auto. intros. now apply deser_plain_string.
    - (* array *)
      intros l vs s _ (ws & E & IH). split; [reflexivity|]. exists (WList ws). split.
      + cbn [marshal]. rewrite E. reflexivity.
      + intros keep Hk. destruct (IH keep Hk) as (us & E' & <- & <-). rewrite deser_wlist, E'. cbn [rbind].
        now rewrite bubble_list_carried.
    - (* object *)
      intros d vs s Hn Hr _ (ws & E & Ek & Hi & IH). split.
      { apply is_rpc_secret_nosig. intros K. apply Hr, Hi, K. }
      exists (WStruct ws). split; [now apply marshal_obj|]. intros keep Hk. destruct (IH keep Hk) as (us & E' & <- & <-).
      rewrite deser_wstruct, deser_plain_struct by (eapply not_reserved; eauto). rewrite E'. cbn [rbind].
      rewrite bubble_dict_carried; [reflexivity|].
      intros K. apply Hr, Hi. unfold dkeys in K. rewrite map_map. exact K.
    - (* unknown *)
      intros e He. apply plain_shown with (WStr UNKNOWN).
      + now destruct (d_dry dc).
      + cbn [marshal]. now apply unknown_marshal.
      + intros keep Hk. rewrite deser_unknown, dry_unk by auto. reflexivity.
    - (* assets *)
      intros h p Hp. apply String.eqb_neq in Hp. apply plain_shown with
        (WStruct ((go_SigKey, WStr go_AssetSig) :: go_field "hash" h ++ go_field "text" "" ++ go_field "path" p ++ go_field "uri" "")); auto.
      intros keep _. unfold go_field. rewrite Hp. destruct (String.eqb h ""); reflexivity.
    - intros h p Hp. apply String.eqb_neq in Hp. apply plain_shown with
        (WStruct ((go_SigKey, WStr go_AssetSig) :: go_field "hash" h ++ go_field "text" p ++ go_field "path" "" ++ go_field "uri" "")); auto.
      intros keep _. unfold go_field. rewrite Hp. destruct (String.eqb h ""); reflexivity.
    - intros h p Hp. apply String.eqb_neq in Hp. apply plain_shown with
        (WStruct ((go_SigKey, WStr go_AssetSig) :: go_field "hash" h ++ go_field "text" "" ++ go_field "path" "" ++ go_field "uri" p)); auto.
      intros keep _. unfold go_field. rewrite Hp. destruct (String.eqb h ""); reflexivity.
    - intros h p Hp. apply String.eqb_neq in Hp. apply plain_shown with
        (WStruct ((go_SigKey, WStr go_ArchiveSig) :: go_field "hash" h ++ [] ++ go_field "path" p ++ go_field "uri" "")); auto.
      intros keep _. unfold go_field. rewrite Hp. destruct (String.eqb h ""); reflexivity.
    - intros h p Hp. apply String.eqb_neq in Hp. apply plain_shown with
        (WStruct ((go_SigKey, WStr go_ArchiveSig) :: go_field "hash" h ++ [] ++ go_field "path" "" ++ go_field "uri" p)); auto.
      intros keep _. unfold go_field. rewrite Hp. destruct (String.eqb h ""); reflexivity.
    - (* archive with members *)
      intros h ms vs Hn Hr _ (ws & E & Ek & Hm & IH). eapply plain_shown; [reflexivity|exact (marshal_arch h ms ws E)|].
      intros keep _. rewrite deser_wstruct. erewrite deser_struct_sig by reflexivity.
      change (String.eqb go_ArchiveSig asset_sig) with false. change (String.eqb go_ArchiveSig archive_sig) with true. cbv iota.
      assert (Ea : dget (dfn dc ((go_SigKey, WStr go_ArchiveSig) :: go_field "hash" h ++ [("assets", WStruct ws)])) "assets" =
                   Some (WStruct ws, deser dc (WStruct ws))).
      { rewrite dget_dfn. unfold go_field. destruct (String.eqb h ""); reflexivity. }
      rewrite Ea. rewrite deser_wstruct, deser_plain_struct by (eapply not_reserved; eauto).
      rewrite IH by auto. cbn [rbind].
      assert (Hns : existsb (fun kv => is_rpc_secret (snd kv)) vs = false).
      { apply existsb_false. rewrite Forall_forall in *. intros kv Hkv. specialize (Hm kv Hkv).
        destruct (snd kv); try reflexivity; discriminate. }
      unfold bubble_dict. rewrite Hns. cbn [rbind mk_asset_archive].
      replace (forallb (fun kv => is_asset_or_archive (snd kv)) vs) with true; [reflexivity|].
      symmetry. apply forallb_forall. now rewrite Forall_forall in Hm.
    - (* secrets *)
      intros e v s Ha _ (Hv & w & E & H). split; auto. eexists. split.
      { cbn [marshal]. rewrite E. cbn [rbind]. rewrite Ha. reflexivity. }
      now apply secret_shown with s.
    - intros e v s Ha _ (Hv & w & E & H). split; auto. eexists. split.
      { cbn [marshal]. rewrite E. cbn [rbind]. rewrite Ha. reflexivity. }
      exact H.
    - (* outputs *)
      intros e v s secret us _ (Hv & w & E & H). split; auto. eexists. split.
      { cbn [marshal]. rewrite E. cbn [rbind]. reflexivity. }
      destruct (secret && m_secrets a).
      + rewrite orb_true_r. now apply secret_shown with s.
      + rewrite orb_false_r. exact H.
    - intros e secret us. split; [now destruct (d_dry dc)|]. eexists. split.
      { cbn [marshal rbind]. reflexivity. }
      assert (G : forall keep, keep = false \/ d_dry dc = true ->
         deser dc (WStr UNKNOWN) keep = Ok (carried false (if d_dry dc then VUnknown else VNone))).
      { intros keep Hk. rewrite deser_unknown, dry_unk by auto. reflexivity. }
      destruct (secret && m_secrets a).
      + apply secret_shown with false; auto. now destruct (d_dry dc).
      + exact G.
    - (* resources *)
      intros urn id version u n Ha Hu Hc. eapply plain_shown; [reflexivity|cbn [marshal]; rewrite Ha; reflexivity|].
      intros keep _.
      assert (G : exists i, match id with Some (PComputed _) => [("id", WStr "")] | Some (PStr s) => [("id", WStr s)] | _ => [] end =
                  match i with Some s => [("id", WStr s)] | None => [] end).
      { destruct id as [[]|]; first [exists None; reflexivity|eexists (Some _); reflexivity]. }
      destruct G as [i Gi]. rewrite Gi. change (WStruct _) with (ref_wire urn (match i with Some s => [("id", WStr s)] | None => [] end) version).
      rewrite ref_deser, (class_found _ _ _ _ Hu Hc). reflexivity.
    - intros urn version u Ha Hu Hc. eapply plain_shown; [reflexivity|cbn [marshal]; rewrite Ha; reflexivity|].
      intros keep _. change (WStruct _) with (ref_wire urn (match @None string with Some s => [("id", WStr s)] | None => [] end) version).
      rewrite ref_deser, (class_found _ _ _ _ Hu Hc). reflexivity.
    - intros urn i version u Ha Hu Hc Hi Hj. eapply plain_shown; [reflexivity|cbn [marshal]; rewrite Ha; reflexivity|].
      intros keep _. change (WStruct _) with (ref_wire urn (match Some i with Some s => [("id", WStr s)] | None => [] end) version).
      rewrite ref_deser, (class_found _ _ _ _ Hu Hc). cbn [option_map rbind].
      rewrite (deser_plain_string dc i keep Hj). destruct i; [congruence|reflexivity].
    - intros urn e version u Ha Hu Hc. apply plain_shown with (ref_wire urn [("id", WStr "")] version).
      { now destruct (d_dry dc). }
      { cbn [marshal]. rewrite Ha. reflexivity. }
      intros keep Hk. change [("id", WStr "")] with (match Some "" with Some s => [("id", WStr s)] | None => [] end).
      rewrite ref_deser, (class_found _ _ _ _ Hu Hc). cbn [option_map rbind]. rewrite dry_unk by auto. now destruct (d_dry dc).
    - intros urn version Ha Hu. apply plain_shown with (WStr urn); auto; [cbn [marshal]; now rewrite Ha|].
      intros. now apply deser_plain_string.
    - intros urn i version Ha Hu. apply plain_shown with (WStr i); auto; [cbn [marshal]; now rewrite Ha|].
      intros. now apply deser_plain_string.
    - intros urn e version Ha He. apply plain_shown with (WStr UNKNOWN).
      + now destruct (d_dry dc).
      + cbn [marshal]. rewrite Ha. now apply unknown_marshal.
      + intros keep Hk. rewrite deser_unknown, dry_unk by auto. reflexivity.
    - (* lists *)
      exists []. split; [reflexivity|]. intros keep _. exists []. repeat split.
    - intros p l v vs s s' _ (Hv & w & E & H) _ (ws & E' & H'). exists (w :: ws). split; [now apply rmap_cons|].
      intros keep Hk. destruct (H' keep Hk) as (us & F & <- & <-). exists (carried s v :: us).
      split; [apply rmap_cons; auto|]. cbn [map existsb]. now rewrite carried_unwrap, carried_is.
    - (* entries *)
      exists []. split; [reflexivity|]. split; [reflexivity|]. split; [easy|]. intros keep _. exists []. repeat split.
    - intros k p d vs s w Hk0 E _ (ws & E' & Ek & Hi & H'). exists ((k, w) :: ws).
      split; [apply rmap_cons; auto; now apply mm_ok|]. split; [cbn; now f_equal|].
      split; [intros x Hx; right; now apply Hi|].
      intros keep Hk. destruct (H' keep Hk) as (us & F & <- & <-). exists us. split; [|auto].
      cbn [dfn map deser_entries fst snd]. change (is_internal k) with (internal_key k). rewrite Hk0. exact F.
    - intros k p d vs s Hk0 _ (Hv & w & E & H) _ (ws & E' & Ek & Hi & H'). exists ((k, w) :: ws).
      split; [apply rmap_cons; auto; now apply mm_ok|]. split; [cbn; now f_equal|].
      split; [intros x Hx; right; now apply Hi|].
      intros keep Hk. destruct (H' keep Hk) as (us & F & <- & <-). exists us. split; [|auto].
      cbn [dfn map deser_entries fst snd]. change (is_internal k) with (internal_key k). rewrite Hk0. cbn [negb andb].
      rewrite (H keep Hk). cbn [rbind]. fold (dfn dc ws). rewrite F. reflexivity.
    - intros k p d v vs s s' Hk0 _ (Hv & w & E & H) Hnz _ (ws & E' & Ek & Hi & H'). exists ((k, w) :: ws).
      split; [apply rmap_cons; auto; now apply mm_ok|]. split; [cbn; now f_equal|].
      split; [intros x [Hx|Hx]; [now left|right; now apply Hi]|].
      intros keep Hk. destruct (H' keep Hk) as (us & F & <- & <-). exists ((k, carried s v) :: us). split.
      + cbn [dfn map deser_entries fst snd]. change (is_internal k) with (internal_key k). rewrite Hk0. cbn [negb andb].
        rewrite (H keep Hk). cbn [rbind]. fold (dfn dc ws). rewrite F. cbn [rbind]. rewrite carried_none.
        replace (is_none v && negb s) with false; [reflexivity|]. destruct Hnz as [Hv'| ->]; [|now rewrite andb_false_r].
        destruct v; try reflexivity. congruence.
      + cbn [map existsb fst snd]. now rewrite carried_unwrap, carried_is.
    - (* members *)
      exists []. split; [reflexivity|]. split; [reflexivity|]. split; [constructor|]. reflexivity.
    - intros k p ms v vs Hk0 Hp Hseen (Hv & w & E & H) _ (ws & E' & Ek & Hm & H'). exists ((k, w) :: ws).
      split; [apply rmap_cons; auto; now apply mm_ok|]. split; [cbn; now f_equal|].
      assert (Hav : is_asset_or_archive v = true) by (inv Hseen; cbn in Hp; try contradiction; reflexivity).
      split; [constructor; auto|]. intros keep Hk.
      cbn [dfn map deser_entries fst snd]. change (is_internal k) with (internal_key k). rewrite Hk0. cbn [negb andb].
      rewrite (H keep Hk). cbn [rbind carried]. fold (dfn dc ws). rewrite (H' keep Hk). cbn [rbind].
      replace (is_none v) with false; [reflexivity|]. destruct v; try reflexivity; discriminate.
  Qed.

  Lemma bag_shown keep ki ps vs : keep = false \/ d_dry dc = true -> bag_seen dc a (d_dry dc) ki ps vs ->
    exists st, rmap (mm a) ps = Ok st /\ map fst st = map fst ps /\ deser_entries keep ki (dfn dc st) = Ok vs.
  Proof.
    intros Hk. induction 1 as [|k p w ps vs Hki Hin E Hb (st & E' & Ek & F)|k p ps vs Hki Hs Hb (st & E' & Ek & F)
      |k p v s ps vs Hki Hs Hnz Hb (st & E' & Ek & F)].
    - exists []. repeat split.
    - exists ((k, w) :: st). split; [apply rmap_cons; auto; now apply mm_ok|]. split; [cbn; now f_equal|].
      cbn [dfn map deser_entries fst snd]. change (is_internal k) with (internal_key k). rewrite Hki, Hin. subst ki. exact F.
    - destruct (proj1 seen_shown _ _ _ Hs) as (_ & w & E & H). exists ((k, w) :: st).
      split; [apply rmap_cons; auto; now apply mm_ok|]. split; [cbn; now f_equal|].
      cbn [dfn map deser_entries fst snd]. change (is_internal k) with (internal_key k).
      replace (negb ki && internal_key k) with false by (destruct Hki as [-> | ->]; [reflexivity|now rewrite andb_false_r]).
      rewrite (H keep Hk). cbn [rbind]. fold (dfn dc st). rewrite F. reflexivity.
    - destruct (proj1 seen_shown _ _ _ Hs) as (Hv & w & E & H). exists ((k, w) :: st).
      split; [apply rmap_cons; auto; now apply mm_ok|]. split; [cbn; now f_equal|].
      cbn [dfn map deser_entries fst snd]. change (is_internal k) with (internal_key k).
      replace (negb ki && internal_key k) with false by (destruct Hki as [-> | ->]; [reflexivity|now rewrite andb_false_r]).
      rewrite (H keep Hk). cbn [rbind]. fold (dfn dc st). rewrite F. cbn [rbind]. rewrite carried_none.
      replace (is_none v && negb s) with false; [reflexivity|]. destruct Hnz as [Hv'| ->]; [|now rewrite andb_false_r].
      destruct v; try reflexivity. congruence.
  Qed.

  Lemma program_reads keep ki ps vs : keep = false \/ d_dry dc = true ->
    ~ In reserved_key (map fst ps) -> bag_seen dc a (d_dry dc) ki ps vs ->
    exists st, marshal_properties a ps = Ok st /\ deserialize_properties dc st keep ki = Ok (VDict vs).
  Proof.
    intros Hk Hr H. destruct (bag_shown keep ki ps vs Hk H) as (st & E & Ek & F). exists st. split; [exact E|].
    unfold deserialize_properties. fold (dfn dc st). rewrite deser_plain_struct by (eapply not_reserved; eauto).
    rewrite F. reflexivity.
  Qed.
End Seen.
