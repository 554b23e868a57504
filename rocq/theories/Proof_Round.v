(** C10, C15: round trips through the wire. *)
From Verif Require Import Base PyVal Model_Output Spec_Output Proof_Output Proof_FromInput Model_Rpc Spec_Rpc Proof_Ser Proof_Ser2 Proof_Ser3.

Fixpoint wire_of (v : pyval) : wire :=
  match v with
  | VBool b => WBool b
  | VNum z => WNum z
  | VStr s => WStr s
  | VList l => WList (map wire_of l)
  | VDict d => WStruct (map (fun kv => (fst kv, wire_of (snd kv))) d)
  | VFileAsset p => WStruct [(sig_key, WStr asset_sig); ("path", WStr p)]
  | VStringAsset s => WStruct [(sig_key, WStr asset_sig); ("text", WStr s)]
  | VRemoteAsset u => WStruct [(sig_key, WStr asset_sig); ("uri", WStr u)]
  | VAssetArchive d => WStruct [(sig_key, WStr archive_sig); ("assets", WStruct (map (fun kv => (fst kv, wire_of (snd kv))) d))]
  | VFileArchive p => WStruct [(sig_key, WStr archive_sig); ("path", WStr p)]
  | VRemoteArchive u => WStruct [(sig_key, WStr archive_sig); ("uri", WStr u)]
  | _ => WNull
  end.

Lemma plain_data v : plain v -> asset_data v.
Proof.
  induction v using pyval_ind'; simpl; auto; try tauto.
  - intros Hp. induction H; auto. destruct Hp; split; [auto|now apply IHForall].
  - intros (a & b & c & d0). repeat split; auto. clear a b c. induction H; auto. destruct d0; split; [auto|now apply IHForall].
Qed.
Lemma tree_data v : asset_tree v -> asset_data v.
Proof. destruct v; simpl; auto; tauto. Qed.

Lemma data_list l : asset_data (VList l) <-> Forall asset_data l.
Proof. induction l; simpl; split; auto; [intros [? ?]; constructor; auto; now apply IHl|intros H; inv H; split; auto; now apply IHl]. Qed.
Lemma all_dict_aux (P : pyval -> Prop) (d : list (string * pyval)) :
  (fix go (d : list (string * pyval)) : Prop := match d with [] => True | kv :: d' => P (snd kv) /\ go d' end) d
  <-> Forall (fun kv => P (snd kv)) d.
Proof. induction d; split; auto; [intros [? ?]; constructor; auto; now apply IHd|intros H; inv H; split; auto; now apply IHd]. Qed.

Definition good_keys (d : list (string * pyval)) : Prop :=
  wf_dict d /\ ~ In sig_key (dkeys d) /\ (forall k, In k (dkeys d) -> is_internal k = false).

Lemma data_dict d : asset_data (VDict d) <-> good_keys d /\ Forall (fun kv => asset_data (snd kv)) d.
Proof. unfold good_keys. simpl. rewrite all_dict_aux. tauto. Qed.
Lemma tree_archive d : asset_tree (VAssetArchive d) <-> good_keys d /\ Forall (fun kv => asset_tree (snd kv)) d.
Proof. unfold good_keys. simpl. rewrite all_dict_aux. tauto. Qed.

Section Ser.
  Variable c : cfg.
  Hypothesis Hid : forall k, transform c k = k.

  Lemma ser_elems_map l keep (f : pyval -> wire) :
    Forall (fun x => ser c x None keep = Done (f x, [])) l ->
    ser_elems (map (fun x => ser c x) l) None keep = Done (map f l, []).
  Proof. induction 1; simpl; auto. rewrite H. simpl. rewrite IHForall. reflexivity. Qed.

  Lemma ser_entries_map d keep (f : pyval -> wire) tr acc :
    (forall k, tr k = k) ->
    Forall (fun kv => ser c (snd kv) None keep = Done (f (snd kv), [])) d ->
    ser_entries tr (fun _ => None) keep (map (fun kv => (fst kv, ser c (snd kv))) d) acc =
    Done (put_all (map (fun kv => (fst kv, f (snd kv))) d) acc, []).
  Proof.
    intros Htr HF. revert acc. induction HF as [|[k x] d Hx HF IH]; intros acc; simpl; auto.
    simpl in Hx. rewrite Hx. simpl. rewrite IH, Htr. reflexivity.
  Qed.

  Lemma map_fst_snd {A B} (f : A -> B) (d : list (string * A)) :
    map fst (map (fun kv => (fst kv, f (snd kv))) d) = map fst d.
  Proof. now rewrite map_map. Qed.

  Lemma put_all_nil_wf (f : pyval -> wire) d : wf_dict d ->
    put_all (map (fun kv => (fst kv, f (snd kv))) d) [] = map (fun kv => (fst kv, f (snd kv))) d.
  Proof. intros H. rewrite put_all_fresh; auto. now rewrite map_fst_snd. Qed.

  Lemma ser_data v : asset_data v -> forall keep, ser c v None keep = Done (wire_of v, []).
  Proof.
    induction v using pyval_ind'; intros Hp keep; try (simpl in Hp; contradiction); try reflexivity.
    - apply data_list in Hp. simpl. rewrite (ser_elems_map l keep wire_of); auto.
      rewrite Forall_forall in *. auto.
    - apply data_dict in Hp as [[Hw _] Hp]. simpl.
      rewrite (ser_entries_map d keep wire_of); auto.
      + simpl. now rewrite put_all_nil_wf.
      + rewrite Forall_forall in *. auto.
    - change (asset_tree (VAssetArchive d)) in Hp. apply tree_archive in Hp as [[Hw _] Hp]. simpl.
      rewrite (ser_entries_map d false wire_of); auto.
      + simpl. now rewrite put_all_nil_wf.
      + rewrite Forall_forall in *. intros kv Hkv. apply H; auto. apply tree_data. auto.
  Qed.
End Ser.

(* ------------------------------------------------------------------ *)

Definition dfn (dc : dcfg) (d : list (string * wire)) : dict (wire * deser_fn) :=
  map (fun kv => (fst kv, (snd kv, deser dc (snd kv)))) d.

Lemma dget_dfn dc d k : dget (dfn dc d) k = option_map (fun w => (w, deser dc w)) (dget d k).
Proof. apply (dget_map (fun w => (w, deser dc w))). Qed.

Lemma deser_wstruct dc d keep :
  deser dc (WStruct d) keep = rbind (deser_struct dc (dfn dc d) keep false) (fun p => Ok (bubble_dict p)).
Proof. reflexivity. Qed.
Lemma deser_wlist dc l keep :
  deser dc (WList l) keep = rbind (rmap (fun x => deser dc x keep) l) (fun vs => Ok (bubble_list vs)).
Proof. reflexivity. Qed.

(** Deserialising an ordinary struct, entry by entry. *)
Fixpoint keep_entries (ki : bool) (d : list (string * pyval)) : dict pyval :=
  match d with
  | [] => []
  | (k, v) :: d' => if negb ki && is_internal k then keep_entries ki d'
                    else if is_none v then keep_entries ki d' else (k, v) :: keep_entries ki d'
  end.

Lemma deser_entries_map dc d keep ki (f : string * wire -> pyval) :
  Forall (fun kv => negb ki && is_internal (fst kv) = false -> deser dc (snd kv) keep = Ok (f kv)) d ->
  deser_entries keep ki (dfn dc d) = Ok (keep_entries ki (map (fun kv => (fst kv, f kv)) d)).
Proof.
  induction 1 as [|[k w] d Hx HF IH]; simpl; auto. simpl in Hx.
  destruct (negb ki && is_internal k) eqn:E; auto. rewrite Hx by auto. simpl. rewrite IH. simpl.
  destruct (is_none (f (k, w))); reflexivity.
Qed.

Lemma deser_plain_struct dc d keep ki :
  dget d sig_key = None ->
  deser_struct dc (dfn dc d) keep ki = rbind (deser_entries keep ki (dfn dc d)) (fun x => Ok (VDict x)).
Proof. intros H. unfold deser_struct. rewrite dget_dfn, H. reflexivity. Qed.

Fixpoint drop_entries (d : list (string * pyval)) : list (string * pyval) :=
  match d with
  | [] => []
  | (k, x) :: d' => if is_none x then drop_entries d' else (k, drop_nulls x) :: drop_entries d'
  end.
Lemma drop_nulls_dict d : drop_nulls (VDict d) = VDict (drop_entries d).
Proof. reflexivity. Qed.

Lemma drop_is_none v : is_none (drop_nulls v) = is_none v.
Proof. destruct v; reflexivity. Qed.

Lemma keep_entries_drop ki d :
  (forall k, In k (dkeys d) -> is_internal k = false) ->
  keep_entries ki (map (fun kv => (fst kv, drop_nulls (snd kv))) d) = drop_entries d.
Proof.
  induction d as [|[k x] d IH]; simpl; intros Hk; auto.
  rewrite Hk by auto. rewrite andb_false_r, drop_is_none.
  destruct (is_none x); rewrite IH; auto.
Qed.

Lemma dkeys_drop d k : In k (dkeys (drop_entries d)) -> In k (dkeys d).
Proof.
  induction d as [|[k1 x] d IH]; simpl; auto. destruct (is_none x); simpl; tauto.
Qed.

Lemma is_rpc_secret_nosig d : ~ In sig_key (dkeys d) -> is_rpc_secret (VDict d) = false.
Proof. intros H. unfold is_rpc_secret. apply dget_None in H. now rewrite H. Qed.

Lemma data_not_secret v : asset_data v -> is_rpc_secret (drop_nulls v) = false.
Proof.
  destruct v; try reflexivity. intros H. apply data_dict in H as [[_ [Hs _]] _].
  rewrite drop_nulls_dict. apply is_rpc_secret_nosig. intros K. apply Hs. now apply dkeys_drop.
Qed.

Lemma existsb_false {A} (f : A -> bool) l : Forall (fun x => f x = false) l -> existsb f l = false.
Proof. induction 1; simpl; auto. now rewrite H, IHForall. Qed.

Lemma rmap_ok {A B} (f : A -> res B) (g : A -> B) l :
  Forall (fun x => f x = Ok (g x)) l -> rmap f l = Ok (map g l).
Proof. induction 1; simpl; auto. rewrite H. simpl. rewrite IHForall. reflexivity. Qed.

Lemma drop_entries_forall (P : pyval -> Prop) d :
  Forall (fun kv => P (drop_nulls (snd kv))) d -> Forall (fun kv => P (snd kv)) (drop_entries d).
Proof.
  induction 1 as [|[k x] d Hx HF IH]; simpl; auto. destruct (is_none x); auto.
Qed.

Lemma tree_drop v : asset_tree v -> drop_nulls v = v.
Proof. destruct v; simpl; auto; tauto. Qed.
Lemma tree_not_none v : asset_tree v -> is_none v = false.
Proof. destruct v; simpl; auto; tauto. Qed.
Lemma tree_is_asset v : asset_tree v -> is_asset_or_archive v = true.
Proof. destruct v; simpl; auto; tauto. Qed.

Lemma dget_wire_sig d : ~ In sig_key (dkeys d) ->
  dget (map (fun kv => (fst kv, wire_of (snd kv))) d) sig_key = None.
Proof. intros H. rewrite (dget_map wire_of). apply dget_None in H. now rewrite H. Qed.

Lemma deser_data_entries dc d keep ki :
  good_keys d ->
  Forall (fun kv => deser dc (wire_of (snd kv)) keep = Ok (drop_nulls (snd kv))) d ->
  deser_struct dc (dfn dc (map (fun kv => (fst kv, wire_of (snd kv))) d)) keep ki = Ok (VDict (drop_entries d)).
Proof.
  intros (Hw & Hs & Hi) HF. rewrite deser_plain_struct by now apply dget_wire_sig.
  assert (E : deser_entries keep ki (dfn dc (map (fun kv => (fst kv, wire_of (snd kv))) d)) =
     Ok (keep_entries ki (map (fun kv => (fst kv, drop_nulls (snd kv))) d))).
  { clear -HF. induction HF as [|[k x] d Hx HF IH]; simpl; auto. simpl in Hx.
    destruct (negb ki && is_internal k); auto. rewrite Hx. simpl. rewrite IH. simpl.
    destruct (is_none (drop_nulls x)); reflexivity. }
  rewrite E. simpl. rewrite keep_entries_drop; auto.
Qed.

Lemma drop_tree_entries d : Forall (fun kv => asset_tree (snd kv)) d -> drop_entries d = d.
Proof.
  induction 1 as [|[k x] d Hx HF IH]; simpl; auto. simpl in Hx.
  rewrite tree_not_none, tree_drop, IH; auto.
Qed.

Lemma deser_archive dc w keep :
  deser dc (WStruct [(sig_key, WStr archive_sig); ("assets", w)]) keep =
  rbind (rbind (deser dc w false) mk_asset_archive) (fun p => Ok (bubble_dict p)).
Proof. reflexivity. Qed.

Lemma deser_data dc v : asset_data v -> forall keep, deser dc (wire_of v) keep = Ok (drop_nulls v).
Proof.
  induction v using pyval_ind'; intros Hp keep; try (simpl in Hp; contradiction); try reflexivity.
  - simpl in Hp |- *. destruct (String.eqb_spec s UNKNOWN); [contradiction|reflexivity].
  - apply data_list in Hp. cbn [wire_of]. rewrite deser_wlist.
    assert (E : rmap (fun x => deser dc x keep) (map wire_of l) = Ok (map drop_nulls l)).
    { clear -H Hp. induction H; simpl; auto. inv Hp. rewrite H by auto. simpl. rewrite IHForall by auto. reflexivity. }
    rewrite E. simpl. unfold bubble_list. rewrite existsb_false; auto.
    rewrite Forall_forall in *. intros x Hx. apply in_map_iff in Hx as (y & <- & Hy). apply data_not_secret. auto.
  - apply data_dict in Hp as [Hg Hp]. cbn [wire_of]. rewrite deser_wstruct.
    rewrite deser_data_entries; auto.
    2:{ rewrite Forall_forall in *. auto. }
    cbn [rbind]. rewrite drop_nulls_dict. f_equal. unfold bubble_dict. rewrite existsb_false; auto.
    apply (drop_entries_forall (fun v => is_rpc_secret v = false)).
    rewrite Forall_forall in *. intros kv Hkv. apply data_not_secret. auto.
  - change (asset_tree (VAssetArchive d)) in Hp. apply tree_archive in Hp as [Hg Hp].
    cbn [wire_of]. rewrite deser_archive. rewrite deser_wstruct. rewrite deser_data_entries; auto.
    2:{ rewrite Forall_forall in *. intros kv Hkv. apply H; auto. apply tree_data; auto. }
    cbn [rbind]. rewrite drop_tree_entries by auto.
    unfold bubble_dict. rewrite existsb_false.
    2:{ rewrite Forall_forall in *. intros kv Hkv. specialize (Hp _ Hkv). simpl in Hp. destruct (snd kv); simpl in Hp; auto; tauto. }
    simpl. replace (forallb (fun kv => is_asset_or_archive (snd kv)) d) with true; auto.
    symmetry. apply forallb_forall. rewrite Forall_forall in Hp. intros kv Hkv. apply tree_is_asset. apply (Hp _ Hkv).
Qed.

Lemma ser_props_data c keep d st pd :
  (forall k, transform c k = k) -> Forall (fun kv => asset_data (snd kv)) d ->
  wf_dict (st ++ map (fun kv => (fst kv, wire_of (snd kv))) d) -> dkeys pd = dkeys st ->
  ser_props_loop c None keep d st pd =
  Done (st ++ map (fun kv => (fst kv, wire_of (snd kv))) (filter (fun kv => negb (is_none (snd kv))) d),
        pd ++ map (fun kv => (fst kv, [])) (filter (fun kv => negb (is_none (snd kv))) d)).
Proof.
  intros Hid HF. revert st pd. induction HF as [|[k x] d Hx HF IH]; intros st pd Hw Hpd; simpl.
  - now rewrite !app_nil_r.
  - simpl in Hx. rewrite (ser_data c Hid x Hx). simpl. unfold top_key. rewrite Hid.
    assert (Hk : ~ In k (dkeys st)).
    { unfold wf_dict, dkeys in Hw. rewrite map_app in Hw. simpl in Hw. apply NoDup_remove_2 in Hw.
      rewrite in_app_iff in Hw. unfold dkeys. tauto. }
    destruct (is_none x) eqn:En.
    + destruct x; try discriminate. simpl. apply IH; auto.
      unfold wf_dict, dkeys in *. rewrite map_app in *. simpl in Hw. now apply NoDup_remove_1 in Hw.
    + assert (Hnn : forall A (a b : A), match wire_of x with WNull => a | _ => b end = b).
      { destruct x; try discriminate; simpl in Hx; try contradiction; reflexivity. }
      rewrite Hnn. rewrite !dset_fresh; auto; [|now rewrite Hpd].
      rewrite IH.
      * simpl. rewrite <- !app_assoc. reflexivity.
      * rewrite <- app_assoc. exact Hw.
      * unfold dkeys in *. rewrite !map_app. simpl. now rewrite Hpd.
Qed.

Lemma drop_filter d : drop_entries (filter (fun kv => negb (is_none (snd kv))) d) = drop_entries d.
Proof.
  induction d as [|[k x] d IH]; simpl; auto. destruct (is_none x) eqn:E; simpl; auto. rewrite E. now rewrite IH.
Qed.

Lemma round_trip c keep d dc ku ki :
  (forall k, transform c k = k) -> asset_data (VDict d) ->
  exists st pd, serialize_properties c None keep d = Done (st, pd) /\
    deserialize_properties dc st ku ki = Ok (drop_nulls (VDict d)).
Proof.
  intros Hid Hp. apply data_dict in Hp as [(Hw & Hs & Hi) Hp].
  unfold serialize_properties. rewrite ser_props_data; auto.
  2:{ simpl. unfold wf_dict. rewrite dkeys_map. exact Hw. }
  simpl. eexists _, _. split; [reflexivity|].
  unfold deserialize_properties. fold (dfn dc (map (fun kv => (fst kv, wire_of (snd kv))) (filter (fun kv => negb (is_none (snd kv))) d))).
  rewrite deser_data_entries.
  - rewrite drop_filter. reflexivity.
  - assert (Hsub : forall k, In k (dkeys (filter (fun kv => negb (is_none (snd kv))) d)) -> In k (dkeys d)).
    { intros k Hk. unfold dkeys in *. apply in_map_iff in Hk as (kv & <- & Hkv). apply filter_In in Hkv as [Hkv _]. now apply in_map. }
    split; [|split].
    + now apply map_fst_filter_NoDup.
    + auto.
    + auto.
  - rewrite Forall_forall in *. intros kv Hkv. apply filter_In in Hkv as [Hkv _]. apply deser_data. auto.
Qed.
