(** Proofs about deserialisation, continued: C11, C16, C17, C18, C22, C23. *)
From Verif Require Import Base PyVal Model_Output Spec_Output Proof_Output Proof_FromInput Model_Urn Model_Rpc Spec_Rpc
  Proof_Ser Proof_Ser2 Proof_Ser3 Proof_Round Proof_Deser.

(* ------------------------------------------------------------------ *)
(** An exposed secret makes the property secret. *)

Lemma wrap_secret v : is_rpc_secret (wrap_rpc_secret v) = true.
Proof. unfold wrap_rpc_secret. destruct (is_rpc_secret v) eqn:E; auto. Qed.

Lemma dget_unwrap_str d k s : dget d k = Some (VStr s) ->
  dget (map (fun kv => (fst kv, unwrap_rpc_secret (snd kv))) d) k = Some (VStr s).
Proof. intros H. rewrite (dget_map unwrap_rpc_secret), H. reflexivity. Qed.

Lemma bubble_keeps_secret v : is_rpc_secret v = true -> is_rpc_secret (bubble_dict v) = true.
Proof.
  destruct v; try discriminate. intros H. unfold bubble_dict.
  destruct (existsb _ d); [apply wrap_secret|exact H].
Qed.

Lemma exposes_is_secret dc w : forall keep v,
  exposes_secret w -> deser dc w keep = Ok v -> is_rpc_secret v = true.
Proof.
  intros keep v (d0 & Hd0 & He). revert keep v.
  induction He as [|x l Hin He IH|k x d Hs Hin Hi He IH]; intros keep v E.
  - rewrite deser_wstruct in E. destruct (deser_struct dc (dfn dc d0) keep false) as [p|] eqn:Es; [|discriminate].
    cbn [rbind] in E. injection E as <-. apply deser_struct_secret in Es; auto.
    destruct Es as (w & x & _ & _ & ->). apply bubble_keeps_secret, wrap_secret.
  - rewrite deser_wlist in E. destruct (rmap (fun x => deser dc x keep) l) as [vs|] eqn:Er; [|discriminate].
    cbn [rbind] in E. injection E as <-. apply rmap_inv in Er.
    destruct (F2_in_l _ _ _ _ Er Hin) as (y & Hy & Ey).
    unfold bubble_list. replace (existsb is_rpc_secret vs) with true; [apply wrap_secret|].
    symmetry. apply existsb_exists. exists y. split; auto. eapply IH; eauto.
  - rewrite deser_wstruct in E. destruct (deser_struct dc (dfn dc d) keep false) as [p|] eqn:Es; [|discriminate].
    cbn [rbind] in E. injection E as <-. rewrite deser_plain_struct in Es by auto.
    destruct (deser_entries keep false (dfn dc d)) as [d'|] eqn:Ee; [|discriminate].
    cbn [rbind] in Es. injection Es as <-. apply deser_entries_inv in Ee as (_ & B & _ & _).
    destruct (B k x Hin) as (v0 & Ev & Hv); [now (change is_internal with internal_key; rewrite Hi)|].
    pose proof (IH _ _ Ev) as Hsec. assert (Hn : is_none v0 = false) by (destruct v0; auto; discriminate).
    unfold bubble_dict. replace (existsb _ d') with true; [apply wrap_secret|].
    symmetry. apply existsb_exists. exists (k, v0). split; auto.
Qed.

(* ------------------------------------------------------------------ *)
(** C16: no sentinel string is left. *)

Definition clean (v : pyval) : Prop := ~ within_deep (VStr UNKNOWN) v.

Lemma clean_list l : clean (VList l) <-> forall x, In x l -> clean x.
Proof.
  split.
  - intros H x Hx Hw. apply H. econstructor; eauto.
  - intros H Hw. inv Hw. eapply H; eauto.
Qed.
Lemma clean_dict d : clean (VDict d) <-> forall k x, In (k, x) d -> clean x.
Proof.
  split.
  - intros H k x Hx Hw. apply H. econstructor; eauto.
  - intros H Hw. inv Hw. eapply H; eauto.
Qed.
Lemma clean_archive d : clean (VDict d) -> clean (VAssetArchive d).
Proof. intros H Hw. inv Hw. apply H. econstructor; eauto. Qed.
Lemma clean_unwrap v : clean v -> clean (unwrap_rpc_secret v).
Proof.
  destruct v; auto. intros H. unfold unwrap_rpc_secret. destruct (is_rpc_secret (VDict d)); auto.
  destruct (dget d "value") eqn:E; auto. apply dget_In in E. apply (proj1 (clean_dict d) H "value"). auto.
Qed.
Lemma clean_wrap v : clean v -> clean (wrap_rpc_secret v).
Proof.
  intros H. unfold wrap_rpc_secret. destruct (is_rpc_secret v); auto.
  apply clean_dict. simpl. intros k x [[= <- <-]|[[= <- <-]|[]]]; auto. intros K; inv K.
Qed.
Lemma clean_bubble v : clean v -> clean (bubble_dict v).
Proof.
  destruct v; auto. intros H. unfold bubble_dict. destruct (existsb _ d); auto.
  apply clean_wrap. apply clean_dict. intros k x Hin. apply in_map_iff in Hin as ([k' y] & [= <- <-] & Hin).
  apply clean_unwrap. apply (proj1 (clean_dict d) H k'). auto.
Qed.
Lemma clean_leaf_str s : s <> UNKNOWN -> clean (VStr s).
Proof. intros H K. inv K. congruence. Qed.

Lemma no_sentinel dc w : forall keep v, deser dc w keep = Ok v -> clean v.
Proof.
  induction w using wire_ind'; intros keep v E.
  - injection E as <-. intros K; inv K.
  - injection E as <-. intros K; inv K.
  - injection E as <-. intros K; inv K.
  - simpl in E. injection E as <-. destruct (String.eqb_spec s UNKNOWN).
    + destruct (d_dry dc || keep); intros K; inv K.
    + now apply clean_leaf_str.
  - rewrite deser_wlist in E. destruct (rmap (fun x => deser dc x keep) l) as [vs|] eqn:Er; [|discriminate].
    cbn [rbind] in E. injection E as <-. apply rmap_inv in Er. rewrite Forall_forall in H.
    assert (HR : forall v, In v vs -> clean v).
    { intros y Hv. destruct (F2_in_r _ _ _ _ Er Hv) as (x & Hx & Ev). eapply H; eauto. }
    unfold bubble_list. destruct (existsb is_rpc_secret vs).
    + apply clean_wrap. apply clean_list. intros x Hx. apply in_map_iff in Hx as (y & <- & Hy). apply clean_unwrap; auto.
    + now apply clean_list.
  - rewrite deser_wstruct in E. destruct (deser_struct dc (dfn dc d) keep false) as [p|] eqn:Es; [|discriminate].
    cbn [rbind] in E. injection E as <-. rewrite Forall_forall in H. apply clean_bubble.
    destruct (sig_cases d) as [Hs|Hs|Hs|Hs|Hs|Hs|Hs].
    + rewrite deser_plain_struct in Es by auto.
      destruct (deser_entries keep false (dfn dc d)) as [d'|] eqn:Ee; [|discriminate].
      cbn [rbind] in Es. injection Es as <-. apply deser_entries_inv in Ee as (A & _).
      apply clean_dict. intros k x Hin. destruct (A k x Hin) as (w & Hw & _ & Ev & _). eapply (H (k, w)); eauto.
    + apply deser_struct_asset in Es; auto. destruct Es as (s & [->|[->| ->]]); intros K; inv K.
    + apply deser_struct_archive in Es; auto. destruct Es as [(s & [->| ->])|(w & d' & Ha & Ew & -> & Hall)].
      1,2: intros K; inv K.
      apply clean_archive. apply dget_In in Ha. eapply (H ("assets", w)); eauto.
    + apply deser_struct_secret in Es; auto. destruct Es as (w & x & Hv & Ew & ->).
      apply clean_wrap. apply dget_In in Hv. eapply (H ("value", w)); eauto.
    + apply deser_struct_resource in Es; auto.
      destruct Es as (urn & q & _ & Hp & [(n & ->)|[(Hi & [->| ->])|[(w & Hi & Hne & Ew)|(Hi & ->)]]]);
        try (intros K; inv K; fail).
      * apply dget_In in Hi. eapply (H ("id", w)); eauto.
      * apply clean_leaf_str. intros ->. vm_compute in Hp. discriminate.
    + apply deser_struct_output in Es; auto. destruct Es as (ds & x & k & s & -> & Hx).
      assert (Hcx : clean x).
      { destruct (dget d "value") as [w|] eqn:Ev.
        - destruct Hx as [_ Hx]. apply dget_In in Ev. eapply (H ("value", w)); eauto.
        - destruct Hx as [_ ->]. intros K; inv K. }
      intros K. unfold VO, new_output in K. simpl in K. inv K. auto.
    + destruct (Hs dc keep false) as (e & He). congruence.
Qed.

(* ------------------------------------------------------------------ *)
(** C16, C17: sentinels become unknowns, in place. *)

Lemma deser_entries_dget dc d keep ki d' k x v :
  deser_entries keep ki (dfn dc d) = Ok d' ->
  dget d k = Some x -> negb ki && is_internal k = false -> deser dc x keep = Ok v -> is_none v = false ->
  dget d' k = Some v.
Proof.
  revert d'. induction d as [|[k1 w] d IH]; intros d'; simpl; [discriminate|].
  intros E Hg Hi Ev Hn.
  destruct (String.eqb_spec k k1) as [->|N].
  - injection Hg as ->. rewrite Hi in E. rewrite Ev in E. simpl in E.
    destruct (deser_entries keep ki (dfn dc d)); simpl in E; try discriminate. injection E as <-.
    rewrite Hn. simpl. now rewrite String.eqb_refl.
  - destruct (negb ki && is_internal k1); [auto|].
    destruct (deser dc w keep) as [v1|]; simpl in E; try discriminate.
    destruct (deser_entries keep ki (dfn dc d)) as [d2|]; simpl in E; try discriminate. injection E as <-.
    destruct (is_none v1); [auto|]. simpl. apply String.eqb_neq in N. rewrite N. auto.
Qed.

Lemma val_at_not_none v p : val_at (unwrap_rpc_secret v) p VUnknown -> is_none v = false.
Proof. destruct v; auto. intros H. inv H. Qed.

Lemma msg_at_part w p w' : msg_at w p w' -> forall d, part (WStruct d) w' -> part (WStruct d) w.
Proof.
  induction 1; intros d0 Hp; auto.
  - apply nth_error_In in H. eapply part_list_in; eauto.
  - apply dget_In in H0. eapply part_struct_in; eauto.
  - apply dget_In in H0. eapply part_struct_in; eauto.
Qed.

Definition sees_unknowns (dc : dcfg) (keep : bool) (w : wire) : Prop :=
  d_dry dc = true \/ keep = true /\ without_sig secret_sig w.

Lemma sees_sub dc keep w x : sees_unknowns dc keep w -> (forall d, part (WStruct d) x -> part (WStruct d) w) -> sees_unknowns dc keep x.
Proof. intros [H|[H K]] S; [now left|right]. split; auto. eapply sub_without; eauto. Qed.

Lemma unknown_positions dc w p w' : msg_at w p w' -> w' = WStr UNKNOWN -> forall keep v,
  string_ids w -> sees_unknowns dc keep w -> deser dc w keep = Ok v -> val_at (unwrap_rpc_secret v) p VUnknown.
Proof.
  induction 1 as [w|l n x p w' Hn Hm IH|d k x p w' Hs Hg Hi Hm IH|d x p w' Hs Hg Hm IH]; intros Hw keep v Hid Hd E.
  - subst w. simpl in E. change (String.eqb UNKNOWN UNKNOWN) with true in E. 
    assert (K : d_dry dc || keep = true) by (destruct Hd as [->|[-> _]]; auto using orb_true_r).
    rewrite K in E. injection E as <-. constructor.
  - rewrite deser_wlist in E. destruct (rmap (fun x => deser dc x keep) l) as [vs|] eqn:Er; [|discriminate].
    cbn [rbind] in E. injection E as <-. apply rmap_inv in Er.
    assert (Hv : exists y, nth_error vs n = Some y /\ deser dc x keep = Ok y).
    { clear -Er Hn. revert n Hn. induction Er; intros [|n] Hn; simpl in *; try discriminate; eauto. injection Hn as ->. eauto. }
    destruct Hv as (y & Hy & Ey).
    assert (Hsub : forall d, part (WStruct d) x -> part (WStruct d) (WList l)).
    { intros d Hp. apply nth_error_In in Hn. eapply part_list_in; eauto. }
    assert (Hat : val_at (unwrap_rpc_secret y) p VUnknown).
    { apply (IH Hw keep); auto; [eapply sub_string_ids; eauto|eapply sees_sub; eauto]. }
    unfold bubble_list. destruct (existsb is_rpc_secret vs) eqn:Eb.
    + change (val_at (VList (map unwrap_rpc_secret vs)) (Idx n :: p) VUnknown).
      apply VA_list with (unwrap_rpc_secret y); auto. rewrite nth_error_map, Hy. reflexivity.
    + change (val_at (VList vs) (Idx n :: p) VUnknown). apply VA_list with y; auto.
      rewrite unwrap_plain in Hat; auto. apply nth_error_In in Hy. apply (existsb_not _ _ _ Eb Hy).
  - rewrite deser_wstruct in E. destruct (deser_struct dc (dfn dc d) keep false) as [q|] eqn:Es; [|discriminate].
    cbn [rbind] in E. injection E as <-. rewrite deser_plain_struct in Es by auto.
    destruct (deser_entries keep false (dfn dc d)) as [d'|] eqn:Ee; [|discriminate].
    cbn [rbind] in Es. injection Es as <-.
    pose proof (deser_entries_inv _ _ _ _ _ Ee) as (_ & B & C & _).
    destruct (B k x) as (y & Ey & _); [now apply dget_In|now (change is_internal with internal_key; rewrite Hi)|].
    assert (Hsub : forall d0, part (WStruct d0) x -> part (WStruct d0) (WStruct d)).
    { intros d0 Hp. apply dget_In in Hg. eapply part_struct_in; eauto. }
    assert (Hat : val_at (unwrap_rpc_secret y) p VUnknown).
    { apply (IH Hw keep); auto; [eapply sub_string_ids; eauto|eapply sees_sub; eauto]. }
    assert (Hk : dget d' k = Some y).
    { eapply deser_entries_dget; eauto. eapply val_at_not_none; eauto. }
    assert (Hns : ~ In sig_key (dkeys d')).
    { intros K. apply C in K. apply dget_None in Hs. contradiction. }
    unfold bubble_dict. destruct (existsb (fun kv => is_rpc_secret (snd kv)) d') eqn:Eb.
    + unfold wrap_rpc_secret. rewrite is_rpc_secret_nosig by (rewrite dkeys_map; auto).
      change (val_at (VDict (map (fun kv => (fst kv, unwrap_rpc_secret (snd kv))) d')) (Key k :: p) VUnknown).
      apply VA_key with (unwrap_rpc_secret y); auto. rewrite (dget_map unwrap_rpc_secret), Hk. reflexivity.
    + rewrite unwrap_plain by now apply is_rpc_secret_nosig. apply VA_key with y; auto.
      rewrite unwrap_plain in Hat; auto. apply dget_In in Hk. apply (existsb_not _ _ _ Eb Hk).
  - rewrite deser_wstruct in E. destruct (deser_struct dc (dfn dc d) keep false) as [q|] eqn:Es; [|discriminate].
    cbn [rbind] in E. injection E as <-.
    apply deser_struct_secret in Es; auto. destruct Es as (w0 & y & Hv & Ew & ->).
    rewrite Hv in Hg. injection Hg as ->.
    assert (Hdry : d_dry dc = true).
    { destruct Hd as [Hd|[_ Hd]]; auto. exfalso. apply (Hd d); auto. constructor. }
    assert (Hsub : forall d0, part (WStruct d0) x -> part (WStruct d0) (WStruct d)).
    { intros d0 Hp. apply dget_In in Hv. eapply part_struct_in; eauto. }
    assert (Hids : string_ids x) by (eapply sub_string_ids; eauto).
    assert (Hat : val_at (unwrap_rpc_secret y) p VUnknown).
    { apply (IH Hw false); auto. now left. }
    destruct (deser_marks dc x false y Ew Hids) as (H1 & H2 & H3 & _).
    unfold wrap_rpc_secret. destruct (is_rpc_secret y) eqn:Ey.
    + destruct (H1 (H2 eq_refl)) as (z & Hz). unfold marked_secret in Hz. subst y.
      change (VDict [(sig_key, VStr secret_sig); ("value", z)]) with (vsecret z).
      rewrite bubble_vsecret by (apply unmarked_not_secret; exact H3). exact Hat.
    + rewrite bubble_vsecret by auto. simpl. rewrite unwrap_plain in Hat; auto.
Qed.

Lemma unknown_positions_top dc d keep ki v k x p :
  dget d sig_key = None -> dget d k = Some x -> ki = true \/ is_internal k = false ->
  msg_at x p (WStr UNKNOWN) -> string_ids x -> sees_unknowns dc keep x ->
  deserialize_properties dc d keep ki = Ok v ->
  exists d' u, v = VDict d' /\ dget d' k = Some u /\ val_at (unwrap_rpc_secret u) p VUnknown.
Proof.
  intros Hs Hg Hi Hm Hid Hd E. unfold deserialize_properties in E. fold (dfn dc d) in E.
  rewrite deser_plain_struct in E by auto.
  destruct (deser_entries keep ki (dfn dc d)) as [d'|] eqn:Ee; [|discriminate].
  cbn [rbind] in E. injection E as <-.
  assert (Hi' : negb ki && is_internal k = false) by (destruct Hi as [->| ->]; auto using andb_false_r).
  pose proof (deser_entries_inv _ _ _ _ _ Ee) as (_ & B & _).
  destruct (B k x) as (y & Ey & _); auto; [now apply dget_In|].
  pose proof (unknown_positions dc x p _ Hm eq_refl keep y Hid Hd Ey) as Hat.
  exists d', y. split; auto. split; auto.
  eapply deser_entries_dget; eauto. eapply val_at_not_none; eauto.
Qed.

(* ------------------------------------------------------------------ *)
(** C18. *)
Lemma internal_keys dc d keep ki v :
  dget d sig_key = None -> wf_dict d ->
  deserialize_properties dc d keep ki = Ok v ->
  exists d', v = VDict d' /\ wf_dict d' /\
  forall k y, dget d' k = Some y <->
    exists w, dget d k = Some w /\ (ki = true \/ is_internal k = false) /\
              deser dc w keep = Ok y /\ y <> VNone.
Proof.
  intros Hs Hw E. unfold deserialize_properties in E. fold (dfn dc d) in E.
  rewrite deser_plain_struct in E by auto.
  destruct (deser_entries keep ki (dfn dc d)) as [d'|] eqn:Ee; [|discriminate].
  cbn [rbind] in E. injection E as <-. exists d'. split; auto.
  pose proof (deser_entries_inv _ _ _ _ _ Ee) as (A & B & C & D). split; auto.
  intros k y. split.
  - intros Hy. apply dget_In in Hy. destruct (A k y Hy) as (w & Hin & Hi & Ey & Hn). exists w.
    split; [now apply In_dget|]. split; [destruct ki; auto; right; destruct (is_internal k); auto; discriminate|].
    split; auto. intros ->. discriminate.
  - intros (w & Hg & Hi & Ey & Hn).
    eapply deser_entries_dget; eauto.
    + destruct Hi as [->| ->]; auto using andb_false_r.
    + destruct y; auto; congruence.
Qed.

(* ------------------------------------------------------------------ *)
(** C22. *)
Lemma resource_refs c dc r u p t keep ku :
  c_refs c = true -> r_urn (c_res c r) = Done (Some u) -> parse_urn u = Ok p ->
  let lookup := if String.eqb (u_pkg p) "pulumi" && String.eqb (u_mod p) "providers"
                then d_pkg dc (u_tname p) "" else d_mod dc (u_pkg p) (u_mod p) "" in
  (r_custom (c_res c r) = false ->
   exists w, ser c (VRes r) t keep = Done (w, [r]) /\
     (forall n, lookup = Ok (Some n) -> deser dc w ku = Ok (VConstructed n (u_name p) (u_typ p) u)) /\
     (lookup = Ok None -> deser dc w ku = Ok (VStr u))) /\
  (forall i, r_custom (c_res c r) = true -> r_id (c_res c r) = Done i ->
   exists w, ser c (VRes r) t keep = Done (w, [r; r]) /\
     (forall n, lookup = Ok (Some n) -> deser dc w ku = Ok (VConstructed n (u_name p) (u_typ p) u)) /\
     (lookup = Ok None ->
        match i with
        | Some s => s <> "" -> s <> UNKNOWN -> deser dc w ku = Ok (VStr s)
        | None => deser dc w ku = Ok (if d_dry dc || ku then VUnknown else VNone)
        end)).
Proof.
  intros Hr Hu Hp lookup. split.
  - intros Hc. simpl. rewrite Hr, Hu. simpl. rewrite Hc. eexists; split; [reflexivity|].
    split.
    + intros n Hl. simpl. unfold deser_struct, deser_resource. simpl. unfold d_find. rewrite Hp. simpl. fold lookup. rewrite Hl. reflexivity.
    + intros Hl. simpl. unfold deser_struct, deser_resource. simpl. unfold d_find. rewrite Hp. simpl. fold lookup. rewrite Hl. reflexivity.
  - intros i Hc Hi. simpl. rewrite Hr, Hu. simpl. rewrite Hc, Hi. simpl. eexists; split; [reflexivity|].
    split.
    + intros n Hl. simpl. unfold deser_struct, deser_resource. simpl. unfold d_find. rewrite Hp. simpl. fold lookup. rewrite Hl. reflexivity.
    + intros Hl. destruct i as [s|].
      * intros N1 N2. simpl. unfold deser_struct, deser_resource. simpl. unfold d_find. rewrite Hp. simpl. fold lookup. rewrite Hl. simpl.
        destruct s as [|a s]; [congruence|].
        assert (E : deser dc (WStr (String a s)) ku = Ok (VStr (String a s))).
        { cbn [deser]. apply String.eqb_neq in N2. now rewrite N2. }
        change (deser dc (WStr (String a s)) ku) with (Ok (if String.eqb (String a s) UNKNOWN then (if d_dry dc || ku then VUnknown else VNone) else VStr (String a s))) in E.
        injection E as E. cbn in E |- *. rewrite E. reflexivity.
      * simpl. unfold deser_struct, deser_resource. simpl. unfold d_find. rewrite Hp. simpl. fold lookup. rewrite Hl. simpl.
        destruct (d_dry dc || ku); reflexivity.
Qed.

(* ------------------------------------------------------------------ *)
(** C23. *)
Lemma sinsert_In s l x : In x (sinsert s l) <-> x = s \/ In x l.
Proof.
  induction l as [|y l IH]; simpl; [intuition|].
  destruct (String.compare s y) eqn:E; simpl.
  - apply String.compare_eq_iff in E. subst. intuition.
  - intuition.
  - rewrite IH. intuition.
Qed.
Lemma sort_strings_In l x : In x (sort_strings l) <-> In x l.
Proof. induction l as [|y l IH]; simpl; [tauto|]. rewrite sinsert_In, IH. intuition. Qed.

Lemma deser_strings dc us : ~ In UNKNOWN us ->
  deser dc (WList (map WStr us)) false = Ok (VList (map VStr us)).
Proof.
  intros H. rewrite deser_wlist.
  assert (E : rmap (fun x => deser dc x false) (map WStr us) = Ok (map VStr us)).
  { induction us as [|u us IH]; simpl in *; auto.
    destruct (String.eqb_spec u UNKNOWN); [tauto|]. simpl. rewrite IH by tauto. reflexivity. }
  rewrite E. simpl. unfold bubble_list. rewrite existsb_false; auto.
  apply Forall_forall. intros x Hx. apply in_map_iff in Hx as (y & <- & _). reflexivity.
Qed.
Lemma all_strings_map us : all_strings (map VStr us) = Ok us.
Proof. induction us as [|u us IH]; simpl; auto. now rewrite IH. Qed.

Lemma data_no_unknowns v : asset_data v -> contains_unknowns v = false.
Proof.
  induction v using pyval_ind'; auto; simpl; try tauto.
  - intros Hp. apply existsb_false. apply (data_list l) in Hp. rewrite Forall_forall in *. auto.
  - intros Hp. apply existsb_false. apply (data_dict d) in Hp as [_ Hp]. rewrite Forall_forall in *. auto.
Qed.
Lemma drop_data_no_unknowns v : asset_data v -> contains_unknowns (drop_nulls v) = false.
Proof.
  induction v using pyval_ind'; auto; try (simpl; tauto).
  - intros Hp. apply data_list in Hp. simpl. apply existsb_false. rewrite Forall_forall in *.
    intros x Hx. apply in_map_iff in Hx as (y & <- & Hy). auto.
  - intros Hp. apply data_dict in Hp as [_ Hp]. rewrite drop_nulls_dict. simpl. apply existsb_false.
    apply (drop_entries_forall (fun v => contains_unknowns v = false)). rewrite Forall_forall in *. auto.
Qed.

Lemma dget_app {V} (a b : dict V) k : dget (a ++ b) k = match dget a k with Some v => Some v | None => dget b k end.
Proof. induction a as [|[k1 v1] a IH]; simpl; auto. destruct (String.eqb k k1); auto. Qed.

Lemma output_values c dc rs x k s t urns :
  (forall k, transform c k = k) -> c_outvals c = true -> asset_data x -> norm_ty t = None ->
  await_urns c rs = Done tt -> expand_all c rs = Done urns -> ~ In UNKNOWN urns ->
  exists w us, ser c (VOut (Done rs) (Done x) (Done k) (Done s)) t true = Done (w, rs) /\
    same_set us urns /\
    forall ku, deser dc w ku =
      Ok (VOut (Done (map RDep us)) (Done (if k then drop_nulls x else VNone)) (Done k) (Done s)).
Proof.
  intros Hid Ho Hx Ht Ha He Hu. cbn [ser fbind]. rewrite Ht.
  rewrite (data_no_unknowns x Hx), (ser_data c Hid x Hx). cbn [fbind]. rewrite Ho. cbn [andb].
  rewrite app_nil_r, Ha, He. cbn [fbind].
  exists (woutput k s (wire_of x) (sort_strings urns)), (sort_strings urns). split; [reflexivity|].
  split; [intros z; apply sort_strings_In|]. intros ku.
  unfold woutput. rewrite deser_wstruct. 
  set (d := _ :: _).
  assert (Hsig : dget d sig_key = Some (WStr output_sig)) by reflexivity.
  assert (Hval : dget d "value" = if k then Some (wire_of x) else None).
  { unfold d. destruct k; simpl; auto. destruct s; simpl; destruct (sort_strings urns); reflexivity. }
  assert (Hsec : dget d "secret" = if s then Some (WBool true) else None).
  { unfold d. destruct k, s; simpl; auto; destruct (sort_strings urns); reflexivity. }
  assert (Hdep : dget d "dependencies" = match sort_strings urns with [] => None | us => Some (WList (map WStr us)) end).
  { unfold d. destruct k, s; simpl; destruct (sort_strings urns); reflexivity. }
  rewrite (deser_struct_sig _ _ _ _ _ Hsig). cbn [String.eqb]. 
  change (String.eqb output_sig asset_sig) with false. change (String.eqb output_sig archive_sig) with false.
  change (String.eqb output_sig secret_sig) with false. change (String.eqb output_sig resource_sig) with false.
  change (String.eqb output_sig output_sig) with true. cbv iota.
  unfold deser_output_value. rewrite !dget_dfn, Hval, Hsec, Hdep.
  assert (Hus : ~ In UNKNOWN (sort_strings urns)) by now rewrite sort_strings_In.
  pose proof (deser_data dc x Hx) as Hdx. pose proof (drop_data_no_unknowns x Hx) as Hnu.
  pose proof (deser_strings dc _ Hus) as Hst. pose proof (all_strings_map (sort_strings urns)) as Hall.
  clear -Hdx Hnu Hst Hall. destruct (sort_strings urns) as [|u us]; destruct k, s; cbn [option_map rbind];
    rewrite ?Hdx, ?Hst; cbn [rbind]; rewrite ?Hall;
    try change (deser dc (WBool true) false) with (Ok (VBool true)); cbn [rbind];
    unfold VO, new_output; cbn [bubble_dict o_res o_val o_known o_secret fbind];
    rewrite ?Hnu; reflexivity.
Qed.
