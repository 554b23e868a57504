(** Proofs about deserialisation: C11, C12, C16-C18, C22, C23. *)
From Verif Require Import Base PyVal Model_Output Spec_Output Proof_Output Proof_FromInput Model_Urn Model_Rpc Spec_Rpc
  Proof_Ser Proof_Ser2 Proof_Ser3 Proof_Round.

Lemma rmap_inv {A B} (f : A -> res B) l vs :
  rmap f l = Ok vs <-> Forall2 (fun x v => f x = Ok v) l vs.
Proof.
  revert vs. induction l as [|x l IH]; intros vs; simpl.
  - split; [intros [= <-]; constructor|intros H; inv H; auto].
  - split.
    + destruct (f x) eqn:E; simpl; try discriminate. destruct (rmap f l) eqn:E'; simpl; try discriminate.
      intros [= <-]. constructor; auto. now apply IH.
    + intros H. inv H. rewrite H2. simpl. rewrite (proj2 (IH _)) by eauto. reflexivity.
Qed.

(** Entries of an ordinary struct. *)
Lemma deser_entries_inv dc d keep ki d' :
  deser_entries keep ki (dfn dc d) = Ok d' ->
  (forall k v, In (k, v) d' -> exists w, In (k, w) d /\ negb ki && is_internal k = false /\
       deser dc w keep = Ok v /\ is_none v = false) /\
  (forall k w, In (k, w) d -> negb ki && is_internal k = false ->
       exists v, deser dc w keep = Ok v /\ (is_none v = false -> In (k, v) d')) /\
  (forall k, In k (dkeys d') -> In k (dkeys d)) /\
  (wf_dict d -> wf_dict d').
Proof.
  revert d'. induction d as [|[k w] d IH]; intros d'; simpl.
  - intros [= <-]. repeat split; simpl; try tauto.
  - destruct (negb ki && is_internal k) eqn:Ei.
    + intros H. apply IH in H as (A & B & C & D). repeat split.
      * intros k0 v0 Hin. destruct (A k0 v0 Hin) as (w0 & ? & ?). exists w0. tauto.
      * intros k0 w0 [[= <- <-]|Hin] Hi; [congruence|]. eauto.
      * intros k0 Hk. right. auto.
      * intros Hw. inv Hw. auto.
    + destruct (deser dc w keep) as [v|] eqn:E; simpl; try discriminate.
      destruct (deser_entries keep ki (dfn dc d)) as [d2|] eqn:E'; simpl; try discriminate.
      intros [= <-]. destruct (IH _ eq_refl) as (A & B & C & D). destruct (is_none v) eqn:En.
      * repeat split.
        -- intros k0 v0 Hin. destruct (A k0 v0 Hin) as (w0 & ? & ?). exists w0. tauto.
        -- intros k0 w0 [[= <- <-]|Hin] Hi; [exists v; split; auto; congruence|]. eauto.
        -- intros k0 Hk. right. auto.
        -- intros Hw. inv Hw. auto.
      * repeat split.
        -- intros k0 v0 [[= <- <-]|Hin]; [exists w; auto|]. destruct (A k0 v0 Hin) as (w0 & ? & ?). exists w0. tauto.
        -- intros k0 w0 [[= <- <-]|Hin] Hi; [exists v; split; auto; now left|].
           destruct (B k0 w0 Hin Hi) as (v0 & ? & ?). exists v0. split; auto. right; auto.
        -- simpl. intros k0 [<-|Hk]; auto.
        -- intros Hw. inv Hw. unfold wf_dict. cbn [dkeys map fst]. constructor; [intros Hk; apply H1; exact (C _ Hk)|exact (D H2)].
Qed.

Lemma In_dfn d dc k x : In (k, x) (dfn dc d) -> exists w, In (k, w) d /\ x = (w, deser dc w).
Proof. unfold dfn. intros H. apply in_map_iff in H as ([k' w] & [= <- <-] & Hin). eauto. Qed.

(** The signature cases of a struct. *)
Inductive sig_case (d : list (string * wire)) : Type :=
| SC_none : dget d sig_key = None -> sig_case d
| SC_asset : dget d sig_key = Some (WStr asset_sig) -> sig_case d
| SC_archive : dget d sig_key = Some (WStr archive_sig) -> sig_case d
| SC_secret : dget d sig_key = Some (WStr secret_sig) -> sig_case d
| SC_resource : dget d sig_key = Some (WStr resource_sig) -> sig_case d
| SC_output : dget d sig_key = Some (WStr output_sig) -> sig_case d
| SC_bad : (forall dc keep ki, exists e, deser_struct dc (dfn dc d) keep ki = Err e) -> sig_case d.

Lemma sig_cases d : sig_case d.
Proof.
  destruct (dget d sig_key) as [w|] eqn:E; [|now constructor].
  destruct w; try (apply SC_bad; intros; unfold deser_struct; rewrite dget_dfn, E; simpl; eauto; fail).
  destruct (String.eqb_spec s asset_sig) as [->|N1]; [now apply SC_asset|].
  destruct (String.eqb_spec s archive_sig) as [->|N2]; [now apply SC_archive|].
  destruct (String.eqb_spec s secret_sig) as [->|N3]; [now apply SC_secret|].
  destruct (String.eqb_spec s resource_sig) as [->|N4]; [now apply SC_resource|].
  destruct (String.eqb_spec s output_sig) as [->|N5]; [now apply SC_output|].
  apply SC_bad. intros. unfold deser_struct. rewrite dget_dfn, E. simpl.
  apply String.eqb_neq in N1, N2, N3, N4, N5. rewrite N1, N2, N3, N4, N5. eauto.
Qed.

Lemma deser_struct_sig dc d keep ki s :
  dget d sig_key = Some (WStr s) ->
  deser_struct dc (dfn dc d) keep ki =
  (if String.eqb s asset_sig then
        match dget (dfn dc d) "path", dget (dfn dc d) "text", dget (dfn dc d) "uri" with
        | Some (w, _), _, _ => mk_string VFileAsset w
        | None, Some (w, _), _ => mk_string VStringAsset w
        | None, None, Some (w, _) => mk_string VRemoteAsset w
        | None, None, None => Err (Exn "AssertionError" "Invalid asset encountered when unmarshalling resource property")
        end
      else if String.eqb s archive_sig then
        match dget (dfn dc d) "assets", dget (dfn dc d) "path", dget (dfn dc d) "uri" with
        | Some (_, f), _, _ => let+ v := f false in mk_asset_archive v
        | None, Some (w, _), _ => mk_string VFileArchive w
        | None, None, Some (w, _) => mk_string VRemoteArchive w
        | None, None, None => Err (Exn "AssertionError" "Invalid archive encountered when unmarshalling resource property")
        end
      else if String.eqb s secret_sig then
        match dget (dfn dc d) "value" with
        | Some (_, f) => let+ v := f false in Ok (wrap_rpc_secret v)
        | None => value_not_set
        end
      else if String.eqb s resource_sig then deser_resource dc (dfn dc d) keep
      else if String.eqb s output_sig then deser_output_value (dfn dc d)
      else Err (Exn "AssertionError" "Unrecognized signature")).
Proof. intros H. unfold deser_struct. rewrite dget_dfn, H. reflexivity. Qed.

Lemma deser_struct_asset dc d keep ki v :
  dget d sig_key = Some (WStr asset_sig) -> deser_struct dc (dfn dc d) keep ki = Ok v ->
  exists s, v = VFileAsset s \/ v = VStringAsset s \/ v = VRemoteAsset s.
Proof.
  intros H. rewrite (deser_struct_sig _ _ _ _ _ H). cbn. rewrite !dget_dfn.
  destruct (dget d "path") as [[]|]; simpl; try discriminate.
  { intros [= <-]; eauto. }
  destruct (dget d "text") as [[]|]; simpl; try discriminate.
  { intros [= <-]; eauto. }
  destruct (dget d "uri") as [[]|]; simpl; try discriminate.
  intros [= <-]; eauto.
Qed.

Lemma mk_asset_archive_inv v v' : mk_asset_archive v = Ok v' ->
  exists d, v = VDict d /\ v' = VAssetArchive d /\ (forall k x, In (k, x) d -> is_asset_or_archive x = true).
Proof.
  destruct v; simpl; try discriminate. destruct (forallb _ d) eqn:E; try discriminate.
  intros [= <-]. exists d. split; auto. split; auto. intros k x Hin.
  rewrite forallb_forall in E. apply (E (k, x) Hin).
Qed.

Lemma deser_struct_archive dc d keep ki v :
  dget d sig_key = Some (WStr archive_sig) -> deser_struct dc (dfn dc d) keep ki = Ok v ->
  (exists s, v = VFileArchive s \/ v = VRemoteArchive s) \/
  (exists w d', dget d "assets" = Some w /\ deser dc w false = Ok (VDict d') /\ v = VAssetArchive d' /\
     forall k x, In (k, x) d' -> is_asset_or_archive x = true).
Proof.
  intros H. rewrite (deser_struct_sig _ _ _ _ _ H). cbn. rewrite !dget_dfn.
  destruct (dget d "assets") as [w|] eqn:E; simpl.
  { destruct (deser dc w false) as [x|] eqn:E'; simpl; try discriminate.
    intros M. apply mk_asset_archive_inv in M as (d' & -> & -> & Ha). right. exists w, d'. auto. }
  destruct (dget d "path") as [[]|]; simpl; try discriminate.
  { intros [= <-]; eauto. }
  destruct (dget d "uri") as [[]|]; simpl; try discriminate.
  intros [= <-]; eauto.
Qed.

Lemma deser_struct_secret dc d keep ki v :
  dget d sig_key = Some (WStr secret_sig) -> deser_struct dc (dfn dc d) keep ki = Ok v ->
  exists w x, dget d "value" = Some w /\ deser dc w false = Ok x /\ v = wrap_rpc_secret x.
Proof.
  intros H. rewrite (deser_struct_sig _ _ _ _ _ H). cbn. rewrite !dget_dfn.
  destruct (dget d "value") as [w|] eqn:E; simpl; [|discriminate].
  destruct (deser dc w false) as [x|] eqn:E'; simpl; try discriminate.
  intros [= <-]. eauto.
Qed.

Lemma deser_struct_output dc d keep ki v :
  dget d sig_key = Some (WStr output_sig) -> deser_struct dc (dfn dc d) keep ki = Ok v ->
  exists ds x k s, v = VO (new_output (Done (map RDep ds)) (Done x) (Done k) (Done s)) /\
    match dget d "value" with Some w => k = true /\ deser dc w false = Ok x | None => k = false /\ x = VNone end.
Proof.
  intros H. rewrite (deser_struct_sig _ _ _ _ _ H). cbn. unfold deser_output_value. rewrite !dget_dfn.
  destruct (dget d "value") as [w|]; simpl.
  - destruct (deser dc w false) as [x|]; simpl; try discriminate.
    match goal with |- rbind ?m _ = _ -> _ => destruct m as [s|]; simpl; try discriminate end.
    match goal with |- rbind ?m _ = _ -> _ => destruct m as [ds|]; simpl; try discriminate end.
    intros [= <-]. exists ds, x, true, s. auto.
  - match goal with |- rbind ?m _ = _ -> _ => destruct m as [s|]; simpl; try discriminate end.
    match goal with |- rbind ?m _ = _ -> _ => destruct m as [ds|]; simpl; try discriminate end.
    intros [= <-]. exists ds, VNone, false, s. auto.
Qed.

Lemma deser_struct_resource dc d keep ki v :
  dget d sig_key = Some (WStr resource_sig) -> deser_struct dc (dfn dc d) keep ki = Ok v ->
  exists urn p, dget d "urn" = Some (WStr urn) /\ parse_urn urn = Ok p /\
  ((exists n, v = VConstructed n (u_name p) (u_typ p) urn) \/
   (dget d "id" = Some (WStr EmptyString) /\ (v = VUnknown \/ v = VNone)) \/
   (exists w, dget d "id" = Some w /\ w <> WStr EmptyString /\ deser dc w keep = Ok v) \/
   (dget d "id" = None /\ v = VStr urn)).
Proof.
  intros H. rewrite (deser_struct_sig _ _ _ _ _ H). cbn [String.eqb]. change (if String.eqb resource_sig asset_sig then _ else ?b) with b.
  cbn. unfold deser_resource. rewrite !dget_dfn.
  destruct (dget d "urn") as [[| | |urn| |]|]; simpl; try discriminate.
  match goal with |- rbind ?m _ = _ -> _ => destruct m as [ver|]; simpl; try discriminate end.
  unfold d_find. destruct (parse_urn urn) as [p|] eqn:Ep; simpl; try discriminate.
  match goal with |- rbind (rbind ?m _) _ = _ -> _ => destruct m as [[n|]|]; simpl; try discriminate end.
  - intros [= <-]. exists urn, p. repeat split; auto. left. eauto.
  - destruct (dget d "id") as [w|] eqn:Ei; simpl.
    + destruct w as [| | |s| |]; try (intros E; exists urn, p; repeat split; auto; right; right; left; eexists; split; [reflexivity|split; [discriminate|exact E]]).
      destruct s as [|a s].
      * intros [= <-]. exists urn, p. repeat split; auto. right; left. split; auto. destruct (d_dry dc || keep); auto.
      * intros E. exists urn, p. repeat split; auto. right; right; left. exists (WStr (String a s)). split; auto. split; [discriminate|exact E].
    + intros [= <-]. exists urn, p. repeat split; auto.
Qed.

(* ------------------------------------------------------------------ *)
(** C12. *)

Lemma secret_shape d : is_rpc_secret (VDict d) = true -> In sig_key (dkeys d).
Proof. unfold is_rpc_secret. destruct (dget d sig_key) eqn:E; [|discriminate]. intros _. now apply dget_key in E. Qed.

Lemma unmarked_not_secret x : unmarked x -> is_rpc_secret x = false.
Proof.
  intros H. destruct (is_rpc_secret x) eqn:E; auto. destruct x; try discriminate.
  apply secret_shape in E. exfalso. apply (H d); auto. constructor.
Qed.

Lemma unmarked_list l : (forall x, In x l -> unmarked x) -> unmarked (VList l).
Proof. intros H d Hw. inv Hw. apply (H y); auto. Qed.
Lemma unmarked_dict d : ~ In sig_key (dkeys d) -> (forall k x, In (k, x) d -> unmarked x) -> unmarked (VDict d).
Proof. intros Hs H d' Hw. inv Hw; auto. apply (H k y); auto. Qed.
Lemma deeply_list l : (forall x, In x l -> deeply_unmarked x) -> deeply_unmarked (VList l).
Proof. intros H d Hw. inv Hw. apply (H y); auto. Qed.
Lemma deeply_dict d : ~ In sig_key (dkeys d) -> (forall k x, In (k, x) d -> deeply_unmarked x) -> deeply_unmarked (VDict d).
Proof. intros Hs H d' Hw. inv Hw; auto. apply (H k y); auto. Qed.
Ltac unm := let d := fresh in let H := fresh in intros d H; inversion H; subst; try discriminate; try match goal with K : _ = bubble_dict _ |- _ => cbn in K; discriminate K end.

Lemma bubble_vsecret x : is_rpc_secret x = false -> bubble_dict (vsecret x) = vsecret x.
Proof. intros H. unfold bubble_dict, vsecret. cbn [existsb snd]. rewrite H. reflexivity. Qed.

Definition deser_ok (w : wire) (v : pyval) : Prop :=
  (exposes_secret w -> exists x, marked_secret v x) /\
  (is_rpc_secret v = true -> exposes_secret w) /\
  unmarked (unwrap_rpc_secret v) /\
  (without_sig output_sig w -> deeply_unmarked (unwrap_rpc_secret v)).

Lemma unwrap_plain v : is_rpc_secret v = false -> unwrap_rpc_secret v = v.
Proof. destruct v; try reflexivity. unfold unwrap_rpc_secret. now intros ->. Qed.

Lemma exposes_leaf w : (forall d, w <> WStruct d) -> (forall l, w <> WList l) -> ~ exposes_secret w.
Proof. intros H1 H2 (d & _ & E). inv E; [eapply H1|eapply H2|eapply H1]; eauto. Qed.

Lemma exposes_sig d s : dget d sig_key = Some (WStr s) -> s <> secret_sig -> ~ exposes_secret (WStruct d).
Proof.
  intros H Hs (d' & H' & E). inv E; congruence.
Qed.

Lemma sub_string_ids w x : string_ids w -> (forall d, part (WStruct d) x -> part (WStruct d) w) -> string_ids x.
Proof. intros H K d Hp. apply H. auto. Qed.
Lemma sub_without s w x : without_sig s w -> (forall d, part (WStruct d) x -> part (WStruct d) w) -> without_sig s x.
Proof. intros H K d Hp. apply H. auto. Qed.
Lemma part_list_in x l y : In x l -> part y x -> part y (WList l).
Proof. intros. econstructor; eauto. Qed.
Lemma part_struct_in k x d y : In (k, x) d -> part y x -> part y (WStruct d).
Proof. intros. econstructor; eauto. Qed.

Lemma marked_is_secret v x : marked_secret v x -> is_rpc_secret v = true.
Proof. intros ->. reflexivity. Qed.

Lemma leaf_ok w v :
  (forall d, w <> WStruct d) -> (forall l, w <> WList l) ->
  unmarked v -> deeply_unmarked v -> deser_ok w v.
Proof.
  intros H1 H2 Hu Hd. pose proof (unmarked_not_secret v Hu) as Hn. repeat split.
  - intros K. exfalso. now apply (exposes_leaf w) in K.
  - congruence.
  - now rewrite unwrap_plain.
  - intros _. now rewrite unwrap_plain.
Qed.

Lemma nosig_ok d v s :
  dget d sig_key = Some (WStr s) -> s <> secret_sig ->
  unmarked v -> (without_sig output_sig (WStruct d) -> deeply_unmarked v) -> deser_ok (WStruct d) v.
Proof.
  intros H1 H2 Hu Hd. pose proof (unmarked_not_secret v Hu) as Hn. repeat split.
  - intros K. exfalso. now apply (exposes_sig d s) in K.
  - congruence.
  - now rewrite unwrap_plain.
  - intros W. rewrite unwrap_plain; auto.
Qed.

Lemma existsb_In {A} (f : A -> bool) l : existsb f l = true <-> exists x, In x l /\ f x = true.
Proof. apply existsb_exists. Qed.

Lemma existsb_not {A} (f : A -> bool) l x : existsb f l = false -> In x l -> f x = false.
Proof.
  intros H Hin. destruct (f x) eqn:E; auto. assert (existsb f l = true) by (apply existsb_exists; eauto). congruence.
Qed.

Lemma deser_marks dc w : forall keep v,
  deser dc w keep = Ok v -> string_ids w -> deser_ok w v.
Proof.
  induction w using wire_ind'; intros keep v E Hids.
  - injection E as <-. apply leaf_ok; try discriminate; unm.
  - injection E as <-. apply leaf_ok; try discriminate; unm.
  - injection E as <-. apply leaf_ok; try discriminate; unm.
  - simpl in E. injection E as <-. apply leaf_ok; try discriminate;
      destruct (String.eqb s UNKNOWN); try destruct (d_dry dc || keep); unm.
  - (* list *)
    rewrite deser_wlist in E. destruct (rmap (fun x => deser dc x keep) l) as [vs|] eqn:Er; [|discriminate].
    cbn [rbind] in E. injection E as <-. apply rmap_inv in Er. rewrite Forall_forall in H.
    assert (HL : forall x, In x l -> exists v, In v vs /\ deser dc x keep = Ok v /\ deser_ok x v).
    { intros x Hx. destruct (F2_in_l _ _ _ _ Er Hx) as (y & Hv & Ev). exists y. split; auto. split; auto.
      apply (H x Hx keep y Ev). apply (sub_string_ids _ _ Hids). intros; now apply part_list_in with x. }
    assert (HR : forall v, In v vs -> exists x, In x l /\ deser_ok x v).
    { intros y Hv. destruct (F2_in_r _ _ _ _ Er Hv) as (x & Hx & Ev). exists x. split; auto.
      apply (H x Hx keep y Ev). apply (sub_string_ids _ _ Hids). intros; now apply part_list_in with x. }
    assert (HU : unmarked (VList (map unwrap_rpc_secret vs))).
    { apply unmarked_list. intros y Hy. apply in_map_iff in Hy as (v0 & <- & Hv). destruct (HR v0 Hv) as (x & _ & _ & _ & Hu & _). exact Hu. }
    assert (HD : without_sig output_sig (WList l) -> deeply_unmarked (VList (map unwrap_rpc_secret vs))).
    { intros W. apply deeply_list. intros y Hy. apply in_map_iff in Hy as (v0 & <- & Hv).
      destruct (HR v0 Hv) as (x & Hx & _ & _ & _ & Hd). apply Hd. apply (sub_without _ _ _ W). intros; now apply part_list_in with x. }
    unfold bubble_list. destruct (existsb is_rpc_secret vs) eqn:Eb.
    + change (wrap_rpc_secret (VList (map unwrap_rpc_secret vs))) with (vsecret (VList (map unwrap_rpc_secret vs))).
      repeat split.
      * intros _. eexists; reflexivity.
      * intros _. apply existsb_exists in Eb as (v0 & Hv & Hs). destruct (HR v0 Hv) as (x & Hx & _ & Hx2 & _).
        destruct (Hx2 Hs) as (d & Hd & He). exists d. split; auto. econstructor; eauto.
      * exact HU.
      * exact HD.
    + assert (Em : map unwrap_rpc_secret vs = vs).
      { rewrite <- map_id. apply map_ext_in. intros v0 Hv. apply unwrap_plain. apply (existsb_not _ _ _ Eb Hv). }
      rewrite Em in HU, HD. repeat split.
      * intros (d & Hd & He). inv He. destruct (HL x H1) as (v0 & Hv & _ & (Hx1 & _)).
        destruct Hx1 as (y & Hy). { exists d. split; auto. }
        apply marked_is_secret in Hy. rewrite (existsb_not _ _ _ Eb Hv) in Hy. discriminate.
      * discriminate.
      * exact HU.
      * exact HD.
  - (* struct *)
    rewrite deser_wstruct in E. destruct (deser_struct dc (dfn dc d) keep false) as [p|] eqn:Es; [|discriminate].
    cbn [rbind] in E. injection E as <-. rewrite Forall_forall in H.
    destruct (sig_cases d) as [Hs|Hs|Hs|Hs|Hs|Hs|Hs].
    + (* ordinary *)
      rewrite deser_plain_struct in Es by auto.
      destruct (deser_entries keep false (dfn dc d)) as [d'|] eqn:Ee; [|discriminate].
      cbn [rbind] in Es. injection Es as <-. apply deser_entries_inv in Ee as (A & B & C & _).
      assert (HR : forall k v, In (k, v) d' -> exists w, In (k, w) d /\ is_internal k = false /\ deser_ok w v).
      { intros k y Hv. destruct (A k y Hv) as (w & Hw & Hi & Ev & _). exists w. split; auto. split; auto.
        apply (H (k, w) Hw keep y Ev). apply (sub_string_ids _ _ Hids). intros; now apply part_struct_in with k w. }
      assert (Hk : ~ In sig_key (dkeys d')).
      { intros K. apply C in K. apply dget_None in Hs. contradiction. }
      set (du := map (fun kv => (fst kv, unwrap_rpc_secret (snd kv))) d').
      assert (Hku : ~ In sig_key (dkeys du)) by (unfold du; rewrite dkeys_map; exact Hk).
      assert (HU : unmarked (VDict du)).
      { apply unmarked_dict; auto. intros k x Hin. apply in_map_iff in Hin as ([k' v0] & [= <- <-] & Hin).
        destruct (HR _ _ Hin) as (w & _ & _ & _ & _ & Hu & _). exact Hu. }
      assert (HD : without_sig output_sig (WStruct d) -> deeply_unmarked (VDict du)).
      { intros W. apply deeply_dict; auto. intros k x Hin. apply in_map_iff in Hin as ([k' v0] & [= <- <-] & Hin).
        destruct (HR _ _ Hin) as (w & Hw & _ & _ & _ & _ & Hd). apply Hd.
        apply (sub_without _ _ _ W). intros; now apply part_struct_in with k' w. }
      unfold bubble_dict. destruct (existsb (fun kv => is_rpc_secret (snd kv)) d') eqn:Eb.
      * fold du. unfold wrap_rpc_secret. rewrite (is_rpc_secret_nosig du) by auto.
        repeat split.
        -- intros _. eexists; reflexivity.
        -- intros _. apply existsb_exists in Eb as ([k v0] & Hv & Hsv). destruct (HR k v0 Hv) as (x & Hx & Hi & _ & Hx2 & _).
           destruct (Hx2 Hsv) as (d0 & Hd & He). exists d0. split; auto. econstructor; eauto.
        -- exact HU.
        -- exact HD.
      * assert (Em : du = d').
        { unfold du. rewrite <- map_id. apply map_ext_in. intros [k v0] Hv. simpl. f_equal. apply unwrap_plain.
          apply (existsb_not _ _ _ Eb Hv). }
        rewrite Em in HU, HD, Hku. clearbody du. assert (Hn : is_rpc_secret (VDict d') = false) by now apply is_rpc_secret_nosig.
        repeat split.
        -- intros (d0 & Hd & He). inv He; [congruence|].
           destruct (B k x H2) as (v0 & Ev & Hv); [now (change is_internal with internal_key; rewrite H3)|].
           assert (Hok : deser_ok x v0).
           { apply (H (k, x) H2 keep v0 Ev). apply (sub_string_ids _ _ Hids). intros; now apply part_struct_in with k x. }
           destruct Hok as (Hx1 & _). destruct Hx1 as (y & Hy). { exists d0. split; auto. }
           assert (Hnn : is_none v0 = false) by (rewrite Hy; reflexivity).
           pose proof (existsb_not _ _ _ Eb (Hv Hnn)) as K. simpl in K. apply marked_is_secret in Hy. congruence.
        -- congruence.
        -- now rewrite unwrap_plain.
        -- intros W. rewrite unwrap_plain; auto.
    + (* asset *)
      apply deser_struct_asset in Es; auto. destruct Es as (s & [->|[->| ->]]);
        (apply nosig_ok with asset_sig; auto; [discriminate|unm|intros _; unm]).
    + (* archive *)
      apply deser_struct_archive in Es; auto. destruct Es as [(s & [->| ->])|(w & d' & Ha & Ew & -> & Hall)].
      1,2: apply nosig_ok with archive_sig; auto; [discriminate|unm|intros _; unm].
      apply nosig_ok with archive_sig; auto; [discriminate|unm|]. intros W.
      apply dget_In in Ha.
      assert (Hok : deser_ok w (VDict d')).
      { apply (H ("assets", w) Ha false _ Ew). apply (sub_string_ids _ _ Hids). intros; now apply part_struct_in with "assets" w. }
      destruct Hok as (_ & _ & _ & Hd).
      assert (Hn : is_rpc_secret (VDict d') = false).
      { unfold is_rpc_secret. destruct (dget d' sig_key) as [x|] eqn:Ex; auto. apply dget_In in Ex.
        specialize (Hall _ _ Ex). destruct x; try discriminate; reflexivity. }
      rewrite unwrap_plain in Hd by auto. intros d0 Hw. inv Hw.
      apply Hd; [apply (sub_without _ _ _ W); intros; now apply part_struct_in with "assets" w|].
      econstructor; eauto.
    + (* secret *)
      apply deser_struct_secret in Es; auto. destruct Es as (w & x & Hv & Ew & ->).
      apply dget_In in Hv.
      assert (Hok : deser_ok w x).
      { apply (H ("value", w) Hv false _ Ew). apply (sub_string_ids _ _ Hids). intros; now apply part_struct_in with "value" w. }
      destruct Hok as (H1 & H2 & H3 & H4).
      assert (Hy : exists y, wrap_rpc_secret x = vsecret y /\ unwrap_rpc_secret x = y).
      { unfold wrap_rpc_secret. destruct (is_rpc_secret x) eqn:Ex.
        - destruct (H1 (H2 eq_refl)) as (y & ->). exists y. split; reflexivity.
        - exists x. split; auto. now apply unwrap_plain. }
      destruct Hy as (y & -> & Hy). rewrite Hy in *.
      rewrite bubble_vsecret by now apply unmarked_not_secret.
      repeat split.
      * intros _. exists y. reflexivity.
      * intros _. exists d. split; auto. constructor.
      * exact H3.
      * intros W. apply H4. apply (sub_without _ _ _ W). intros; now apply part_struct_in with "value" w.
    + (* resource *)
      pose proof (Hids d (P_here _) Hs) as Hid.
      apply deser_struct_resource in Es; auto. destruct Es as (urn & q & _ & _ & [(n & ->)|[(Hi & [->| ->])|[(w & Hi & Hne & Ew)|(Hi & ->)]]]);
        try (solve [apply nosig_ok with resource_sig; auto; [discriminate|unm|intros _; unm]]).
      rewrite Hi in Hid. destruct w; try contradiction. simpl in Ew. injection Ew as <-.
      destruct (String.eqb s UNKNOWN); try destruct (d_dry dc || keep);
        (apply nosig_ok with resource_sig; auto; [discriminate|unm|intros _; unm]).
    + (* output value *)
      pose proof Es as Es'. apply deser_struct_output in Es; auto. destruct Es as (ds & x & k & s & -> & _).
      apply nosig_ok with output_sig; auto; [discriminate|unm|]. intros W. exfalso.
      apply (W d); auto. constructor.
    + destruct (Hs dc keep false) as (e & He). congruence.
Qed.
