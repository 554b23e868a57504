(** C99: stack references from end to end. *)
From Verif Require Import Base PyVal Model_Urn Model_Rpc Spec_Rpc Model_Engine Spec_Engine Proof_Engine Proof_Engine2 Model_Translate Spec_Translate Proof_Translate
  Model_Register Spec_Register Proof_Register Model_Deployment Spec_Deployment Proof_Deployment
  Model_Output Spec_Output Model_StackRef Spec_StackRef Proof_StackRef Model_State Spec_State Proof_State Model_Reference Spec_Reference.
From Verif Require Proof_Refactor Spec_Meaning.
Open Scope string_scope.
Ltac inv H := inversion H; subst; clear H.

Definition ref_out : ocfg := mkOcfg (fun _ => []) (fun _ _ => false) false reference_translate.
Definition ok (v : pyval) : Prop := (forall d, within (VDict d) v -> ~ In "secretOutputNames" (map fst d)) /\ ~ within VUnknown v.
Definition translates (v : pyval) : Prop := exists t, translate ref_out v None = Ok t /\ as_py t = v.

Lemma ok_list x l : In x l -> ok (VList l) -> ok x.
Proof. intros K [H1 H2]. split; [intros d Kd; apply H1; eapply W_list; eauto|intros Kd; apply H2; eapply W_list; eauto]. Qed.
Lemma ok_dict k x d : In (k, x) d -> ok (VDict d) -> ok x.
Proof. intros K [H1 H2]. split; [intros d' Kd; apply H1; eapply W_dict; eauto|intros Kd; apply H2; eapply W_dict; eauto]. Qed.
Lemma same_name k : k <> "secretOutputNames" -> reference_translate k = k.
Proof. intros H. unfold reference_translate. destruct (String.eqb_spec k "secretOutputNames"); [contradiction|reflexivity]. Qed.

Lemma dset_new {V} (d : dict V) k v : ~ In k (map fst d) -> dset d k v = (d ++ [(k, v)])%list.
Proof.
  induction d as [|[k' v'] d IH]; cbn; [auto|]. intros H. destruct (String.eqb_spec k k') as [->|N]; [exfalso; apply H; now left|]. f_equal. apply IH. tauto.
Qed.
Lemma entries_translate vs : forall acc,
  (forall k v, In (k, v) vs -> translates v) -> (forall k, In k (map fst vs) -> k <> "secretOutputNames") ->
  NoDup (map fst acc ++ map fst vs) ->
  exists r, tr_entries reference_translate (fun _ => None) (map (fun kv => (fst kv, translate ref_out (snd kv))) vs) acc = Ok (acc ++ r)%list /\
    map (fun kv => (fst kv, as_py (snd kv))) r = vs.
Proof.
  induction vs as [|[k v] vs IH]; intros acc Ht Hk N.
  - exists []. cbn. rewrite app_nil_r. auto.
  - destruct (Ht k v (or_introl eq_refl)) as (t & E & Ea). cbn [map tr_entries fst snd]. rewrite E. cbn [rbind].
    rewrite same_name by (apply Hk; now left). cbn [map fst] in N.
    assert (Nk : ~ In k (map fst acc)). { apply NoDup_remove_2 in N. intros K. apply N. apply in_app_iff. now left. }
    rewrite dset_new by exact Nk. destruct (IH (acc ++ [(k, t)])%list) as (r & Er & Em).
    + intros k' v' K. apply (Ht k' v'). now right.
    + intros k' K. apply Hk. now right.
    + rewrite map_app. cbn. now rewrite <- app_assoc.
    + exists ((k, t) :: r). rewrite Er, <- app_assoc. split; [reflexivity|]. cbn. now rewrite Ea, Em.
Qed.
Lemma elems_translate vs : (forall v, In v vs -> translates v) ->
  exists r, tr_elems None (map (translate ref_out) vs) = Ok r /\ map as_py r = vs.
Proof.
  induction vs as [|v vs IH]; intros H; [exists []; auto|]. destruct (H v (or_introl eq_refl)) as (t & E & Ea).
  destruct IH as (r & Er & Em); [intros; apply H; now right|]. exists (t :: r). cbn. rewrite E. cbn. rewrite Er. cbn. now rewrite Ea, Em.
Qed.
Lemma not_rpc_secret d : ~ In reserved_key (map fst d) -> is_rpc_secret (VDict d) = false.
Proof.
  intros H. unfold is_rpc_secret. destruct (dget d sig_key) as [x|] eqn:E; [|reflexivity]. exfalso. apply H. apply dget_In in E. now apply (in_map fst) in E.
Qed.

(* ---- what is seen is translated to itself ---- *)
Section Seen.
  Variable dc : dcfg.
  Variable a : mopts.
  Variable unk : bool.
  Definition plain (v : pyval) : Prop := ok v -> translates v /\ finished v.
  Lemma leaf_plain v : translate ref_out v None = Ok (TLeaf v) -> finished v -> plain v.
  Proof using. intros H F _. split; [|exact F]. now exists (TLeaf v). Qed.
  Lemma unknown_plain : plain (if unk then VUnknown else VNone).
  Proof using. destruct unk; [intros [_ K]; destruct K; constructor|]. apply leaf_plain; [reflexivity|exact I]. Qed.
  Lemma seen_plain :
    (forall p v s, seen dc a unk p v s -> plain v) /\
    (forall l vs s, all_seen dc a unk l vs s -> forall v, In v vs -> plain v) /\
    (forall d vs s, entries_seen dc a unk d vs s ->
       (forall k, In k (map fst vs) -> In k (map fst d)) /\ (NoDup (map fst d) -> NoDup (map fst vs)) /\ forall k v, In (k, v) vs -> plain v) /\
    (forall d vs, members_seen dc a unk d vs -> True).
  Proof.
    apply seen_all_mind; intros; auto using unknown_plain; try (apply leaf_plain; [reflexivity|exact Logic.I]).
    - intros O. split.
      + destruct (elems_translate vs) as (r & E & Em). { intros v K. apply (H0 v K (ok_list _ _ K O)). }
        exists (TList r). cbn. rewrite E. cbn. now rewrite Em.
      + apply finished_list. apply Forall_forall. intros v K. apply (H0 v K (ok_list _ _ K O)).
    - intros O. destruct H2 as (I1 & I2 & I3). split.
      + destruct (entries_translate vs []) as (r & E & Em).
        * intros k v K. apply (I3 k v K (ok_dict _ _ _ K O)).
        * intros k K ->. apply (proj1 O vs); [constructor|exact K].
        * cbn. auto.
        * exists (TDict r). cbn [translate]. rewrite not_rpc_secret by (intros K; apply H0; auto). cbn [norm_oty]. change (o_transform ref_out) with reference_translate. rewrite E. cbn. now rewrite Em.
      + apply finished_dict. apply Forall_forall. intros [k v] K. apply (I3 k v K (ok_dict _ _ _ K O)).
    - destruct H.
    - cbn in H3. destruct H3 as [<-|K]; auto.
    - cbn. split; [tauto|]. split; [constructor|tauto].
    - destruct H2 as (I1 & I2 & I3). cbn. split; [auto|]. split; [intros N; inv N; auto|auto].
    - destruct H3 as (I1 & I2 & I3). cbn. split; [auto|]. split; [intros N; inv N; auto|auto].
    - destruct H4 as (I1 & I2 & I3). cbn. split; [intros k' [<-|K]; auto|]. split.
      + intros N. inv N. constructor; auto.
      + intros k' v' [[= <- <-]|K]; eauto.
  Qed.
End Seen.

(* ---- the outputs of the root ---- *)
Lemma news_keys h evs u : In u (map fst (p_news (drun h evs))) -> exists id o, In (DResource u id o) evs.
Proof.
  induction evs as [|e evs IH] using rev_ind; [easy|]. rewrite drun_snoc. unfold dstep.
  assert (K : In u (map fst (p_news (drun h evs))) -> exists id o, In (DResource u id o) (evs ++ [e])).
  { intros K. destruct (IH K) as (id & o & Ki). exists id, o. apply in_or_app. auto. }
  assert (Kd : forall n k, In u (map fst (dset (p_news (drun h evs)) k n)) -> u = k \/ In u (map fst (p_news (drun h evs)))).
  { intros n k Kd. fold (dkeys (dset (p_news (drun h evs)) k n)) in Kd. apply dkeys_dset in Kd. unfold dkeys in Kd. tauto. }
  destruct (negb (p_alive (drun h evs))); [exact K|]. destruct e as [u' id o|r].
  - destruct (smem u' (p_urns (drun h evs))); [exact K|]. cbn [p_news]. intros D. apply Kd in D as [->|D]; [|auto]. exists id, o. apply in_or_app. right. now left.
  - destruct (read_outputs h r) as [o|x]; [|destruct (is_panic x); exact K]. destruct (smem (or_urn r) (p_pending (drun h evs))); [|exact K].
    cbn [p_news]. destruct (dget (p_news (drun h evs)) (or_urn r)) as [n|] eqn:E; [|exact K].
    intros D. apply Kd in D as [->|D]; [|auto]. apply K. apply dget_key in E. exact E.
Qed.
Lemma types_known h evs root : one_stack root evs ->
  forall u, In u (map fst (p_news (drun h evs))) -> u <> "" /\ Model_Refactor.type_of u <> "" /\ (Model_Refactor.type_of u = "pulumi:pulumi:Stack" <-> u = root).
Proof.
  intros O u K. destruct (news_keys h evs u K) as (id & o & Ki). destruct (O _ _ _ Ki) as (x & G & Nt & -> & Hx).
  rewrite Proof_Refactor.place_type by now apply Proof_Refactor.good_is_place. split; [discriminate|]. split; [exact Nt|exact Hx].
Qed.
Lemma root_found h evs root n : one_stack root evs -> dget (p_news (drun h evs)) root = Some n ->
  root_outputs (snapshot_of (drun h evs)) = n_outputs n.
Proof.
  intros O. pose proof (fun u K => proj2 (proj2 (types_known h evs root O u K))) as T.
  unfold root_outputs, snapshot_of. revert T. generalize (p_news (drun h evs)) Model_Refactor.type_of. intros l ty T. induction l as [|[k m] l IH]; cbn in *; [discriminate|].
  destruct (String.eqb_spec root k) as [->|N].
  - intros [= ->]. rewrite (proj2 (T k (or_introl eq_refl)) eq_refl). reflexivity.
  - intros D. destruct (String.eqb_spec (ty k) "pulumi:pulumi:Stack") as [E|E]; [|apply IH; auto].
    apply T in E; [|auto]. congruence.
Qed.
Lemma dset_nodup {V} (d : dict V) k v : NoDup (map fst d) -> NoDup (map fst (dset d k v)).
Proof.
  induction d as [|[k' v'] d IH]; cbn; intros N; [repeat constructor; easy|]. inv N.
  destruct (String.eqb_spec k k') as [->|Ne]; cbn; constructor; auto. intros K.
  fold (dkeys (dset d k v)) in K. apply dkeys_dset in K as [->|K]; [congruence|contradiction].
Qed.
Lemma news_nodup h evs : NoDup (map fst (p_news (drun h evs))).
Proof.
  induction evs as [|e evs IH] using rev_ind; [constructor|]. rewrite drun_snoc. unfold dstep.
  destruct (negb (p_alive (drun h evs))); [exact IH|]. destruct e as [u' id o|r].
  - destruct (smem u' (p_urns (drun h evs))); [exact IH|]. now apply dset_nodup.
  - destruct (read_outputs h r) as [o|x]; [|destruct (is_panic x); exact IH]. destruct (smem (or_urn r) (p_pending (drun h evs))); [|exact IH].
    cbn [p_news]. destruct (dget (p_news (drun h evs)) (or_urn r)); [now apply dset_nodup|exact IH].
Qed.
Lemma in_dget {V} (d : dict V) k v : NoDup (map fst d) -> In (k, v) d -> dget d k = Some v.
Proof.
  induction d as [|[k' v'] d IH]; cbn; intros N; [easy|]. inv N. intros [[= <- <-]|K]; [now rewrite String.eqb_refl|].
  destruct (String.eqb_spec k k') as [->|Ne]; [|auto]. exfalso. apply H1. now apply (in_map fst) in K.
Qed.
Lemma all_storable h evs root id ps : one_stack root evs -> dget (p_news (drun h evs)) root = Some (mkNode id ps) ->
  storable (PObj ps) -> others_storable root (snapshot_of (drun h evs)) ->
  Forall storable_resource (snapshot_of (drun h evs)).
Proof.
  intros O D S Os. apply Forall_forall. intros r K. pose proof (Os r K) as Or. unfold snapshot_of in K. apply in_map_iff in K as ([u n] & <- & K). cbn in *.
  destruct (types_known h evs root O u) as (T1 & T2 & _); [now apply (in_map fst) in K|].
  split; [exact T1|]. split; [exact T2|]. split; [|split].
  - cbn. destruct (String.eqb_spec (n_id n) ""); [auto|discriminate].
  - cbn. constructor; [constructor|easy].
  - cbn. destruct (string_dec u root) as [->|N]; [|auto].
    rewrite (in_dget _ _ _ (news_nodup h evs) K) in D. injection D as ->. exact S.
Qed.
Lemma outputs_read h evs root id ps b stack : good_backend b -> stored_in b stack (snapshot_of (drun h evs)) ->
  one_stack root evs -> dget (p_news (drun h evs)) root = Some (mkNode id ps) ->
  storable (PObj ps) -> others_storable root (snapshot_of (drun h evs)) ->
  get_stack_outputs b stack = Ok ps.
Proof.
  intros (J & Dc & Ag) (Nest & show & ss & W & B) O D S Os. unfold get_stack_outputs. rewrite B.
  rewrite (deployment_back (b_json b) (b_unjson b) (b_again b) J show (snapshot_of (drun h evs)) (b_encrypt b) (b_decrypt b) ss (fun _ => Ag)).
  - cbn [rbind]. now rewrite (root_found h evs root _ O D).
  - eapply all_storable; eauto.
  - intros place w c C. exact (Dc _ _ _ C).
  - exact W.
  - exact Nest.
Qed.

(* ---- the names of the secret outputs ---- *)
Lemma insert_in s l x : In x (insert_sorted s l) <-> x = s \/ In x l.
Proof.
  induction l as [|y l IH]; cbn; [intuition|]. destruct (String.leb s y); cbn; [intuition|]. rewrite IH. intuition.
Qed.
Lemma sort_in l x : In x (sort_names l) <-> In x l.
Proof. induction l as [|y l IH]; cbn; [tauto|]. rewrite insert_in, IH. intuition. Qed.
Definition secret_names (ps : dict pval) : list string := sort_names (map fst (filter (fun kv => contains_secrets (snd kv)) ps)).
Lemma secret_names_in ps n : In n (secret_names ps) <-> exists p, In (n, p) ps /\ contains_secrets p = true.
Proof.
  unfold secret_names. rewrite sort_in, in_map_iff. split.
  - intros ([k p] & <- & K). apply filter_In in K. exists p. exact K.
  - intros (p & K). exists (n, p). split; [auto|]. apply filter_In. exact K.
Qed.

Lemma strings_seen dc a unk l : Forall (fun s => s <> "04da6b54-80e4-46f7-96ec-b56ff0331ba9") l ->
  all_seen dc a unk (map PStr l) (map VStr l) false.
Proof.
  induction 1 as [|s l Hs Hl IH]; cbn; [constructor|]. change false with (false || false). constructor; [now constructor|exact IH].
Qed.
Lemma strings_translate l : exists r, translate ref_out (VList (map VStr l)) None = Ok (TList r) /\ map as_py r = map VStr l.
Proof.
  destruct (elems_translate (map VStr l)) as (r & E & Em).
  - intros v K. apply in_map_iff in K as (s & <- & K). now exists (TLeaf (VStr s)).
  - exists r. split; [|exact Em]. cbn [translate]. cbn [norm_oty list_type rbind]. rewrite E. reflexivity.
Qed.

(* ---- the reference ---- *)
Lemma reference_outputs f b name stack_name target ps vs s :
  match stack_name with Some x => x | None => name end = target -> ordinary target -> f_dry f = d_dry (f_deser f) ->
  get_stack_outputs b target = Ok ps ->
  NoDup (map fst ps) -> ~ In reserved_key (map fst ps) ->
  (forall k, In k (map fst ps) -> k <> "04da6b54-80e4-46f7-96ec-b56ff0331ba9") ->
  entries_seen (f_deser f) (mkMopts true (f_resources f)) (d_dry (f_deser f)) ps vs s -> ok (VDict vs) ->
  settled (fst (stack_reference f b name stack_name)) [f_self f] (VDict vs) true s /\
  settled (snd (stack_reference f b name stack_name)) [f_self f] (VList (map VStr (secret_names ps))) true false /\
  finished (VDict vs).
Proof.
  intros Et Ho Hd Hb Hn Hr Hk He Hok. set (dc := f_deser f) in *. set (a := mkMopts true (f_resources f)) in *.
  assert (Ht : target <> "04da6b54-80e4-46f7-96ec-b56ff0331ba9") by (intros ->; apply Ho; cbn; tauto).
  assert (So : seen dc a (d_dry dc) (PObj ps) (VDict vs) s) by now constructor.
  destruct (proj1 (seen_plain dc a (d_dry dc)) _ _ _ So Hok) as [(t & Tt & Ta) Fin].
  assert (Td : exists r, t = TDict r).
  { cbn [translate] in Tt. destruct (is_rpc_secret (VDict vs)) eqn:X.
    - rewrite (proj1 (proj1 (seen_shown dc a) _ _ _ So)) in X. discriminate.
    - cbn [norm_oty] in Tt. destruct (tr_entries _ _ _ _) as [r|]; [|discriminate]. injection Tt as <-. now exists r. }
  destruct Td as [rd ->].
  assert (Tb : translate ref_out (VDict vs) (Some ODictBare) = Ok (TDict rd)).
  { cbn [translate] in *. rewrite (proj1 (proj1 (seen_shown dc a) _ _ _ So)) in *. exact Tt. }
  set (names := secret_names ps).
  destruct (strings_translate names) as (rn & Tn & Ean).
  assert (Bs : bag_seen dc a (d_dry dc) false [("name", PStr target); ("outputs", PObj ps); ("secretOutputNames", PArr (map PStr names))]
    [("name", VStr target); ("outputs", carried s (VDict vs)); ("secretOutputNames", VList (map VStr names))]).
  { change (VStr target) with (carried false (VStr target)). change (VList (map VStr names)) with (carried false (VList (map VStr names))).
    apply Bs_cons; [right; reflexivity|now constructor|left; discriminate|]. apply Bs_cons; [right; reflexivity|exact So|left; discriminate|].
    apply Bs_cons; [right; reflexivity| |left; discriminate|constructor]. constructor. apply strings_seen. apply Forall_forall. intros x K. apply secret_names_in in K as (p & K & _).
    apply Hk. now apply (in_map fst) in K. }
  destruct (fun R => program_reads dc a false false _ _ (or_introl eq_refl) R Bs) as (st & Es & Ed); [cbn; intuition discriminate|].
  assert (Em : read_answer b (f_resources f) (f_urn f) target [("name", WStr target)] = AResp (mkResponse (f_urn f) None st [])).
  { unfold read_answer. unfold unmarshal_properties. cbn [rmap]. cbn [fst snd]. rewrite (unmarshal_ordinary _ _ Ho). cbn [rbind rmap].
    replace (String.eqb target UNKNOWN) with false by (symmetry; apply String.eqb_neq; exact Ht).
    unfold read_stack_reference. cbn [dget String.eqb]. cbn. rewrite Hb. cbn [rbind]. fold (secret_names ps). fold names. fold a. rewrite Es. reflexivity. }
  unfold stack_reference. rewrite Et. 
  set (c := mkCfg _ _ _ _ _ _).
  assert (Ep : exists d, serialize_properties c None false [("name", VStr target); ("outputs", VNone); ("secret_output_names", VNone)] = Done ([("name", WStr target)], d)).
  { eexists. reflexivity. }
  destruct Ep as [dd Ep]. rewrite Ep. cbn [fst snd]. rewrite Em.
  set (rc := reference_rcfg _ _ _ _). set (g := mkRead _ _ _ _ _ _).
  set (all := [("name", TLeaf (VStr target)); ("outputs", if s then TSecret (TDict rd) else TDict rd); ("secret_output_names", TList rn)]).
  assert (Ea : all_properties rc [("name", WStr target)] st = Ok all).
  { unfold all_properties, output_items. change (c_deser rc) with dc. rewrite Ed. cbn [rbind map fst snd add_props].
    change (c_out rc) with ref_out. change (c_translate rc) with reference_translate. change (c_types rc) with reference_types.
    change (reference_translate "name") with "name". change (reference_translate "outputs") with "outputs". change (reference_translate "secretOutputNames") with "secret_output_names".
    change (reference_types "name") with (Some OOther). change (reference_types "outputs") with (Some ODictBare). change (reference_types "secretOutputNames") with (@None oty).
    change (translate ref_out (VStr target) (Some OOther)) with (Ok (TLeaf (VStr target))). cbn [rbind].
    assert (Tc : translate ref_out (carried s (VDict vs)) (Some ODictBare) = Ok (if s then TSecret (TDict rd) else TDict rd)).
    { destruct s; [|exact Tb].
      change (translate ref_out (carried true (VDict vs)) (Some ODictBare)) with (let+ r := translate ref_out (VDict vs) (Some ODictBare) in Ok (wrap_secret r)).
      rewrite Tb. reflexivity. }
    rewrite Tc. cbn [rbind]. rewrite Tn. cbn [rbind]. change (dset _ "secret_output_names" (TList rn)) with all.
    destruct (negb (c_dry rc) || c_legacy rc); reflexivity. }
  assert (Nd : NoDup (d_props g)) by (cbn; repeat constructor; cbn; intuition discriminate).
  pose proof (do_read_cases g Nd) as Dr. cbv zeta in Dr. change (read_call g) with (Ok ([("name", WStr target)], Some target, Some (mkResponse (f_urn f) None st []))) in Dr.
  cbv iota beta in Dr. change (d_cfg g) with rc in Dr. cbn [r_object] in Dr. rewrite Ea in Dr. rewrite Dr. cbn [fst].
  assert (Fu : contains_unknowns (VDict vs) = false) by now apply finished_known.
  assert (Fn : contains_unknowns (VList (map VStr names)) = false).
  { apply finished_known, finished_list, Forall_forall. intros v K. apply in_map_iff in K as (x & <- & _). exact I. }
  assert (Ev : as_py (TList rn) = VList (map VStr names)) by (cbn; now rewrite Ean).
  unfold property, settled. destruct s, (f_dry f) eqn:Fd; unfold rc, reference_rcfg, g; rewrite ?Fd; cbn -[as_py contains_unknowns];
    rewrite ?Ta, ?Ev, ?Fu, ?Fn; cbn -[as_py contains_unknowns]; rewrite ?Ta, ?Ev, ?Fu, ?Fn; auto 20.
Qed.

Lemma entries_of dc a unk ps data secret :
  (forall k p, In (k, p) ps -> seen dc a unk p (data k) (secret k)) -> (forall k, In k (map fst ps) -> internal_key k = false) ->
  exists vs s, entries_seen dc a unk ps vs s /\
    forall k x, In (k, x) vs <-> In k (map fst ps) /\ ~ left_out (data k) (secret k) /\ x = data k.
Proof.
  induction ps as [|[k p] ps IH]; intros Hs Hi.
  - exists [], false. split; [constructor|]. cbn. tauto.
  - destruct IH as (vs & s & E & I); [intros; apply Hs; now right|intros; apply Hi; now right|].
    pose proof (Hs k p (or_introl eq_refl)) as S. assert (Ik : internal_key k = false) by (apply Hi; now left).
    assert (D : left_out (data k) (secret k) \/ ~ left_out (data k) (secret k)).
    { unfold left_out. destruct (data k); try (right; intros [? _]; discriminate). destruct (secret k); [right; intros [_ ?]; discriminate|auto]. }
    destruct D as [D|D].
    + exists vs, s. split.
      * apply Esn_nothing; auto. destruct D as [D1 D2]. now rewrite D1, D2 in S.
      * intros k' x. rewrite I. cbn. split; [tauto|]. intros ([<-|K] & K1 & K2); tauto.
    + exists ((k, data k) :: vs), (secret k || s). split; [apply Esn_cons; auto; now apply not_left|].
      intros k' x. cbn. rewrite I. split.
      * intros [[= <- <-]|K]; tauto.
      * intros ([<-|K] & K1 & ->); [now left|tauto].
Qed.
Lemma map_inj {A B} (f : A -> B) : (forall x y, f x = f y -> x = y) -> forall l m, map f l = map f m -> l = m.
Proof. intros H l. induction l as [|x l IH]; destruct m; cbn; intros E; try discriminate; auto. injection E as E1 E2. f_equal; auto. Qed.
Lemma within_dict x d : within x (VDict d) -> x = VDict d \/ exists k y, In (k, y) d /\ within x y.
Proof. intros W. inv W; eauto. Qed.
Lemma left_out_dec v s : left_out v s \/ ~ left_out v s.
Proof. unfold left_out. destruct v; try (right; intros [? _]; discriminate). destruct s; [right; intros [_ ?]; discriminate|auto]. Qed.

Lemma read_elsewhere h c root exports data secret ps evs f b name stack_name target nm nrs n nsec :
  c_secrets c = true -> exported exports data secret -> readable_names exports data ->
  bag_means (no_transform c) (Some h) None false exports ps -> 
  (forall ps', bag_means (no_transform c) (Some h) None false exports ps' -> NoDup (map fst ps') -> ps' = ps) ->
  one_stack root evs -> (exists id, dget (p_news (drun h evs)) root = Some (mkNode id ps)) ->
  good_backend b -> stored_in b target (snapshot_of (drun h evs)) -> others_storable root (snapshot_of (drun h evs)) ->
  match stack_name with Some x => x | None => name end = target -> ordinary target -> f_dry f = d_dry (f_deser f) ->
  settled (from_input (f_dry f) nm) nrs (VStr n) true nsec ->
  let (outs, names) := stack_reference f b name stack_name in
  (exists o v s, get_output (f_dry f) outs names nm = Ok o /\ reads exports data secret n v s /\ settled o (nrs ++ [f_self f]) v true s) /\
  (In n (map fst exports) -> ~ left_out (data n) (secret n) ->
     exists o, require_output (f_dry f) outs names nm = Ok o /\ settled o (nrs ++ [f_self f]) (data n) true (secret n)) /\
  (~ In n (map fst exports) ->
     exists o, require_output (f_dry f) outs names nm = Ok o /\ o_val o = Fail (Exn "KeyError" n) /\
       o_res o = Done (nrs ++ [f_self f])%list /\ o_known o = Done false /\ o_secret o = Done false).
Proof.
  intros Hs (Hn & Hr & Hm) Hnm Hb Hu Ho (id & Hg) Hgb Hst Hos Et Hot Hd Hnset.
  destruct (bag_data (no_transform c) (Some h) (f_deser f) (f_resources f) Hs eq_refl exports data secret Hn Hr Hm) as (ps' & B & Np & I1 & I2 & S).
  pose proof (Hu ps' B Np) as Ep. subst ps'. clear B.
  assert (Sps : storable (PObj ps)).
  { constructor; [|intros K; apply Hr; apply (I1 _ K)]. apply Forall_forall. intros [k p] K. exact (proj2 (proj2 (S k p K))). }
  pose proof (outputs_read h evs root id ps b target Hgb Hst Ho Hg Sps Hos) as Er.
  destruct (entries_of (f_deser f) (mkMopts true (f_resources f)) (d_dry (f_deser f)) ps data secret) as (vs & s & E & I).
  { intros k p K. apply (S k p K). }
  { intros k K. apply (Hnm k (I1 k K)). }
  assert (Hex : forall k, In k (map fst exports) -> ~ within VUnknown (data k)).
  { intros k K. apply in_map_iff in K as ([k' v] & <- & K). exact (proj1 (proj2 (Hm k' v K))). }
  assert (Hok : ok (VDict vs)).
  { split.
    - intros d W. apply within_dict in W as [W|(k & y & H1 & W)].
      + injection W as ->. intros K. apply in_map_iff in K as ([k x] & E1 & K). cbn in E1. subst k. apply I in K as (K & _). apply I1 in K. now destruct (Hnm _ K).
      + apply I in H1 as (K & _ & ->). destruct (Hnm _ (I1 _ K)) as (_ & _ & _ & X). now apply X.
    - intros W. apply within_dict in W as [W|(k & y & H1 & W)]; [discriminate|]. apply I in H1 as (K & _ & ->). now apply (Hex _ (I1 _ K)). }
  destruct (reference_outputs f b name stack_name target ps vs s Et Hot Hd Er) as (So & Sn & Fin).
  1-5: auto. { intros k K. apply (Hnm k (I1 k K)). }
  destruct (stack_reference f b name stack_name) as [outs names]. cbn [fst snd] in So, Sn.
  assert (Dn : dget vs n = if existsb (fun kx => String.eqb n (fst kx)) vs then Some (data n) else None).
  { clear - I. assert (A : forall x, In (n, x) vs -> x = data n) by (intros x K; now apply I in K). clear I. induction vs as [|[k x] vs IH]; [reflexivity|].
    cbn. destruct (String.eqb_spec n k) as [->|N]; cbn; [f_equal; apply A; now left|]. apply IH. intros y K. apply A. now right. }
  assert (Nn : In n (secret_names ps) <-> In n (map fst exports) /\ secret n = true).
  { rewrite secret_names_in. split.
    - intros (p & K & C). destruct (S n p K) as (_ & C' & _). rewrite C' in C. split; [|exact C]. apply I1. now apply (in_map fst) in K.
    - intros [K C]. destruct (I2 _ K) as [K'|[_ L]]; [|congruence]. apply in_map_iff in K' as ([k p] & E1 & K'). cbn in E1. subst k.
      exists p. split; [exact K'|]. destruct (S n p K') as (_ & C' & _). congruence. }
  assert (Mem : existsb (fun kx => String.eqb n (fst kx)) vs = true <-> In n (map fst exports) /\ ~ left_out (data n) (secret n)).
  { rewrite existsb_exists. split.
    - intros ([k x] & K & Q). apply String.eqb_eq in Q. cbn in Q. subst k. apply I in K as (K1 & K2 & _). auto.
    - intros [K L]. exists (n, data n). split; [|apply String.eqb_refl]. apply I. destruct (I2 _ K) as [K'|K']; [auto|contradiction]. }
  assert (Verd : forall b', secret_verdict true n (VList (map VStr (secret_names ps))) true s b' -> b' = true <-> In n (map fst exports) /\ secret n = true).
  { intros b' V. rewrite <- Nn. inv V.
    - intuition discriminate.
    - injection H1 as H1. apply map_inj in H1; [|now intros ? ? [=]]. subst. tauto.
    - injection H1 as H1. apply map_inj in H1; [|now intros ? ? [=]]. subst. split; [discriminate|contradiction]. }
  split; [|split].
  - destruct (get_output_ok (f_dry f) outs names nm nrs nsec [f_self f] [f_self f] n vs (VList (map VStr (secret_names ps))) true true true s false)
      as (o & b' & E1 & E2 & E3); eauto.
    exists o, (match dget vs n with Some x => x | None => VNone end), b'. split; [exact E1|]. split; [|exact E2].
    apply Verd in E3. rewrite Dn. destruct (in_dec string_dec n (map fst exports)) as [K|K].
    + left. split; [exact K|]. split.
      * destruct (existsb _ vs) eqn:X; [reflexivity|]. destruct (left_out_dec (data n) (secret n)) as [[L _]|L]; [now rewrite L|].
        pose proof (proj2 Mem (conj K L)). congruence.
      * destruct b', (secret n) eqn:X; auto; [destruct E3 as [E3 _]; now destruct (E3 eq_refl)|destruct E3 as [_ E3]; now rewrite E3].
    + right. split; [exact K|]. split.
      * destruct (existsb _ vs) eqn:X; [|reflexivity]. destruct (proj1 Mem eq_refl). contradiction.
      * destruct b'; [|reflexivity]. destruct E3 as [E3 _]. now destruct (E3 eq_refl).
  - intros K L. destruct (require_output_ok (f_dry f) outs names nm nrs nsec [f_self f] [f_self f] n vs (VList (map VStr (secret_names ps))) true true true s false)
      as (o & b' & E1 & E2 & E3 & E4); eauto.
    exists o. split; [exact E1|]. rewrite Dn, (proj2 Mem (conj K L)) in E4. apply Verd in E3.
    replace (secret n) with b'; [exact E4|]. destruct b', (secret n) eqn:X; auto; [destruct E3 as [E3 _]; now destruct (E3 eq_refl)|destruct E3 as [_ E3]; now rewrite E3].
  - intros K. destruct (require_output_ok (f_dry f) outs names nm nrs nsec [f_self f] [f_self f] n vs (VList (map VStr (secret_names ps))) true true true s false)
      as (o & b' & E1 & E2 & E3 & E4); eauto.
    exists o. split; [exact E1|]. rewrite Dn in E4. destruct (existsb _ vs) eqn:X; [destruct (proj1 Mem eq_refl); contradiction|]. destruct E4 as (E4 & E5 & E6).
    split; [exact E4|]. split; [exact E5|]. split; [exact E6|]. apply Verd in E3. destruct b'; [|exact E2]. destruct E3 as [E3 _]. now destruct (E3 eq_refl).
Qed.
