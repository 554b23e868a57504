(** Proofs about resource registration (C24-C26). *)
From Verif Require Import Base PyVal Model_Rpc Model_Translate Model_Register Spec_Register.
Open Scope string_scope.
Arguments resolve : simpl never.

Lemma target_eqb_eq a b : target_eqb a b = true <-> a = b.
Proof.
  destruct a, b; simpl; try (split; [discriminate|discriminate]); try tauto.
  rewrite String.eqb_eq. split; congruence.
Qed.
Lemma resolve_fresh t o l : ~ In t (map fst l) -> resolve t o l = ((l ++ [(t, o)])%list, Ok tt).
Proof.
  intros N. unfold resolve. f_equal. destruct (existsb _ l) eqn:E; auto. exfalso. apply N.
  apply existsb_exists in E as (p & Hp & He). apply target_eqb_eq in He. subst t. now apply in_map.
Qed.

Definition resolves (ps : list (target * outcome)) : act unit := seq_all (map (fun p => resolve (fst p) (snd p)) ps).
Lemma run_resolves ps : forall l, NoDup (map fst l ++ map fst ps)%list -> resolves ps l = ((l ++ ps)%list, Ok tt).
Proof.
  unfold resolves. induction ps as [|[t o] ps IH]; intros l N; simpl; [now rewrite app_nil_r|].
  unfold abind. simpl in N. rewrite resolve_fresh by (apply NoDup_remove_2 in N; rewrite in_app_iff in N; tauto).
  rewrite IH; [now rewrite <- app_assoc|]. rewrite map_app, <- app_assoc. exact N.
Qed.

Fixpoint omap {A B} (f : A -> option B) (l : list A) : list B :=
  match l with [] => [] | x :: l' => match f x with Some y => y :: omap f l' | None => omap f l' end end.
Lemma in_omap {A B} (f : A -> option B) l y : In y (omap f l) <-> exists x, In x l /\ f x = Some y.
Proof.
  induction l as [|a l IH]; simpl; [split; [easy|intros (x & [] & _)]|].
  destruct (f a) eqn:E; simpl; rewrite IH; split.
  - intros [<-|(x & H1 & H2)]; eauto.
  - intros (x & [->|H1] & H2); [left; congruence|right; eauto].
  - intros (x & H1 & H2); eauto.
  - intros (x & [->|H1] & H2); [congruence|eauto].
Qed.
Lemma seq_omap {A} (g : A -> act unit) (f : A -> option (target * outcome)) xs l :
  (forall x l, g x l = match f x with Some p => resolve (fst p) (snd p) l | None => ret tt l end) ->
  seq_all (map g xs) l = resolves (omap f xs) l.
Proof.
  intros H. unfold resolves. revert l. induction xs as [|x xs IH]; intros l; [reflexivity|].
  cbn [map seq_all omap]. unfold abind at 1. rewrite H. destruct (f x) as [p|]; cbn [map seq_all].
  - unfold abind. destruct (resolve (fst p) (snd p) l) as [l' [u|e]]; [apply IH|reflexivity].
  - apply IH.
Qed.

Definition prop_res (c : rcfg) (rs : list string) (deps : dict (list rsrc)) (kv : string * tval) : option (target * outcome) :=
  let (key, value) := kv in
  if smem key ["id"; "urn"] then None else if negb (smem key rs) then None
  else Some (TProp key, OVal (t_unwrap value) (negb (c_dry c) || negb (t_none (t_unwrap value))) (t_secret value) (deps_union c deps key)).
Definition none_res (c : rcfg) (all : dict tval) (deps : dict (list rsrc)) (key : string) : option (target * outcome) :=
  if negb (dmem all key) then Some (TProp key, OVal (TLeaf VNone) (negb (c_dry c)) false (deps_union c deps key)) else None.

Lemma resolve_properties_eq c rs all deps l :
  resolve_properties c rs all deps l = resolves (omap (prop_res c rs deps) all ++ omap (none_res c all deps) rs)%list l.
Proof.
  unfold resolve_properties, resolves. rewrite map_app.
  assert (A : forall ms1 ms2 l, seq_all (ms1 ++ ms2)%list l = (do _ <- seq_all ms1; seq_all ms2) l).
  { induction ms1 as [|m ms1 IH]; intros ms2 l0; simpl; [reflexivity|].
    unfold abind at 1 3. unfold abind at 1. destruct (m l0) as [l' [u|e]]; auto. rewrite IH. reflexivity. }
  rewrite A. unfold abind.
  rewrite (seq_omap _ (prop_res c rs deps)).
  2:{ intros [k v] l0. unfold prop_res. destruct (smem k ["id"; "urn"]); [reflexivity|]. destruct (smem k rs); cbn [negb]; [|reflexivity].
      cbn [fst snd]. destruct (c_dry c); reflexivity. }
  unfold resolves. destruct (seq_all _ l) as [l' [u|e]]; [|reflexivity].
  rewrite (seq_omap _ (none_res c all deps)); [reflexivity|].
  intros k l0. unfold none_res. destruct (negb (dmem all k)); reflexivity.
Qed.

Lemma NoDup_app {A} (l m : list A) : NoDup l -> NoDup m -> (forall x, In x l -> ~ In x m) -> NoDup (l ++ m).
Proof.
  induction 1 as [|a l N1 N IH]; simpl; intros Nm D; auto. constructor.
  - rewrite in_app_iff. intros [K|K]; [auto|]. apply (D a); auto.
  - apply IH; auto.
Qed.
Lemma omap_prop_keys c rs deps (all : dict tval) : wf_dict all -> NoDup (map fst (omap (prop_res c rs deps) all)).
Proof.
  unfold wf_dict. induction all as [|[k v] all IH]; simpl; intros W; [constructor|]. inversion W as [|? ? W1 W2]; subst.
  destruct (smem k ["id"; "urn"]) eqn:E1; simpl in E1; rewrite ?E1; auto.
  destruct (smem k rs); cbn [negb]; auto. cbn [map fst]. constructor; auto.
  intros K. apply in_map_iff in K as ([t o] & K1 & K2). cbn [fst] in K1. subst t. apply in_omap in K2 as ([k' v'] & K3 & K4).
  unfold prop_res in K4. destruct (smem k' ["id"; "urn"]); [discriminate|]. destruct (negb (smem k' rs)); [discriminate|].
  injection K4 as <- _. apply W1. now apply (in_map fst) in K3.
Qed.
Lemma omap_none_keys c all deps rs : NoDup rs -> NoDup (map fst (omap (none_res c all deps) rs)).
Proof.
  induction 1 as [|k rs N1 N IH]; simpl; [constructor|]. unfold none_res at 1. destruct (negb (dmem all k)); auto.
  cbn [map fst]. constructor; auto. intros K. apply in_map_iff in K as ([t o] & K1 & K2). cbn [fst] in K1. subst t.
  apply in_omap in K2 as (k' & K3 & K4). unfold none_res in K4. destruct (negb (dmem all k')); [|discriminate]. injection K4 as <- _. auto.
Qed.

Definition prop_results (c : rcfg) (rs : list string) (all : dict tval) (deps : dict (list rsrc)) : list (target * outcome) :=
  (omap (prop_res c rs deps) all ++ omap (none_res c all deps) rs)%list.

Lemma resolvers_spec props k : In k (resolvers props) <-> In k props /\ k <> "id" /\ k <> "urn".
Proof.
  unfold resolvers. rewrite filter_In, Bool.negb_true_iff, smem_notIn. simpl. intuition congruence.
Qed.
Lemma resolvers_NoDup props : NoDup props -> NoDup (resolvers props).
Proof. apply NoDup_filter. Qed.

Lemma in_prop_results c props all deps k o : wf_dict all ->
  (In (TProp k, o) (prop_results c (resolvers props) all deps) <->
   In k (resolvers props) /\
   o = match dget all k with
       | Some v => OVal (t_unwrap v) (negb (c_dry c) || negb (t_none (t_unwrap v))) (t_secret v) (deps_union c deps k)
       | None => OVal (TLeaf VNone) (negb (c_dry c)) false (deps_union c deps k)
       end).
Proof.
  intros W. unfold prop_results. rewrite in_app_iff, !in_omap. split.
  - intros [([k' v] & H1 & H2)|(k' & H1 & H2)].
    + unfold prop_res in H2. destruct (smem k' ["id"; "urn"]); [discriminate|]. destruct (smem k' (resolvers props)) eqn:E; [|discriminate].
      cbn [negb] in H2. injection H2 as <- <-. apply smem_In in E. split; auto. apply In_dget in H1; auto. now rewrite H1.
    + unfold none_res, dmem in H2. destruct (dget all k') eqn:E; [discriminate|]. cbn [negb] in H2. injection H2 as <- <-. now rewrite E.
  - intros [Hk ->]. pose proof Hk as Hk2. apply resolvers_spec in Hk2 as (_ & N1 & N2).
    destruct (dget all k) as [v|] eqn:E.
    + left. exists (k, v). split; [now apply dget_In|]. unfold prop_res.
      assert (X : smem k ["id"; "urn"] = false) by (apply smem_notIn; simpl; intuition congruence). rewrite X.
      apply smem_In in Hk. rewrite Hk. reflexivity.
    + right. exists k. split; auto. unfold none_res, dmem. rewrite E. reflexivity.
Qed.
Lemma prop_results_targets c props all deps t : wf_dict all ->
  (In t (map fst (prop_results c (resolvers props) all deps)) <-> exists k, t = TProp k /\ In k (resolvers props)).
Proof.
  intros W. rewrite in_map_iff. split.
  - intros ([t' o] & <- & H). cbn [fst]. assert (exists k, t' = TProp k) as (k & ->).
    { unfold prop_results in H. rewrite in_app_iff, !in_omap in H. destruct H as [([k v] & _ & H2)|(k & _ & H2)]; exists k.
      - unfold prop_res in H2. destruct (smem k ["id"; "urn"]); [discriminate|]. destruct (negb _); congruence.
      - unfold none_res in H2. destruct (negb _); congruence. }
    exists k. split; auto. now apply in_prop_results in H.
  - intros (k & -> & Hk). eexists (TProp k, _). split; [reflexivity|]. apply in_prop_results; eauto.
Qed.
Lemma prop_results_NoDup c props all deps : wf_dict all -> NoDup props -> NoDup (map fst (prop_results c (resolvers props) all deps)).
Proof.
  intros W N. unfold prop_results. rewrite map_app. apply NoDup_app.
  - now apply omap_prop_keys.
  - now apply omap_none_keys, resolvers_NoDup.
  - intros t H1 H2. apply in_map_iff in H1 as ([t1 o1] & <- & H1), H2 as ([t2 o2] & E & H2). cbn [fst] in E. subst t2. cbn [fst] in *.
    apply in_omap in H1 as ([k v] & H3 & H4), H2 as (k' & H5 & H6).
    unfold prop_res in H4. destruct (smem k ["id"; "urn"]); [discriminate|]. destruct (negb (smem k _)); [discriminate|]. injection H4 as <- <-.
    unfold none_res, dmem in H6. destruct (dget all k') eqn:E; [discriminate|]. injection H6 as <- _.
    apply dget_None in E. apply E. now apply (in_map fst) in H3.
Qed.

(* ---- all_properties ---- *)
Lemma add_props_wf c skip es : forall acc r, wf_dict acc -> add_props c skip es acc = Ok r -> wf_dict r.
Proof.
  induction es as [|[k v] es IH]; intros acc r W; simpl; [intros [= <-]; auto|].
  destruct (skip acc (c_translate c k)); [eauto|]. destruct v; cbn [rbind]; [|discriminate].
  destruct (translate _ _ _); cbn [rbind]; [|discriminate]. apply IH. now apply wf_dset.
Qed.
Lemma all_properties_wf c sp outs r : all_properties c sp outs = Ok r -> wf_dict r.
Proof.
  unfold all_properties. destruct (output_items c outs); cbn [rbind]; [|discriminate].
  destruct (add_props _ _ _ []) eqn:E; cbn [rbind]; [|discriminate]. apply add_props_wf in E; [|constructor].
  destruct (_ || _); [|intros [= <-]; auto]. apply add_props_wf. auto.
Qed.
Lemma add_props_err c skip es : forall acc e, add_props c skip es acc = Err e ->
  exists k v, In (k, v) es /\ (v = Err e \/ exists x, v = Ok x /\ translate (c_out c) x (c_types c k) = Err e).
Proof.
  induction es as [|[k v] es IH]; intros acc e; simpl; [discriminate|].
  assert (S : forall acc', add_props c skip es acc' = Err e ->
    exists k0 v0, ((k, v) = (k0, v0) \/ In (k0, v0) es) /\ (v0 = Err e \/ exists x, v0 = Ok x /\ translate (c_out c) x (c_types c k0) = Err e)).
  { intros acc' H. apply IH in H as (k' & v' & H1 & H2). eauto 6. }
  destruct (skip acc (c_translate c k)); [apply S|]. destruct v as [x|e0]; cbn [rbind].
  - destruct (translate (c_out c) x (c_types c k)) as [y|e0] eqn:E; cbn [rbind]; [apply S|]. intros [= <-]. exists k, (Ok x). split; eauto.
  - intros [= <-]. exists k, (Err e0). auto.
Qed.
Lemma output_items_inv c outs d : output_items c outs = Ok d <-> deserialize_properties (c_deser c) outs false false = Ok (VDict d).
Proof.
  unfold output_items. destruct (deserialize_properties _ _ _ _) as [v|]; cbn [rbind]; [|split; discriminate].
  destruct v; split; try discriminate; intros [= ->]; reflexivity.
Qed.
Lemma all_properties_err c sp outs e : all_properties c sp outs = Err e -> undecodable c sp outs e.
Proof.
  unfold all_properties, undecodable. destruct (output_items c outs) as [d|e0] eqn:E; cbn [rbind].
  - apply output_items_inv in E. destruct (add_props _ _ _ []) as [acc|e0] eqn:E2; cbn [rbind].
    + destruct (negb (c_dry c) || c_legacy c) eqn:U; [|discriminate]. intros H. apply add_props_err in H as (k & v & H1 & H2).
      apply in_map_iff in H1 as ([k' w] & [= -> <-] & H1). right. right. right. split.
      * unfold uses_inputs. destruct (c_dry c), (c_legacy c); auto; discriminate.
      * exists k, w. split; auto.
    + intros [= ->]. apply add_props_err in E2 as (k & v & H1 & H2). apply in_map_iff in H1 as ([k' x] & [= -> <-] & H1).
      right. right. left. exists d, k, x. destruct H2 as [K|(y & [= ->] & K)]; [discriminate|]. auto.
  - intros [= ->]. unfold output_items in E. destruct (deserialize_properties _ _ _ _) as [v|e1]; cbn [rbind] in E.
    + right. left. exists v. split; auto. destruct v; try discriminate; (split; [discriminate|]); injection E as <-; eauto.
    + injection E as ->. auto.
Qed.

(* which keys, with which values *)
Lemma add_all c es : forall acc r,
  (forall a b, In a (map fst es) -> In b (map fst es) -> c_translate c a = c_translate c b -> a = b) -> NoDup (map fst es) ->
  add_props c (fun _ _ => false) es acc = Ok r ->
  (forall k v, In (k, v) es -> exists x tv, v = Ok x /\ translate (c_out c) x (c_types c k) = Ok tv /\ dget r (c_translate c k) = Some tv) /\
  (forall k, (forall a, In a (map fst es) -> c_translate c a <> k) -> dget r k = dget acc k).
Proof.
  induction es as [|[k v] es IH]; intros acc r C N; simpl; [intros [= <-]; split; [easy|auto]|].
  destruct v as [x|]; cbn [rbind]; [|discriminate]. destruct (translate _ _ _) as [tv|] eqn:E; cbn [rbind]; [|discriminate].
  intros H. inversion N as [|? ? N1 N2]; subst. apply IH in H as [H1 H2]; auto.
  2:{ intros a b Ha Hb. apply C; simpl; auto. }
  split.
  - intros k' v' [[= <- <-]|Hin]; [|eauto]. exists x, tv. repeat split; auto. rewrite H2; [rewrite dget_dset, String.eqb_refl; auto|].
    intros a Ha K. apply C in K; simpl; auto. subst a. contradiction.
  - intros k' K. rewrite H2 by auto. rewrite dget_dset. destruct (String.eqb_spec k' (c_translate c k)) as [->|]; auto.
    destruct (K k); auto.
Qed.
Lemma add_missing c es : forall acc r,
  (forall a b, In a (map fst es) -> In b (map fst es) -> c_translate c a = c_translate c b -> a = b) -> NoDup (map fst es) ->
  add_props c (fun acc tk => dmem acc tk) es acc = Ok r ->
  (forall k v, In (k, v) es -> dget acc (c_translate c k) = None ->
     exists x tv, v = Ok x /\ translate (c_out c) x (c_types c k) = Ok tv /\ dget r (c_translate c k) = Some tv) /\
  (forall k y, dget acc k = Some y -> dget r k = Some y) /\
  (forall k, (forall a, In a (map fst es) -> c_translate c a <> k) -> dget r k = dget acc k).
Proof.
  induction es as [|[k v] es IH]; intros acc r C N; simpl; [intros [= <-]; split; [easy|auto]|].
  inversion N as [|? ? N1 N2]; subst.
  assert (C' : forall a b, In a (map fst es) -> In b (map fst es) -> c_translate c a = c_translate c b -> a = b).
  { intros a b Ha Hb. apply C; simpl; auto. }
  unfold dmem at 1. destruct (dget acc (c_translate c k)) as [y0|] eqn:D.
  - intros H. apply IH in H as (H1 & H2 & H3); auto. repeat split; auto.
    intros k' v' [[= <- <-]|Hin]; [congruence|eauto].
  - destruct v as [x|]; cbn [rbind]; [|discriminate]. destruct (translate _ _ _) as [tv|] eqn:E; cbn [rbind]; [|discriminate].
    intros H. apply IH in H as (H1 & H2 & H3); auto.
    assert (G : dget r (c_translate c k) = Some tv) by (apply H2; rewrite dget_dset, String.eqb_refl; auto).
    repeat split.
    + intros k' v' [[= <- <-]|Hin] Dk.
      * exists x, tv. auto.
      * apply H1; auto. rewrite dget_dset. destruct (String.eqb_spec (c_translate c k') (c_translate c k)) as [Eq|]; auto.
        exfalso. apply N1. apply C in Eq; simpl; auto; [|right; now apply (in_map fst) in Hin]. subst k'. now apply (in_map fst) in Hin.
    + intros k' y Hy. apply H2. rewrite dget_dset. destruct (String.eqb_spec k' (c_translate c k)) as [->|]; auto. congruence.
    + intros k' K. rewrite H3 by auto. rewrite dget_dset. destruct (String.eqb_spec k' (c_translate c k)) as [->|]; auto. destruct (K k); auto.
Qed.

(* ---- deserialised outputs ---- *)
Lemma deser_entries_keys keep ki es : forall d, deser_entries keep ki es = Ok d ->
  (forall k, In k (dkeys d) -> In k (dkeys es)) /\ (NoDup (dkeys es) -> NoDup (dkeys d)).
Proof.
  induction es as [|[k [w f]] es IH]; intros d; simpl; [intros [= <-]; auto|].
  destruct (negb ki && is_internal k).
  - intros H. apply IH in H as [H1 H2]. split; [auto|]. inversion 1; auto.
  - destruct (f keep) as [v|]; cbn [rbind]; [|discriminate]. destruct (deser_entries keep ki es) as [d'|]; cbn [rbind]; [|discriminate].
    destruct (IH d' eq_refl) as [H1 H2]. intros [= <-]. destruct (is_none v); simpl.
    + split; [auto|]. inversion 1; auto.
    + split; [intros k' [->|K]; auto|]. inversion 1; subst. constructor; auto.
Qed.
Lemma plain_outputs dc outs d : ~ In sig_key (dkeys outs) -> deserialize_properties dc outs false false = Ok (VDict d) ->
  (forall k, In k (dkeys d) -> In k (dkeys outs)) /\ (NoDup (dkeys outs) -> NoDup (dkeys d)).
Proof.
  intros N. unfold deserialize_properties, deser_struct.
  match goal with |- context [dget ?e sig_key] => set (es := e) end.
  assert (K : dkeys es = dkeys outs) by (unfold es, dkeys; rewrite map_map; reflexivity).
  assert (G : dget es sig_key = None) by (apply dget_None; rewrite K; exact N).
  match goal with |- context [dget ?a sig_key] => change (dget a sig_key) with (dget es sig_key) end. rewrite G.
  destruct (deser_entries false false es) as [d'|] eqn:E; cbn [rbind]; [|discriminate]. intros [= <-].
  rewrite <- K. now apply deser_entries_keys in E.
Qed.

Lemma all_properties_spec c sp outs all : good_outputs c sp outs -> all_properties c sp outs = Ok all -> forall k,
  (forall tv, engine_gives c outs k tv -> dget all k = Some tv) /\
  ((forall tv, ~ engine_gives c outs k tv) -> uses_inputs c -> forall tv, input_gives c sp k tv -> dget all k = Some tv) /\
  ((forall tv, ~ engine_gives c outs k tv) -> (~ uses_inputs c \/ forall tv, ~ input_gives c sp k tv) -> dget all k = None).
Proof.
  intros (W1 & NS & C1 & W2 & C2). unfold all_properties.
  destruct (output_items c outs) as [d|] eqn:E; cbn [rbind]; [|discriminate]. apply output_items_inv in E.
  destruct (plain_outputs _ _ _ NS E) as [K1 K2]. specialize (K2 W1).
  destruct (add_props _ _ _ []) as [acc|] eqn:E2; cbn [rbind]; [|discriminate].
  assert (KE : map fst (map (fun kv : string * pyval => (fst kv, @Ok pyval (snd kv))) d) = dkeys d) by (rewrite map_map; reflexivity).
  apply add_all in E2 as [A1 A2].
  2:{ rewrite KE. intros a b Ha Hb. apply C1; auto. }
  2:{ rewrite KE. exact K2. }
  assert (EG : forall k tv, engine_gives c outs k tv -> dget acc k = Some tv).
  { intros k tv (d' & key & v & H1 & H2 & H3 & H4). rewrite E in H1. injection H1 as <-.
    destruct (A1 key (Ok v)) as (x & tv' & [= <-] & H5 & H6); [apply in_map_iff; exists (key, v); auto|]. congruence. }
  assert (EN : forall k, (forall tv, ~ engine_gives c outs k tv) -> dget acc k = None).
  { intros k H. rewrite A2; [reflexivity|]. rewrite KE. intros a Ha Hk. apply in_map_iff in Ha as ([key v] & H1 & H2). cbn [fst] in H1. subst key.
    destruct (A1 a (Ok v)) as (x & tv & [= <-] & H5 & H6); [apply in_map_iff; exists (a, v); auto|].
    apply (H tv). exists d, a, v. auto. }
  destruct (negb (c_dry c) || c_legacy c) eqn:U.
  - assert (U' : uses_inputs c) by (unfold uses_inputs; destruct (c_dry c), (c_legacy c); auto; discriminate).
    assert (KI : map fst (map (fun kv : string * wire => (fst kv, deser (c_deser c) (snd kv) false)) sp) = dkeys sp) by (rewrite map_map; reflexivity).
    intros H. apply add_missing in H as (B1 & B2 & B3).
    2:{ rewrite KI. exact C2. }
    2:{ rewrite KI. exact W2. }
    intros k. split; [|split].
    + intros tv H. apply B2. auto.
    + intros N _ tv (key & w & v & H1 & H2 & H3 & H4). subst k.
      destruct (B1 key (deser (c_deser c) w false)) as (x & tv' & H5 & H6 & H7).
      * apply in_map_iff. exists (key, w). auto.
      * auto.
      * congruence.
    + intros N [K|K]; [contradiction|]. rewrite B3; auto. rewrite KI. intros a Ha Hk.
      apply in_map_iff in Ha as ([key w] & H1 & H2). cbn [fst] in H1. subst key.
      destruct (B1 a (deser (c_deser c) w false)) as (x & tv' & H5 & H6 & H7).
      * apply in_map_iff. exists (a, w). auto.
      * rewrite Hk. auto.
      * apply (K tv'). exists a, w, x. auto.
  - intros [= <-] k. split; [auto|split; [|auto]]. intros _ [Hu|Hu]; rewrite Hu in U; [|destruct (c_dry c)]; discriminate.
Qed.

(* ---- dependencies ---- *)
Lemma translated_deps_spec c (deps : dict (list string)) k : wf_dict deps -> no_clash c (dkeys deps) ->
  depends c deps k (deps_union c (translated_deps c (map (fun kv => (fst kv, map RDep (snd kv))) deps)) k).
Proof.
  intros W C x. unfold deps_union. rewrite in_app_iff. simpl.
  assert (G : forall acc : dict (list rsrc),
     dget (fold_left (fun acc kv => dset acc (c_translate c (fst kv)) (snd kv)) (map (fun kv => (fst kv, map RDep (snd kv))) deps) acc) k =
     match find (fun kv => String.eqb (c_translate c (fst kv)) k) deps with Some kv => Some (map RDep (snd kv)) | None => dget acc k end).
  { unfold wf_dict, no_clash in *. induction deps as [|[key us] deps IH]; intros acc; simpl; auto.
    inversion W as [|? ? W1 W2]; subst. rewrite IH; auto.
    2:{ intros a b Ha Hb. apply C; simpl; auto. }
    rewrite dget_dset. destruct (String.eqb_spec (c_translate c key) k) as [<-|Nk].
    - rewrite String.eqb_refl. destruct (find _ deps) as [[key' us']|] eqn:F; [|auto].
      apply find_some in F as [F1 F2]. apply String.eqb_eq in F2. cbn [fst] in F2. exfalso. apply W1.
      apply C in F2; simpl; auto; [subst; now apply (in_map fst) in F1|right; now apply (in_map fst) in F1].
    - destruct (String.eqb_spec k (c_translate c key)); [congruence|]. reflexivity. }
  unfold translated_deps. rewrite G. cbn [dget].
  destruct (find (fun kv => String.eqb (c_translate c (fst kv)) k) deps) as [[key us]|] eqn:F.
  - apply find_some in F as [F1 F2]. apply String.eqb_eq in F2. cbn [fst snd] in *. split.
    + intros [H|[H|[]]]; [right|left; auto]. apply in_map_iff in H as (u & <- & Hu). exists key, us, u. auto.
    + intros [->|(key' & us' & u & H1 & H2 & H3 & ->)]; [auto|]. left. apply in_map.
      assert (key' = key) by (apply C; [now apply (in_map fst) in H1|now apply (in_map fst) in F1|congruence]). subst key'.
      apply In_dget in H1, F1; auto. congruence.
  - split.
    + intros [[]|[->|[]]]. auto.
    + intros [->|(key' & us' & u & H1 & H2 & H3 & ->)]; [auto|]. exfalso.
      apply find_none with (x := (key', us')) in F; auto. cbn [fst] in F. apply String.eqb_neq in F. contradiction.
Qed.

(* ---- resolve_outputs ---- *)
Lemma resolve_outputs_err c rs sp outs deps l e : all_properties c sp outs = Err e -> resolve_outputs c rs sp outs deps l = (l, Err e).
Proof. intros E. unfold resolve_outputs, abind. rewrite E. reflexivity. Qed.
Lemma resolve_outputs_ok c props sp outs deps l all : NoDup props -> all_properties c sp outs = Ok all ->
  NoDup (map fst l) -> (forall k, ~ In (TProp k) (map fst l)) ->
  resolve_outputs c (resolvers props) sp outs deps l = ((l ++ prop_results c (resolvers props) all (translated_deps c deps))%list, Ok tt).
Proof.
  intros N E Nl Hl. unfold resolve_outputs, abind. rewrite E, resolve_properties_eq. apply run_resolves.
  pose proof (all_properties_wf _ _ _ _ E) as W.
  apply NoDup_app; auto.
  - now apply prop_results_NoDup.
  - intros t H1 H2. apply prop_results_targets in H2 as (k & -> & _); auto. exact (Hl k H1).
Qed.

(* ---- failing everything ---- *)
Definition exc_list (custom urn_called id_called : bool) (rs : list string) (e : exn) : list (target * outcome) :=
  (map (fun k => (TProp k, OExc e)) rs ++ (if urn_called then [] else [(TUrn, OExc e)]) ++
   (if custom && negb id_called then [(TId, OExc e)] else []))%list.
Lemma NoDup_app_l {A} (l m : list A) : NoDup (l ++ m) -> NoDup l.
Proof. induction l; simpl; [constructor|]. inversion 1; subst. constructor; auto. rewrite in_app_iff in *. tauto. Qed.
Lemma fail_all_ok custom uc ic rs e l : NoDup (map fst l ++ map fst (exc_list custom uc ic rs e))%list ->
  fail_all custom uc ic rs e l = ((l ++ exc_list custom uc ic rs e)%list, Err e).
Proof.
  intros N. unfold fail_all, resolve_outputs_due_to_exception, exc_list in *. rewrite !map_app in N.
  assert (M : map (fun k => resolve (TProp k) (OExc e)) rs = map (fun p => resolve (fst p) (snd p)) (map (fun k => (TProp k, OExc e)) rs)) by (now rewrite map_map).
  rewrite M. change (seq_all (map (fun p => resolve (fst p) (snd p)) (map (fun k => (TProp k, OExc e)) rs))) with (resolves (map (fun k => (TProp k, OExc e)) rs)).
  unfold abind. rewrite run_resolves by (rewrite !app_assoc in N; do 2 apply NoDup_app_l in N; exact N).
  destruct uc, (custom && negb ic); unfold ret, raise; cbn [app map fst] in *; rewrite ?app_nil_r in *; auto.
  - rewrite resolve_fresh; [now rewrite <- app_assoc|]. rewrite map_app. rewrite app_assoc in N. apply NoDup_remove_2 in N. now rewrite app_nil_r in N.
  - rewrite resolve_fresh.
    2:{ rewrite map_app. rewrite app_assoc in N. apply NoDup_remove_2 in N. intros K. apply N. rewrite in_app_iff. auto. }
    rewrite resolve_fresh; [now rewrite <- !app_assoc|].
    rewrite !map_app. cbn [map fst]. rewrite app_assoc in N. change ([TUrn; TId]) with ([TUrn] ++ [TId])%list in N.
    rewrite app_assoc in N. apply NoDup_remove_2 in N. rewrite app_nil_r in N. exact N.
  - rewrite resolve_fresh; [now rewrite <- app_assoc|]. rewrite map_app. rewrite app_assoc in N. apply NoDup_remove_2 in N. now rewrite app_nil_r in N.
Qed.

Lemma exc_targets custom uc ic rs e t : In t (map fst (exc_list custom uc ic rs e)) <->
  (exists k, t = TProp k /\ In k rs) \/ (t = TUrn /\ uc = false) \/ (t = TId /\ custom = true /\ ic = false).
Proof.
  unfold exc_list. rewrite !map_app, !in_app_iff, map_map. cbn [fst]. rewrite in_map_iff. split.
  - intros [(k & <- & H)|[H|H]]; [eauto| |].
    + destruct uc; [easy|]. destruct H as [<-|[]]. auto.
    + destruct custom, ic; try easy. destruct H as [<-|[]]. auto.
  - intros [(k & -> & H)|[[-> ->]|(-> & -> & ->)]]; [eauto|right; left; simpl; auto|right; right; simpl; auto].
Qed.
Lemma exc_outcomes custom uc ic rs e t o : In (t, o) (exc_list custom uc ic rs e) -> o = OExc e.
Proof.
  unfold exc_list. rewrite !in_app_iff, in_map_iff. intros [(k & [= _ <-] & H)|[H|H]]; auto.
  - destruct uc; [easy|]. destruct H as [[= _ <-]|[]]. auto.
  - destruct (custom && negb ic); [|easy]. destruct H as [[= _ <-]|[]]. auto.
Qed.
Lemma exc_NoDup custom uc ic rs e : NoDup rs -> NoDup (map fst (exc_list custom uc ic rs e)).
Proof.
  intros N. unfold exc_list. rewrite !map_app, map_map. cbn [fst]. apply NoDup_app.
  - induction N; simpl; constructor; auto. rewrite in_map_iff. intros (k & [= ->] & K). auto.
  - destruct uc, (custom && negb ic); simpl; repeat constructor; simpl; intuition discriminate.
  - intros t H. apply in_map_iff in H as (k & <- & _). destruct uc, (custom && negb ic); simpl; intuition discriminate.
Qed.

Lemma once_exc custom props e : NoDup props -> resolved_once custom props (exc_list custom false false (resolvers props) e).
Proof.
  intros N. split; [now apply exc_NoDup, resolvers_NoDup|]. intros t. rewrite exc_targets. unfold has_output.
  setoid_rewrite resolvers_spec. split.
  - intros [(k & -> & H)|[[-> _]|(-> & H & _)]]; eauto.
  - intros [->|[[-> H]|(k & -> & H)]]; eauto.
Qed.

(* urn and id outcomes, then those of the properties *)
Lemma once_two custom props (h : log) (ps : log) : NoDup props ->
  (forall t, In t (map fst h) <-> t = TUrn \/ (t = TId /\ custom = true)) -> NoDup (map fst h) ->
  (forall t, In t (map fst ps) <-> exists k, t = TProp k /\ In k (resolvers props)) -> NoDup (map fst ps) ->
  resolved_once custom props (h ++ ps)%list.
Proof.
  intros N H1 H2 H3 H4. split.
  - rewrite map_app. apply NoDup_app; auto. intros t K1 K2. apply H1 in K1. apply H3 in K2 as (k & -> & _). intuition discriminate.
  - intros t. rewrite map_app, in_app_iff, H1, H3. unfold has_output. setoid_rewrite resolvers_spec. split.
    + intros [[->|[-> H]]|(k & -> & H)]; eauto.
    + intros [->|[[-> H]|(k & -> & H)]]; eauto.
Qed.

Definition reg_head (c : rcfg) (custom : bool) (resp : response) : log :=
  (TUrn, OVal (TLeaf (VStr (r_urn resp))) true false [c_self c]) ::
  (if custom then [(TId, OVal (vstr (r_id resp)) (nonempty (r_id resp)) false [c_self c])] else []).
Lemma head_targets c custom resp t : In t (map fst (reg_head c custom resp)) <-> t = TUrn \/ (t = TId /\ custom = true).
Proof. unfold reg_head. destruct custom; simpl; intuition (subst; auto; discriminate). Qed.
Lemma head_NoDup c custom resp : NoDup (map fst (reg_head c custom resp)).
Proof. unfold reg_head. destruct custom; simpl; repeat constructor; simpl; intuition discriminate. Qed.

Definition reg_deps (resp : response) : dict (list rsrc) := map (fun kv => (fst kv, map RDep (snd kv))) (r_deps resp).

Lemma do_register_cases g : NoDup (g_props g) ->
  let rs := resolvers (g_props g) in
  match reg_call g with
  | Err e => do_register g [] = (exc_list (g_custom g) false false rs e, Err e)
  | Ok (_, None) => False
  | Ok (sp, Some resp) =>
      match all_properties (g_cfg g) sp (r_object resp) with
      | Ok all => do_register g [] = ((reg_head (g_cfg g) (g_custom g) resp ++
          prop_results (g_cfg g) rs all (translated_deps (g_cfg g) (reg_deps resp)))%list, Ok tt)
      | Err e => do_register g [] = ((reg_head (g_cfg g) (g_custom g) resp ++ exc_list (g_custom g) true (g_custom g) rs e)%list, Err e)
      end
  end.
Proof.
  intros N rs. unfold do_register. fold rs. destruct (reg_call g) as [[sp [resp|]]|e] eqn:E.
  - rewrite resolve_fresh by easy. cbn [app].
    match goal with |- context [if g_custom g then resolve TId ?o ?h else ?b] =>
      assert (Hid : (if g_custom g then resolve TId o h else b) = (reg_head (g_cfg g) (g_custom g) resp, Ok tt)) end.
    { unfold reg_head. destruct (g_custom g); [|reflexivity]. rewrite resolve_fresh; [reflexivity|]. simpl. intuition discriminate. }
    rewrite Hid. fold (reg_deps resp).
    destruct (all_properties (g_cfg g) sp (r_object resp)) as [all|e] eqn:A.
    + unfold rs. rewrite (resolve_outputs_ok _ _ _ _ _ _ all); auto; [apply head_NoDup|].
      intros k K. apply head_targets in K. intuition discriminate.
    + rewrite (resolve_outputs_err _ _ _ _ _ _ e) by auto. apply fail_all_ok.
      apply NoDup_app; [apply head_NoDup|now apply exc_NoDup, resolvers_NoDup|].
      intros t H1 H2. apply head_targets in H1. apply exc_targets in H2.
      destruct H1 as [->|[-> C]], H2 as [(k & K & _)|[[K1 K2]|(K1 & K2 & K3)]]; try discriminate. congruence.
  - unfold reg_call in E. destruct (g_prepare g); cbn [rbind] in E; [|discriminate]. destruct (g_request g); cbn [rbind] in E; [|discriminate].
    destruct (g_monitor g) as [aw|]; [|discriminate]. destruct aw as [r|u d|e]; cbn in E; try discriminate. destruct u; discriminate.
  - rewrite fail_all_ok; [reflexivity|]. cbn [map app]. now apply exc_NoDup, resolvers_NoDup.
Qed.

Lemma reg_call_ok g sp resp : reg_call g = Ok (sp, Some resp) ->
  exists m, g_prepare g = Ok sp /\ g_request g = Ok m /\ engine_answer sp m (g_monitor g) (Ok resp).
Proof.
  unfold reg_call. destruct (g_prepare g) as [sp'|]; cbn [rbind]; [|discriminate]. destruct (g_request g) as [m|]; cbn [rbind]; [|discriminate].
  destruct (g_monitor g) as [a|]; [|intros [= <- <-]; exists m; repeat constructor].
  destruct a as [r|[] d|e]; cbn; try discriminate. intros [= <- <-]. exists m. repeat constructor.
Qed.
Lemma reg_call_err g e : reg_call g = Err e ->
  g_prepare g = Err e \/ exists sp, g_prepare g = Ok sp /\ (g_request g = Err e \/ exists m, g_request g = Ok m /\ engine_answer sp m (g_monitor g) (Err e)).
Proof.
  unfold reg_call. destruct (g_prepare g) as [sp'|]; cbn [rbind]; [|intros [= ->]; auto]. destruct (g_request g) as [m|]; cbn [rbind].
  2:{ intros [= ->]. eauto. }
  destruct (g_monitor g) as [a|]; [|discriminate]. intros H. right. exists sp'. split; auto. right. exists m. split; auto.
  destruct a as [r|[] d|e0]; cbn in H; try discriminate; injection H as <-; constructor.
Qed.
Lemma prop_results_value c props all deps t o : wf_dict all -> In (t, o) (prop_results c (resolvers props) all deps) -> is_value o.
Proof.
  intros W H. assert (T : exists k, t = TProp k /\ In k (resolvers props)).
  { apply prop_results_targets with (c := c) (all := all) (deps := deps); auto. apply in_map_iff. exists (t, o). auto. }
  destruct T as (k & -> & _). apply in_prop_results in H as [_ ->]; auto. unfold is_value. destruct (dget all k); eauto.
Qed.
Lemma id_ok c id : is_id c id (OVal (vstr id) (nonempty id) false [c_self c]).
Proof.
  exists (nonempty id). split; [reflexivity|]. unfold nonempty. destruct id as [s|].
  - rewrite Bool.negb_true_iff, String.eqb_neq. split; [eauto|]. intros (s' & [= <-] & H). auto.
  - split; [discriminate|]. intros (s & K & _). discriminate.
Qed.

Lemma register_ok g l r : NoDup (g_props g) -> do_register g [] = (l, r) ->
  resolved_once (g_custom g) (g_props g) l /\
  ((exists e, r = Err e /\ fails_early (g_prepare g) (g_request g) (fun sp m => engine_answer sp m (g_monitor g)) e /\ forall t o, In (t, o) l -> o = OExc e) \/
   (exists sp m resp, g_prepare g = Ok sp /\ g_request g = Ok m /\ engine_answer sp m (g_monitor g) (Ok resp) /\
      (exists o, In (TUrn, o) l /\ is_urn (g_cfg g) (r_urn resp) o) /\
      (g_custom g = true -> exists o, In (TId, o) l /\ is_id (g_cfg g) (r_id resp) o) /\
      ((r = Ok tt /\ forall k o, In (TProp k, o) l -> is_value o) \/
       (exists e, r = Err e /\ undecodable (g_cfg g) sp (r_object resp) e /\ forall k o, In (TProp k, o) l -> o = OExc e)))).
Proof.
  intros N H. pose proof (do_register_cases g N) as C. cbv zeta in C.
  destruct (reg_call g) as [[sp [resp|]]|e] eqn:E; [|contradiction|].
  - apply reg_call_ok in E as (m & E1 & E2 & E3).
    assert (HU : forall ps, exists o, In (TUrn, o) (reg_head (g_cfg g) (g_custom g) resp ++ ps)%list /\ is_urn (g_cfg g) (r_urn resp) o).
    { intros ps. eexists. split; [apply in_or_app; left; left; reflexivity|]. reflexivity. }
    assert (HI : forall ps, g_custom g = true -> exists o, In (TId, o) (reg_head (g_cfg g) (g_custom g) resp ++ ps)%list /\ is_id (g_cfg g) (r_id resp) o).
    { intros ps Hc. eexists. split; [apply in_or_app; left; unfold reg_head; rewrite Hc; right; left; reflexivity|]. apply id_ok. }
    assert (HP : forall k o, ~ In (TProp k, o) (reg_head (g_cfg g) (g_custom g) resp)).
    { intros k o K. apply (in_map fst) in K. apply head_targets in K. intuition discriminate. }
    destruct (all_properties (g_cfg g) sp (r_object resp)) as [all|e] eqn:A; rewrite C in H; apply pair_equal_spec in H as [<- <-].
    + pose proof (all_properties_wf _ _ _ _ A) as W. split.
      * apply once_two; auto; [apply head_targets|apply head_NoDup|intros t; now apply prop_results_targets|now apply prop_results_NoDup].
      * right. exists sp, m, resp. do 5 (split; auto). left. split; auto. intros k o K. apply in_app_or in K as [K|K]; [destruct (HP _ _ K)|].
        eapply prop_results_value; eauto.
    + split.
      * apply once_two; auto; [apply head_targets|apply head_NoDup| |now apply exc_NoDup, resolvers_NoDup].
        intros t. rewrite exc_targets. split; [intros [K|[[_ K]|(_ & K1 & K2)]]; auto; [discriminate|congruence]|auto].
      * right. exists sp, m, resp. do 5 (split; auto). right. exists e. split; auto. split; [now apply all_properties_err|].
        intros k o K. apply in_app_or in K as [K|K]; [destruct (HP _ _ K)|]. now apply exc_outcomes in K.
  - rewrite C in H. apply pair_equal_spec in H as [<- <-]. split; [now apply once_exc|]. left. exists e. split; auto. split; [now apply reg_call_err|].
    intros t o K. now apply exc_outcomes in K.
Qed.

Lemma t_none_iff v : t_none v = true <-> v = TLeaf VNone.
Proof. destruct v as [[]| | | | |]; simpl; split; try discriminate; auto. Qed.

Lemma props_resolved c props sp outs deps all k o : good_outputs c sp outs -> wf_dict deps -> no_clash c (dkeys deps) ->
  all_properties c sp outs = Ok all ->
  In (TProp k, o) (prop_results c (resolvers props) all (translated_deps c (map (fun kv => (fst kv, map RDep (snd kv))) deps))) ->
  exists v known secret ds, o = OVal v known secret ds /\ resolves_to c sp outs k v known secret /\ depends c deps k ds.
Proof.
  intros G W C A H. pose proof (all_properties_wf _ _ _ _ A) as Wa. apply in_prop_results in H as [Hk Ho]; auto.
  pose proof (all_properties_spec _ _ _ _ G A k) as (S1 & S2 & S3).
  pose proof (translated_deps_spec c deps k W C) as D.
  assert (FV : forall tv, from_value tv (t_unwrap tv) (t_secret tv)).
  { intros tv. unfold from_value. destruct tv; try (right; repeat split; auto; discriminate). left. eauto. }
  destruct (dget all k) as [tv|] eqn:E.
  - exists (t_unwrap tv), (negb (c_dry c) || negb (t_none (t_unwrap tv)))%bool, (t_secret tv).
    eexists. split; [exact Ho|]. split; [|exact D]. unfold resolves_to. repeat split.
    + intros tv' H. apply S1 in H. injection H as <-. apply FV.
    + intros tv' H1 H2 H3. specialize (S2 H1 H2 _ H3). injection S2 as <-. apply FV.
    + specialize (S3 H H0). discriminate.
    + specialize (S3 H H0). discriminate.
    + rewrite Bool.orb_true_iff, !Bool.negb_true_iff. intros [K|K]; auto. right. intros K2. apply t_none_iff in K2. congruence.
    + rewrite Bool.orb_true_iff, !Bool.negb_true_iff. intros [K|K]; auto. right. destruct (t_none (t_unwrap tv)) eqn:T; auto. apply t_none_iff in T. contradiction.
  - exists (TLeaf VNone), (negb (c_dry c)), false. eexists. split; [exact Ho|]. split; [|exact D]. unfold resolves_to. repeat split.
    + intros tv' H. apply S1 in H. discriminate.
    + intros tv' H1 H2 H3. specialize (S2 H1 H2 _ H3). discriminate.
    + rewrite Bool.negb_true_iff. auto.
    + rewrite Bool.negb_true_iff. intros [K|K]; auto. congruence.
Qed.

Lemma register_values g l sp m resp : NoDup (g_props g) -> do_register g [] = (l, Ok tt) ->
  g_prepare g = Ok sp -> g_request g = Ok m -> engine_answer sp m (g_monitor g) (Ok resp) ->
  good_outputs (g_cfg g) sp (r_object resp) -> wf_dict (r_deps resp) -> no_clash (g_cfg g) (dkeys (r_deps resp)) ->
  forall k o, In (TProp k, o) l -> exists v known secret ds, o = OVal v known secret ds /\
    resolves_to (g_cfg g) sp (r_object resp) k v known secret /\ depends (g_cfg g) (r_deps resp) k ds.
Proof.
  intros N H E1 E2 E3 G W C k o Ho. pose proof (do_register_cases g N) as D. cbv zeta in D.
  assert (RC : reg_call g = Ok (sp, Some resp)).
  { unfold reg_call. rewrite E1, E2. cbn [rbind]. inversion E3; subst; reflexivity. }
  rewrite RC in D. destruct (all_properties (g_cfg g) sp (r_object resp)) as [all|e] eqn:A; rewrite D in H.
  - apply pair_equal_spec in H as [<- _]. apply in_app_or in Ho as [K|K].
    + exfalso. apply (in_map fst) in K. apply head_targets in K. intuition discriminate.
    + eapply props_resolved; eauto.
  - apply pair_equal_spec in H as [_ K]. discriminate.
Qed.

(* ---- reading ---- *)
Lemma run_two t1 o1 t2 o2 (k : act unit) : t1 <> t2 ->
  (do _ <- resolve t1 o1; do _ <- resolve t2 o2; k) [] = k [(t1, o1); (t2, o2)].
Proof.
  intros N. unfold abind. rewrite resolve_fresh by easy. cbn [app]. rewrite resolve_fresh; [reflexivity|]. simpl. intuition.
Qed.
Definition read_head (c : rcfg) (urn : string) (id : option string) : log :=
  [(TUrn, OVal (TLeaf (VStr urn)) true false [c_self c]); (TId, OVal (vstr id) true false [c_self c])].
Lemma do_read_cases g : NoDup (d_props g) ->
  let rs := resolvers (d_props g) in
  match read_call g with
  | Err e => do_read g [] = (exc_list true false false rs e, Err e)
  | Ok (_, None) => False
  | Ok (sp, id, Some resp) =>
      match all_properties (d_cfg g) sp (r_object resp) with
      | Ok all => do_read g [] = ((read_head (d_cfg g) (r_urn resp) id ++ prop_results (d_cfg g) rs all (translated_deps (d_cfg g) []))%list, Ok tt)
      | Err e => do_read g [] = (read_head (d_cfg g) (r_urn resp) id, Err e)
      end
  end.
Proof.
  intros N rs. unfold do_read. fold rs. destruct (read_call g) as [[[sp id] [resp|]]|e] eqn:E.
  - rewrite run_two by discriminate. fold (read_head (d_cfg g) (r_urn resp) id).
    destruct (all_properties (d_cfg g) sp (r_object resp)) as [all|e] eqn:A.
    + unfold rs. rewrite (resolve_outputs_ok _ _ _ _ _ _ all); auto; simpl; [|intuition discriminate].
      repeat constructor; simpl; intuition discriminate.
    + now rewrite (resolve_outputs_err _ _ _ _ _ _ e) by auto.
  - unfold read_call in E. destruct (d_prepare g); cbn [rbind] in E; [|discriminate]. destruct (d_id g); cbn [rbind] in E; [|discriminate].
    destruct (d_request g); cbn [rbind] in E; [|discriminate].
    destruct (d_monitor g) as [aw|]; [|discriminate]. destruct aw as [r|u d|e]; cbn in E; try discriminate. destruct u; discriminate.
  - rewrite fail_all_ok; [reflexivity|]. cbn [map app]. now apply exc_NoDup, resolvers_NoDup.
Qed.
Lemma read_call_ok g sp id resp : read_call g = Ok (sp, id, Some resp) <->
  exists m, d_prepare g = Ok sp /\ d_id g = Ok id /\ d_request g = Ok m /\ engine_answer sp m (d_monitor g) (Ok resp).
Proof.
  unfold read_call. split.
  - destruct (d_prepare g) as [sp'|]; cbn [rbind]; [|discriminate]. destruct (d_id g) as [id'|]; cbn [rbind]; [|discriminate].
    destruct (d_request g) as [m|]; cbn [rbind]; [|discriminate].
    destruct (d_monitor g) as [a|]; [|intros [= <- <- <-]; exists m; repeat constructor].
    destruct a as [r|[] d|e]; cbn; try discriminate. intros [= <- <- <-]. exists m. repeat constructor.
  - intros (m & -> & -> & -> & H). cbn [rbind]. inversion H; subst; reflexivity.
Qed.
Lemma read_call_err g e : read_call g = Err e ->
  d_prepare g = Err e \/ exists sp, d_prepare g = Ok sp /\ (d_id g = Err e \/ exists id, d_id g = Ok id /\
    (d_request g = Err e \/ exists m, d_request g = Ok m /\ engine_answer sp m (d_monitor g) (Err e))).
Proof.
  unfold read_call. destruct (d_prepare g) as [sp'|]; cbn [rbind]; [|intros [= ->]; auto]. destruct (d_id g) as [id|]; cbn [rbind].
  2:{ intros [= ->]. eauto. }
  destruct (d_request g) as [m|]; cbn [rbind].
  2:{ intros [= ->]. right. eauto 8. }
  destruct (d_monitor g) as [a|]; [|discriminate]. intros H. right. exists sp'. split; auto. right. exists id. split; auto. right. exists m. split; auto.
  destruct a as [r|[] d|e0]; cbn in H; try discriminate; injection H as <-; constructor.
Qed.

Lemma read_ok g l r : NoDup (d_props g) -> do_read g [] = (l, r) ->
  (forall sp m resp e, d_prepare g = Ok sp -> engine_answer sp m (d_monitor g) (Ok resp) -> ~ undecodable (d_cfg g) sp (r_object resp) e) ->
  resolved_once true (d_props g) l /\
  ((exists e, r = Err e /\ read_fails_early g e /\ forall t o, In (t, o) l -> o = OExc e) \/
   (exists sp id m resp, d_prepare g = Ok sp /\ d_id g = Ok id /\ d_request g = Ok m /\ engine_answer sp m (d_monitor g) (Ok resp) /\
      r = Ok tt /\ (exists o, In (TUrn, o) l /\ is_urn (d_cfg g) (r_urn resp) o) /\
      In (TId, OVal (TLeaf (match id with Some s => VStr s | None => VNone end)) true false [c_self (d_cfg g)]) l /\
      forall k o, In (TProp k, o) l -> is_value o)).
Proof.
  intros N H D. pose proof (do_read_cases g N) as C. cbv zeta in C.
  destruct (read_call g) as [[[sp id] [resp|]]|e] eqn:E; [|contradiction|].
  - apply read_call_ok in E as (m & E1 & E2 & E3 & E4).
    destruct (all_properties (d_cfg g) sp (r_object resp)) as [all|e] eqn:A.
    2:{ exfalso. apply all_properties_err in A. exact (D _ _ _ _ E1 E4 A). }
    rewrite C in H. apply pair_equal_spec in H as [<- <-]. pose proof (all_properties_wf _ _ _ _ A) as W. split.
    + apply once_two; auto; [simpl; intuition (subst; auto)|simpl; repeat constructor; simpl; intuition discriminate|
        intros t; now apply prop_results_targets|now apply prop_results_NoDup].
    + right. exists sp, id, m, resp. do 5 (split; auto). split; [eexists; split; [left; reflexivity|reflexivity]|].
      split; [right; left; reflexivity|]. intros k o K. destruct K as [K|[K|K]]; [discriminate|discriminate|]. eapply prop_results_value; eauto.
  - rewrite C in H. apply pair_equal_spec in H as [<- <-]. split; [now apply once_exc|]. left. exists e. split; auto. split; [now apply read_call_err|].
    intros t o K. now apply exc_outcomes in K.
Qed.
Lemma read_values g l sp id m resp : NoDup (d_props g) -> do_read g [] = (l, Ok tt) ->
  d_prepare g = Ok sp -> d_id g = Ok id -> d_request g = Ok m -> engine_answer sp m (d_monitor g) (Ok resp) ->
  good_outputs (d_cfg g) sp (r_object resp) ->
  forall k o, In (TProp k, o) l -> exists v known secret ds, o = OVal v known secret ds /\
    resolves_to (d_cfg g) sp (r_object resp) k v known secret /\ depends (d_cfg g) [] k ds.
Proof.
  intros N H E1 E2 E3 E4 G k o Ho. pose proof (do_read_cases g N) as D. cbv zeta in D.
  assert (RC : read_call g = Ok (sp, id, Some resp)) by (apply read_call_ok; eauto).
  rewrite RC in D. destruct (all_properties (d_cfg g) sp (r_object resp)) as [all|e] eqn:A; rewrite D in H.
  - apply pair_equal_spec in H as [<- _]. destruct Ho as [K|[K|K]]; [discriminate|discriminate|].
    eapply (props_resolved _ _ _ _ []); eauto; [constructor|intros a b []].
  - apply pair_equal_spec in H as [_ K]. discriminate.
Qed.

(* ---- getting ---- *)
Lemma get_call_err g e : get_call g = Err e <-> get_fails (t_prepare g) (t_monitor g) e.
Proof.
  unfold get_call. split.
  - destruct (t_prepare g) as [sp|]; cbn [rbind]; [|intros [= ->]; constructor].
    destruct (t_monitor g) as [[[|[re pr] fs] ret]|[] d|e0]; cbn; try discriminate; intros [= <-]; constructor.
  - destruct 1; reflexivity.
Qed.
Lemma get_call_ok g sp r : get_call g = Ok (sp, r) -> t_prepare g = Ok sp /\ t_monitor g = AResp r /\ i_failures r = [].
Proof.
  unfold get_call. destruct (t_prepare g) as [sp'|]; cbn [rbind]; [|discriminate].
  destruct (t_monitor g) as [[[|[re pr] fs] ret]|[] d|e0]; cbn; try discriminate. intros [= <- <-]. auto.
Qed.
Definition get_head (c : rcfg) (custom : bool) (urn id : wire) : log :=
  (TUrn, OVal (raw urn) true false [c_self c]) ::
  (if custom then [(TId, OVal (raw id) (wtruthy id) false [c_self c])] else []).
Lemma get_run g sp r urn id state all : NoDup (t_props g) -> get_call g = Ok (sp, r) -> wf_dict (i_return r) ->
  In ("urn", urn) (i_return r) -> (t_custom g = true -> In ("id", id) (i_return r)) -> In ("state", WStruct state) (i_return r) ->
  all_properties (t_cfg g) sp state = Ok all ->
  do_get g [] = ((get_head (t_cfg g) (t_custom g) urn id ++ prop_results (t_cfg g) (resolvers (t_props g)) all (translated_deps (t_cfg g) []))%list, Ok tt).
Proof.
  intros N E W Hu Hi Hs A. unfold do_get. rewrite E. apply In_dget in Hu, Hs; auto. unfold sget.
  unfold abind at 1. rewrite Hu. unfold abind at 1. rewrite resolve_fresh by easy. cbn [app].
  assert (R : forall custom (k : act unit), (custom = true -> In ("id", id) (i_return r)) -> 
    (do _ <- (if custom then do id0 <- (fun l => (l, match dget (i_return r) "id" with Some w => Ok w | None => value_not_set end));
                               resolve TId (OVal (raw id0) (wtruthy id0) false [c_self (t_cfg g)]) else ret tt); k)
       [(TUrn, OVal (raw urn) true false [c_self (t_cfg g)])] = k (get_head (t_cfg g) custom urn id)).
  { intros [] k Hc; unfold abind, get_head; [|reflexivity]. specialize (Hc eq_refl). apply In_dget in Hc; auto. rewrite Hc.
    rewrite resolve_fresh; [reflexivity|]. simpl. intuition discriminate. }
  rewrite R by auto. unfold abind at 1. rewrite Hs.
  rewrite (resolve_outputs_ok _ _ _ _ _ _ all); auto.
  - unfold get_head. destruct (t_custom g); simpl; repeat constructor; simpl; intuition discriminate.
  - intros k. unfold get_head. destruct (t_custom g); simpl; intuition discriminate.
Qed.
Lemma get_ok g l r : NoDup (t_props g) -> do_get g [] = (l, r) ->
  (forall sp resp, t_prepare g = Ok sp -> t_monitor g = AResp resp -> wf_dict (i_return resp) /\
     (i_failures resp = [] -> usable_result (t_cfg g) (t_custom g) sp (i_return resp))) ->
  resolved_once (t_custom g) (t_props g) l /\
  ((exists e, r = Err e /\ get_fails (t_prepare g) (t_monitor g) e /\ forall t o, In (t, o) l -> o = OExc e) \/
   (exists sp resp urn, t_prepare g = Ok sp /\ t_monitor g = AResp resp /\ i_failures resp = [] /\ r = Ok tt /\
      In ("urn", WStr urn) (i_return resp) /\ (exists o, In (TUrn, o) l /\ is_urn (t_cfg g) urn o)) \/
   (exists sp resp w, t_prepare g = Ok sp /\ t_monitor g = AResp resp /\ i_failures resp = [] /\ r = Ok tt /\
      In ("urn", w) (i_return resp) /\ (forall u, w <> WStr u))).
Proof.
  intros N H D. destruct (get_call g) as [[sp resp]|e] eqn:E.
  - pose proof E as E0. apply get_call_ok in E0 as (E1 & E2 & E3). destruct (D _ _ E1 E2) as [W U].
    destruct (U E3) as ((urn & Hu) & Hi & state & Hs & Hd).
    destruct (all_properties (t_cfg g) sp state) as [all|e] eqn:A.
    2:{ exfalso. apply all_properties_err in A. exact (Hd _ A). }
    assert (exists id, t_custom g = true -> In ("id", id) (i_return resp)) as (id & Hid).
    { destruct (t_custom g); [destruct (Hi eq_refl) as (id & Hid); eauto|exists WNull; discriminate]. }
    rewrite (get_run g sp resp urn id state all) in H by auto. apply pair_equal_spec in H as [<- <-].
    pose proof (all_properties_wf _ _ _ _ A) as Wa. split.
    + apply once_two; auto.
      * unfold get_head. destruct (t_custom g); simpl; intuition (subst; auto; discriminate).
      * unfold get_head. destruct (t_custom g); simpl; repeat constructor; simpl; intuition discriminate.
      * intros t; now apply prop_results_targets.
      * now apply prop_results_NoDup.
    + destruct urn as [|b|z|u|ls|ds]; try (right; right; eexists sp, resp, _; repeat split; eauto; discriminate).
      right. left. exists sp, resp, u. repeat split; auto. eexists. split; [left; reflexivity|reflexivity].
  - assert (C : do_get g [] = (exc_list (t_custom g) false false (resolvers (t_props g)) e, Err e)).
    { unfold do_get. rewrite E. rewrite fail_all_ok; [reflexivity|]. cbn [map app]. now apply exc_NoDup, resolvers_NoDup. }
    rewrite C in H. apply pair_equal_spec in H as [<- <-]. split; [now apply once_exc|]. left. exists e. split; auto. split; [now apply get_call_err|].
    intros t o K. now apply exc_outcomes in K.
Qed.
Lemma get_values g l sp resp state : NoDup (t_props g) -> do_get g [] = (l, Ok tt) ->
  t_prepare g = Ok sp -> t_monitor g = AResp resp -> wf_dict (i_return resp) -> In ("state", WStruct state) (i_return resp) ->
  good_outputs (t_cfg g) sp state ->
  forall k o, In (TProp k, o) l -> exists v known secret ds, o = OVal v known secret ds /\
    resolves_to (t_cfg g) sp state k v known secret /\ depends (t_cfg g) [] k ds.
Proof.
  intros N H E1 E2 W Hs G k o Ho.
  assert (E : get_call g = Ok (sp, resp)).
  { unfold do_get, get_call in *. rewrite E1, E2 in *. cbn [rbind do_call] in *. destruct (i_failures resp) as [|[a b] fs]; auto.
    rewrite fail_all_ok in H by (cbn [map app]; now apply exc_NoDup, resolvers_NoDup). apply pair_equal_spec in H as [_ K]. discriminate. }
  pose proof H as H0. unfold do_get in H0. rewrite E in H0. unfold sget in H0.
  unfold abind at 1 in H0. destruct (dget (i_return resp) "urn") as [urn|] eqn:Hu; [|discriminate].
  unfold abind at 1 in H0. rewrite resolve_fresh in H0 by easy. cbn [app] in H0.
  assert (exists id, t_custom g = true -> In ("id", id) (i_return resp)) as (id & Hid).
  { destruct (t_custom g); [|exists WNull; discriminate]. unfold abind at 1 2 in H0.
    destruct (dget (i_return resp) "id") as [id|] eqn:Hi; [|discriminate]. exists id. intros _. now apply dget_In. }
  destruct (all_properties (t_cfg g) sp state) as [all|e] eqn:A.
  - apply dget_In in Hu. rewrite (get_run g sp resp urn id state all) in H by auto. apply pair_equal_spec in H as [<- _].
    apply in_app_or in Ho as [K|K].
    + exfalso. unfold get_head in K. destruct (t_custom g); simpl in K; intuition discriminate.
    + eapply (props_resolved _ _ _ _ []); eauto; [constructor|intros a b []].
  - exfalso. clear H. unfold abind in H0. apply In_dget in Hs; auto. rewrite Hs in H0.
    destruct (t_custom g).
    + destruct (dget (i_return resp) "id") as [w|]; [|discriminate]. rewrite resolve_fresh in H0 by (simpl; intuition discriminate).
      rewrite (resolve_outputs_err _ _ _ _ _ _ e) in H0 by auto. discriminate.
    + unfold ret in H0. rewrite (resolve_outputs_err _ _ _ _ _ _ e) in H0 by auto. discriminate.
Qed.
