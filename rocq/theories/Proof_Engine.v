(** Proofs: what the engine reads (C81). *)
From Verif Require Import Base PyVal Model_Output Spec_Output Proof_Output Proof_FromInput Model_Rpc Spec_Rpc
  Proof_Ser Proof_Ser2 Proof_Ser3 Proof_Deser2 Proof_RpcTop Model_Engine Spec_Engine.

Lemma ordinary_read s : ordinary s -> unknown_elem s = None.
Proof.
  unfold ordinary, unknown_elem. cbn [In sentinels]. intros H.
  repeat match goal with
  | |- (if String.eqb ?a ?b then _ else _) = _ => destruct (String.eqb_spec a b) as [E|_]; [exfalso; apply H; subst; tauto|]
  end. reflexivity.
Qed.
Lemma unmarshal_ordinary o s : ordinary s -> unmarshal o (WStr s) = Ok (PStr s).
Proof. intros H. cbn [unmarshal]. now rewrite ordinary_read. Qed.
Lemma unmarshal_unknown o : unmarshal o (WStr UNKNOWN) = Ok unknown_value.
Proof. reflexivity. Qed.

(** Entries of a struct. *)
Definition um (o : uopts) (kv : string * wire) : res (string * pval) :=
  let+ p := unmarshal o (snd kv) in Ok (fst kv, p).
Lemma unmarshal_struct o d obj : rmap (um o) d = Ok obj -> unmarshal o (WStruct d) = unmarshal_object o obj.
Proof. intros H. unfold um in H. cbn [unmarshal]. rewrite H. reflexivity. Qed.
Lemma rmap_cons {A B} (f : A -> res B) x l y ys : f x = Ok y -> rmap f l = Ok ys -> rmap f (x :: l) = Ok (y :: ys).
Proof. intros H G. unfold rmap in *. rewrite H. cbn [rbind]. rewrite G. reflexivity. Qed.
Lemma um_ok o k w p : unmarshal o w = Ok p -> um o (k, w) = Ok (k, p).
Proof. intros H. unfold um. cbn [fst snd]. now rewrite H. Qed.
Lemma rmap_fst o d obj : rmap (um o) d = Ok obj -> map fst d = map fst obj.
Proof.
  revert obj. induction d as [|[k w] d IH]; simpl; intros obj H; [now injection H as <-|].
  unfold um in H at 1. cbn [fst snd] in H. destruct (unmarshal o w) as [p|]; simpl in H; [|discriminate].
  fold (rmap (um o)) in H. destruct (rmap (um o) d) as [r|] eqn:E; simpl in H; [|discriminate].
  injection H as <-. simpl. f_equal. now apply IH.
Qed.

Lemma plain_object o ps : names_ok ps -> unmarshal_object o ps = Ok (PObj ps).
Proof.
  intros [_ H]. unfold unmarshal_object. replace (dget ps go_SigKey) with (@None pval); auto.
  symmetry. now apply dget_None.
Qed.

(** Sorted dependencies. *)
Lemma sinsert_inc s l : increasing l -> increasing (sinsert s l).
Proof.
  induction 1 as [|x|x y l Hxy Hl IH]; cbn [sinsert].
  - constructor.
  - destruct (String.compare s x) eqn:E; try (now repeat constructor).
    constructor; [|constructor]. rewrite String.compare_antisym, E. reflexivity.
  - destruct (String.compare s x) eqn:E.
    + now constructor.
    + constructor; [exact E|]. now constructor.
    + cbn [sinsert] in IH. destruct (String.compare s y) eqn:E'.
      * now constructor.
      * constructor; [|exact IH]. rewrite String.compare_antisym, E. reflexivity.
      * now constructor.
Qed.
Lemma sort_inc l : increasing (sort_strings l).
Proof. induction l as [|x l IH]; [constructor|]. cbn. now apply sinsert_inc. Qed.

Lemma compare_lt_trans a b c : String.compare a b = Lt -> String.compare b c = Lt -> String.compare a c = Lt.
Proof.
  revert b c. induction a as [|x a IH]; intros [|y b] [|z c]; simpl; try discriminate; auto.
  destruct (Ascii.compare x y) eqn:E1; try discriminate.
  - apply Ascii.compare_eq_iff in E1; subst y. destruct (Ascii.compare x z); try discriminate; eauto.
  - destruct (Ascii.compare y z) eqn:E2; try discriminate; intros _ _.
    + apply Ascii.compare_eq_iff in E2; subst z. now rewrite E1.
    + assert (E : Ascii.compare x z = Lt).
      { unfold Ascii.compare in *. apply N.compare_lt_iff in E1, E2. apply N.compare_lt_iff. eapply N.lt_trans; eauto. }
      now rewrite E.
Qed.
Lemma inc_head_lt s l x : increasing (s :: l) -> In x l -> String.compare s x = Lt.
Proof.
  revert s. induction l as [|y l IH]; intros s H; [easy|]. inv H. intros [->|Hx]; auto.
  eapply compare_lt_trans; eauto.
Qed.
Lemma inc_tail s l : increasing (s :: l) -> increasing l.
Proof. intros H. inv H; [constructor|auto]. Qed.
Lemma inc_unique l m : increasing l -> increasing m -> same_set l m -> l = m.
Proof.
  revert m. induction l as [|x l IH]; intros [|y m] Hl Hm E; auto.
  - destruct (proj2 (E y)); simpl; auto.
  - destruct (proj1 (E x)); simpl; auto.
  - assert (Irr : forall a, String.compare a a = Lt -> False).
    { intros a Ha. pose proof (String.compare_antisym a a) as K. rewrite Ha in K. discriminate. }
    assert (Hxy : x = y).
    { destruct (proj1 (E x) (or_introl eq_refl)) as [|Hx]; auto.
      destruct (proj2 (E y) (or_introl eq_refl)) as [|Hy]; auto.
      exfalso. apply (Irr x). eapply compare_lt_trans; [eapply inc_head_lt; eauto|eapply inc_head_lt; eauto]. }
    subst y. f_equal. apply IH; eauto using inc_tail.
    intros z. split; intros Hz.
    + destruct (proj1 (E z) (or_intror Hz)) as [K|K]; auto. subst z. destruct (Irr x (inc_head_lt x l x Hl Hz)).
    + destruct (proj2 (E z) (or_intror Hz)) as [K|K]; auto. subst z. destruct (Irr x (inc_head_lt x m x Hm Hz)).
Qed.

Lemma await_ok c rs : (forall r, In r rs -> exists u, r_urn (c_res c r) = Done u) -> await_urns c rs = Done tt.
Proof.
  induction rs as [|r rs IH]; simpl; intros H; auto. destruct (H r (or_introl eq_refl)) as [u ->]. simpl. auto.
Qed.
Lemma expand_ok c rs : (forall r, In r rs -> exists l, r_expand (c_res c r) = Done l) ->
  exists us, expand_all c rs = Done us /\
    forall u, In u us <-> exists r l, In r rs /\ r_expand (c_res c r) = Done l /\ In u l.
Proof.
  induction rs as [|r rs IH]; simpl; intros H.
  - exists []. split; auto. intros u. split; [easy|]. intros (? & ? & [] & _).
  - destruct (H r (or_introl eq_refl)) as [l El]. rewrite El. simpl.
    destruct IH as (us & -> & Hus); [intros; apply H; auto|]. simpl. eexists; split; [reflexivity|].
    intros u. rewrite in_app_iff, Hus. split.
    + intros [Hu|(r' & l' & Hr & E & Hu)]; [exists r, l|exists r', l']; auto.
    + intros (r' & l' & [->|Hr] & E & Hu); [left; congruence|right; eauto].
Qed.

(** Objects carrying a signature. *)
Lemma asset_read o k s : ordinary s -> s <> "" -> k = "text" \/ k = "path" \/ k = "uri" ->
  forall d, digest (u_hash o) (PAsset "" (if String.eqb k "text" then s else "") (if String.eqb k "path" then s else "")
                                 (if String.eqb k "uri" then s else "")) d ->
  unmarshal o (WStruct [(sig_key, WStr asset_sig); (k, WStr s)]) =
  Ok (PAsset d (if String.eqb k "text" then s else "") (if String.eqb k "path" then s else "")
               (if String.eqb k "uri" then s else "")).
Proof.
  intros Ho Hs Hk d Hd. rewrite (unmarshal_struct o _ [(sig_key, PStr asset_sig); (k, PStr s)]).
  2:{ apply rmap_cons; [reflexivity|]. apply rmap_cons; [|reflexivity]. apply um_ok. now apply unmarshal_ordinary. }
  apply String.eqb_neq in Hs.
  destruct Hk as [->|[->| ->]]; cbn in Hd |- *; unfold asset_hash; destruct (u_hash o) as [h|]; cbn in Hd |- *;
    rewrite ?Hs; cbn; unfold dict; rewrite ?Hd; cbn; subst; reflexivity.
Qed.
Lemma archive_read o k s : ordinary s -> s <> "" -> k = "path" \/ k = "uri" ->
  forall d, digest (u_hash o) (PArchive "" None (if String.eqb k "path" then s else "")
                                 (if String.eqb k "uri" then s else "")) d ->
  unmarshal o (WStruct [(sig_key, WStr archive_sig); (k, WStr s)]) =
  Ok (PArchive d None (if String.eqb k "path" then s else "") (if String.eqb k "uri" then s else "")).
Proof.
  intros Ho Hs Hk d Hd. rewrite (unmarshal_struct o _ [(sig_key, PStr archive_sig); (k, PStr s)]).
  2:{ apply rmap_cons; [reflexivity|]. apply rmap_cons; [|reflexivity]. apply um_ok. now apply unmarshal_ordinary. }
  apply String.eqb_neq in Hs.
  destruct Hk as [->| ->]; cbn in Hd |- *; unfold archive_hash; destruct (u_hash o) as [h|]; cbn in Hd |- *;
    rewrite ?Hs; cbn; unfold dict; rewrite ?Hd; cbn; subst; reflexivity.
Qed.
Lemma members_read o es ps d : rmap (um o) es = Ok ps -> names_ok ps -> Forall (fun kv => asset_or_archive (snd kv)) ps ->
  digest (u_hash o) (PArchive "" (Some ps) "" "") d ->
  unmarshal o (WStruct [(sig_key, WStr archive_sig); ("assets", WStruct es)]) = Ok (PArchive d (Some ps) "" "").
Proof.
  intros He Hn Hm Hd. rewrite (unmarshal_struct o _ [(sig_key, PStr archive_sig); ("assets", PObj ps)]).
  2:{ apply rmap_cons; [reflexivity|]. apply rmap_cons; [|reflexivity]. apply um_ok.
      rewrite (unmarshal_struct _ _ _ He). now apply plain_object. }
  assert (Hf : forallb (fun kv => is_member (snd kv)) ps = true).
  { apply forallb_forall. intros [k p] Hi. rewrite Forall_forall in Hm. specialize (Hm _ Hi). destruct p; cbn in *; tauto. }
  cbn. rewrite Hf. cbn. unfold archive_hash. destruct (u_hash o) as [h|]; cbn in Hd |- *; unfold dict; rewrite Hd; reflexivity.
Qed.
Lemma secret_read o w p : unmarshal o w = Ok p -> unmarshal o (wsecret w) = Ok (PSecret p).
Proof.
  intros H. unfold wsecret. rewrite (unmarshal_struct o _ [(sig_key, PStr secret_sig); ("value", p)]); [reflexivity|].
  apply rmap_cons; [reflexivity|]. apply rmap_cons; [|reflexivity]. now apply um_ok.
Qed.
Lemma strings_read o us : Forall ordinary us -> unmarshal o (WList (map WStr us)) = Ok (PArr (map PStr us)).
Proof.
  intros H. cbn [unmarshal]. assert (E : rmap (unmarshal o) (map WStr us) = Ok (map PStr us)).
  { induction H; [reflexivity|]. cbn [map]. apply rmap_cons; auto. now apply unmarshal_ordinary. }
  now rewrite E.
Qed.
Lemma go_strings_map us : go_strings (map PStr us) = Ok us.
Proof. induction us as [|u us IH]; simpl; auto. now rewrite IH. Qed.
Lemma output_read o k s w p us : u_outputs o = true -> (k = true -> unmarshal o w = Ok p) -> Forall ordinary us ->
  unmarshal o (woutput k s w us) = Ok (POutput (if k then p else PNull) k s us).
Proof.
  intros Ho Hw Hu. unfold woutput.
  rewrite (unmarshal_struct o _ ((sig_key, PStr output_sig) :: (if k then [("value", p)] else [])
      ++ (if s then [("secret", PBool true)] else [])
      ++ (match us with [] => [] | _ => [("dependencies", PArr (map PStr us))] end))).
  - pose proof (go_strings_map us) as G. destruct k, s, us; cbn -[go_strings map] in *; rewrite ?Ho; cbn -[go_strings map] in *;
      rewrite ?G; reflexivity.
  - apply rmap_cons; [reflexivity|].
    assert (D : rmap (um o) (match us with [] => [] | _ => [("dependencies", WList (map WStr us))] end) =
                Ok (match us with [] => [] | _ => [("dependencies", PArr (map PStr us))] end)).
    { destruct us as [|u us]; [reflexivity|]. apply rmap_cons; [|reflexivity]. apply um_ok. now apply strings_read. }
    assert (S : rmap (um o) ((if s then [("secret", WBool true)] else []) ++
                  (match us with [] => [] | _ => [("dependencies", WList (map WStr us))] end)) =
                Ok ((if s then [("secret", PBool true)] else []) ++
                  (match us with [] => [] | _ => [("dependencies", PArr (map PStr us))] end))).
    { destruct s; cbn [app]; auto. apply rmap_cons; [reflexivity|exact D]. }
    destruct k; cbn [app]; auto. apply rmap_cons; [|exact S]. apply um_ok; auto.
Qed.

(* ------------------------------------------------------------------ *)
Definition given_fields (c : cfg) (fields : list (string * pyval)) (fs : list field) : list (string * ser_fn) :=
  flat_map (fun f => match dget fields (f_py f) with
                     | Some x => if is_none x then [] else [(f_pulumi f, ser c x)]
                     | None => [] end) fs.
Lemma input_entries_flat c fields fs : NoDup (map f_pulumi fs) ->
  input_entries fs (input_fns c fields) = given_fields c fields fs.
Proof.
  unfold input_entries. intros N.
  assert (G : forall fs acc, NoDup (map f_pulumi fs) -> (forall f, In f fs -> ~ In (f_pulumi f) (dkeys acc)) ->
    fold_left (fun acc f => match dget (input_fns c fields) (f_py f) with
                            | Some (false, s) => dset acc (f_pulumi f) s | _ => acc end) fs acc =
    (acc ++ given_fields c fields fs)%list).
  { clear. induction fs as [|f fs IH]; intros acc N D; cbn [fold_left given_fields flat_map].
    - now rewrite app_nil_r.
    - inv N. rewrite dget_input_fns. destruct (dget fields (f_py f)) as [x|]; cbn [option_map].
      + destruct (is_none x); cbn [app].
        * apply IH; auto. intros g Hg. apply D. now right.
        * rewrite dset_fresh by (apply D; now left). rewrite IH; auto.
          -- rewrite <- app_assoc. reflexivity.
          -- intros g Hg. unfold dkeys. rewrite map_app, in_app_iff. simpl. intros [K|[K|[]]].
             ++ apply (D g); [now right|exact K].
             ++ apply H1. rewrite K. now apply in_map.
      + apply IH; auto. intros g Hg. apply D. now right. }
  rewrite (G fs [] N); [reflexivity|easy].
Qed.

Section Means.
  Variable c : cfg.
  Variable o : uopts.
  Hypothesis Hcls : forall cls, class_declared (c_class c cls).
  Let Hn : forall cls, class_named (c_class c cls) := fun cls => class_declared_named _ (Hcls cls).
  Let Hk : forall cls, class_ok (c_class c cls) := fun cls => class_declared_ok _ (Hcls cls).

  Definition allowed (keep : bool) : Prop := keep = true -> u_outputs o = true.
  Definition reads (t : option pty) (keep : bool) (v : pyval) (p : pval) : Prop :=
    allowed keep ->
    exists w ds, ser c v t keep = Done (w, ds) /\ unmarshal o w = Ok p /\ (w = WNull <-> p = PNull).
  Definition reads_all (e : option pty) (keep : bool) (l : list pyval) (ps : list pval) : Prop :=
    allowed keep ->
    exists ws ds, ser_elems (map (fun x => ser c x) l) e keep = Done (ws, ds) /\ rmap (unmarshal o) ws = Ok ps.
  Definition fresh (ps : list (string * pval)) (acc : dict wire) : Prop :=
    NoDup (map fst ps) /\ (forall k, In k (map fst ps) -> ~ In k (dkeys acc)).
  Definition reads_entries (tr : string -> string) (ty : string -> option pty) (keep : bool)
      (es : list (string * ser_fn)) (ps : list (string * pval)) : Prop :=
    allowed keep -> forall acc, fresh ps acc ->
    exists ws ds, ser_entries tr ty keep es acc = Done ((acc ++ ws)%list, ds) /\ rmap (um o) ws = Ok ps.

  Lemma fresh_cons k p ps acc w : fresh ((k, p) :: ps) acc -> fresh ps (dset acc k w).
  Proof.
    intros [N D]. cbn in N. inv N. split; auto. intros k' Hk'. rewrite dkeys_dset. intros [->|Hi]; [tauto|].
    apply (D k'); [now right|exact Hi].
  Qed.
  Lemma entries_cons tr ty keep k s k' p es ps :
    tr k = k' -> (allowed keep -> exists w ds, s (ty k') keep = Done (w, ds) /\ unmarshal o w = Ok p) ->
    reads_entries tr ty keep es ps -> reads_entries tr ty keep ((k, s) :: es) ((k', p) :: ps).
  Proof.
    intros <- Hs IH Ha acc F. destruct (Hs Ha) as (w & ds & E & U). cbn [ser_entries]. rewrite E. cbn [fbind].
    destruct (IH Ha (dset acc (tr k) w)) as (ws & ds' & E' & U'); [eapply fresh_cons; eauto|].
    rewrite E'. cbn [fbind]. rewrite dset_fresh.
    2:{ destruct F as [_ D]. apply D. now left. }
    exists ((tr k, w) :: ws), (ds ++ ds')%list. split; [now rewrite <- app_assoc|].
    apply rmap_cons; auto. now apply um_ok.
  Qed.
  Lemma entries_nil tr ty keep : reads_entries tr ty keep [] [].
  Proof. intros _ acc _. exists [], []. split; [now rewrite app_nil_r|reflexivity]. Qed.
  Lemma entries_read tr ty keep es ps : reads_entries tr ty keep es ps -> allowed keep -> names_ok ps ->
    exists ws ds, ser_entries tr ty keep es [] = Done (ws, ds) /\ unmarshal o (WStruct ws) = Ok (PObj ps).
  Proof.
    intros H Ha Hp. destruct (H Ha []) as (ws & ds & E & U).
    { split; [apply Hp|easy]. }
    exists ws, ds. split; auto. rewrite (unmarshal_struct _ _ _ U). now apply plain_object.
  Qed.

  Lemma ser_string_some r s : ser_string_output r (Done (Some s)) = Done (WStr s, [r]).
  Proof. reflexivity. Qed.
  Lemma ser_string_none r : ser_string_output r (Done None) = Done (WStr UNKNOWN, [r]).
  Proof. reflexivity. Qed.

  Lemma ref_read u (id : option (wire * pval)) :
    ordinary u -> match id with Some (w, p) => unmarshal o w = Ok p /\ (p = unknown_value \/ exists i, i <> "" /\ p = PStr i) | None => True end ->
    unmarshal o (WStruct ((sig_key, WStr resource_sig) :: ("urn", WStr u) :: match id with Some (w, _) => [("id", w)] | None => [] end)) =
    Ok (PRef u (option_map snd id) "").
  Proof.
    intros Hu Hi.
    rewrite (unmarshal_struct o _ ((sig_key, PStr resource_sig) :: ("urn", PStr u) :: match id with Some (_, p) => [("id", p)] | None => [] end)).
    2:{ apply rmap_cons; [reflexivity|]. apply rmap_cons; [apply um_ok; now apply unmarshal_ordinary|].
        destruct id as [[w p]|]; [|reflexivity]. apply rmap_cons; [apply um_ok; apply Hi|reflexivity]. }
    destruct id as [[w p]|]; [|reflexivity]. destruct Hi as [_ [->|(i & Hi & ->)]]; [reflexivity|].
    cbn. unfold custom_ref. apply String.eqb_neq in Hi. now rewrite Hi.
  Qed.

  (** The parts common to the outputs. *)
  Lemma kept_read t rs x s k p us :
    c_outvals c = true -> u_outputs o = true -> dependencies c rs x us ->
    (contains_unknowns x = false -> exists w ds, ser c x t false = Done (w, ds) /\ unmarshal o w = Ok p) ->
    (k = true -> contains_unknowns x = false) ->
    exists w ds, ser c (VOut (Done rs) (Done x) (Done k) (Done s)) t true = Done (w, ds) /\
      unmarshal o w = Ok (POutput (if k then p else PNull) k s us) /\ w <> WNull.
  Proof.
    intros Hc Ho (D1 & D2 & D3 & D4) Hx Hkx. cbn [ser fbind]. rewrite ser_norm.
    assert (G : exists w pds, (if contains_unknowns x then Done (WNull, []) else ser c x t false) = Done (w, pds) /\
                (k = true -> unmarshal o w = Ok p) /\ (forall r, In r (rs ++ pds) <-> behind c rs x r)).
    { unfold behind. destruct (contains_unknowns x) eqn:Ex.
      - exists WNull, []. split; auto. split; [intros K; now apply Hkx in K|]. intros r. rewrite app_nil_r. intuition discriminate.
      - destruct (Hx eq_refl) as (w & ds & E & U). exists w, ds. split; auto. split; auto.
        intros r. rewrite in_app_iff, (ser_deps c Hk x _ _ _ _ E r). tauto. }
    destruct G as (w & pds & -> & U & HB). cbn [fbind]. rewrite Hc. cbn [andb].
    rewrite await_ok by (intros r Hr; apply HB in Hr; destruct (D1 r Hr) as (u & l & E & _); eauto).
    destruct (expand_ok c (rs ++ pds)) as (urns & -> & Hu).
    { intros r Hr; apply HB in Hr; destruct (D1 r Hr) as (u & l & _ & E); eauto. }
    cbn [fbind].
    assert (Es : sort_strings urns = us).
    { apply inc_unique; auto using sort_inc. intros u. rewrite sort_strings_In, Hu, D4.
      split; intros (r & l & Hr & R); exists r, l; (split; [apply HB; exact Hr|exact R]). }
    rewrite Es. eexists; eexists; split; [reflexivity|]. split; [|discriminate]. now apply output_read.
  Qed.
  Lemma plain_out t keep rs x k s w ds :
    keep && c_outvals c = false ->
    (if contains_unknowns x then Done (WNull, []) else ser c x t false) = Done (w, ds) ->
    ser c (VOut (Done rs) (Done x) (Done k) (Done s)) t keep =
    Done (if negb k then WStr UNKNOWN else if s && c_secrets c then wsecret w else w, (rs ++ ds)%list).
  Proof.
    intros Hkp E. cbn [ser fbind]. rewrite ser_norm, E. cbn [fbind]. rewrite Hkp.
    destruct k, s; cbn [negb andb]; try reflexivity. destruct (c_secrets c); reflexivity.
  Qed.

  Lemma means_reads :
    (forall t keep v p, means c (u_hash o) t keep v p -> reads t keep v p) /\
    (forall e keep l ps, all_mean c (u_hash o) e keep l ps -> reads_all e keep l ps) /\
    (forall t keep d ps, entries_mean c (u_hash o) t keep d ps ->
       reads_entries (key_rule c (norm_ty t)) (value_rule c (norm_ty t)) keep (map (fun kv => (fst kv, ser c (snd kv))) d) ps) /\
    (forall keep fields fs ps, fields_mean c (u_hash o) keep fields fs ps ->
       forall cls, incl fs (c_class c cls) ->
       reads_entries (fun k => k) (fun k => dget (declared_types (c_class c cls)) k) keep (given_fields c fields fs) ps) /\
    (forall d ps, members_mean c (u_hash o) d ps ->
       reads_entries (transform c) (fun _ => None) false (map (fun kv => (fst kv, ser c (snd kv))) d) ps /\
       Forall (fun kv => asset_or_archive (snd kv)) ps).
  Proof.
    apply means_all_mind.
    - (* any *) intros keep v p _ IH Ha. rewrite ser_any. auto.
    - intros t keep _. exists WNull, []. cbn. intuition.
    - intros t keep b _. exists (WBool b), []. cbn. intuition discriminate.
    - intros t keep z _. exists (WNum z), []. cbn. intuition discriminate.
    - intros t keep s Hs _. exists (WStr s), []. rewrite unmarshal_ordinary by auto. cbn. intuition discriminate.
    - (* list *)
      intros t e keep l ps He _ IH Ha. destruct (IH Ha) as (ws & ds & E & U). cbn [ser].
      assert (Ee : exists e', element_type (norm_ty t) = Ok e' /\ norm_ty e' = norm_ty e).
      { inv He; cbn; eauto. }
      destruct Ee as (e' & -> & Ee).
      replace (ser_elems (map (fun x => ser c x) l) e' keep) with (ser_elems (map (fun x => ser c x) l) e keep).
      2:{ clear -Ee. induction l as [|x l IH]; cbn [map ser_elems]; auto.
          rewrite <- (ser_norm c x e), <- (ser_norm c x e'), Ee, IH. reflexivity. }
      rewrite E. cbn [fbind]. eexists; eexists; split; [reflexivity|]. cbn [unmarshal]. rewrite U. cbn. intuition discriminate.
    - (* dict *)
      intros t keep d ps _ IH Hp Ha. destruct (entries_read _ _ _ _ _ IH Ha Hp) as (ws & ds & E & U).
      cbn [ser]. rewrite E. cbn [fbind]. eexists; eexists; split; [reflexivity|]. rewrite U. intuition discriminate.
    - (* input type *)
      intros t keep cls fields ps _ IH Hp Ha.
      destruct (entries_read _ _ _ _ _ (IH cls (incl_refl _)) Ha Hp) as (ws & ds & E & U).
      cbn [ser]. fold (input_fns c fields). rewrite input_entries_flat by apply Hcls. rewrite E. cbn [fbind].
      eexists; eexists; split; [reflexivity|]. rewrite U. intuition discriminate.
    - intros t keep _. exists (WStr UNKNOWN), []. cbn. intuition discriminate.
    - (* assets *)
      intros t keep s d Hs Ho Hd _. cbn [ser]. eexists; eexists; split; [reflexivity|].
      rewrite (asset_read o "path" s Ho Hs (or_intror (or_introl eq_refl)) d Hd). cbn. intuition discriminate.
    - intros t keep s d Hs Ho Hd _. cbn [ser]. eexists; eexists; split; [reflexivity|].
      rewrite (asset_read o "text" s Ho Hs (or_introl eq_refl) d Hd). cbn. intuition discriminate.
    - intros t keep s d Hs Ho Hd _. cbn [ser]. eexists; eexists; split; [reflexivity|].
      rewrite (asset_read o "uri" s Ho Hs (or_intror (or_intror eq_refl)) d Hd). cbn. intuition discriminate.
    - intros t keep s d Hs Ho Hd _. cbn [ser]. eexists; eexists; split; [reflexivity|].
      rewrite (archive_read o "path" s Ho Hs (or_introl eq_refl) d Hd). cbn. intuition discriminate.
    - intros t keep s d Hs Ho Hd _. cbn [ser]. eexists; eexists; split; [reflexivity|].
      rewrite (archive_read o "uri" s Ho Hs (or_intror eq_refl) d Hd). cbn. intuition discriminate.
    - (* archive with members *)
      intros t keep ms ps d _ [IH Hm] Hp Hd Ha. cbn [ser].
      destruct (IH ltac:(discriminate) []) as (ws & ds & E & U).
      { split; [apply Hp|easy]. }
      cbn [app] in E. rewrite E. cbn [fbind]. eexists; eexists; split; [reflexivity|].
      rewrite (members_read o ws ps d U Hp Hm Hd). intuition discriminate.
    - (* resources *)
      intros t keep r u Hr Hc Hu Ho _. cbn [ser]. rewrite Hr, Hc, Hu. rewrite ser_string_some. cbn [fbind].
      eexists; eexists; split; [reflexivity|]. rewrite (ref_read u None Ho I). intuition discriminate.
    - intros t keep r u i Hr Hc Hu Ho Hi Hio Hie _. cbn [ser]. rewrite Hr, Hc, Hu, Hi. rewrite !ser_string_some. cbn [fbind].
      eexists; eexists; split; [reflexivity|].
      rewrite (ref_read u (Some (WStr i, PStr i)) Ho); [cbn; intuition discriminate|].
      split; [now apply unmarshal_ordinary|eauto].
    - intros t keep r u Hr Hc Hu Ho Hi _. cbn [ser]. rewrite Hr, Hc, Hu, Hi. rewrite ser_string_some, ser_string_none. cbn [fbind].
      eexists; eexists; split; [reflexivity|].
      rewrite (ref_read u (Some (WStr UNKNOWN, unknown_value)) Ho); [cbn; intuition discriminate|].
      split; [reflexivity|auto].
    - intros t keep r u Hr Hc Hu Ho _. cbn [ser]. rewrite Hr, Hc, Hu. rewrite ser_string_some.
      eexists; eexists; split; [reflexivity|]. rewrite unmarshal_ordinary by auto. intuition discriminate.
    - intros t keep r i Hr Hc Hu Ho _. cbn [ser]. rewrite Hr, Hc, Hu. rewrite ser_string_some.
      eexists; eexists; split; [reflexivity|]. rewrite unmarshal_ordinary by auto. intuition discriminate.
    - intros t keep r Hr Hc Hu _. cbn [ser]. rewrite Hr, Hc, Hu. rewrite ser_string_none.
      eexists; eexists; split; [reflexivity|]. rewrite unmarshal_unknown. intuition discriminate.
    - (* await *)
      intros t keep x p _ IH Ha. cbn [ser]. rewrite ser_norm. auto.
    - (* output *)
      intros t keep rs x p Hkp Hx _ IH Ha. destruct (IH ltac:(discriminate)) as (w & ds & E & U & N).
      rewrite (plain_out t keep rs x true false w ds Hkp) by now rewrite Hx. cbn [negb andb]. eauto.
    - (* secret *)
      intros t keep rs x p Hkp Hx _ IH Ha. destruct (IH ltac:(discriminate)) as (w & ds & E & U & N).
      rewrite (plain_out t keep rs x true true w ds Hkp) by now rewrite Hx. cbn [negb andb].
      destruct (c_secrets c); [|eauto]. eexists; eexists; split; [reflexivity|]. rewrite (secret_read _ _ _ U).
      unfold wsecret. intuition discriminate.
    - (* unknown *)
      intros t keep rs x Hkp Hx Ha.
      rewrite (plain_out t keep rs x false false WNull [] Hkp) by now rewrite Hx. cbn [negb].
      eexists; eexists; split; [reflexivity|]. rewrite unmarshal_unknown. intuition discriminate.
    - intros t keep rs x p Hkp Hx _ IH Ha. destruct (IH ltac:(discriminate)) as (w & ds & E & U & N).
      rewrite (plain_out t keep rs x false false w ds Hkp) by now rewrite Hx. cbn [negb].
      eexists; eexists; split; [reflexivity|]. rewrite unmarshal_unknown. intuition discriminate.
    - (* output values *)
      intros t rs x s p us Hc Hx _ IH Hd Ha. destruct (IH ltac:(discriminate)) as (w0 & ds0 & E & U & N).
      destruct (kept_read t rs x s true p us Hc (Ha eq_refl) Hd) as (w & ds & E' & U' & N'); eauto.
      exists w, ds. rewrite E', U'. intuition discriminate.
    - intros t rs x s us Hc Hx Hd Ha.
      destruct (kept_read t rs x s false PNull us Hc (Ha eq_refl) Hd) as (w & ds & E' & U' & N'); [congruence|congruence|].
      exists w, ds. rewrite E', U'. intuition discriminate.
    - intros t rs x s p us Hc Hx _ IH Hd Ha. destruct (IH ltac:(discriminate)) as (w0 & ds0 & E & U & N).
      destruct (kept_read t rs x s false p us Hc (Ha eq_refl) Hd) as (w & ds & E' & U' & N'); eauto.
      exists w, ds. rewrite E', U'. intuition discriminate.
    - (* lists *)
      intros e keep _. exists [], []. split; reflexivity.
    - intros e keep x l p ps _ IHx _ IHl Ha. destruct (IHx Ha) as (w & ds & E & U & _).
      destruct (IHl Ha) as (ws & ds' & E' & U'). cbn [map ser_elems]. rewrite E. cbn [fbind]. rewrite E'. cbn [fbind].
      eexists; eexists; split; [reflexivity|]. now apply rmap_cons.
    - (* entries *)
      intros t keep. apply entries_nil.
    - intros t keep k k' e x d p ps Hs He _ IHx _ IHd. cbn [map fst snd].
      assert (Ht : norm_ty t = t) by (inv Hs; reflexivity). rewrite Ht in *.
      apply entries_cons; auto; [now apply sent_as_rule|].
      intros Ha. destruct (IHx Ha) as (w & ds & E & U & _). exists w, ds. split; auto.
      rewrite <- E. f_equal. inv He; cbn [value_rule]; auto; [now apply declared_in|now apply declared_out].
    - (* fields *)
      intros keep fields cls _. apply entries_nil.
    - intros keep fields f fs ps Hf _ IH cls Hi. unfold given_fields. cbn [flat_map]. fold (given_fields c fields fs).
      assert (Hi' : incl fs (c_class c cls)) by (intros g Hg; apply Hi; now right).
      destruct Hf as [Hf|Hf]; rewrite Hf; cbn [is_none app]; now apply IH.
    - intros keep fields f fs x p ps Hf Hx _ IHx _ IH cls Hi. unfold given_fields. cbn [flat_map]. fold (given_fields c fields fs).
      rewrite Hf. replace (is_none x) with false by (destruct x; auto; congruence). cbn [app].
      apply entries_cons; auto.
      + rewrite declared_in; auto; [|apply Hi; now left]. intros Ha. destruct (IHx Ha) as (w & ds & E & U & _). eauto.
      + apply IH. intros g Hg. apply Hi. now right.
    - (* members *)
      split; [apply entries_nil|constructor].
    - intros k x d p ps Hs Hp _ IHx _ [IH Hm]. cbn [map fst snd]. split; [|constructor; auto].
      apply entries_cons; auto; [exact (sent_as_rule c None k k Hn Hs)|].
      intros Ha. destruct (IHx Ha) as (w & ds & E & U & _). eauto.
  Qed.

  Lemma bag_reads typ keep inputs ps : bag_means c (u_hash o) typ keep inputs ps ->
    allowed keep -> forall st pd, fresh ps st ->
    exists ws pd', ser_props_loop c typ keep inputs st pd = Done ((st ++ ws)%list, pd') /\ rmap (um o) ws = Ok ps.
  Proof.
    intros H Ha. induction H as [|k k' e v inputs ps Hs He Hm Hb IH|k k' e v p inputs ps Hs He Hm Hp Hb IH]; intros st pd F.
    - exists [], pd. split; [now rewrite app_nil_r|reflexivity].
    - destruct (proj1 means_reads _ _ _ _ Hm Ha) as (w & ds & E & U & N). cbn [ser_props_loop].
      assert (Et : top_type c typ k = e).
      { unfold top_type, top_key. destruct typ as [cls|]; cbn in Hs, He.
        - replace (translate_declared (c_class c cls) k) with k' by (symmetry; exact (sent_as_rule c _ _ _ Hn Hs)).
          inv He; [now apply declared_in|now apply declared_out].
        - now inv He. }
      rewrite Et, E. cbn [fbind]. rewrite (proj2 N eq_refl). now apply IH.
    - destruct (proj1 means_reads _ _ _ _ Hm Ha) as (w & ds & E & U & N). cbn [ser_props_loop].
      assert (Ek : top_key c typ k = k').
      { unfold top_key. destruct typ as [cls|]; exact (sent_as_rule c _ _ _ Hn Hs). }
      assert (Et : top_type c typ k = e).
      { unfold top_type. rewrite Ek. destruct typ as [cls|]; cbn in Hs, He.
        - inv He; [now apply declared_in|now apply declared_out].
        - now inv He. }
      rewrite Et, E, Ek. cbn [fbind].
      destruct (IH (dset st k' w) (dset pd k' ds)) as (ws & pd' & E' & U'); [eapply fresh_cons; eauto|].
      exists ((k', w) :: ws), pd'. split.
      + replace (match w with WNull => _ | _ => _ end) with (ser_props_loop c typ keep inputs (dset st k' w) (dset pd k' ds))
          by (destruct w; auto; exfalso; apply Hp; now apply N).
        rewrite E'. rewrite dset_fresh by (destruct F as [_ D]; apply D; now left). now rewrite <- app_assoc.
      + apply rmap_cons; auto. now apply um_ok.
  Qed.
  Lemma engine_reads typ keep inputs ps : (keep = true -> u_outputs o = true) ->
    bag_means c (u_hash o) typ keep inputs ps -> NoDup (map fst ps) ->
    exists st pd, serialize_properties c typ keep inputs = Done (st, pd) /\ unmarshal_properties o st = Ok ps.
  Proof.
    intros Ha H N. destruct (bag_reads _ _ _ _ H Ha [] []) as (ws & pd & E & U); [split; auto|].
    exists ws, pd. split; auto.
  Qed.
End Means.
