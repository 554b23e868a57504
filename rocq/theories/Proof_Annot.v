From Verif Require Import Base PyVal Model_Rpc Model_Translate Spec_Translate Proof_Translate Model_Annot Spec_Annot.
Open Scope string_scope.

(** * Reading annotations *)
Lemma bare_not_union t : bare t -> is_union t = false.
Proof. destruct t; cbn; tauto. Qed.
Lemma bare_not_mapping_none t : bare t -> is_none_type t = false.
Proof. destruct t; cbn; tauto. Qed.

Lemma unwrap_optional_bare t : bare t -> unwrap_optional t = Ok t.
Proof. destruct t; cbn; tauto. Qed.

Lemma unwrap_bare t : bare t -> unwrap_type t = Ok t.
Proof.
  intros B. unfold unwrap_type. destruct t as [| | | | | | | | |o args|l]; cbn in B; try contradiction; try reflexivity.
  destruct o; cbn in B; try contradiction; reflexivity.
Qed.

Lemma looks_none t : bare t -> looks_input_type t ANone = false.
Proof. intros B. unfold looks_input_type. cbn. now rewrite andb_false_r. Qed.

Lemma unwrap_stands a t : stands_for a t -> unwrap_type a = Ok t.
Proof.
  intros S. inv S; try (destruct t; reflexivity).
  match goal with H : optionally _ _ |- _ => inv H end.
  - now apply unwrap_bare.
  - destruct t; reflexivity.
Qed.
Lemma unwrap_output a t : stands_for a t -> unwrap_type (AGen GOutput [a]) = Ok t.
Proof.
  intros S. rewrite <- (unwrap_stands a t S).
  assert (N : forall b, a <> AGen GOutput b).
  { intros b ->. inv S; match goal with H : optionally _ _ |- _ => inv H end; cbn in *; contradiction. }
  unfold unwrap_type. destruct a as [| | | | | | | | |o args|l]; try reflexivity.
  destruct o; try reflexivity. destruct (N args eq_refl).
Qed.

(** * The unions Python builds *)
Lemma eq_dec_neq a b : a <> b -> (if ann_eq_dec a b then false else true) = true.
Proof. intros N. destruct (ann_eq_dec a b); [contradiction|reflexivity]. Qed.
Lemma eq_dec_eq a : (if ann_eq_dec a a then false else true) = false.
Proof. destruct (ann_eq_dec a a); congruence. Qed.
Lemma flatten_bare t l : bare t -> flatten (t :: l) = t :: flatten l.
Proof. intros B. destruct t; cbn in *; try contradiction; reflexivity. Qed.

Lemma optional_bare t : bare t -> optional t = AUnion [t; ANone].
Proof.
  intros B. unfold optional, union. rewrite flatten_bare by auto. cbn [flatten flat_map app dedup filter].
  rewrite eq_dec_neq; [reflexivity|]. intros ->. exact B.
Qed.
Lemma input_bare t : bare t -> input t = AUnion [t; AGen GAwaitable [t]; AGen GOutput [t]].
Proof.
  intros B. unfold input, union. rewrite flatten_bare by auto. cbn [flatten flat_map app dedup filter].
  rewrite (eq_dec_neq (AGen GAwaitable [t])) by discriminate. cbn [filter].
  rewrite (eq_dec_neq t (AGen GAwaitable [t])) by (intros E; rewrite E in B; exact B).
  rewrite (eq_dec_neq t (AGen GOutput [t])) by (intros E; rewrite E in B; exact B). reflexivity.
Qed.
Lemma optional_input_bare t : bare t -> optional (input t) = AUnion [t; AGen GAwaitable [t]; AGen GOutput [t]; ANone].
Proof.
  intros B. rewrite input_bare by auto. unfold optional, union. cbn [flatten flat_map app dedup filter].
  rewrite (eq_dec_neq (AGen GOutput [t])) by discriminate. cbn [filter].
  rewrite (eq_dec_neq (AGen GAwaitable [t]) (AGen GOutput [t])) by discriminate.
  rewrite (eq_dec_neq (AGen GAwaitable [t]) ANone) by discriminate. cbn [filter].
  rewrite (eq_dec_neq t (AGen GAwaitable [t])) by (intros E; rewrite E in B; exact B).
  rewrite (eq_dec_neq t (AGen GOutput [t])) by (intros E; rewrite E in B; exact B).
  rewrite (eq_dec_neq t ANone) by (intros E; rewrite E in B; exact B). reflexivity.
Qed.
Definition anymap := AGen GMapping [AName "str"; AAny].
Lemma input_type_bare t : bare t -> t <> anymap -> input_type t = AUnion [t; anymap].
Proof.
  intros B N. unfold input_type, union. fold anymap. rewrite flatten_bare by auto. cbn [flatten flat_map app anymap dedup filter].
  fold anymap. rewrite (eq_dec_neq t anymap) by auto. reflexivity.
Qed.
Lemma input_type_any : input_type anymap = anymap.
Proof. reflexivity. Qed.

Lemma optional_input_type_bare t : bare t -> t <> anymap -> optional (input_type t) = AUnion [t; anymap; ANone].
Proof.
  intros B N. rewrite input_type_bare by auto. unfold optional, union. cbn [flatten flat_map app dedup filter].
  rewrite (eq_dec_neq anymap ANone) by discriminate. cbn [filter].
  rewrite (eq_dec_neq t anymap) by auto.
  rewrite (eq_dec_neq t ANone) by (intros E; rewrite E in B; exact B). reflexivity.
Qed.
Lemma input_input_type_bare t : bare t -> t <> anymap ->
  input (input_type t) = AUnion [t; anymap; AGen GAwaitable [AUnion [t; anymap]]; AGen GOutput [AUnion [t; anymap]]].
Proof.
  intros B N. rewrite input_type_bare by auto. unfold input, union. cbn [flatten flat_map app dedup filter].
  set (u := AUnion [t; anymap]).
  rewrite (eq_dec_neq (AGen GAwaitable [u])) by discriminate. cbn [filter].
  rewrite (eq_dec_neq anymap (AGen GAwaitable [u])) by discriminate.
  rewrite (eq_dec_neq anymap (AGen GOutput [u])) by discriminate. cbn [filter].
  rewrite (eq_dec_neq t anymap) by auto.
  rewrite (eq_dec_neq t (AGen GAwaitable [u])) by (intros E; rewrite E in B; exact B).
  rewrite (eq_dec_neq t (AGen GOutput [u])) by (intros E; rewrite E in B; exact B). reflexivity.
Qed.
Lemma optional_input_input_type_bare t : bare t -> t <> anymap ->
  optional (input (input_type t)) =
  AUnion [t; anymap; AGen GAwaitable [AUnion [t; anymap]]; AGen GOutput [AUnion [t; anymap]]; ANone].
Proof.
  intros B N. rewrite input_input_type_bare by auto. set (u := AUnion [t; anymap]). unfold optional, union. cbn [flatten flat_map app dedup filter].
  rewrite (eq_dec_neq (AGen GOutput [u])) by discriminate. cbn [filter].
  rewrite (eq_dec_neq (AGen GAwaitable [u]) (AGen GOutput [u])) by discriminate.
  rewrite (eq_dec_neq (AGen GAwaitable [u]) ANone) by discriminate. cbn [filter].
  rewrite (eq_dec_neq anymap (AGen GAwaitable [u])) by discriminate.
  rewrite (eq_dec_neq anymap (AGen GOutput [u])) by discriminate.
  rewrite (eq_dec_neq anymap ANone) by discriminate. cbn [filter].
  rewrite (eq_dec_neq t anymap) by auto.
  rewrite (eq_dec_neq t (AGen GAwaitable [u])) by (intros E; rewrite E in B; exact B).
  rewrite (eq_dec_neq t (AGen GOutput [u])) by (intros E; rewrite E in B; exact B).
  rewrite (eq_dec_neq t ANone) by (intros E; rewrite E in B; exact B). reflexivity.
Qed.

(** The ways of writing the type [t]. *)
Definition ways (t : ann) : list ann :=
  [t; optional t; input t; optional (input t); input_type t; optional (input_type t); input (input_type t);
   optional (input (input_type t))].
Lemma ways_stand t a : bare t -> In a (ways t) -> stands_for a t.
Proof.
  intros B [<-|[<-|[<-|[<-|[<-|[<-|[<-|[<-|[]]]]]]]]].
  - apply st_opt. now constructor.
  - rewrite optional_bare by auto. apply st_opt. now constructor.
  - rewrite input_bare by auto. now constructor.
  - rewrite optional_input_bare by auto. now constructor.
  - destruct (ann_eq_dec t anymap) as [->|N]; [apply st_opt; now constructor|].
    rewrite input_type_bare by auto. now constructor.
  - destruct (ann_eq_dec t anymap) as [->|N]; [apply st_opt; rewrite input_type_any, optional_bare by auto; now constructor|].
    rewrite optional_input_type_bare by auto. now constructor.
  - destruct (ann_eq_dec t anymap) as [->|N]; [rewrite input_type_any, input_bare by auto; now constructor|].
    rewrite input_input_type_bare by auto. now constructor.
  - destruct (ann_eq_dec t anymap) as [->|N]; [rewrite input_type_any, optional_input_bare by auto; now constructor|].
    rewrite optional_input_input_type_bare by auto. now constructor.
Qed.

(** * Outputs *)
Section Out.
Context (c : acfg).
Notation oc := (ocfg_of c).
Context (names : forall cls, distinct_names (ac_class c cls)).
Context (anns : forall cls f, In f (ac_class c cls) -> output_ann (af_ann f)).

Lemma oc_ok : class_ok oc.
Proof.
  intros cls. destruct (names cls) as [H1 H2]. split; cbn; rewrite map_map; cbn; assumption.
Qed.

Lemma no_mismatch t v : mismatch oc t v -> t = None -> False.
Proof.
  induction 1 as [t d M U B D C|t l U B D|t cls v S D E|t d x M I H IH|t u l x Hu I H IH|t u d k x M Hu I H IH]; intros ->.
  - apply U. now left.
  - apply U. now left.
  - destruct D; discriminate.
  - now apply IH.
  - destruct Hu as [[_ ->]|(e & [K|K] & _)]; try discriminate. now apply IH.
  - destruct Hu as [[_ ->]|[(e & [K|K] & _)|(cls & [K|K] & _)]]; try discriminate. now apply IH.
Qed.
Lemma untyped_ok v : engine_value oc v -> exists r, translate oc v None = Ok r.
Proof.
  intros E. destruct (translate oc v None) as [r|e] eqn:T; [eauto|]. exfalso.
  apply (no_mismatch None v); [|reflexivity]. apply (mismatch_iff oc oc_ok v E). eauto.
Qed.

Lemma translate_norm v : forall t u, norm_oty t = norm_oty u -> translate oc v t = translate oc v u.
Proof.
  induction v as [|bb|zz|ss|l IH|d IH| |s1|s2|s3|d IH|s4|s5|r1|c1 n1 t1 u1|f1 IH|r2 x2 k2 c2 IH|c3 d IH|n3] using pyval_ind';
    intros t u N; try reflexivity; try (cbn [translate]; now rewrite N).
  cbn [translate]. rewrite N. destruct (is_rpc_secret (VDict d)); [|reflexivity].
  rewrite dget_fns. destruct (dget d "value") as [x|] eqn:E; [|reflexivity]. cbn [option_map].
  apply dget_In in E. rewrite Forall_forall in IH. pose proof (IH _ E t u N) as K. cbn [snd] in K. now rewrite K.
Qed.

Lemma simple_bare w t : simple w t -> bare t.
Proof.
  intros S. inv S; try exact I.
  - match goal with H : dict_like _ |- _ => destruct H as [->| ->] end; exact I.
  - match goal with H : list_like _ |- _ => destruct H as [->| ->] end; exact I.
Qed.
Lemma view_not_opt w t : simple w t -> forall u, view t <> OOptional u.
Proof.
  intros S u. inv S; cbn; try discriminate.
  - match goal with H : dict_like _ |- _ => destruct H as [->| ->] end; discriminate.
  - match goal with H : list_like _ |- _ => destruct H as [->| ->] end; discriminate.
Qed.
Lemma norm_view a t : optionally a t -> simple optionally t -> norm_oty (Some (view a)) = norm_oty (Some (view t)).
Proof.
  intros O S. inv O; [reflexivity|]. cbn [view].
  pose proof (view_not_opt _ _ S) as N. cbn. destruct (view t); try reflexivity. destruct (N _ eq_refl).
Qed.

Lemma fits_none a v : fits c a v -> a = ANone -> forall t, fits c t v.
Proof.
  induction 1; intros E t'; try discriminate E; try (now apply f_opaque).
  eapply f_secret; eauto.
Qed.
Lemma fits_opt a v : fits c a v -> forall t, optionally a t -> fits c t v.
Proof.
  induction 1 as [v|v|a v O|n v S|cls v S E|d M|o t d D M F|l|o t l D F|cls d M F|ts t v I H IH|t v H IH|a d x M I H IH];
    intros t' O'.
  - inv O'. apply f_any.
  - inv O'. contradiction.
  - now apply f_opaque.
  - inv O'. now apply f_name.
  - inv O'. now apply f_enum.
  - inv O'. now apply f_dict.
  - inv O'. now apply f_dict_of.
  - inv O'. apply f_list.
  - inv O'. now apply f_list_of.
  - inv O'. now apply f_class.
  - inv O'; [contradiction|]. destruct I as [->|[<-|[]]]; [exact H|]. now apply (fits_none ANone).
  - inv O'. contradiction.
  - eapply f_secret; eauto.
Qed.
Lemma delivered_opt a t r : optionally a t -> delivered c t r -> delivered c a r.
Proof. intros O D. inv O; [exact D|]. eapply d_union; [left; reflexivity|exact D]. Qed.

(** The annotation of a declared property. *)
Lemma unwrap_ann a t : optionally a t -> unwrap_type a = Ok t /\ unwrap_type (AGen GOutput [a]) = Ok t.
Proof. intros O. split; [apply unwrap_stands|apply unwrap_output]; now constructor. Qed.

Definition good v := engine_value oc v -> forall t, simple optionally t -> fits c t v ->
  exists r, translate oc v (Some (view t)) = Ok r /\ delivered c t r.

Lemma good_elem v e t : good v -> engine_value oc v -> optionally e t -> simple optionally t -> fits c e v ->
  exists r, translate oc v (Some (view e)) = Ok r /\ delivered c e r.
Proof.
  intros G E O S F. destruct (G E t S (fits_opt e v F t O)) as (r & T & D).
  exists r. split; [rewrite (translate_norm v _ _ (norm_view e t O S)); exact T|]. now apply (delivered_opt e t).
Qed.

Lemma good_field v f : good v -> engine_value oc v -> output_ann (af_ann f) -> fits c (af_ann f) v ->
  exists r, translate oc v (of_ty (out_field f)) = Ok r /\ delivered c (af_ann f) r.
Proof.
  intros G E A F. cbn [out_field of_ty]. inversion A as [H|a t O S H|a t O S H].
  - cbn. destruct (untyped_ok v E) as (r & T). exists r. split; [exact T|apply d_untyped].
  - destruct (unwrap_ann _ _ O) as [-> _]. destruct (good_elem v _ t G E O S F) as (r & T & D).
    exists r. split; [|exact D]. pose proof (norm_view _ t O S) as N. subst a.
    assert (X : translate oc v (Some (view t)) = Ok r) by now rewrite <- (translate_norm v _ _ N).
    destruct t; try exact X. apply simple_bare in S. contradiction S.
  - rewrite <- H in F. destruct (unwrap_ann _ _ O) as [_ ->].
    assert (F' : fits c a v).
    { clear - F. remember (AGen GOutput [a]) as o eqn:Eo. induction F as [v|v|a' v Q|n v Q|cls v Q E'|d M|o' t' d Q M F'|l|o' t' l Q F'|cls d M F'|ts t' v I' H' IH|t' v H' IH|a' d x M I' H' IH]; try discriminate Eo.
      - now apply f_opaque.
      - injection Eo as -> _. destruct Q; discriminate.
      - injection Eo as ->. exact H'.
      - eapply f_secret; eauto. }
    destruct (good_elem v _ t G E O S F') as (r & T & D).
    exists r. split; [|now apply d_output].
    assert (X : translate oc v (Some (view t)) = Ok r) by now rewrite <- (translate_norm v _ _ (norm_view a t O S)).
    destruct t; try exact X. apply simple_bare in S. contradiction S.
Qed.

Lemma F2_build {A B} (R : A -> B -> Prop) l : (forall a, In a l -> exists b, R a b) -> exists m, Forall2 R l m.
Proof.
  induction l as [|a l IH]; intros H; [exists []; constructor|].
  destruct (H a (or_introl eq_refl)) as (b & Hb). destruct IH as (m & Hm); [intros; apply H; now right|].
  exists (b :: m). now constructor.
Qed.

Lemma fits_list t l : simple optionally t -> fits c t (VList l) ->
  t = AAny \/ t = AList \/ exists o e, t = AGen o [e] /\ list_like o /\ Forall (fits c e) l.
Proof.
  intros S F. inv F; try absurd_shape; auto; try (inv S; fail).
  - match goal with H : opaque _ |- _ => destruct H as (_ & _ & H); destruct (H l eq_refl) end.
  - right; right. eauto 6.
  - inv S; match goal with H : list_like GOutput |- _ => destruct H; discriminate end.
Qed.
Lemma fits_dict t d : simple optionally t -> ~ marks_secret d -> fits c t (VDict d) ->
  t = AAny \/ t = ADict \/ (exists o e, t = AGen o [AName "str"; e] /\ dict_like o /\ Forall (fun kv => fits c e (snd kv)) d) \/
  (exists cls, t = AOut cls /\ (forall k x f, In (k, x) d -> In f (ac_class c cls) -> af_pulumi f = k -> fits c (af_ann f) x)).
Proof.
  intros S M F. inv F; try absurd_shape; auto; try (inv S; fail); try contradiction.
  - match goal with H : opaque _ |- _ => destruct H as (_ & H & _); destruct (H d eq_refl) end.
  - right; right; left. eauto 6.
  - right; right; right. eauto.
  - inv S; match goal with H : dict_like GOutput |- _ => destruct H; discriminate | H : list_like GOutput |- _ => destruct H; discriminate end.
Qed.

Lemma view_dict_of o e : dict_like o -> view (AGen o [AName "str"; e]) = ODict (view e).
Proof. intros [->| ->]; reflexivity. Qed.
Lemma view_list_of o e : list_like o -> view (AGen o [e]) = OList (view e).
Proof. intros [->| ->]; reflexivity. Qed.

Lemma good_all v : good v.
Proof.
  induction v as [|bb|zz|ss|l IH|d IH| |s1|s2|s3|d IH|s4|s5|r1|c1 n1 t1 u1|f1 IH|r2 x2 k2 c2 IH|c3 d IH|n3] using pyval_ind';
    intros EV t S F;
    try (rewrite translate_other by (try discriminate; intros [(x & K)|[(x & K)|(x & K)]]; discriminate);
         eexists; split; [reflexivity|]; apply d_opaque; repeat split; try discriminate; intros [(x & K)|[(x & K)|(x & K)]]; discriminate).
  1-3: match goal with |- context [translate oc ?x _] => assert (SC : scalar x) by (unfold scalar; eauto) end;
    rewrite translate_scalar by exact SC;
    inv F; try (match goal with H : opaque _ |- _ => destruct H as (H & _); contradiction end); try (inv S; fail);
    [eexists; split; [reflexivity|apply d_any]
    |eexists; split; [reflexivity|now apply d_name]
    |cbn; match goal with H : ac_enum _ _ _ = true |- _ => rewrite H end; eexists; split; [reflexivity|now apply d_enum]
    |inv S; match goal with H : dict_like GOutput |- _ => destruct H; discriminate | H : list_like GOutput |- _ => destruct H; discriminate end].
  - (* list *)
    destruct (fits_list t l S F) as [->|[->|(o & e & -> & L & Fe)]].
    + destruct (untyped_ok _ EV) as (r & T). exists r. split; [|apply d_any]. now rewrite (translate_norm _ (Some (view AAny)) None).
    + destruct (untyped_ok _ EV) as (r & T).
      rewrite list_any in T by (left; now left).
      assert (T' : translate oc (VList l) (Some (view AList)) = Ok r) by (rewrite list_any by (right; now left); exact T).
      exists r. split; [exact T'|]. destruct (tr_elems _ _) as [rs|]; cbn [rbind] in T; [|discriminate]. injection T as <-. apply d_list.
    + inversion S as [| | | | | | |o' e' t' D W St Ho|o' e' t' D W St Ho]; subst.
      assert (X : exists rs, Forall2 (fun x r => translate oc x (Some (view e)) = Ok r /\ delivered c e r) l rs).
      { apply F2_build. intros x I. apply ev_inv_list in EV. rewrite Forall_forall in IH, EV, Fe.
        exact (good_elem x e t' (IH x I) (EV x I) W St (Fe x I)). }
      destruct X as (rs & X). exists (TList rs). rewrite view_list_of by exact L. split.
      * apply (translate_iff oc oc_ok _ EV). eapply b_list_of; [left; reflexivity|]. eapply F2_imp; [exact X|].
        intros x r I [T _]. apply (translate_iff oc oc_ok); [|exact T]. apply ev_inv_list in EV. rewrite Forall_forall in EV. auto.
      * apply d_list_of; [exact L|]. clear - X. induction X as [|? ? ? ? [_ H] _ IH]; constructor; auto.
  - (* dict *)
    pose proof EV as EV0. apply ev_inv_dict in EV as [W [(M & x & Hx & Nx & EVx)|(M & ND & EVd)]].
    + assert (Fx : fits c t x \/ t = AAny).
      { inv F; try absurd_shape; auto; try contradiction; try (inv S; fail).
        - match goal with H : opaque _ |- _ => destruct H as (_ & H & _); destruct (H d eq_refl) end.
        - inv S; match goal with H : dict_like GOutput |- _ => destruct H; discriminate | H : list_like GOutput |- _ => destruct H; discriminate end.
        - left. match goal with H : In ("value", ?y) d |- _ => assert (y = x) as <- by (eapply in_value_unique; eauto) end. assumption. }
      assert (Fx' : fits c t x) by (destruct Fx as [Fx| ->]; [exact Fx|apply f_any]).
      rewrite Forall_forall in IH. destruct (IH _ Hx EVx t S Fx') as (r & T & D). cbn [snd] in T.
      exists (TSecret r). rewrite (translate_secret oc d _ x) by auto. rewrite T. cbn [rbind].
      rewrite (not_secret_result oc x _ r EVx Nx T). split; [reflexivity|now apply d_secret].
    + destruct (fits_dict t d S M F) as [->|[->|[(o & e & -> & L & Fe)|(cls & -> & Fc)]]].
      * destruct (untyped_ok _ EV0) as (r & T). exists r. split; [|apply d_any]. now rewrite (translate_norm _ (Some (view AAny)) None).
      * destruct (untyped_ok _ EV0) as (r & T). rewrite translate_plain in T by auto. rewrite translate_plain by auto.
        rewrite body_any in T by (left; now left). rewrite body_any by (right; now left).
        exists r. split; [exact T|]. destruct (tr_entries _ _ _ _) as [rs|]; cbn [rbind] in T; [|discriminate]. injection T as <-. apply d_dict.
      * inversion S as [| | | | | | |o' e' t' Dl Wo St Ho|o' e' t' Dl Wo St Ho]; subst.
        assert (X : exists rs, Forall2 (fun kv kv' => (fst kv' = (if o_meta oc then fst kv else o_transform oc (fst kv))) /\
                       translate oc (snd kv) (Some (view e)) = Ok (snd kv') /\ delivered c e (snd kv')) d rs).
        { apply F2_build. intros kv I. rewrite Forall_forall in IH, EVd, Fe.
          destruct (good_elem (snd kv) e t' (IH kv I) (EVd kv I) Wo St (Fe kv I)) as (r & T & D).
          exists ((if o_meta oc then fst kv else o_transform oc (fst kv)), r). auto. }
        destruct X as (rs & X). exists (TDict rs). rewrite view_dict_of by exact L. split.
        -- apply (translate_iff oc oc_ok _ EV0). eapply b_dict_of; [exact M|left; reflexivity|]. eapply F2_imp; [exact X|].
           intros kv kv' I (K & T & _). split; [exact K|]. apply (translate_iff oc oc_ok); [|exact T]. rewrite Forall_forall in EVd. auto.
        -- apply d_dict_of; [exact L|]. clear - X. induction X as [|? ? ? ? (_ & _ & H) _ IH]; constructor; auto.
      * destruct (names cls) as [N1 N2].
        assert (Y : forall kv, In kv d -> exists ft r, field_type (o_class oc cls) (fst kv) ft /\ translate oc (snd kv) ft = Ok r /\
                      forall f, In f (ac_class c cls) -> af_pulumi f = fst kv -> delivered c (af_ann f) r).
        { intros [k x] I. cbn [fst snd]. rewrite Forall_forall in IH, EVd.
          destruct (in_dec string_dec k (map af_pulumi (ac_class c cls))) as [Hk|Hk].
          - apply in_map_iff in Hk as (f & Ek & If).
            destruct (good_field x f (IH _ I) (EVd _ I) (anns cls f If) (Fc k x f I If Ek)) as (r & T & D).
            exists (of_ty (out_field f)), r. split; [|split; [exact T|]].
            + left. exists (out_field f). cbn. split; [now apply in_map|]. auto.
            + intros f' If' Ek'. assert (f' = f) as ->; [|exact D].
              clear - N2 If If' Ek Ek'. induction (ac_class c cls) as [|g gs IHg]; [contradiction|].
              cbn in N2. inv N2. destruct If as [->|If], If' as [->|If']; auto.
              * exfalso. match goal with H : ~ In _ _ |- _ => apply H end. apply in_map_iff. exists f'. auto.
              * exfalso. match goal with H : ~ In _ _ |- _ => apply H end. apply in_map_iff. exists f. split; congruence.
          - destruct (untyped_ok x (EVd _ I)) as (r & T). exists None, r. split; [|split; [exact T|]].
            + right. split; [|reflexivity]. intros f If Ef. apply Hk. cbn in If. apply in_map_iff in If as (g & <- & Ig).
              cbn in Ef. subst k. now apply in_map.
            + intros f If Ef. exfalso. apply Hk. subst k. now apply in_map. }
        assert (X : exists rs, Forall2 (fun kv kv' => fst kv' = fst kv /\ exists ft, field_type (o_class oc cls) (fst kv) ft /\
                      translate oc (snd kv) ft = Ok (snd kv') /\
                      forall f, In f (ac_class c cls) -> af_pulumi f = fst kv -> delivered c (af_ann f) (snd kv')) d rs).
        { apply F2_build. intros kv I. destruct (Y kv I) as (ft & r & H1 & H2 & H3). exists (fst kv, r). split; [reflexivity|]. eauto. }
        destruct X as (rs & X). pose proof (wf_of_F2 _ _ _ W X) as Wr.
        exists (TObj cls (map (fun f => (of_py f, dget rs (of_pulumi f))) (o_class oc cls))). split.
        -- apply (translate_iff oc oc_ok _ EV0). eapply b_class; [exact M|left; reflexivity| |apply args_ok; [exact Wr|reflexivity]].
           eapply F2_imp; [exact X|]. intros kv kv' I (K & ft & H1 & H2 & _). split; [exact K|]. exists ft. split; [exact H1|].
           apply (translate_iff oc oc_ok); [|exact H2]. rewrite Forall_forall in EVd. auto.
        -- apply d_class; [cbn; rewrite !map_map; reflexivity|].
           intros f y If Iy. cbn in Iy. rewrite map_map in Iy. apply in_map_iff in Iy as (g & Eg & Ig). injection Eg as Eg1 Eg2.
           assert (g = f) as ->.
           { clear - N1 If Ig Eg1. induction (ac_class c cls) as [|h hs IHg]; [contradiction|].
             cbn in N1. inv N1. destruct If as [->|If], Ig as [->|Ig]; auto.
             - exfalso. match goal with H : ~ In _ _ |- _ => apply H end. apply in_map_iff. exists g. auto.
             - exfalso. match goal with H : ~ In _ _ |- _ => apply H end. apply in_map_iff. exists f. auto. }
           apply dget_In in Eg2. cbn in Eg2.
           clear - X Eg2 If. induction X as [|kv kv' ? ? (K & ft & _ & _ & H) _ IHX]; [contradiction|].
           destruct Eg2 as [->|Eg2]; [|auto]. cbn in *. apply H; auto.
Qed.

Lemma accepted a v : engine_value oc v -> output_ann a -> fits c a v -> exists r, from_engine c a v = Ok r /\ delivered c a r.
Proof.
  intros E A F. destruct (good_field v (mkAfield "" "" a) (good_all v) E A F) as (r & T & D). cbn [af_ann] in *.
  exists r. split; [|exact D]. unfold from_engine. cbn [out_field of_ty af_ann] in T.
  destruct (unwrap_type a) as [t|e] eqn:U; cbn [rbind].
  - destruct t; exact T.
  - exfalso. inv A; [discriminate U| |].
    + match goal with O : optionally _ _ |- _ => destruct (unwrap_ann _ _ O) as [U' _] end. congruence.
    + match goal with O : optionally _ _ |- _ => destruct (unwrap_ann _ _ O) as [_ U'] end. congruence.
Qed.
End Out.
