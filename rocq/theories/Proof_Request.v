(** Proofs about the requests sent for resources. *)
From Verif Require Import Base PyVal Model_Output Proof_FromInput Model_Rpc Spec_Rpc Proof_Ser2 Proof_RpcTop Model_Cycle Spec_Cycle.
From Verif Require Model_Urn Model_Deps Spec_Deps Proof_Deps Proof_Register.
From Verif Require Import Model_Options Spec_Options Model_Resource Spec_Resource Proof_Resource Model_Request Spec_Request.
Open Scope string_scope.
Set Default Goal Selector "!".

(* ------------------------------------------------------------------ *)
(** Dependencies given explicitly. *)

Definition element (dry : bool) (x : pyval) : Prop :=
  exists rs v k s, from_input dry x = mkOut (Done rs) (Done v) (Done k) (Done s) /\
    ((v = VNone \/ v = VUnknown) /\ (forall r, In r rs <-> declared r x) \/
     exists r0, v = VRes r0 /\ forall r, In r rs \/ r = r0 <-> declared r x).

Lemma element_ok dry x : a_resource dry x -> element dry x.
Proof.
  intros H. induction H as [r| |x H IH|rs x s H IH|rs x s D U].
  - exists [], (VRes r), true, false. split; [reflexivity|]. right. exists r. split; [reflexivity|].
    intros r'. split; [intros [[]| ->]; constructor|]. intros K. inversion K; subst; auto.
  - exists [], VNone, true, false. split; [reflexivity|]. left. split; [auto|].
    intros r'. split; [intros []|]. intros K. inversion K.
  - destruct IH as (rs' & v & k & s' & E & Sp).
    assert (Q : exists k', apply dry (of_fut (Done x)) (fun y => Ok (VO (from_input dry y))) true =
      mkOut (Done rs') (Done v) (Done k') (Done s')).
    { unfold apply, apply_call, apply_run, of_fut, new_output, arg_value; simpl.
      assert (N : contains_unknowns x = false) by (inversion H; reflexivity). rewrite N. simpl.
      rewrite andb_false_r. destruct dry; simpl; unfold VO; rewrite E; simpl; unfold new_output; simpl; rewrite orb_false_r; destruct k; eexists; reflexivity. }
    destruct Q as (k' & Q). exists rs', v, k', s'. split; [rewrite from_input_await; exact Q|].
    destruct Sp as [[V Sp]|(r0 & V & Sp)]; [left; split; [exact V|]|right; exists r0; split; [exact V|]]; intros r; rewrite Sp;
      (split; [intros K; constructor; exact K|intros K; inversion K; subst; assumption]).
  - destruct IH as (rs' & v & k & s' & E & Sp).
    assert (Q : exists k', apply dry (mkOut (Done rs) (Done x) (Done true) (Done s)) (fun y => Ok (VO (from_input dry y))) true =
      mkOut (Done (rs ++ rs')%list) (Done v) (Done k') (Done (s' || s))).
    { unfold apply, apply_call, apply_run, new_output, arg_value; simpl.
      destruct dry; simpl; unfold VO; rewrite E; simpl; unfold new_output; simpl; destruct k; eexists; reflexivity. }
    destruct Q as (k' & Q). exists (rs ++ rs')%list, v, k', (s' || s)%bool. split; [rewrite from_input_out; exact Q|].
    destruct Sp as [[V Sp]|(r0 & V & Sp)]; [left; split; [exact V|]|right; exists r0; split; [exact V|]]; intros r; rewrite in_app_iff.
    + rewrite Sp. split; [intros [K|K]; [now apply De_depends|now apply De_promised]|intros K; inversion K; subst; auto].
    + specialize (Sp r). split.
      * intros [[K|K]|K]; [now apply De_depends|apply De_promised, Sp; auto|apply De_promised, Sp; auto].
      * intros K. inversion K; subst; [auto|]. assert (In r rs' \/ r = r0) as [?|?] by (apply Sp; assumption); auto.
  - subst dry. exists rs, VUnknown, false, s. split.
    + rewrite from_input_out. destruct U as [-> | ->]; unfold apply, apply_call, apply_run, new_output, arg_value; simpl;
        unfold VO; simpl; rewrite app_nil_r; reflexivity.
    + left. split; [auto|]. intros r. split; [intros K; now apply De_depends|].
      intros K. inversion K as [| | |? ? ? ? I1|? ? ? ? I1]; subst; [exact I1|]. exfalso. clear K. destruct U as [-> | ->]; inversion I1.
Qed.

Lemma inner_deps_ok dry l : Forall (a_resource dry) l -> forall all, exists rs, inner_deps dry l all = Done rs /\
  forall r, In r rs <-> In r all \/ exists x, In x l /\ declared r x.
Proof.
  intros H. induction H as [|x l Hx Hl IH]; intros all.
  - exists all. split; [reflexivity|]. intros r. split; [auto|]. intros [K|(x & [] & _)]. exact K.
  - destruct (element_ok dry x Hx) as (rs & v & k & s & E & Sp). simpl. rewrite E. cbn [o_res fbind].
    unfold future. cbn [o_val fbind negb andb].
    destruct Sp as [[V Sp]|(r0 & V & Sp)].
    + destruct (IH (all ++ rs)%list) as (rs' & E' & S'). exists rs'. split; [destruct V as [-> | ->]; simpl; exact E'|].
      intros r. rewrite S', in_app_iff, Sp. split.
      * intros [[K|K]|(y & Hy & K)]; [auto|right; exists x; simpl; auto|right; exists y; simpl; auto].
      * intros [K|(y & [-> |Hy] & K)]; [auto|auto|right; exists y; auto].
    + subst v. simpl. destruct (IH ((all ++ rs) ++ [r0])%list) as (rs' & E' & S'). exists rs'. split; [exact E'|].
      intros r. rewrite S', !in_app_iff. simpl. specialize (Sp r). split.
      * intros [[[K|K]|[K|[]]]|(y & Hy & K)]; [auto|right; exists x; split; [auto|apply Sp; auto]|right; exists x; split; [auto|apply Sp; auto]|right; exists y; auto].
      * intros [K|(y & [-> |Hy] & K)]; [auto| |right; exists y; auto].
        apply Sp in K. destruct K as [K|K]; auto.
Qed.

Definition listed (d : pyval) : list pyval := match d with VList l => l | _ => [d] end.
Lemma resources_listed dry d : resources dry d -> to_list d = Ok (VList (listed d)) /\ Forall (a_resource dry) (listed d) /\
  contains_unknowns d = false /\ d <> VNone /\ (forall f, d <> VAwait f) /\ (forall a b c e, d <> VOut a b c e) /\
  contains_unknowns (VList (listed d)) = false /\
  forall r, declared r d <-> exists x, In x (listed d) /\ declared r x.
Proof.
  assert (U : forall x, a_resource dry x -> contains_unknowns x = false) by (intros x K; destruct K; reflexivity).
  intros [r|l H].
  - split; [reflexivity|]. split; [repeat constructor|]. repeat (split; [first [reflexivity|discriminate|intros; discriminate]|]).
    intros r'. simpl. split; [intros K; eauto|]. intros (x & [<-|[]] & K). exact K.
  - assert (N : contains_unknowns (VList l) = false).
    { rewrite contains_unknowns_list. apply not_true_is_false. intros K. apply existsb_exists in K as (x & Hx & Hu).
      rewrite Forall_forall in H. rewrite (U x (H x Hx)) in Hu. discriminate. }
    split; [reflexivity|]. split; [exact H|]. split; [exact N|]. split; [discriminate|]. split; [intros; discriminate|].
    split; [intros; discriminate|]. split; [exact N|].
    intros r'. simpl. split; [intros K; inversion K; subst; eauto|]. intros (x & Hx & K). econstructor; eauto.
Qed.

Lemma depends_on_ok dry o d : ro_depends_on o = Some d -> dependencies_given dry d ->
  exists rs, depends_on dry o = Done rs /\ forall r, In r rs <-> declared r d.
Proof.
  intros Ho G. unfold depends_on, depends_on_list. rewrite Ho. destruct G as [d R|d R|rs d s R|rs d s D U].
  - destruct (resources_listed dry d R) as (T & F & N & NN & NA & NO & NL & Q).
    assert (M : map_input d to_list = Ok (VList (listed d))) by (destruct R; exact T). rewrite M.
    cbn [of_res fbind from_input_shallow of_value of_fut new_output o_res]. unfold future. cbn [o_val of_value of_fut new_output fbind].
    rewrite NL. simpl. destruct (inner_deps_ok dry _ F []) as (rs & E & S). exists rs. split; [exact E|].
    intros r. rewrite S, Q. simpl. tauto.
  - destruct (resources_listed dry d R) as (T & F & N & NN & NA & NO & NL & Q). cbn [map_input fbind of_res]. rewrite T.
    cbn [of_res fbind from_input_shallow of_value of_fut new_output o_res]. unfold future. cbn [o_val of_value of_fut new_output fbind].
    rewrite NL. simpl. destruct (inner_deps_ok dry _ F []) as (rs & E & S). exists rs. split; [exact E|].
    intros r. rewrite S. transitivity (declared r d); [rewrite Q; simpl; tauto|].
    split; [intros K; now constructor|intros K; inversion K; subst; assumption].
  - destruct (resources_listed dry d R) as (T & F & N & NN & NA & NO & NL & Q). cbn [map_input]. unfold map_output, future. cbn [o_val o_res o_known o_secret fbind negb andb].
    rewrite N. cbn [andb]. assert (I : is_none d = false) by (destruct d; try reflexivity; contradiction). rewrite I, T.
    cbn [of_res fbind VO from_input_shallow new_output o_res o_val o_known o_secret]. rewrite NL. cbn [andb fbind].
    destruct (inner_deps_ok dry _ F rs) as (rs' & E & S). exists rs'. split; [exact E|].
    intros r. rewrite S. rewrite <- Q. split; [intros [K|K]; [now apply De_depends|now apply De_promised]|].
    intros K; inversion K; subst; auto.
  - exists rs. cbn [map_input]. unfold map_output, future. cbn [o_val o_res o_known o_secret fbind negb andb].
    split; [destruct U as [-> | ->]; reflexivity|]. intros r. split; [intros K; now apply De_depends|].
    intros K. inversion K as [| | |? ? ? ? I1|? ? ? ? I1]; subst; [exact I1|]. exfalso. clear K. destruct U as [-> | ->]; inversion I1.
Qed.

(* ------------------------------------------------------------------ *)
(** The dependencies of a request. *)

Section WithOrder.
Variable ord : rid -> list rid -> list rid.
Hypothesis ord_ok : forall r l, same_set (ord r l) l.

Definition explicit_of (e : env) (o : ropts) : fut (option (list Model_Deps.rsrc)) :=
  match ro_depends_on o with
  | None => Done None
  | Some _ => let* l := depends_on (e_dry e) o in Done (Some (map (e_object e) l))
  end.
Lemma explicit_ok e o : (forall d, ro_depends_on o = Some d -> dependencies_given (e_dry e) d) ->
  exists ex, explicit_of e o = Done ex /\
    forall x, (exists ds, ex = Some ds /\ Spec_Deps.any_of ds x) <->
              exists r, depends_explicitly o r /\ Spec_Deps.stands_for (e_object e r) x.
Proof.
  intros G. unfold explicit_of. destruct (ro_depends_on o) as [d|] eqn:Ho.
  - destruct (depends_on_ok (e_dry e) o d Ho (G d eq_refl)) as (rs & -> & S). simpl.
    exists (Some (map (e_object e) rs)). split; [reflexivity|]. intros x. split.
    + intros (ds & E & (y & Hy & K)). injection E as <-. apply in_map_iff in Hy as (r & <- & Hr).
      exists r. split; [exists d; split; [exact Ho|now apply S]|exact K].
    + intros (r & (d' & E & Hd) & K). assert (d' = d) by congruence. subst d'.
      eexists. split; [reflexivity|]. exists (e_object e r). split; [apply in_map, S, Hd|exact K].
  - exists None. split; [reflexivity|]. intros x. split; [intros (ds & E & _); discriminate|].
    intros (r & (d & E & _) & _). congruence.
Qed.

Lemma dget_map {A B} (f : A -> B) (d : dict A) k : dget (map (fun kv => (fst kv, f (snd kv))) d) k = option_map f (dget d k).
Proof. induction d as [|[k' v] d IH]; [reflexivity|]. simpl. destruct (String.eqb k k'); [reflexivity|exact IH]. Qed.
Lemma dkeys_map {A B} (f : A -> B) (d : dict A) : dkeys (map (fun kv => (fst kv, f (snd kv))) d) = dkeys d.
Proof. unfold dkeys. rewrite map_map. reflexivity. Qed.

Lemma dependencies_ok e keep self g props o st pd :
  ~ cyclic (Spec_Deps.depends g) -> ready e keep props o ->
  serialize_properties (e_cfg e) (e_typ e) keep props = Done (st, pd) ->
  exists ex g' deps pds, explicit_of e o = Done ex /\
    Model_Deps.resource_dependencies ord self g ex (map (fun kv => (fst kv, map (e_object e) (snd kv))) pd) = Ok (g', deps, pds) /\
    dependencies_say (e_cfg e) (e_typ e) keep (e_object e) self props o g g' deps pds.
Proof.
  intros Hg R Es. destruct R as [Rc Rn _ _ _ Rg Ro].
  assert (Hn : forall cls, class_named (c_class (e_cfg e) cls)) by (intros cls; apply class_declared_named, Rc).
  pose proof (distinct_top _ _ _ Hn Rn) as Nd.
  destruct (null_inputs _ _ _ _ _ _ Es Nd) as (_ & Wpd & Sn & So).
  destruct (property_dependencies _ _ _ _ _ _ (fun cls => class_declared_ok _ (Rc cls)) Es) as [Kd Pd]. specialize (Pd Nd).
  destruct (explicit_ok e o Rg) as (ex & Ex & Sx).
  set (objs := map (fun kv => (fst kv, map (e_object e) (snd kv))) pd) in *.
  assert (By : forall x, (exists k ds, In (k, ds) objs /\ Spec_Deps.any_of ds x) <->
    exists r, (exists k, depends_by (e_cfg e) keep props k r) /\ Spec_Deps.stands_for (e_object e r) x).
  { intros x. split.
    - intros (k & ds & Hi & (y & Hy & K)). apply in_map_iff in Hi as ([k' rs] & E & Hi). injection E as <- <-. simpl in Hy.
      apply in_map_iff in Hy as (r & <- & Hr).
      assert (Hk : In k' (dkeys st)) by (rewrite Kd; apply in_map_iff; exists (k', rs); auto).
      destruct (So k' Hk) as (k0 & v & Hv & ->). exists r. split; [|exact K]. exists k0, v. split; [exact Hv|].
      split; [apply (proj1 (Sn k0 v Hv)); exact Hk|]. apply (Pd k0 v rs Hv); [apply In_dget; assumption|exact Hr].
    - intros (r & (k & v & Hv & Hs & Hm) & K). apply (proj2 (Sn k v Hv)) in Hs. apply dget_Some_key in Hs as (rs & E).
      exists (top_key (e_cfg e) (e_typ e) k), (map (e_object e) rs). split.
      + apply in_map_iff. exists (top_key (e_cfg e) (e_typ e) k, rs). split; [reflexivity|apply dget_In; exact E].
      + exists (e_object e r). split; [|exact K]. apply in_map. apply (Pd k v rs Hv E). exact Hm. }
  destruct (Proof_Deps.resource_dependencies_ok ord ord_ok self g ex objs Hg) as (g' & deps & pds & E & Ac & Gr & N & Al & Pr).
  - unfold wf_dict, objs. rewrite dkeys_map. exact Wpd.
  - intros ds x E K. destruct (proj1 (Sx x)) as (r & Hr & St); [eauto|]. apply (Ro r x); auto.
  - intros k ds x Hi K. destruct (proj1 (By x)) as (r & Hr & St); [eauto|]. apply (Ro r x); auto.
  - assert (Mn : forall x, (exists ds, ex = Some ds /\ Spec_Deps.any_of ds x) \/ (exists k ds, In (k, ds) objs /\ Spec_Deps.any_of ds x) <->
      exists r, (depends_explicitly o r \/ exists k, depends_by (e_cfg e) keep props k r) /\ Spec_Deps.stands_for (e_object e r) x).
    { intros x. rewrite Sx, By. split; [intros [(r & A & B)|(r & A & B)]; exists r; auto|].
      intros (r & [A|A] & B); [left|right]; exists r; auto. }
    exists ex, g', deps, pds. split; [exact Ex|]. split; [exact E|]. constructor.
    + exact Ac.
    + intros a b. rewrite Gr. split; (intros [K|K]; [left; exact K|right]).
      * destruct K as (-> & (x & Hx & <-) & Np). apply Mn in Hx as (r & A & B). split; [reflexivity|]. split; [exact Np|]. exists r, x. auto.
      * destruct K as (-> & Np & (r & x & A & B & <-)). split; [reflexivity|]. split; [|exact Np]. exists x. split; [apply Mn; eauto|reflexivity].
    + split; [exact N|]. intros s. rewrite Al. split.
      * intros (x & Hx & U & D). apply Mn in Hx as (r & A & B). exists r, x. auto.
      * intros (r & x & A & B & U & D). exists x. split; [apply Mn; eauto|auto].
    + intros k k' v Hv Hk. rewrite <- (sent_top _ _ k k' Hn Hk). pose proof (Pr (top_key (e_cfg e) (e_typ e) k)) as P.
      unfold objs in P. rewrite (dget_map (map (e_object e))) in P. destruct (Sn k v Hv) as [_ Sn2].
      destruct (dget pd (top_key (e_cfg e) (e_typ e) k)) as [rs|] eqn:Ed; simpl in P.
      * destruct P as (urns & -> & Nu & Su). split; [apply Sn2, (dget_key _ _ _ Ed)|]. intros u Eu. injection Eu as <-. split; [exact Nu|].
        intros s. rewrite Su. split.
        -- intros (x & (y & Hy & St) & U & D). apply in_map_iff in Hy as (r & <- & Hr). exists r, x. split; [apply (Pd k v rs Hv Ed); exact Hr|auto].
        -- intros (r & x & Hm & St & U & D). exists x. split; [|auto]. exists (e_object e r). split; [apply in_map, (Pd k v rs Hv Ed), Hm|exact St].
      * rewrite P. destruct (serialize_properties_spec _ _ _ _ _ _ Es) as (_ & _ & _ & Sp). destruct (Sp Nd k v Hv) as (w & ds & Ew & _ & Ew').
        apply (ser_null_iff _ _ _ _ _ _ Ew). destruct w; simpl in Ew'; try reflexivity; congruence.
    + intros k' Hk. pose proof (Pr k') as P. unfold objs in P. rewrite (dget_map (map (e_object e))) in P.
      destruct (dget pd k') as [rs|] eqn:Ed; simpl in P.
      * assert (K : In k' (dkeys st)) by (rewrite Kd; apply (dget_key _ _ _ Ed)). destruct (So k' K) as (k & v & Hv & ->).
        exists k, v. split; [exact Hv|]. apply top_sent. exact Hn.
      * apply dget_None in P. contradiction.
Qed.
End WithOrder.

(* ------------------------------------------------------------------ *)
(** The other fields. *)

Lemma parent_ok e root ty o : (forall n, exists u, e_urn e n = Done (Some u)) ->
  exists u, parent_urn e root ty o = Done (Some u) /\ parent_is e root ty o u.
Proof.
  intros U. unfold parent_urn. destruct (ro_parent o) as [n|] eqn:P.
  - destruct (U n) as [u E]. exists u. split; [exact E|]. now apply (Pi_given _ _ _ _ n).
  - destruct (String.eqb_spec ty "pulumi:pulumi:Stack") as [->|N]; [exists ""; split; [reflexivity|now constructor]|].
    destruct root as [n|].
    + destruct (U n) as [u E]. exists u. split; [exact E|]. now apply (Pi_root _ _ _ _ n).
    + exists "". split; [reflexivity|now apply Pi_none].
Qed.

Lemma reference_ok e p : (exists u i, e_provider e (p_id p) = Done (u, i)) -> exists s, reference e p = Done s /\ refers e p s.
Proof.
  intros (u & i & E). unfold reference. rewrite E. simpl. eexists. split; [reflexivity|].
  unfold Model_Deps.provider_reference, Model_Urn.provider_ref. cbn [Model_Deps.pv_id Model_Deps.pv_urn].
  destruct i as [i|]; [destruct (String.eqb_spec i "") as [->|N]|].
  - apply (Rf_unknown e p u (Some "")); auto.
  - apply Rf_known; auto.
  - apply (Rf_unknown e p u None); auto.
Qed.
Lemma refers_det e p s s' : refers e p s -> refers e p s' -> s = s'.
Proof.
  intros H H'. inversion H as [u i E N|u i E N]; inversion H' as [u' i' E' N'|u' i' E' N']; subst; rewrite E in E'; injection E' as -> Ei; subst.
  - congruence.
  - destruct N' as [K|K]; congruence.
  - destruct N as [K|K]; congruence.
  - reflexivity.
Qed.
Lemma references_ok e ps : (forall n, exists u i, e_provider e n = Done (u, i)) ->
  exists rs, references e ps = Done rs /\ forall k s, dget rs k = Some s <-> exists p, dget ps k = Some p /\ refers e p s.
Proof.
  intros U. induction ps as [|[k p] ps (rs & E & S)].
  - exists []. split; [reflexivity|]. intros k s. split; [discriminate|]. intros (p & K & _). discriminate.
  - destruct (reference_ok e p (U _)) as (s0 & E0 & R0). simpl. rewrite E0. cbn [fbind]. rewrite E. cbn [fbind].
    eexists. split; [reflexivity|]. intros k' s. simpl. destruct (String.eqb k' k); [|apply S].
    split; [intros K; injection K as <-; eauto|]. intros (q & K & R). injection K as <-. f_equal. eapply refers_det; eauto.
Qed.

Lemma same_alias_spec x acc : existsb (same_alias (Some x)) (map Some acc) = true <-> In x acc.
Proof.
  rewrite existsb_exists. split.
  - intros (a & Ha & E). apply in_map_iff in Ha as (y & <- & Hy). simpl in E. apply String.eqb_eq in E. subst. exact Hy.
  - intros H. exists (Some x). split; [now apply in_map|]. simpl. apply String.eqb_refl.
Qed.
Lemma aliases_ok l : Forall (fun a => exists s, a = Done (Some s)) l -> forall acc, NoDup acc ->
  exists r, await_aliases l (map Some acc) = Done (map Some r) /\ NoDup r /\ forall s, In s r <-> In s acc \/ In (Done (Some s)) l.
Proof.
  intros H. induction H as [|a l (x & ->) Hl IH]; intros acc N.
  - exists acc. split; [reflexivity|]. split; [exact N|]. intros s. simpl. tauto.
  - simpl. destruct (existsb (same_alias (Some x)) (map Some acc)) eqn:E.
    + apply same_alias_spec in E. destruct (IH acc N) as (r & Er & Nr & Sr). exists r. split; [exact Er|]. split; [exact Nr|].
      intros s. rewrite Sr. split; [tauto|]. intros [K|[K|K]]; [tauto|injection K as ->; tauto|tauto].
    + assert (Nx : ~ In x acc) by (intros K; apply same_alias_spec in K; congruence).
      destruct (IH (acc ++ [x])%list) as (r & Er & Nr & Sr).
      { apply Proof_Register.NoDup_app; [exact N|repeat constructor; intros []|]. intros y Hy [<-|[]]. contradiction. }
      rewrite map_app in Er. exists r. split; [exact Er|]. split; [exact Nr|].
      intros s. rewrite Sr, in_app_iff. simpl. split; [intros [[K|[->|[]]]|K]; tauto|].
      intros [K|[K|K]]; [tauto|injection K as ->; tauto|tauto].
Qed.
Lemma texts_ok r : texts (map Some r) = Ok r.
Proof. induction r as [|s r IH]; [reflexivity|]. simpl. rewrite IH. reflexivity. Qed.

Lemma timeout_entry_ok t k x : dget t k = option_map VStr x -> timeout_entry t k = Ok x.
Proof. unfold timeout_entry. intros ->. destruct x; reflexivity. Qed.
Lemma timeouts_ok e o t : timeouts_are e o t -> custom_timeouts e o = Ok t.
Proof.
  intros H. unfold custom_timeouts. destruct H as [->|n c u d -> ->|n t c u d -> -> Hc Hu Hd]; [reflexivity|reflexivity|].
  now rewrite (timeout_entry_ok _ _ _ Hc), (timeout_entry_ok _ _ _ Hu), (timeout_entry_ok _ _ _ Hd).
Qed.

Lemma text_given o : given_text o (text o).
Proof. unfold given_text. destruct o; auto. Qed.
Lemma flag_given o : given_flag o (flag o).
Proof. unfold given_flag. destruct o; auto. Qed.
Lemma names_ok {R : string -> string -> Prop} f o : (forall k, R k (f k)) -> Forall2 R (items o) (names f o).
Proof. intros H. destruct o as [l|]; simpl; [|constructor]. induction l; simpl; constructor; auto. Qed.
Lemma output_name_ok e k : (forall cls, class_named (c_class (e_cfg e) cls)) -> output_named e k (output_name e k).
Proof.
  intros Hn. unfold output_name. destruct (e_typ e) as [cls|] eqn:Et.
  - destruct (dget (e_names e) k) as [p|] eqn:E; [destruct (String.eqb_spec p "") as [->|N]|].
    + apply (On_same e cls); auto.
    + apply (On_class e cls); auto.
    + apply (On_same e cls); auto.
  - apply On_translated; [exact Et|]. change (transform (e_cfg e) k) with (top_key (e_cfg e) None k). apply (top_sent (e_cfg e) None k Hn).
Qed.

Lemma up_letter c x : In x ["T"; "R"; "U"; "E"]%char -> up c = x -> In c [x; ascii_of_nat (nat_of_ascii x + 32)].
Proof.
  intros Hx H. destruct c as [[|] [|] [|] [|] [|] [|] [|] [|]]; simpl in Hx;
    repeat (destruct Hx as [<-|Hx]; [first [discriminate H|simpl; auto]|]); destruct Hx.
Qed.
Lemma upper_true s : upper s = "TRUE" <-> Forall2 (fun c cs => In c cs) (list_ascii_of_string s)
                 [["T"; "t"]; ["R"; "r"]; ["U"; "u"]; ["E"; "e"]]%char.
Proof.
  split.
  - destruct s as [|a [|b [|c [|d [|x s]]]]]; simpl; intros H; try discriminate. injection H as Ha Hb Hc Hd.
    apply up_letter in Ha; [|simpl; auto 6]. apply up_letter in Hb; [|simpl; auto 6].
    apply up_letter in Hc; [|simpl; auto 6]. apply up_letter in Hd; [|simpl; auto 6].
    exact (Forall2_cons _ _ Ha (Forall2_cons _ _ Hb (Forall2_cons _ _ Hc (Forall2_cons _ _ Hd (Forall2_nil _))))).
  - intros H. destruct s as [|a [|b [|c [|d [|x s]]]]]; simpl in H;
      repeat match goal with H : Forall2 _ (_ :: _) _ |- _ => inversion H; clear H; subst | H : Forall2 _ [] _ |- _ => inversion H; clear H; subst end.
    simpl in *. repeat match goal with H : _ \/ _ |- _ => destruct H as [H|H] | H : False |- _ => destruct H end; subst; reflexivity.
Qed.
Lemma upper_one s : upper s = "1" <-> s = "1".
Proof.
  split; [|intros ->; reflexivity]. destruct s as [|a [|b s]]; simpl; intros H; try discriminate. injection H as H.
  destruct a as [[|] [|] [|] [|] [|] [|] [|] [|]]; first [discriminate H|reflexivity].
Qed.
Lemma accept_ok e : accept_resources e = false <-> switched_off e.
Proof.
  unfold accept_resources, switched_off. rewrite negb_false_iff, smem_In. destruct (e_no_references e) as [s|].
  - simpl. split.
    + intros [K|[K|[]]]; exists s; (split; [reflexivity|]); symmetry in K; [right; now apply upper_true|left; now apply upper_one].
    + intros (s' & E & K). injection E as <-. destruct K as [->|K]; [right; left; reflexivity|left; symmetry; now apply upper_true].
  - simpl. split; [intros [K|[K|[]]]; discriminate|]. intros (s & E & _). discriminate.
Qed.

Lemma convert_ok p o : wf_opts o -> forall k q,
  dget (convert_providers p (ro_providers o)) k = Some q <->
  match p with Some r => k = p_package r /\ q = r | None => option_gives o k q end.
Proof.
  intros W k q. destruct p as [r|].
  - simpl. destruct (String.eqb_spec k (p_package r)) as [->|N]; [split; [intros K; injection K as <-; auto|intros [_ ->]; reflexivity]|].
    split; [discriminate|intros [K _]; contradiction].
  - destruct (opt_providers_spec o W) as [_ S]. rewrite <- (S k q). unfold convert_providers, opt_providers. destruct (ro_providers o) as [[l|d]|]; reflexivity.
Qed.

Lemma id_ok e o v s : ro_id o = Some v -> id_given (e_cfg e) v s -> read_id e o = Done s.
Proof.
  intros Ho G. unfold read_id. rewrite Ho.
  set (c := mkCfg (c_secrets (e_cfg e)) (c_refs (e_cfg e)) (c_outvals (e_cfg e)) None (c_class (e_cfg e)) (c_res (e_cfg e))).
  assert (K : exists ds, ser c v None false = Done (WStr s, ds)).
  { clear Ho. induction G as [s|x s G [ds IH]|rs x b s G [ds IH] N|rs x b N].
    - exists []. reflexivity.
    - exists ds. exact IH.
    - assert (U : contains_unknowns x = false) by (inversion G; reflexivity). exists (rs ++ ds)%list. cbn [ser]. rewrite U.
      change (norm_ty None) with (@None pty). rewrite IH. simpl. destruct N as [-> | N]; [reflexivity|]. unfold c. simpl. rewrite N, andb_false_r. reflexivity.
    - exists (rs ++ [])%list. destruct N as [-> | ->]; reflexivity. }
  destruct K as (ds & ->). reflexivity.
Qed.

Section Requests.
Variable ord : rid -> list rid -> list rid.
Hypothesis ord_ok : forall r l, same_set (ord r l) l.

Definition prepared_ok (e : env) (root : option nat) (g g' : dep_heap) (self : rid) (ty : string) (custom remote : bool)
    (props : list (string * pyval)) (o : ropts) (p : prepared) : Prop :=
  (exists u, pr_parent p = Some u /\ parent_is e root ty o u) /\
  (exists pd, serialize_properties (e_cfg e) (e_typ e) remote props = Done (pr_props p, pd)) /\
  dependencies_say (e_cfg e) (e_typ e) remote (e_object e) self props o g g' (pr_dependencies p) (pr_property_dependencies p) /\
  (if custom then refers_opt e (ro_provider o) (text (pr_provider p)) else text (pr_provider p) = "") /\
  (forall k s, dget (pr_providers p) k = Some s <-> remote = true /\ exists q,
     match ro_provider o with Some r => k = p_package r /\ q = r | None => option_gives o k q end /\ refers e q s) /\
  exists al, pr_aliases p = map Some al /\ NoDup al /\ forall s, In s al <-> In (Done (Some s)) (e_aliases e).

Lemma prepare_ok e root g self ty custom remote props o : ~ cyclic (Spec_Deps.depends g) -> ready e remote props o -> wf_opts o ->
  Forall (fun a => exists s, a = Done (Some s)) (e_aliases e) ->
  exists g' p, prepare ord e root g self ty custom remote props o = Done (g', p) /\
    prepared_ok e root g g' self ty custom remote props o p.
Proof.
  intros Hg R W A. destruct (rd_props _ _ _ _ R) as (st & pd & Es).
  destruct (dependencies_ok ord ord_ok e remote self g props o st pd Hg R Es) as (ex & g' & deps & pds & Ex & Ed & Ds).
  destruct (parent_ok e root ty o (rd_urns _ _ _ _ R)) as (u & Eu & Pu).
  destruct (aliases_ok _ A [] (NoDup_nil _)) as (al & Ea & Na & Sa). simpl in Ea.
  assert (Pr : exists pr, match (if custom then ro_provider o else None) with
               | Some p => let* r := reference e p in Done (Some r)
               | None => Done None
               end = Done pr /\ if custom then refers_opt e (ro_provider o) (text pr) else text pr = "").
  { destruct custom; [|exists None; split; reflexivity]. destruct (ro_provider o) as [p|].
    - destruct (reference_ok e p (rd_providers _ _ _ _ R _)) as (s & -> & Rf). exists (Some s). split; [reflexivity|]. now constructor.
    - exists None. split; [reflexivity|constructor]. }
  destruct Pr as (pr & Epr & Spr).
  assert (Ps : exists rs, (if remote then references e (convert_providers (ro_provider o) (ro_providers o)) else Done []) = Done rs /\
    forall k s, dget rs k = Some s <-> remote = true /\ exists q,
     match ro_provider o with Some r => k = p_package r /\ q = r | None => option_gives o k q end /\ refers e q s).
  { destruct remote.
    - destruct (references_ok e (convert_providers (ro_provider o) (ro_providers o)) (rd_providers _ _ _ _ R)) as (rs & Er & Sr).
      exists rs. split; [exact Er|]. intros k s. rewrite Sr. split.
      + intros (q & Hq & Rq). split; [reflexivity|]. exists q. split; [now apply convert_ok|exact Rq].
      + intros (_ & q & Hq & Rq). exists q. split; [now apply convert_ok|exact Rq].
    - exists []. split; [reflexivity|]. intros k s. split; [discriminate|]. intros [K _]. discriminate. }
  destruct Ps as (rs & Er & Sr).
  exists g', (mkPrepared (Some u) st deps pr rs pds (map Some al)). split.
  - unfold prepare. unfold explicit_of in Ex. rewrite Ex. cbn [fbind]. rewrite Es. cbn [fbind snd fst]. rewrite Eu. cbn [fbind].
    rewrite Epr. cbn [fbind]. rewrite Er. cbn [fbind]. rewrite Ed. cbn [of_res fbind]. rewrite Ea. reflexivity.
  - split; [exists u; auto|]. split; [exists pd; exact Es|]. split; [exact Ds|]. split; [exact Spr|]. split; [exact Sr|].
    exists al. split; [reflexivity|]. split; [exact Na|]. intros s. rewrite Sa. simpl. tauto.
Qed.

Lemma ready_provider e keep props o pr p : ready e keep props (set_provider o pr p) <-> ready e keep props o.
Proof. split; intros [A B C D E F G]; constructor; try assumption; intros; eapply G; eauto. Qed.
Lemma dependencies_provider c typ keep obj self props o pr p g g' deps by_property :
  dependencies_say c typ keep obj self props (set_provider o pr p) g g' deps by_property ->
  dependencies_say c typ keep obj self props o g g' deps by_property.
Proof. intros [A B C D E]. constructor; assumption. Qed.
Lemma parent_provider e root ty o pr p u : parent_is e root ty (set_provider o pr p) u -> parent_is e root ty o u.
Proof.
  intros [n u' H H'|n u' H H' H2 H3|H H'|H H']; [apply (Pi_given _ _ _ _ n)|apply (Pi_root _ _ _ _ n)|apply Pi_stack|apply Pi_none]; assumption.
Qed.

(** What the options of a constructed resource are. *)
Lemma constructed tf w t name custom props given w' n q : honest tf -> reachable tf w -> wf_opts given -> parent_exists w given -> named t ->
  construct tf w t name custom props given = Ok (w', n, q) ->
  exists ts props' opts pr p, applies w given ts /\ runs tf t name ts (props, given) (props', opts) /\
    wf_opts opts /\ selected w t opts p /\ protection w opts (flag pr) /\ ((exists u, ro_urn opts = Some u /\ q = RGet u props') \/
     (ro_urn opts = None /\ ro_id opts <> None /\ custom = true /\ q = RRead t name props' (set_provider opts pr p)) \/
     (ro_urn opts = None /\ ro_id opts = None /\ q = RRegister t name custom props' (set_provider opts pr p))).
Proof.
  intros Hn Re Wo Pe N H. pose proof (reachable_ok _ _ Hn Re) as W.
  apply construct_parts in H as (_ & _ & props' & opts & prov & protect & R & Ep & Ev & _ & _ & _ & Hq).
  pose proof (runs_wf _ _ _ _ _ _ Hn R Wo) as Wo'. simpl in Wo'. pose proof (runs_parent _ _ _ _ _ _ R) as Par. simpl in Par.
  eexists _, props', opts, protect, prov. split; [apply (applies_eq tf); [exact Re|exact Pe|reflexivity]|]. split; [exact R|]. split; [exact Wo'|].
  split; [rewrite Ev; apply get_providers_selected; assumption|]. split; [|exact Hq].
  subst protect. destruct (ro_parent opts) as [k|] eqn:E.
  - destruct (Pe k) as [x Gx]; [congruence|]. rewrite Gx. destruct (ro_protect opts) as [b|] eqn:Eb; simpl.
    + apply prot_own. exact Eb.
    + eapply prot_parent; eauto.
  - destruct (ro_protect opts) as [b|] eqn:Eb; [apply prot_own|apply prot_none]; assumption.
Qed.

Lemma registration_ok tf w t name custom props given w' n t' name' custom' props' o' e g self remote tm :
  honest tf -> reachable tf w -> wf_opts given -> parent_exists w given -> named t ->
  construct tf w t name custom props given = Ok (w', n, RRegister t' name' custom' props' o') ->
  ~ cyclic (Spec_Deps.depends g) -> ready e remote props' o' ->
  Forall (fun a => exists s, a = Done (Some s)) (e_aliases e) -> timeouts_are e o' tm ->
  exists ts opts, applies w given ts /\ runs tf t name ts (props, given) (props', opts) /\
    exists g' rq, register_request_of ord e (w_root w) g self t' name' custom' remote props' o' = Done (g', rq) /\
      registration_says e w g g' self t name custom remote props' opts rq.
Proof.
  intros Hn Re Wo Pe N C Hg Rd Al Tm.
  destruct (constructed _ _ _ _ _ _ _ _ _ _ Hn Re Wo Pe N C) as (ts & props1 & opts & pr & p & A & R & Wo' & Sel & Prot & Q).
  destruct Q as [(u & _ & Q)|[(_ & _ & _ & Q)|(_ & _ & Q)]]; try discriminate. injection Q as -> -> -> -> ->.
  exists ts, opts. split; [exact A|]. split; [exact R|].
  destruct (prepare_ok e (w_root w) g self t custom remote props1 (set_provider opts pr p) Hg Rd Wo' Al)
    as (g' & pp & E & (u & Eu & Pu) & (pd & Es) & Ds & Pv & Ps & (al & Ea & Na & Sa)).
  cbn [ro_provider set_provider] in Pv, Ps.
  unfold register_request_of. rewrite E. cbn [fbind fst snd]. rewrite (timeouts_ok _ _ _ Tm). cbn [of_res fbind]. rewrite Ea, texts_ok. cbn [of_res fbind].
  eexists g', _. split; [reflexivity|].
  assert (Hc : forall cls, class_named (c_class (e_cfg e) cls)) by (intros cls; apply class_declared_named, (rd_classes _ _ _ _ Rd)).
  constructor; cbn [rq_type rq_name rq_parent rq_custom rq_object rq_protect rq_dependencies rq_provider rq_providers rq_property_dependencies
    rq_delete_before_replace rq_delete_before_replace_defined rq_ignore_changes rq_version rq_plugin_download_url rq_accept_resources
    rq_additional_secret_outputs rq_import_id rq_custom_timeouts rq_aliases rq_remote rq_replace_on_changes rq_retain_on_delete
    set_provider ro_protect ro_delete_before_replace ro_ignore_changes ro_version ro_plugin_download_url ro_additional_secret_outputs
    ro_import ro_replace_on_changes ro_retain_on_delete].
  - reflexivity.
  - reflexivity.
  - reflexivity.
  - reflexivity.
  - rewrite Eu. eapply parent_provider. exact Pu.
  - exists pd. exact Es.
  - exact Prot.
  - eapply dependencies_provider. exact Ds.
  - destruct custom; [exists p; auto|exact Pv].
  - intros k s. rewrite Ps. pose proof (reachable_ok _ _ Hn Re) as W. split; (intros [Hr (q & Hq & Rq)]; split; [exact Hr|exists q; split; [|exact Rq]]).
    + destruct p as [r|]; [destruct Hq as [-> ->]; now constructor|]. now apply Sp_given.
    + destruct Hq as [q Sq|k q Sq Og].
      * pose proof (selected_fun _ _ _ _ _ W Wo' Sel Sq) as ->. auto.
      * pose proof (selected_fun _ _ _ _ _ W Wo' Sel Sq) as ->. exact Og.
  - split; [apply flag_given|]. destruct (ro_delete_before_replace opts); split; congruence.
  - apply names_ok. intros k. apply top_sent, Hc.
  - apply text_given.
  - apply text_given.
  - apply accept_ok.
  - apply names_ok. intros k. apply output_name_ok, Hc.
  - apply text_given.
  - destruct Tm as [H|m c u' d H H'|m tt c u' d H H' H1 H2 H3]; [now apply Ta_none|now apply (Ta_object _ _ m)|now apply (Ta_dict _ _ m tt)].
  - split; [exact Na|exact Sa].
  - apply names_ok. intros k. apply top_sent, Hc.
  - apply flag_given.
Qed.

Lemma reading_ok tf w t name custom props given w' n t' name' props' o' e g self v id :
  honest tf -> reachable tf w -> wf_opts given -> parent_exists w given -> named t ->
  construct tf w t name custom props given = Ok (w', n, RRead t' name' props' o') ->
  ~ cyclic (Spec_Deps.depends g) -> ready e false props' o' ->
  Forall (fun a => exists s, a = Done (Some s)) (e_aliases e) -> ro_id o' = Some v -> id_given (e_cfg e) v id ->
  exists ts opts, applies w given ts /\ runs tf t name ts (props, given) (props', opts) /\ ro_id opts = Some v /\ custom = true /\
    exists g' rq, read_request_of ord e (w_root w) g self t' name' props' o' = Done (g', rq) /\
      reading_says e w g g' self t name id props' opts rq.
Proof.
  intros Hn Re Wo Pe N C Hg Rd Al Hv Hid.
  destruct (constructed _ _ _ _ _ _ _ _ _ _ Hn Re Wo Pe N C) as (ts & props1 & opts & pr & p & A & R & Wo' & Sel & _ & Q).
  destruct Q as [(u & _ & Q)|[(_ & _ & Ct & Q)|(_ & _ & Q)]]; try discriminate. injection Q as -> -> -> ->.
  exists ts, opts. split; [exact A|]. split; [exact R|]. split; [exact Hv|]. split; [exact Ct|].
  destruct (prepare_ok e (w_root w) g self t true false props1 (set_provider opts pr p) Hg Rd Wo' Al)
    as (g' & pp & E & (u & Eu & Pu) & (pd & Es) & Ds & Pv & Ps & (al & Ea & Na & Sa)).
  cbn [ro_provider set_provider] in Pv.
  unfold read_request_of. rewrite E. cbn [fbind fst snd]. rewrite (id_ok _ _ _ _ Hv Hid). cbn [fbind].
  eexists g', _. split; [reflexivity|].
  assert (Hc : forall cls, class_named (c_class (e_cfg e) cls)) by (intros cls; apply class_declared_named, (rd_classes _ _ _ _ Rd)).
  constructor; cbn [rr_id rr_type rr_name rr_parent rr_properties rr_dependencies rr_provider rr_version rr_plugin_download_url rr_accept_resources
    rr_additional_secret_outputs set_provider ro_version ro_plugin_download_url ro_additional_secret_outputs].
  - reflexivity.
  - reflexivity.
  - reflexivity.
  - rewrite Eu. eapply parent_provider. exact Pu.
  - exists pd. exact Es.
  - exists (pr_property_dependencies pp). eapply dependencies_provider. exact Ds.
  - exists p. auto.
  - apply text_given.
  - apply text_given.
  - apply accept_ok.
  - apply names_ok. intros k. apply output_name_ok, Hc.
Qed.
End Requests.
