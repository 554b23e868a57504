(** Proofs about stack references. *)
From Verif Require Import Base PyVal Model_Output Model_StackRef Spec_Output Proof_Output Proof_FromInput Proof_Config Spec_StackRef.
Open Scope string_scope.
Open Scope list_scope.

Lemma finished_list l : finished (VList l) <-> Forall finished l.
Proof.
  split; intros H.
  - induction l; constructor; destruct H; auto.
  - induction H; simpl; auto.
Qed.
Lemma finished_dict d : finished (VDict d) <-> Forall (fun kv => finished (snd kv)) d.
Proof.
  split; intros H.
  - induction d; constructor; destruct H; auto.
  - induction H; simpl; auto.
Qed.
Lemma finished_known v : finished v -> contains_unknowns v = false.
Proof.
  induction v using pyval_ind'; intros Hf; try reflexivity; try (destruct Hf; fail).
  - apply finished_list in Hf. simpl. rewrite Forall_forall in *.
    destruct (existsb contains_unknowns l) eqn:E; auto. apply existsb_exists in E as (x & Hx & E). rewrite H in E; auto.
  - apply finished_dict in Hf. simpl. rewrite Forall_forall in *.
    destruct (existsb (fun kv => contains_unknowns (snd kv)) d) eqn:E; auto. apply existsb_exists in E as (x & Hx & E). rewrite H in E; auto.
Qed.
Lemma finished_prompt v : finished v -> is_prompt v = true.
Proof. destruct v; simpl; tauto. Qed.

Lemma finished_from_input dry v : finished v -> has_info (from_input dry v) (mkInfo [] v true false).
Proof.
  induction v using pyval_ind'; intros Hf; try (destruct Hf; fail);
    try (split; [split; [|split; [|split]]|]; reflexivity).
  - apply finished_list in Hf. destruct l as [|x l]; [split; [split; [|split; [|split]]|]; reflexivity|].
    set (L := x :: l) in *. change (from_input dry (VList L)) with (all_list (map (from_input dry) L)). clearbody L.
    assert (A : Forall2 has_info (map (from_input dry) L) (map (fun v => mkInfo [] v true false) L)).
    { induction H; simpl; auto. inversion Hf; subst. auto. }
    apply all_list_info in A. rewrite !map_map in A. simpl in A.
    rewrite map_id, concat_nils, forallb_trues, existsb_falses in A. exact A.
  - apply finished_dict in Hf. destruct d as [|x l]; [split; [split; [|split; [|split]]|]; reflexivity|].
    set (L := x :: l) in *.
    change (from_input dry (VDict L)) with (all_dict (map (fun kv => (fst kv, from_input dry (snd kv))) L)). clearbody L.
    assert (A : Forall2 has_info (map snd (map (fun kv => (fst kv, from_input dry (snd kv))) L))
                  (map (fun kv => mkInfo [] (snd kv) true false) L)).
    { induction H; simpl; auto. inversion Hf; subst. auto. }
    apply all_dict_info in A. rewrite !map_map in A. simpl in A.
    replace (combine (map (fun x => fst x) L) (map (fun x => snd x) L)) with L in A
      by (clear; induction L as [|[a b] L IH]; simpl; congruence).
    rewrite concat_nils, forallb_trues, existsb_falses in A. exact A.
Qed.

Lemma settled_nil o rs v k s : settled o (rs ++ []) v k (s || false) -> settled o rs v k s.
Proof. now rewrite app_nil_r, orb_false_r. Qed.
(** Lifting an Output of finished data, or of the unknown. *)
Lemma lift_output dry o rs v k s : settled o rs v k s -> finished v ->
  has_info (from_input dry (VO o)) (mkInfo rs (if dry && negb k then VUnknown else v) (negb (dry && negb k)) s).
Proof.
  intros Hs Hf. apply settled_eq in Hs. subst o. unfold VO. cbn [o_res o_val o_known o_secret]. rewrite from_input_out.
  pose proof (finished_known v Hf) as Hk.
  destruct (dry && negb k) eqn:D.
  - apply andb_true_iff in D as [-> D]. destruct k; [discriminate|].
    assert (Hp : passed true v false true = VUnknown) by (unfold passed; now rewrite Hk).
    split; [|discriminate]. cbn [i_rs i_v i_k i_s].
    apply settled_nil.
    eapply apply_runs; [unfold settled; simpl; eauto|auto|rewrite Hp; reflexivity|].
    apply (Y_output [] VUnknown false false). discriminate.
  - assert (Hp : passed dry v k true = v) by (unfold passed; rewrite Hk; destruct dry, k; auto; discriminate).
    destruct (finished_from_input dry v Hf) as (Hi & Hkn). split; [|intros _; exact Hk]. cbn [i_rs i_v i_k i_s negb] in *.
    apply settled_nil.
    eapply apply_runs; [unfold settled; simpl; eauto|destruct dry, k; auto|rewrite Hp; reflexivity|].
    rewrite (settled_eq _ _ _ _ _ Hi). unfold VO. cbn [o_res o_val o_known o_secret]. apply Y_output. auto.
Qed.
Lemma lift_unknown o rs s : settled o rs VUnknown false s ->
  has_info (from_input true (VO o)) (mkInfo rs VUnknown false s).
Proof.
  intros Hs. apply settled_eq in Hs. subst o. unfold VO. cbn [o_res o_val o_known o_secret]. rewrite from_input_out.
  split; [|discriminate]. cbn [i_rs i_v i_k i_s].
  apply settled_nil.
  eapply apply_runs; [unfold settled; simpl; eauto|auto|reflexivity|].
  apply (Y_output [] VUnknown false false). discriminate.
Qed.

(** Name and outputs, both lifted. *)
Lemma both dry name outs ns rs nv v nk k nsec s :
  has_info (from_input dry (VO (from_input dry name))) (mkInfo ns nv nk nsec) ->
  has_info (from_input dry (VO outs)) (mkInfo rs v k s) ->
  exists o, output_all dry [VO (from_input dry name); VO outs] [] = Ok o /\
    settled o (ns ++ rs) (VList [nv; v]) (nk && k) (nsec || s).
Proof.
  intros H1 H2. eexists. split; [reflexivity|].
  destruct (all_list_info [from_input dry (VO (from_input dry name)); from_input dry (VO outs)] _ (Forall2_cons _ _ H1 (Forall2_cons _ _ H2 (Forall2_nil _)))) as [H _].
  cbn [map i_rs i_v i_k i_s concat forallb existsb] in H. rewrite app_nil_r, andb_true_r, orb_false_r in H. exact H.
Qed.

Lemma listed_spec n l : listed (VStr n) (VList (map VStr l)) = Done (smem n l).
Proof.
  simpl. f_equal. unfold smem. induction l; simpl; auto. rewrite IHl. reflexivity.
Qed.
Lemma verdict dry outs names name nrs nv nk nsec ors ov ok osec srs sv sk ssec n :
  settled (from_input dry name) nrs nv nk nsec -> (nk = true -> nv = VStr n) ->
  settled outs ors ov ok osec -> settled names srs sv sk ssec ->
  sv = VNone \/ (exists l, sv = VList (map VStr l)) ->
  exists b, is_secret_name dry outs names name = Done b /\ secret_verdict nk n sv sk osec b.
Proof.
  intros (_ & Hnv & Hnk & _) Hn (_ & _ & _ & Hos) (_ & Hsv & Hsk & _) Hl.
  unfold is_secret_name, future. rewrite Hnk, Hnv, Hos. cbn [fbind].
  destruct nk; [|exists osec; split; auto; apply SV_unavailable; auto].
  rewrite Hsk. cbn [fbind]. destruct sk; [|exists osec; split; auto; apply SV_unavailable; auto].
  cbn [negb]. rewrite Hsv. cbn [fbind]. rewrite (Hn eq_refl). cbn [fbind].
  destruct Hl as [->|(l & ->)].
  - exists osec. split; auto. apply SV_unavailable; auto.
  - assert (E : contains_unknowns (VList (map VStr l)) = false).
    { clear. simpl. induction l; simpl; auto. }
    rewrite E. cbn [andb contains_unknowns negb]. rewrite listed_spec. exists (smem n l). split; auto.
    destruct (smem n l) eqn:Em; [eapply SV_listed|eapply SV_not_listed]; eauto; [now apply smem_In|now apply smem_notIn].
Qed.

Section Known.
  Variables (dry : bool) (outs names : output) (name : pyval).
  Variables (nrs ors srs : list rsrc) (n : string) (d : dict pyval) (sv : pyval) (nk ok sk nsec osec ssec : bool).
  Hypothesis Hname : settled (from_input dry name) nrs (VStr n) nk nsec.
  Hypothesis Houts : settled outs ors (VDict d) ok osec.
  Hypothesis Hnames : settled names srs sv sk ssec.
  Hypothesis Hlist : sv = VNone \/ (exists l, sv = VList (map VStr l)).
  Hypothesis Hfin : finished (VDict d).
  Hypothesis Hmode : dry = false \/ (nk = true /\ ok = true).

  Lemma entry_finished k x : dget d k = Some x -> finished x.
  Proof.
    intros H. apply finished_dict in Hfin. rewrite Forall_forall in Hfin. apply dget_In in H. apply (Hfin (k, x) H).
  Qed.

  Lemma all_known_ : exists o, output_all dry [VO (from_input dry name); VO outs] [] = Ok o /\
    settled o (nrs ++ ors) (VList [VStr n; VDict d]) true (nsec || osec).
  Proof.
    pose proof (lift_output dry _ _ _ _ _ Hname I) as H1. pose proof (lift_output dry _ _ _ _ _ Houts Hfin) as H2.
    assert (E1 : dry && negb nk = false) by (destruct Hmode as [->|[-> _]]; auto; apply andb_false_r).
    assert (E2 : dry && negb ok = false) by (destruct Hmode as [->|[_ ->]]; auto; apply andb_false_r).
    rewrite E1 in H1. rewrite E2 in H2. exact (both _ _ _ _ _ _ _ _ _ _ _ H1 H2).
  Qed.

  Lemma fetch_found lookup x : lookup (VList [VStr n; VDict d]) = Ok x -> finished x ->
    exists o b, fetch dry lookup outs names name = Ok o /\ settled o (nrs ++ ors) x true b /\ secret_verdict nk n sv sk osec b.
  Proof.
    intros Hl Hx. destruct all_known_ as (oa & E1 & Hs). unfold fetch. rewrite E1. cbn [rbind].
    assert (HA : settled (apply dry oa lookup false) (nrs ++ ors) x true (nsec || osec)).
    { rewrite <- (app_nil_r (nrs ++ ors)), <- (orb_false_r (nsec || osec)).
      eapply apply_runs; [exact Hs|auto|unfold passed; rewrite andb_false_r; exact Hl|].
      pose proof (Y_plain x (finished_prompt x Hx)) as Y. rewrite (finished_known x Hx) in Y. exact Y. }
    destruct (verdict dry outs names name _ _ _ _ _ _ _ _ _ _ _ _ n Hname (fun _ => eq_refl) Houts Hnames Hlist) as (b & Hb & Hv).
    eexists _, b. split; [reflexivity|]. split; [|exact Hv].
    destruct HA as (A1 & A2 & A3 & _). unfold settled, new_output, future; cbn [o_res o_val o_known o_secret].
    rewrite A1, A2, A3, Hb. cbn [fbind]. rewrite (finished_known x Hx). cbn. rewrite (finished_known x Hx). auto.
  Qed.
  Lemma fetch_missing lookup e : lookup (VList [VStr n; VDict d]) = Err e ->
    exists o, fetch dry lookup outs names name = Ok o /\ o_val o = Fail e /\ o_res o = Done (nrs ++ ors) /\ o_known o = Done false /\
      exists b, o_secret o = Done b /\ secret_verdict nk n sv sk osec b.
  Proof.
    intros Hl. destruct all_known_ as (oa & E1 & Hs). unfold fetch. rewrite E1. cbn [rbind].
    destruct (apply_raises dry oa _ _ _ _ lookup false e Hs) as (A1 & A2 & A3 & A4); [auto|unfold passed; rewrite andb_false_r; exact Hl|].
    destruct (verdict dry outs names name _ _ _ _ _ _ _ _ _ _ _ _ n Hname (fun _ => eq_refl) Houts Hnames Hlist) as (b & Hb & Hv).
    eexists. split; [reflexivity|]. unfold new_output, future; cbn [o_res o_val o_known o_secret].
    rewrite A1, A2, A3, Hb. cbn [fbind]. repeat (split; [reflexivity|]). exists b. auto.
  Qed.
End Known.

Lemma fetch_unknown lookup outs names name nrs nv nk nsec ors d ok osec srs sv sk ssec n :
  settled (from_input true name) nrs nv nk nsec -> (nk = true -> nv = VStr n) -> (nk = false -> nv = VUnknown) ->
  settled outs ors d ok osec -> finished d -> settled names srs sv sk ssec ->
  sv = VNone \/ (exists l, sv = VList (map VStr l)) -> nk && ok = false ->
  exists o b, fetch true lookup outs names name = Ok o /\ settled o (nrs ++ ors) VNone false b /\ secret_verdict nk n sv sk osec b.
Proof.
  intros Hname Hn1 Hn2 Houts Hfin Hnames Hlist Hk.
  assert (H1 : has_info (from_input true (VO (from_input true name))) (mkInfo nrs nv nk nsec)).
  { destruct nk.
    - rewrite Hn1 in * by auto. exact (lift_output true _ _ _ _ _ Hname I).
    - rewrite Hn2 in * by auto. now apply lift_unknown. }
  pose proof (lift_output true _ _ _ _ _ Houts Hfin) as H2. cbn [andb] in H2. rewrite negb_involutive in H2.
  destruct (both _ _ _ _ _ _ _ _ _ _ _ H1 H2) as (oa & E1 & Hs).
  rewrite Hk in Hs. pose proof (apply_skips _ _ _ _ _ _ lookup Hs eq_refl eq_refl) as (A1 & A2 & A3 & _).
  destruct (verdict true outs names name _ _ _ _ _ _ _ _ _ _ _ _ n Hname Hn1 Houts Hnames Hlist) as (b & Hb & Hv).
  unfold fetch. rewrite E1. cbn [rbind]. eexists _, b. split; [reflexivity|]. split; [|exact Hv].
  unfold settled, new_output, future; cbn [o_res o_val o_known o_secret]. rewrite A1, A2, A3, Hb. auto.
Qed.

Lemma get_output_ok dry outs names name nrs nsec ors srs n d sv nk ok sk osec ssec :
  settled (from_input dry name) nrs (VStr n) nk nsec -> settled outs ors (VDict d) ok osec -> settled names srs sv sk ssec ->
  sv = VNone \/ (exists l, sv = VList (map VStr l)) -> finished (VDict d) -> dry = false \/ (nk = true /\ ok = true) ->
  exists o b, get_output dry outs names name = Ok o /\
    settled o (nrs ++ ors) (match dget d n with Some x => x | None => VNone end) true b /\ secret_verdict nk n sv sk osec b.
Proof.
  intros H1 H2 H3 H4 H5 H6.
  apply (fetch_found dry outs names name nrs ors srs n d sv nk ok sk nsec osec ssec H1 H2 H3 H4 H5 H6 lookup_or_none); [reflexivity|].
  destruct (dget d n) eqn:E; [eapply entry_finished; eauto|exact I].
Qed.
Lemma require_output_ok dry outs names name nrs nsec ors srs n d sv nk ok sk osec ssec :
  settled (from_input dry name) nrs (VStr n) nk nsec -> settled outs ors (VDict d) ok osec -> settled names srs sv sk ssec ->
  sv = VNone \/ (exists l, sv = VList (map VStr l)) -> finished (VDict d) -> dry = false \/ (nk = true /\ ok = true) ->
  exists o b, require_output dry outs names name = Ok o /\ o_secret o = Done b /\ secret_verdict nk n sv sk osec b /\
    match dget d n with
    | Some x => settled o (nrs ++ ors) x true b
    | None => o_val o = Fail (Exn "KeyError" n) /\ o_res o = Done (nrs ++ ors) /\ o_known o = Done false
    end.
Proof.
  intros H1 H2 H3 H4 H5 H6. destruct (dget d n) as [x|] eqn:E.
  - destruct (fetch_found dry outs names name _ _ _ n d sv _ _ _ _ _ _ H1 H2 H3 H4 H5 H6 lookup_or_raise x) as (o & b & A & B & C).
    + simpl. now rewrite E.
    + eapply entry_finished; eauto.
    + exists o, b. repeat split; auto; apply B.
  - destruct (fetch_missing dry outs names name _ _ _ n d sv _ _ _ _ _ _ H1 H2 H3 H4 H5 H6 lookup_or_raise (Exn "KeyError" n)) as (o & A & B & C & D & b & F & G).
    + simpl. now rewrite E.
    + exists o, b. repeat split; auto.
Qed.
