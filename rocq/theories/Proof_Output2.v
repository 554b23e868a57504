(** Final forms of the results of C01-C09. *)
From Verif Require Import Base PyVal Model_Output Spec_Output Proof_Output Proof_FromInput.

Lemma apply_propagates :
  (forall dry o rs v k s f x rs' v' k' s',
     settled o rs v k s ->
     dry = false \/ k = true ->
     f v = Ok x -> yields x rs' v' k' s' ->
     settled (apply dry o f false) (rs ++ rs') v' k' (s || s')) /\
  (forall dry o f rwu, well_formed (apply dry o f rwu)) /\
  (forall dry o rs v k s f e,
     settled o rs v k s ->
     dry = false \/ k = true ->
     f v = Err e ->
     o_res (apply dry o f false) = Done rs /\ o_val (apply dry o f false) = Fail e /\
     o_known (apply dry o f false) = Done false).
Proof.
  split; [|split].
  - intros. eapply apply_runs; eauto; [tauto|]. now rewrite passed_norwu.
  - apply apply_wf.
  - intros dry o rs v k s f e H D E.
    destruct (apply_raises dry o rs v k s f false e) as (A & B & C & _); auto; [tauto|].
    now rewrite passed_norwu.
Qed.

Lemma preview_no_callback :
  (forall o f g, o_known o = Done false ->
     apply_calls true o f false = [] /\
     apply true o f false = apply true o g false) /\
  (forall o rs v s f, settled o rs v false s ->
     settled (apply true o f false) rs VNone false s) /\
  (forall dry o rs v k s f, settled o rs v k s -> dry = false \/ k = true ->
     apply_calls dry o f false = [v]).
Proof.
  split; [|split].
  - intros. split; [now apply calls_skips|now apply apply_noninterference].
  - intros. eapply apply_skips; eauto.
  - intros. erewrite calls_runs; eauto; [|tauto]. now rewrite passed_norwu.
Qed.

Lemma output_all_ok :
  (forall dry args infos,
     Forall2 (fun a i => settled (from_input dry a) (i_rs i) (i_v i) (i_k i) (i_s i)) args infos ->
     exists o, output_all dry args [] = Ok o /\
       settled o (concat (map i_rs infos)) (VList (map i_v infos))
                 (forallb (fun b => b) (map i_k infos)) (existsb (fun b => b) (map i_s infos))) /\
  (forall dry kwargs infos,
     kwargs <> [] ->
     Forall2 (fun kv i => settled (from_input dry (snd kv)) (i_rs i) (i_v i) (i_k i) (i_s i)) kwargs infos ->
     exists o, output_all dry [] kwargs = Ok o /\
       settled o (concat (map i_rs infos)) (VDict (combine (map fst kwargs) (map i_v infos)))
                 (forallb (fun b => b) (map i_k infos)) (existsb (fun b => b) (map i_s infos))) /\
  (forall dry a args kv kwargs, exists e, output_all dry (a :: args) (kv :: kwargs) = Err e).
Proof.
  assert (W : forall dry v, well_formed (from_input dry v)).
  { intros dry v. destruct v; try apply new_output_wf;
      try (rewrite from_input_await; apply apply_wf);
      try (rewrite from_input_out; apply apply_wf).
    - destruct l; apply new_output_wf.
    - destruct d; apply new_output_wf.
    - apply apply_wf. }
  assert (HI : forall dry v i, settled (from_input dry v) (i_rs i) (i_v i) (i_k i) (i_s i) ->
                 has_info (from_input dry v) i).
  { intros dry v i H. split; auto. intros E. destruct H as (_ & B & C & _). rewrite E in C.
    destruct (W dry v C) as (x & X & Y). rewrite B in X. injection X as ->. exact Y. }
  split; [|split].
  - intros dry args infos H. eexists. split.
    + destruct args; reflexivity.
    + apply all_list_info. apply Forall2_map_l. eapply Forall2_imp; [|exact H]. simpl. auto.
  - intros dry kwargs infos Hne H. eexists. split.
    + destruct kwargs; [contradiction|]. reflexivity.
    + rewrite <- (map_fst_pair (from_input dry) kwargs).
      apply all_dict_info. rewrite map_snd_pair. apply Forall2_map_l.
      eapply Forall2_imp; [|exact H]. simpl. auto.
  - intros. eexists. reflexivity.
Qed.

Lemma from_input_wf dry v : well_formed (from_input dry v).
Proof.
  destruct v; try apply new_output_wf;
      try (rewrite from_input_await; apply apply_wf);
      try (rewrite from_input_out; apply apply_wf).
  - destruct l; apply new_output_wf.
  - destruct d; apply new_output_wf.
  - apply apply_wf.
Qed.

Lemma new_output_known_idem rs v k s rs' s' :
  well_formed (new_output rs v k s) ->
  o_known (new_output rs' v (o_known (new_output rs v k s)) s') = o_known (new_output rs v k s).
Proof.
  intros _. simpl. destruct k as [[]| |]; simpl; auto. destruct v as [x| |]; simpl; auto.
  now destruct (contains_unknowns x).
Qed.

Lemma apply_is_new dry o f rwu :
  exists rs v k s, apply dry o f rwu = new_output rs v k s.
Proof. unfold apply. destruct (apply_call_shape dry o rwu (fun a => f (arg_value o a))) as (a & b & c & d & E). rewrite E. eauto. Qed.

Lemma from_input_is_new dry v : exists rs x k s, from_input dry v = new_output rs x k s.
Proof.
  destruct v; try (do 4 eexists; reflexivity).
  - destruct l; do 4 eexists; reflexivity.
  - destruct d; do 4 eexists; reflexivity.
  - rewrite from_input_await. apply apply_is_new.
  - rewrite from_input_out. apply apply_is_new.
  - apply apply_is_new.
Qed.

Lemma secret_unsecret_ok :
  (forall dry v, o_secret (secret dry v) = Done true /\
     o_val (secret dry v) = o_val (from_input dry v) /\
     o_known (secret dry v) = o_known (from_input dry v) /\
     o_res (secret dry v) = o_res (from_input dry v)) /\
  (forall o, well_formed o ->
     o_secret (unsecret o) = Done false /\ o_val (unsecret o) = o_val o /\
     o_known (unsecret o) = o_known o /\ o_res (unsecret o) = o_res o) /\
  (forall dry v, o_secret (from_input dry v) = Done false ->
     unsecret (secret dry v) = from_input dry v).
Proof.
  assert (K : forall o, well_formed o ->
     (let* k := o_known o in if k then (let* x := o_val o in Done (negb (contains_unknowns x))) else Done false)
       = o_known o).
  { intros o W. destruct (o_known o) as [[]| |] eqn:E; simpl; auto.
    destruct (W E) as (v & V & C). rewrite V; simpl. now rewrite C. }
  split; [|split].
  - intros dry v. unfold secret; simpl. repeat split. apply K, from_input_wf.
  - intros o W. unfold unsecret; simpl. repeat split. now apply K.
  - intros dry v H. unfold unsecret, secret, new_output; simpl.
    pose proof (K _ (from_input_wf dry v)) as E. rewrite E, E, <- H. now destruct (from_input dry v).
Qed.

Lemma from_input_deep :
  forall dry v, settled_value v ->
    exists rs x k s,
      settled (from_input dry v) rs x k s /\
      fully_unwrapped x /\
      (forall r, In r rs <-> exists o rs', nested dry o v /\ o_res o = Done rs' /\ In r rs') /\
      (s = true <-> exists o, nested dry o v /\ o_secret o = Done true) /\
      (dry = true -> k = true ->
         (forall o, nested dry o v -> o_known o = Done true) /\ ~ bare_unknown dry v) /\
      ((forall o, nested dry o v -> o_known o = Done true) /\ ~ bare_unknown dry v -> k = true) /\
      (dry = false \/ k = true \/ input_free v -> x = unwrapped dry v).
Proof.
  intros dry v H. destruct (from_input_spec dry v H) as [i ((A & _) & B & C & D & E & F & G)].
  exists (i_rs i), (i_v i), (i_k i), (i_s i).
  split; [exact A|]. split; [exact D|]. split; [exact B|]. split; [exact C|].
  split; [exact E|]. split; [exact F|]. exact G.
Qed.

Lemma lifted_access_ok :
  (forall o rs v s access, settled o rs v false s -> contains_unknowns v = false ->
     settled (getitem true o access) rs VUnknown false s) /\
  (forall dry o rs s access, settled o rs VUnknown false s ->
     settled (getitem dry o access) rs VUnknown false s) /\
  (forall dry o rs v k s access x, settled o rs v k s -> well_formed o ->
     v <> VUnknown ->
     (dry = false \/ k = true \/ contains_unknowns v = true) ->
     access v = Ok x -> is_prompt x = true ->
     settled (getitem dry o access) rs x (negb (contains_unknowns x)) s).
Proof.
  assert (P : forall dry o rs v k s f x, settled o rs v k s ->
     f (passed dry v k true) = Ok x -> is_prompt x = true ->
     settled (apply dry o f true) rs x (negb (contains_unknowns x)) s).
  { intros dry o rs v k s f x Hs Hf Hp.
    rewrite <- (app_nil_r rs), <- (orb_false_r s).
    eapply apply_runs; eauto. now constructor. }
  split; [|split].
  - intros o rs v s access Hs Hc. apply P with (v := v) (k := false); auto.
    unfold passed; simpl. now rewrite Hc.
  - intros dry o rs s access Hs. apply P with (v := VUnknown) (k := false); auto.
    unfold passed; simpl. now rewrite andb_false_r.
  - intros dry o rs v k s access x Hs W Hv Hc Ha Hp. apply P with (v := v) (k := k); auto.
    assert (E : passed dry v k true = v).
    { unfold passed. destruct Hc as [->|[->|Hc]]; simpl; auto.
      - now rewrite andb_false_r.
      - rewrite Hc; simpl. now rewrite !andb_false_r. }
    rewrite E. destruct v; simpl; auto. congruence.
Qed.

Lemma apply_left_identity :
  forall dry v f fo rs w k s,
    contains_unknowns v = false -> f v = Ok (VO fo) -> settled fo rs w k s -> well_formed fo ->
    out_equiv (apply dry (of_value v) f false) fo.
Proof.
  intros dry v f fo rs w k s Hc Hf Hs Hw.
  assert (H : settled (apply dry (of_value v) f false) ([] ++ rs) w k (false || s)).
  { apply apply_runs with (v := v) (k := true) (x := VO fo); auto.
    - unfold settled, of_value, of_fut, new_output; simpl. rewrite Hc. auto.
    - now rewrite passed_norwu.
    - now apply settled_yields. }
  destruct H as (A & B & C & D), Hs as (A' & B' & C' & D').
  unfold out_equiv. rewrite A, B, C, D, A', B', C', D'. simpl.
  split; auto. do 2 eexists. repeat split; auto.
Qed.

Lemma apply_laws :
  (forall dry o rs v s, settled o rs v true s -> well_formed o -> is_prompt v = true ->
     apply dry o (fun x => Ok x) false = o) /\
  (forall dry o rs v k s f g y z,
     settled o rs v k s -> dry = false \/ k = true ->
     f v = Ok y -> is_prompt y = true -> contains_unknowns y = false ->
     g y = Ok z -> is_prompt z = true ->
     out_equiv (apply dry (apply dry o f false) g false)
               (apply dry o (fun u => match f u with Ok w => g w | Err e => Err e end) false)) /\
  (forall dry o rs v k s f fo rsf vf kf sf g,
     settled o rs v k s -> dry = false \/ k = true ->
     f v = Ok (VO fo) -> settled fo rsf vf kf sf -> well_formed fo ->
     (exists x r w kk ss, g vf = Ok x /\ yields x r w kk ss) ->
     out_equiv (apply dry (apply dry o f false) g false)
               (apply dry o (fun u => match f u with
                                      | Ok (VOut a b c d) =>
                                          Ok (VO (apply dry {| o_res := a; o_val := b; o_known := c; o_secret := d |} g false))
                                      | r => r
                                      end) false)).
Proof.
  split; [|split].
  - intros dry o rs v s Hs W Hp. eapply apply_identity; eauto.
    destruct Hs as (_ & B & C & _). destruct (W C) as (x & X & Y). rewrite B in X.
    injection X as ->. exact Y.
  - intros. eapply apply_compose_plain; eauto.
  - intros dry o rs v k s f fo rsf vf kf sf g Hs Hr Hf Hfo Hw (x & r & w & kk & ss & Hx & Y).
    eapply apply_assoc_outputs; eauto. intros x' Hx'. rewrite Hx in Hx'. injection Hx' as <-. eauto.
Qed.

Lemma failing_apply :
  (forall dry o rs v k s f rwu e, settled o rs v k s ->
     dry = false \/ k = true \/ rwu = true -> f (passed dry v k rwu) = Err e ->
     o_res (apply dry o f rwu) = Done rs /\ o_val (apply dry o f rwu) = Fail e /\
     all_resolved (apply dry o f rwu)) /\
  (forall dry o f rwu, all_resolved o -> (forall v, result_resolves (f v)) ->
     all_resolved (apply dry o f rwu)) /\
  (forall dry o f rwu e, all_resolved o -> o_val o = Fail e ->
     exists e', o_val (apply dry o f rwu) = Fail e').
Proof.
  split; [|split].
  - intros dry o rs v k s f rwu e Hs Hr Hf.
    destruct (apply_raises dry o rs v k s f rwu e) as (A & B & C & D); auto.
    repeat split; auto; unfold resolved; congruence.
  - apply apply_resolved.
  - intros dry o f rwu e (A & B & C & D) E. unfold apply, apply_call, apply_run, resolved in *.
    destruct (o_res o); simpl; eauto; try congruence.
    destruct (o_known o); simpl; eauto; try congruence.
    destruct (o_secret o); simpl; eauto; try congruence.
    rewrite E. simpl. eauto.
Qed.

Lemma merge_outputs :
  forall o1 o2 r1 v1 k1 s1 r2 v2 k2 s2 t x,
    settled o1 r1 v1 k1 s1 -> settled o2 r2 v2 k2 s2 ->
    contains_unknowns v1 = false -> contains_unknowns v2 = false ->
    v1 <> VNone -> v2 <> VNone ->
    t v1 v2 = Ok x -> contains_unknowns x = false ->
    settled (map2_output o1 o2 t) (r1 ++ r2) x k2 s2.
Proof.
  intros o1 o2 r1 v1 k1 s1 r2 v2 k2 s2 t x (A & B & C & D) (A' & B' & C' & D') U1 U2 N1 N2 T U.
  unfold map2_output, settled, new_output, future; simpl.
  rewrite A, A', B, B', C', D'; simpl. rewrite U1, U2; simpl.
  assert (E1 : is_none v1 = false) by (destruct v1; auto; congruence).
  assert (E2 : is_none v2 = false) by (destruct v2; auto; congruence).
  rewrite E1, E2; simpl. rewrite T; simpl. repeat split; auto. rewrite U. destruct k2; auto.
Qed.
