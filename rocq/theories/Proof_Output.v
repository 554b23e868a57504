(** Proofs about Outputs. *)
From Verif Require Import Base PyVal Model_Output Spec_Output.

Ltac inv H := inversion H; subst; clear H.

Lemma new_output_wf rs v k s : well_formed (new_output rs v k s).
Proof.
  unfold well_formed, new_output; simpl.
  destruct k as [[]| |]; simpl; try congruence.
  destruct v as [x| |]; simpl; try congruence.
  destruct (contains_unknowns x) eqn:E; simpl; [congruence|]. eauto.
Qed.

Lemma apply_call_shape dry o rwu call :
  exists rs v k s, apply_call dry o rwu call = new_output rs v k s.
Proof.
  unfold apply_call, apply_run.
  repeat (match goal with
          | |- context [match ?x with _ => _ end] => destruct x; simpl
          end; eauto 6).
Qed.

Lemma apply_wf dry o f rwu : well_formed (apply dry o f rwu).
Proof.
  unfold apply. destruct (apply_call_shape dry o rwu (fun a => f (arg_value o a)))
    as (rs & v & k & s & ->). apply new_output_wf.
Qed.

Lemma settled_eq o rs v k s :
  settled o rs v k s -> o = {| o_res := Done rs; o_val := Done v; o_known := Done k; o_secret := Done s |}.
Proof. destruct o; unfold settled; simpl. intuition congruence. Qed.

(** The argument a running callback receives. *)
Definition passed (dry : bool) (v : pyval) (known rwu : bool) : pyval :=
  if dry && (negb known && rwu && negb (contains_unknowns v)) then VUnknown else v.

Lemma settled_new rs v k s :
  settled (new_output (Done rs) (Done v) (Done k) (Done s)) rs v (k && negb (contains_unknowns v)) s.
Proof. unfold settled, new_output; simpl. destruct k; auto. Qed.

Lemma apply_runs dry o rs v k s f rwu x rs' v' k' s' :
  settled o rs v k s ->
  dry = false \/ k = true \/ rwu = true ->
  f (passed dry v k rwu) = Ok x -> yields x rs' v' k' s' ->
  settled (apply dry o f rwu) (rs ++ rs') v' k' (s || s').
Proof.
  intros Hs Hrun Hf Hy. apply settled_eq in Hs. subst o.
  unfold apply, apply_call, apply_run; simpl.
  replace (dry && negb (k || rwu)) with false
    by (destruct dry, k, rwu; intuition congruence).
  assert (Ha : f (arg_value {| o_res := Done rs; o_val := Done v; o_known := Done k; o_secret := Done s |}
     (if dry && (negb k && rwu && negb (contains_unknowns v)) then ArgUnknown else ArgValue)) = Ok x).
  { unfold passed in Hf. destruct (dry && (negb k && rwu && negb (contains_unknowns v))); simpl; auto. }
  simpl. rewrite Ha.
  inv Hy; simpl.
  - rewrite app_nil_r, orb_false_r.
    destruct v'; simpl in *; try discriminate; unfold settled, new_output; simpl; auto.
  - rewrite app_nil_r, orb_false_r. apply (settled_new rs _ true s).
  - rewrite orb_comm.
    assert (E : k' && negb (contains_unknowns v') = k').
    { destruct k'; simpl; auto. rewrite H; auto. }
    rewrite <- E at 2. apply settled_new.
Qed.

Lemma apply_skips dry o rs v k s f :
  settled o rs v k s -> dry = true -> k = false ->
  settled (apply dry o f false) rs VNone false s.
Proof.
  intros Hs -> ->. apply settled_eq in Hs; subst o.
  unfold apply, apply_call, apply_run; simpl. unfold settled; simpl; auto.
Qed.

Lemma apply_raises dry o rs v k s f rwu e :
  settled o rs v k s ->
  dry = false \/ k = true \/ rwu = true ->
  f (passed dry v k rwu) = Err e ->
  o_res (apply dry o f rwu) = Done rs /\
  o_val (apply dry o f rwu) = Fail e /\
  o_known (apply dry o f rwu) = Done false /\
  o_secret (apply dry o f rwu) = Done false.
Proof.
  intros Hs Hrun Hf. apply settled_eq in Hs. subst o.
  unfold apply, apply_call, apply_run; simpl.
  replace (dry && negb (k || rwu)) with false
    by (destruct dry, k, rwu; intuition congruence).
  unfold passed in Hf.
  destruct (dry && (negb k && rwu && negb (contains_unknowns v))); simpl; rewrite Hf; simpl; auto.
Qed.

Lemma calls_runs dry o rs v k s f rwu :
  settled o rs v k s ->
  dry = false \/ k = true \/ rwu = true ->
  apply_calls dry o f rwu = [passed dry v k rwu].
Proof.
  intros Hs Hrun. apply settled_eq in Hs. subst o.
  unfold apply_calls, apply_run; simpl.
  replace (dry && negb (k || rwu)) with false
    by (destruct dry, k, rwu; intuition congruence).
  simpl. unfold passed.
  destruct (dry && (negb k && rwu && negb (contains_unknowns v))); simpl; auto.
Qed.

Lemma calls_skips o f :
  o_known o = Done false -> apply_calls true o f false = [].
Proof.
  intros H. unfold apply_calls, apply_run. rewrite H.
  destruct (o_res o), (o_secret o), (o_val o); reflexivity.
Qed.

Lemma apply_noninterference o f g :
  o_known o = Done false -> apply true o f false = apply true o g false.
Proof.
  intros H. unfold apply, apply_call, apply_run. rewrite H.
  destruct (o_res o), (o_secret o), (o_val o); reflexivity.
Qed.

Lemma calls_at_most_once dry o f rwu :
  apply_calls dry o f rwu = [] \/
  exists v, o_val o = Done v /\
            (apply_calls dry o f rwu = [v] \/
             (dry = true /\ rwu = true /\ o_known o = Done false /\
              apply_calls dry o f rwu = [VUnknown])).
Proof.
  unfold apply_calls, apply_run.
  destruct (o_res o); simpl; auto. destruct (o_known o) as [k| |]; simpl; auto.
  destruct (o_secret o); simpl; auto. destruct (o_val o) as [v| |] eqn:E; simpl; auto.
  destruct (dry && negb (k || rwu)) eqn:D; simpl; auto.
  right. exists v. split; auto.
  destruct (dry && (negb k && rwu && negb (contains_unknowns v))) eqn:D2; simpl.
  - right. destruct dry, k, rwu; simpl in *; try discriminate; auto.
  - left. rewrite E; auto.
Qed.

(** Nothing pending in, nothing pending out. *)
Definition result_resolves (r : res pyval) : Prop :=
  match r with
  | Err _ => True
  | Ok (VAwait f) => resolved f
  | Ok (VOut rs v k s) => resolved rs /\ resolved v /\ resolved k /\ resolved s
  | Ok _ => True
  end.

Lemma new_output_resolved rs v k s :
  resolved rs -> resolved v -> resolved k -> resolved s ->
  all_resolved (new_output rs v k s).
Proof.
  unfold all_resolved, resolved, new_output; simpl. intros A B C D.
  repeat split; auto.
  destruct k as [[]| |]; simpl; try congruence.
  destruct v; simpl; congruence.
Qed.

Lemma apply_call_resolved dry o rwu call :
  all_resolved o -> (forall a, result_resolves (call a)) ->
  all_resolved (apply_call dry o rwu call).
Proof.
  intros (A & B & C & D) H. unfold apply_call, apply_run.
  destruct (o_res o) as [rs| |]; [|simpl; apply new_output_resolved; easy|easy].
  destruct (o_known o) as [k| |]; [|simpl; apply new_output_resolved; easy|easy].
  destruct (o_secret o) as [s| |]; [|simpl; apply new_output_resolved; easy|easy].
  destruct (o_val o) as [v| |]; [|simpl; apply new_output_resolved; easy|easy].
  destruct (dry && negb (k || rwu)); [simpl; apply new_output_resolved; easy|].
  simpl.
  match goal with |- context [call ?a] => specialize (H a); destruct (call a) as [x|e] end;
    [|simpl; apply new_output_resolved; easy].
  destruct x as [| | | | | | | | | | | | | | |fx|frs fv fk fs| |]; simpl in H;
    try (apply new_output_resolved; easy).
  destruct H as (H1 & H2 & H3 & H4).
  destruct frs; [|apply new_output_resolved; easy|easy].
  destruct fk; [|apply new_output_resolved; easy|easy].
  destruct fs; [|apply new_output_resolved; easy|easy].
  apply new_output_resolved; easy.
Qed.

Lemma apply_resolved dry o f rwu :
  all_resolved o -> (forall v, result_resolves (f v)) ->
  all_resolved (apply dry o f rwu).
Proof. intros; apply apply_call_resolved; auto. Qed.

(* ------------------------------------------------------------------ *)
(** Monad laws. *)

Lemma apply_identity dry o rs v k s rwu :
  settled o rs v k s -> well_formed o -> is_prompt v = true ->
  dry = false \/ k = true ->
  contains_unknowns v = negb k ->
  apply dry o (fun x => Ok x) rwu = o.
Proof.
  intros Hs Hw Hp Hr Hc.
  assert (P : passed dry v k rwu = v).
  { unfold passed. destruct Hr; subst; simpl; auto.
    rewrite andb_false_r; auto. }
  assert (H : settled (apply dry o (fun x => Ok x) rwu) (rs ++ []) v (negb (contains_unknowns v)) (s || false)).
  { apply apply_runs with (v := v) (k := k) (x := v); auto.
    - tauto.
    - now rewrite P.
    - now constructor. }
  rewrite app_nil_r, orb_false_r, Hc, negb_involutive in H.
  apply settled_eq in H. apply settled_eq in Hs. congruence.
Qed.

Lemma same_set_app_assoc {A} (a b c : list A) : same_set ((a ++ b) ++ c) (a ++ (b ++ c)).
Proof. rewrite app_assoc. apply same_set_refl. Qed.

Lemma passed_norwu dry v k : passed dry v k false = v.
Proof. unfold passed. rewrite andb_false_r. simpl. now rewrite andb_false_r. Qed.

Lemma yields_wf x rs v k s : yields x rs v k s -> k = true -> contains_unknowns v = false.
Proof. intros H; inv H; auto; now rewrite negb_true_iff. Qed.

Lemma settled_yields o rs v k s :
  settled o rs v k s -> well_formed o -> yields (VO o) rs v k s.
Proof.
  intros Hs Hw. pose proof (settled_eq _ _ _ _ _ Hs) as E. subst o. apply Y_output.
  intros ->. unfold well_formed in Hw; simpl in Hw.
  destruct (Hw eq_refl) as (v' & [= <-] & H). exact H.
Qed.

Lemma apply_assoc_outputs dry o rs v k s f fo rsf vf kf sf g :
  settled o rs v k s ->
  dry = false \/ k = true ->
  f v = Ok (VO fo) -> settled fo rsf vf kf sf -> well_formed fo ->
  (forall x, g vf = Ok x -> exists r w kk ss, yields x r w kk ss) ->
  (exists x, g vf = Ok x) ->
  out_equiv (apply dry (apply dry o f false) g false)
            (apply dry o (fun u => match f u with
                                   | Ok (VOut a b c d) =>
                                       Ok (VO (apply dry {| o_res := a; o_val := b; o_known := c; o_secret := d |} g false))
                                   | r => r
                                   end) false).
Proof.
  intros Hs Hr Hf Hfo Hwf Hg [x Hx].
  destruct (Hg x Hx) as (rg & vg & kg & sg & Yg).
  assert (H1 : settled (apply dry o f false) (rs ++ rsf) vf kf (s || sf)).
  { eapply apply_runs; eauto; [tauto| |].
    - rewrite passed_norwu; eauto.
    - now apply settled_yields. }
  pose proof (settled_eq _ _ _ _ _ Hfo) as Efo.
  assert (Hin : exists rsi vi ki si,
      settled (apply dry fo g false) rsi vi ki si /\
      settled (apply dry (apply dry o f false) g false) ((rs ++ rsf) ++ skipn (length rsf) rsi) vi ki (s || si) /\
      same_set rsi (rsf ++ skipn (length rsf) rsi)).
  { destruct dry eqn:Ed.
    - destruct kf eqn:Ek.
      + exists (rsf ++ rg), vg, kg, (sf || sg). split; [|split].
        * eapply apply_runs; eauto; rewrite passed_norwu; auto.
        * rewrite skipn_app, skipn_all, Nat.sub_diag; simpl. rewrite orb_assoc.
          eapply apply_runs; eauto; rewrite passed_norwu; auto.
        * rewrite skipn_app, skipn_all, Nat.sub_diag; simpl. apply same_set_refl.
      + exists rsf, VNone, false, sf. split; [|split].
        * eapply apply_skips; eauto.
        * rewrite skipn_all, app_nil_r. eapply apply_skips; eauto.
        * rewrite skipn_all, app_nil_r. apply same_set_refl.
    - exists (rsf ++ rg), vg, kg, (sf || sg). split; [|split].
      + eapply apply_runs; eauto; rewrite passed_norwu; auto.
      + rewrite skipn_app, skipn_all, Nat.sub_diag; simpl. rewrite orb_assoc.
        eapply apply_runs; eauto; rewrite passed_norwu; auto.
      + rewrite skipn_app, skipn_all, Nat.sub_diag; simpl. apply same_set_refl. }
  destruct Hin as (rsi & vi & ki & si & Hi & Ho & Hsets).
  assert (H2 : settled (apply dry o (fun u => match f u with
                                   | Ok (VOut a b c d) =>
                                       Ok (VO (apply dry {| o_res := a; o_val := b; o_known := c; o_secret := d |} g false))
                                   | r => r
                                   end) false) (rs ++ rsi) vi ki (s || si)).
  { eapply apply_runs; eauto; [tauto| |].
    - rewrite passed_norwu, Hf. unfold VO. reflexivity.
    - replace {| o_res := o_res fo; o_val := o_val fo; o_known := o_known fo; o_secret := o_secret fo |}
        with fo by (destruct fo; reflexivity).
      apply settled_yields; auto. apply apply_wf. }
  destruct Ho as (A1 & A2 & A3 & A4), H2 as (B1 & B2 & B3 & B4).
  unfold out_equiv. rewrite A1, A2, A3, A4, B1, B2, B3, B4.
  split; [|auto]. do 2 eexists. split; [reflexivity|split; [reflexivity|]].
  intros y. rewrite !in_app_iff. rewrite (Hsets y), in_app_iff. tauto.
Qed.

Lemma apply_compose_plain dry o rs v k s f g y z :
  settled o rs v k s ->
  dry = false \/ k = true ->
  f v = Ok y -> is_prompt y = true -> contains_unknowns y = false ->
  g y = Ok z -> is_prompt z = true ->
  out_equiv (apply dry (apply dry o f false) g false)
            (apply dry o (fun u => match f u with Ok w => g w | Err e => Err e end) false).
Proof.
  intros Hs Hr Hf Hy Hc Hg Hz.
  assert (H1 : settled (apply dry o f false) (rs ++ []) y (negb (contains_unknowns y)) (s || false)).
  { eapply apply_runs; eauto; [tauto| |].
    - rewrite passed_norwu; eauto.
    - now constructor. }
  assert (H2 : settled (apply dry (apply dry o f false) g false) ((rs ++ []) ++ []) z
                 (negb (contains_unknowns z)) ((s || false) || false)).
  { eapply apply_runs; eauto.
    - right; left. now rewrite Hc.
    - rewrite passed_norwu; eauto.
    - now constructor. }
  assert (H3 : settled (apply dry o (fun u => match f u with Ok w => g w | Err e => Err e end) false)
                 (rs ++ []) z (negb (contains_unknowns z)) (s || false)).
  { eapply apply_runs; eauto; [tauto| |].
    - rewrite passed_norwu, Hf; eauto.
    - now constructor. }
  destruct H2 as (A1 & A2 & A3 & A4), H3 as (B1 & B2 & B3 & B4).
  unfold out_equiv. rewrite A1, A2, A3, A4, B1, B2, B3, B4.
  rewrite orb_false_r. split; auto.
  do 2 eexists. split; [reflexivity|split; [reflexivity|]].
  rewrite !app_nil_r. apply same_set_refl.
Qed.
