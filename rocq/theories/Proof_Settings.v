From Verif Require Import Base PyVal Model_Settings Spec_Settings.
Open Scope string_scope.

Lemma skey_eqb_spec a b : reflect (a = b) (skey_eqb a b).
Proof. destruct a, b; simpl; constructor; congruence. Qed.
Lemma supd_length {A} (l : list A) n x : length (supd l n x) = length l.
Proof. revert n. induction l as [|y l IH]; intros [|n]; simpl; auto. Qed.
Lemma nth_supd {A} (l : list A) n m x d : n < length l -> nth m (supd l n x) d = if Nat.eqb m n then x else nth m l d.
Proof.
  revert n m. induction l as [|y l IH]; intros [|n] [|m]; simpl; intros H; try lia; auto. apply IH. lia.
Qed.
Lemma sset_length s c k v : length (g_ctxs (sset s c k v)) = length (g_ctxs s).
Proof. unfold sset. simpl. apply supd_length. Qed.
Lemma vals_sset s c k v c' k' : c < length (g_ctxs s) ->
  vals_at (sset s c k v) c' k' = if Nat.eqb c' c && skey_eqb k' k then Some v else vals_at s c' k'.
Proof.
  intros H. unfold vals_at at 1, sset. cbn [g_ctxs]. rewrite nth_supd by exact H.
  destruct (Nat.eqb_spec c' c) as [->|]; simpl; [|reflexivity]. destruct (skey_eqb k' k); reflexivity.
Qed.
Lemma vals_init env s c a c' k : c < length (g_ctxs s) ->
  vals_at (settings_init env s c a) c' k = if Nat.eqb c' c then Some (configured env a k) else vals_at s c' k.
Proof.
  intros H. unfold settings_init, configured.
  destruct (sa_legacy a) eqn:El;
    rewrite !vals_sset by (rewrite ?sset_length; exact H);
    destruct (Nat.eqb c' c); destruct k; simpl; reflexivity.
Qed.
Lemma vals_mocks s c m e p st pr c' k : c < length (g_ctxs s) ->
  vals_at (mocks_init s c m e p st pr) c' k =
  if Nat.eqb c' c then match mocked m e p st pr k with Some v => Some v | None => vals_at s c' k end else vals_at s c' k.
Proof.
  intros H. unfold mocks_init, mocked.
  rewrite !vals_sset by (rewrite ?sset_length; exact H).
  destruct (Nat.eqb c' c); destruct k; simpl; reflexivity.
Qed.
Lemma init_length env s c a : length (g_ctxs (settings_init env s c a)) = length (g_ctxs s).
Proof. unfold settings_init. destruct (sa_legacy a); now rewrite !sset_length. Qed.
Lemma mocks_length s c m e p st pr : length (g_ctxs (mocks_init s c m e p st pr)) = length (g_ctxs s).
Proof. unfold mocks_init. now rewrite !sset_length. Qed.

Lemma srun_snoc env h o : srun env (rev (o :: h)) = sstep env (srun env (rev h)) o.
Proof. unfold srun. simpl rev. now rewrite fold_left_app. Qed.
Lemma run_length env h : length (g_ctxs (srun env (rev h))) = contexts h.
Proof.
  induction h as [|o h IH]; [reflexivity|].
  rewrite srun_snoc. destruct o; cbn [sstep contexts g_ctxs]; rewrite ?init_length, ?mocks_length, ?sset_length, ?app_length, ?IH; simpl; lia.
Qed.
Lemma run_vals env h : valid h -> forall c k, vals_at (srun env (rev h)) c k = given env h c k.
Proof.
  induction h as [|o h IH]; intros Hv c k.
  - unfold srun. simpl fold_left. unfold simport. rewrite vals_init by (simpl; lia). cbn [given].
    destruct (Nat.eqb_spec c 0); [reflexivity|]. unfold vals_at. simpl. destruct c as [|[|c]]; [congruence|reflexivity|reflexivity].
  - rewrite srun_snoc. destruct o as [c' a|c' m e p st pr|c' k' v| |c']; cbn [sstep given].
    + destruct Hv as [Hc Hv]. rewrite vals_init by (rewrite run_length; exact Hc). now rewrite IH.
    + destruct Hv as [Hc Hv]. rewrite vals_mocks by (rewrite run_length; exact Hc). now rewrite IH.
    + destruct Hv as [Hc Hv]. rewrite vals_sset by (rewrite run_length; exact Hc). now rewrite IH.
    + unfold vals_at. cbn [g_ctxs]. rewrite <- (IH Hv). unfold vals_at. rewrite <- (run_length env h).
      destruct (Nat.eqb_spec c (length (g_ctxs (srun env (rev h))))) as [->|Hn].
      * now rewrite nth_middle.
      * destruct (Nat.lt_ge_cases c (length (g_ctxs (srun env (rev h))))).
        -- now rewrite app_nth1.
        -- rewrite !nth_overflow; [reflexivity|lia|rewrite app_length; simpl; lia].
    + destruct Hv as [Hc Hv]. unfold vals_at. cbn [g_ctxs]. rewrite <- !(IH Hv). unfold vals_at. rewrite <- (run_length env h).
      destruct (Nat.eqb_spec c (length (g_ctxs (srun env (rev h))))) as [->|Hn].
      * now rewrite nth_middle.
      * destruct (Nat.lt_ge_cases c (length (g_ctxs (srun env (rev h))))).
        -- now rewrite app_nth1.
        -- rewrite (nth_overflow (_ ++ _)%list); [|rewrite app_length; simpl; lia]. rewrite nth_overflow; [reflexivity|lia].
Qed.

Lemma own_settings env h c k v : valid h -> given env h c k = Some v -> sget (srun env (rev h)) c k = v.
Proof. intros Hv Hg. unfold sget. now rewrite run_vals, Hg. Qed.

