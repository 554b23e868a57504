(** Proofs about what is deleted with targets. *)
From Verif Require Import Base Model_Deletes Spec_Deletes Proof_Deletes.
From Coq Require Import Permutation Lia.
Open Scope string_scope.
Open Scope list_scope.
Ltac inv H := inversion H; subst; clear H.

Section Graph.
Variable s : list state.
Hypothesis Cs : consistent s.
Notation rel := (clos_refl_trans nat (relies s)).

Lemma urns_nodup : NoDup (map s_urn s).
Proof. exact (proj1 Cs). Qed.
(** What is named is found at one place, and that is before. *)
Lemma named_at j c u k : nth_error s j = Some c -> In u (s_deps c) \/ (s_provider c = u /\ u <> "") -> k < length s -> urn_at s k = u -> relies s j k.
Proof.
  intros J U Lk E. destruct (proj2 Cs j c J) as [_ Nm]. destruct (Nm u) as (k' & b & L & B & Eb); [tauto|].
  destruct (nth_some s k Lk) as [r R]. rewrite (urn_at_some _ _ _ R) in E. assert (k' = k) by (eapply same_urn; eauto using urns_nodup; congruence). subst k'.
  rewrite B in R. injection R as ->. left. split; trivial. exists c, r. repeat split; trivial. rewrite Eb. destruct U as [U|[U V]]; [now left|right]. split; congruence.
Qed.
Lemma parent_at j c k : nth_error s j = Some c -> k < length s -> s_parent c = urn_at s k -> relies s j k.
Proof.
  intros J Lk E. destruct (nth_some s k Lk) as [r R]. rewrite (urn_at_some _ _ _ R) in E.
  destruct (proj2 Cs k r R) as [Ne _]. destruct (proj2 Cs j c J) as [_ Nm]. destruct (Nm (s_parent c)) as (k' & b & L & B & Eb); [right; right; split; congruence|].
  assert (k' = k) by (eapply same_urn; eauto using urns_nodup; congruence). subst k'. rewrite B in R. injection R as ->.
  right. split; trivial. exists c, r. repeat split; trivial. congruence.
Qed.
Lemma relies_lt i j : relies s i j -> j < i /\ i < length s.
Proof. intros [(L & a & b & A & _)|(L & a & b & A & _)]; split; trivial; apply nth_error_Some; congruence. Qed.

Lemma scan_sound root i ignore children : i < length s -> root = urn_at s i ->
  forall places found, (forall u, In u found -> exists k, k < length s /\ urn_at s k = u /\ rel k i) ->
  forall j, In j (scan s root ignore children places found) -> In j places /\ rel j i.
Proof.
  intros Li Er. induction places as [|p places IH]; intros found F j I; cbn [scan] in I; [destruct I|].
  destruct (is_dependent s root ignore children found p) eqn:E.
  - assert (Rp : p < length s /\ rel p i).
    { unfold is_dependent in E. destruct (nth_error s p) as [c|] eqn:Ep; [|discriminate]. split; [apply nth_error_Some; congruence|].
      destruct (is_in (s_urn c) ignore); [discriminate|].
      destruct (children && String.eqb (s_parent c) root) eqn:Ec.
      - apply andb_true_iff in Ec as [_ Ec]. apply String.eqb_eq in Ec. apply rt_step. apply (parent_at p c i); trivial. congruence.
      - apply orb_true_iff in E as [E|E].
        + apply existsb_exists in E as (d & D & Fd). apply is_in_spec in Fd. destruct (F d Fd) as (k & Lk & Ek & Rk).
          eapply rt_trans; [apply rt_step|exact Rk]. eapply named_at; eauto.
        + apply andb_true_iff in E as [En Fd]. apply is_in_spec in Fd. apply negb_true_iff, String.eqb_neq in En. destruct (F _ Fd) as (k & Lk & Ek & Rk).
          eapply rt_trans; [apply rt_step|exact Rk]. eapply named_at; eauto. }
    destruct I as [<-|I]; [split; [now left|tauto]|]. destruct (IH (urn_at s p :: found)) with (j := j) as [A B]; trivial; [|split; [now right|trivial]].
    intros u [<-|U]; [exists p; tauto|auto].
  - destruct (IH found F j I). split; [now right|trivial].
Qed.
Lemma depending_sound i ignore children j : i < length s -> In j (depending_on s i ignore children) -> i < j /\ j < length s /\ rel j i.
Proof.
  intros Li I. unfold depending_on in I. eapply scan_sound in I as [A B]; eauto.
  - apply in_seq in A. repeat split; trivial; lia.
  - intros u [<-|[]]. exists i. repeat split; trivial. apply rt_refl.
Qed.
Lemma dependent_more root ignore children f1 f2 j : incl f1 f2 -> is_dependent s root ignore children f1 j = true -> is_dependent s root ignore children f2 j = true.
Proof.
  intros Ic. unfold is_dependent. destruct (nth_error s j) as [c|]; trivial. destruct (is_in _ _); trivial. destruct (children && _); trivial.
  rewrite !orb_true_iff, !andb_true_iff, !existsb_exists. intros [(d & D & E)|[A B]]; [left; exists d|right]; split; trivial; apply is_in_spec; apply Ic; now apply is_in_spec.
Qed.
Lemma scan_direct root ignore children j : forall places f1 f2, incl f1 f2 -> In j places -> is_dependent s root ignore children f1 j = true -> In j (scan s root ignore children places f2).
Proof.
  induction places as [|p places IH]; intros f1 f2 Ic I D; [destruct I|]. cbn [scan]. destruct (is_dependent s root ignore children f2 p) eqn:E.
  - destruct I as [->|I]; [now left|right]. apply (IH f1); trivial. intros x X. right. auto.
  - destruct I as [->|I]; [|now apply (IH f1)]. rewrite (dependent_more _ _ _ f1 f2) in E; trivial. discriminate.
Qed.
Lemma depending_direct i ignore j : relies s j i -> ~ In (urn_at s j) ignore -> In j (depending_on s i ignore true).
Proof.
  intros R N. pose proof (relies_lt _ _ R) as [L L']. unfold depending_on. apply (scan_direct _ _ _ _ _ [urn_at s i]); [apply incl_refl|apply in_seq; lia|].
  unfold is_dependent. destruct R as [(_ & a & b & A & B & U)|(_ & a & b & A & B & P & _)]; rewrite A, (urn_at_some _ _ _ B).
  - rewrite (urn_at_some _ _ _ A) in N. destruct (is_in (s_urn a) ignore) eqn:E; [now apply is_in_spec in E|]. destruct (true && _); trivial.
    apply orb_true_iff. destruct U as [U|[U V]]; [left; apply existsb_exists; exists (s_urn b); split; trivial; apply is_in_spec; now left|right].
    rewrite (proj2 (String.eqb_neq _ _) V). cbn [negb andb]. apply is_in_spec. now left.
  - rewrite (urn_at_some _ _ _ A) in N. destruct (is_in (s_urn a) ignore) eqn:E; [now apply is_in_spec in E|]. rewrite P, String.eqb_refl. reflexivity.
Qed.
Lemma scan_length root ignore children : forall places found, length (scan s root ignore children places found) <= length places.
Proof. induction places as [|p places IH]; intro found; cbn [scan length]; [lia|]. destruct (is_dependent _ _ _ _ _ _); cbn [length]; [specialize (IH (urn_at s p :: found))|specialize (IH found)]; lia. Qed.

(** The search ends, and finds what relies on the targets. *)
Section Search.
Variable ts : list string.
Definition wanted_at (j : nat) : Prop := exists i, i < length s /\ In (urn_at s i) ts /\ rel j i.
Lemma search n : n = length s -> forall fuel frontier targets,
  NoDup targets -> length frontier + (n - length targets) * n <= fuel ->
  (forall i, In i frontier -> i < n /\ wanted_at i) ->
  (forall u, In u targets -> exists i, i < n /\ urn_at s i = u /\ wanted_at i) ->
  (forall k j, k < n -> In (urn_at s k) targets -> relies s j k -> In (urn_at s j) targets \/ In j frontier) ->
  (forall i, i < n -> In (urn_at s i) ts -> In (urn_at s i) targets \/ In i frontier) ->
  exists found, target_dependents fuel s frontier targets = Some found /\
    (forall u, In u found -> exists i, i < n /\ urn_at s i = u /\ wanted_at i) /\
    (forall i, i < n -> In (urn_at s i) ts -> In (urn_at s i) found) /\
    (forall k j, k < n -> In (urn_at s k) found -> relies s j k -> In (urn_at s j) found).
Proof.
  intros En. induction fuel as [|f IH]; intros frontier targets N Le Fr Ta Cl In0.
  - destruct frontier as [|x frontier]; [|exfalso; cbn [length] in Le; inversion Le]. exists targets. split; [reflexivity|]. split; trivial. split.
    + intros i Li I. now destruct (In0 i Li I) as [|[]].
    + intros k j Lk K R. now destruct (Cl k j Lk K R) as [|[]].
  - destruct frontier as [|x frontier].
    + exists targets. split; [reflexivity|]. split; trivial. split.
      * intros i Li I. now destruct (In0 i Li I) as [|[]].
      * intros k j Lk K R. now destruct (Cl k j Lk K R) as [|[]].
    + cbn [target_dependents]. destruct (Fr x) as [Lx Wx]; [now left|]. destruct (is_in (urn_at s x) targets) eqn:E.
      * apply is_in_spec in E. apply IH; trivial.
        -- cbn in Le. lia.
        -- intros i I. apply Fr. now right.
        -- intros k j Lk K R. destruct (Cl k j Lk K R) as [|[<-|]]; auto.
        -- intros i Li I. destruct (In0 i Li I) as [|[<-|]]; auto.
      * assert (Nx : ~ In (urn_at s x) targets) by (intro K; apply is_in_spec in K; congruence).
        assert (N' : NoDup (urn_at s x :: targets)) by now constructor.
        assert (Lt : S (length targets) <= n).
        { rewrite En, <- (map_length s_urn). apply (NoDup_incl_length (l := urn_at s x :: targets)); trivial.
          assert (Hu : forall i, i < length s -> In (urn_at s i) (map s_urn s)).
          { intros i Li. destruct (nth_some s i Li) as [r R]. rewrite (urn_at_some _ _ _ R). apply in_map. eapply nth_error_In; eauto. }
          intros u [<-|U]; [apply Hu; lia|]. destruct (Ta u U) as (i & Li & <- & _). apply Hu. lia. }
        pose proof (scan_length (urn_at s x) (urn_at s x :: targets) true (seq (S x) (length s - S x)) [urn_at s x]) as Ls. rewrite seq_length in Ls.
        apply IH; trivial.
        -- rewrite app_length. cbn [length] in *. unfold depending_on. replace (n - length targets) with (S (n - S (length targets))) in Le by lia. cbn [Nat.mul] in Le. set (k := (n - S (length targets)) * n) in *. clearbody k. lia.
        -- intros i I. apply in_app_or in I as [I|I]; [apply Fr; now right|]. apply depending_sound in I as (A & B & C); [|lia]. split; [lia|].
           destruct Wx as (t & Lt' & It & Rt). exists t. repeat split; trivial. eapply rt_trans; eauto.
        -- intros u [<-|U]; [exists x; auto|auto].
        -- intros k j Lk [K|K] R.
           ++ assert (k = x).
              { destruct (nth_some s k) as [a A]; [lia|]. destruct (nth_some s x) as [b B]; [lia|]. rewrite (urn_at_some _ _ _ A), (urn_at_some _ _ _ B) in K.
                eapply same_urn; eauto using urns_nodup. } subst k.
              destruct (in_dec string_dec (urn_at s j) (urn_at s x :: targets)) as [D|D]; [now left|]. right. apply in_or_app. right. now apply depending_direct.
           ++ destruct (Cl k j Lk K R) as [I|[<-|I]]; [left; now right|left; now left|right; apply in_or_app; now left].
        -- intros i Li I. destruct (In0 i Li I) as [K|[<-|K]]; [left; now right|left; now left|right; apply in_or_app; now left].
Qed.
Lemma closed_star (found : list string) k j :
  (forall k j, k < length s -> In (urn_at s k) found -> relies s j k -> In (urn_at s j) found) ->
  rel j k -> k < length s -> In (urn_at s k) found -> In (urn_at s j) found.
Proof.
  intros C R. apply clos_rt_rt1n in R. induction R as [|j m k R1 R2 IH]; intros Lk K; trivial.
  assert (Lm : m < length s) by (pose proof (relies_lt _ _ R1); lia). eapply C; eauto.
Qed.
End Search.

Lemma replacements_incl needs : forall places replaced j, In j (replacements needs s replaced places) -> In j places.
Proof.
  induction places as [|p places IH]; intros r j I; cbn [replacements] in I; [destruct I|].
  match type of I with In _ (if ?b then _ else _) => destruct b end; [destruct I as [->|I]; [now left|]|]; right; eauto.
Qed.
Lemma find_live_some u : forall l i k, find_live u l i = Some k -> i <= k /\ exists r, nth_error l (k - i) = Some r /\ s_urn r = u /\ s_delete r = false.
Proof.
  induction l as [|r l IH]; intros i k E; cbn [find_live] in E; [discriminate|].
  destruct (String.eqb (s_urn r) u && negb (s_delete r)) eqn:B.
  - injection E as <-. apply andb_true_iff in B as [B1 B2]. apply String.eqb_eq in B1. apply negb_true_iff in B2. split; [lia|]. exists r. now rewrite Nat.sub_diag.
  - apply IH in E as (L & q & Q & U & D). split; [lia|]. exists q. replace (k - i) with (S (k - S i)) by lia. auto.
Qed.
Lemma find_live_none u : forall l i k r, find_live u l i = None -> nth_error l k = Some r -> s_urn r = u -> s_delete r = false -> False.
Proof.
  induction l as [|x l IH]; intros i [|k] r E K U D; cbn [nth_error] in K; try discriminate; cbn [find_live] in E.
  - injection K as ->. rewrite U, String.eqb_refl, D in E. discriminate.
  - destruct (String.eqb (s_urn x) u && negb (s_delete x)); [discriminate|]. eauto.
Qed.

Lemma allowed_spec needs ts : none_pending s -> exists allowed, allowed_deletes needs s [] ts = Some allowed /\
  forall j, j < length s -> (In (urn_at s j) allowed <-> wanted_at ts j).
Proof.
  intro Np. unfold allowed_deletes.
  destruct (search ts (length s) eq_refl (S (length s) * S (length s)) (filter (fun i => is_in (urn_at s i) ts) (seq 0 (length s))) []) as (found & E & F1 & F2 & F3).
  - constructor.
  - cbn [length]. rewrite Nat.sub_0_r. assert (length (filter (fun i => is_in (urn_at s i) ts) (seq 0 (length s))) <= length s); [|lia].
    rewrite <- (seq_length (length s) 0) at 2. generalize (seq 0 (length s)). induction l as [|x l IH]; cbn; [lia|]. destruct (is_in _ _); cbn; lia.
  - intros i I. apply filter_In in I as [A B]. apply in_seq in A. apply is_in_spec in B. split; [lia|]. exists i. repeat split; trivial; [lia|apply rt_refl].
  - intros u [].
  - intros k j _ [].
  - intros i Li I. right. apply filter_In. split; [apply in_seq; lia|]. now apply is_in_spec.
  - rewrite E. eexists. split; [reflexivity|]. intros j Lj. rewrite in_flat_map. split.
    + intros (t & T & J). destruct (find_live t s 0) as [i|] eqn:Ef; [|destruct J].
      apply find_live_some in Ef as (_ & r & Er & Eu & _). rewrite Nat.sub_0_r in Er.
      destruct (F1 t T) as (i' & Li' & Eu' & W). destruct (nth_some s i' Li') as [r' R']. rewrite (urn_at_some _ _ _ R') in Eu'.
      assert (i' = i) by (eapply same_urn; eauto using urns_nodup; congruence). subst i'.
      assert (K : exists k, k < length s /\ urn_at s k = urn_at s j /\ wanted_at ts k).
      { destruct J as [J|J].
        - exists i. repeat split; trivial. rewrite (urn_at_some _ _ _ Er). congruence.
        - apply in_map_iff in J as (k & Ek & K). unfold dependent_replacements in K. apply replacements_incl in K. apply depending_sound in K as (A & B & C); trivial.
          exists k. repeat split; trivial. destruct W as (t' & A1 & A2 & A3). exists t'. repeat split; trivial. eapply rt_trans; eauto. }
      destruct K as (k & Lk & Ek & Wk). destruct (nth_some s j Lj) as [a A]. destruct (nth_some s k Lk) as [b B].
      rewrite (urn_at_some _ _ _ A), (urn_at_some _ _ _ B) in Ek. assert (k = j) by (eapply same_urn; eauto using urns_nodup). now subst.
    + intros (i & Li & I & R). exists (urn_at s j). split.
      * eapply closed_star; [exact F3|exact R|trivial|auto].
      * destruct (nth_some s j Lj) as [r Rj]. destruct (find_live (urn_at s j) s 0) eqn:Ef; [now left|].
        eapply find_live_none; eauto. now rewrite (urn_at_some _ _ _ Rj).
Qed.
End Graph.

(** Deletions are planned from the last recorded resource to the first. *)
Lemma generate_falling needs o s g l : generate_deletes needs o s g = Steps l -> falling l /\ forall i, In i l -> i < length s /\ wanted s g i = true.
Proof.
  unfold generate_deletes.
  assert (W : forall i, In i (filter (wanted s g) (rev (seq 0 (length s)))) -> i < length s /\ wanted s g i = true).
  { intros i I. apply filter_In in I as [A B]. apply in_rev, in_seq in A. split; [lia|trivial]. }
  destruct (o_targets o) as [ts|].
  - destruct (allowed_deletes _ _ _ _); [|discriminate]. destruct (_ && _ && _); [discriminate|]. intros [= <-]. split; [apply falling_filter, falling_filter, falling_rev_seq|].
    intros i I. apply filter_In in I as [I _]. auto.
  - intros [= <-]. split; [apply falling_filter, falling_rev_seq|auto].
Qed.
Lemma pending_falling s : falling (pending_deletes s).
Proof. apply falling_filter, falling_rev_seq. Qed.
