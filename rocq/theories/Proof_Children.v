(** Proofs about children of components. *)
From Verif Require Import Base PyVal Model_Options Spec_Options Model_Resource Spec_Resource Proof_Resource Model_Children Spec_Children.
From Verif Require Model_Cycle Model_Deps Spec_Deps Proof_Deps.
Open Scope string_scope.
Set Default Goal Selector "!".

Record sound (tf : nat -> transformation) (late : list nat) (f : family) : Prop := mkSound {
  so_reach : reachable tf (fm_world f);
  so_made : forall p n, In (p, Made n) (fm_children f) <-> exists r, wget (fm_world f) n = Some r /\ ro_parent (s_given r) = Some p;
  so_broken : forall p c i, In (p, Broken c i) (fm_children f) -> In p late /\ p < length (w_resources (fm_world f));
  so_order : forall n r p, wget (fm_world f) n = Some r -> ro_parent (s_given r) = Some p -> p < n
}.

Lemma wget_lt w n r : wget w n = Some r -> n < length (w_resources w).
Proof. unfold wget. intros H. apply nth_error_Some. congruence. Qed.

(** The cases of a construction. *)
Lemma attempt_cases tf al f t name custom remote props given f' out :
  reachable tf (fm_world f) -> parent_exists (fm_world f) given ->
  attempt tf al f t name custom remote props given = (f', out) ->
  (exists e, out = Err e /\ f' = f /\ ~ gets_far tf (fm_world f) t name props given) \/
  (exists e, out = Err e /\ f' = mkFamily (fm_world f) (fm_remote f)
     (add_child (fm_children f) (ro_parent given) (Broken (negb custom) (fm_broken f))) (S (fm_broken f)) /\
     gets_far tf (fm_world f) t name props given) \/
  (exists w' n q, construct tf (fm_world f) t name custom props given = Ok (w', n, q) /\ out = Ok (n, q) /\
     f' = mkFamily w' (if remote then n :: fm_remote f else fm_remote f) (add_child (fm_children f) (ro_parent given) (Made n)) (fm_broken f)).
Proof.
  intros Re Pe. unfold attempt. destruct (String.eqb_spec t "") as [->|Nt].
  { intros [= <- <-]. left. eexists. split; [reflexivity|]. split; [reflexivity|]. intros (K & _). now apply K. }
  destruct (String.eqb_spec name "") as [->|Nn].
  { intros [= <- <-]. left. eexists. split; [reflexivity|]. split; [reflexivity|]. intros (_ & K & _). now apply K. }
  match goal with |- context [run_transformations tf t name ?l props given] => set (ts := l) end.
  destruct (run_transformations tf t name ts props given) as [[props' opts]|e] eqn:Er.
  - pose proof Er as R. apply transform_ok in R. pose proof (runs_parent _ _ _ _ _ _ R) as Par. simpl in Par. cbn [snd]. rewrite Par.
    assert (Gf : gets_far tf (fm_world f) t name props given).
    { split; [exact Nt|]. split; [exact Nn|]. exists ts, (props', opts). split; [|exact R]. apply (applies_eq tf); [exact Re|exact Pe|reflexivity]. }
    destruct (construct tf (fm_world f) t name custom props given) as [[[w' n] q]|e] eqn:C; cbn [rbind].
    + destruct al as [a|]; intros [= <- <-].
      * right. left. eexists. split; [reflexivity|]. split; [reflexivity|exact Gf].
      * right. right. exists w', n, q. repeat split.
    + intros [= <- <-]. right. left. eexists. split; [reflexivity|]. split; [reflexivity|exact Gf].
  - intros [= <- <-]. left. eexists. split; [reflexivity|]. split; [reflexivity|].
    intros (_ & _ & ts' & po & A & R). apply (applies_eq tf) in A; [|exact Re|exact Pe].
    apply transform_ok in R. change (match ro_transformations given with Some l => l | None => [] end) with (items (ro_transformations given)) in ts.
    subst ts'. fold ts in R. congruence.
Qed.

Lemma children_add l p k q j : In (q, j) (add_child l p k) <-> In (q, j) l \/ (p = Some q /\ j = k).
Proof.
  destruct p as [p|]; simpl.
  - rewrite in_app_iff. simpl. split; [intros [K|[K|[]]]; [auto|injection K as <- <-; auto]|]. intros [K|[K ->]]; [auto|injection K as ->; auto].
  - split; [auto|]. intros [K|[K _]]; [exact K|discriminate].
Qed.

Lemma history_sound tf late f : history tf late f -> sound tf late f.
Proof.
  intros H. induction H as [|late f name w H IH E|late f x w H IH E|late f al t name custom remote props given f' n q H IH Wo Pe E
    |late f al t name custom remote props given f' e H IH Wo Pe E Q|late f al t name custom remote props given f' e p H IH Wo Pe E Q].
  - constructor; simpl.
    + constructor.
    + intros p n. split; [intros []|]. intros (r & K & _). destruct n; discriminate.
    + intros p c i [].
    + intros n r p K. destruct n; discriminate.
  - destruct IH as [R M B O]. pose proof (re_stack _ _ _ _ R E) as R'. unfold new_stack in E.
    destruct (w_root (fm_world f)) eqn:Er; [discriminate|].
    destruct (construct tf (fm_world f) _ name false [] (new_ropts 0)) as [[[w1 n] q]|e] eqn:C; [|discriminate]. simpl in E. injection E as <-.
    apply construct_parts in C as (_ & _ & props' & opts & prov & protect & _ & _ & _ & -> & -> & _).
    match type of R' with context [(w_resources (fm_world f) ++ [?y])%list] => set (x := y) in *; assert (Px : ro_parent (s_given x) = None) by reflexivity; clearbody x end.
    constructor; cbn [fm_world fm_children fm_remote].
    + exact R'.
    + intros p m. rewrite M. cbn [w_resources]. split.
      * intros (r & G & P). exists r. split; [apply wget_old; exact G|exact P].
      * intros (r & G & P). apply wget_inv in G as [G|[_ ->]]; [exists r; auto|congruence].
    + intros p c i K. apply B in K as [K L]. split; [exact K|]. cbn [w_resources]. rewrite app_length. simpl. lia.
    + intros m r p G P. cbn [w_resources] in G. apply wget_inv in G as [G|[_ ->]]; [eauto|congruence].
  - destruct IH as [R M B O]. pose proof (re_transform _ _ _ _ R E) as R'. apply register_inv in E as (n & _ & _ & L & K1 & K2).
    constructor; simpl.
    + exact R'.
    + intros p m. rewrite M. split.
      * intros (r & G & P). destruct (wget w m) as [r'|] eqn:G'; [|exfalso; apply (K2 m); congruence].
        exists r'. split; [reflexivity|]. destruct (K1 m r' G') as (r0 & G0 & _ & _ & -> & _). congruence.
      * intros (r & G & P). destruct (K1 m r G) as (r0 & G0 & _ & _ & E0 & _). exists r0. split; [exact G0|congruence].
    + intros p c i K. rewrite L. eauto.
    + intros m r p G P. destruct (K1 m r G) as (r0 & G0 & _ & _ & E0 & _). eapply O; [exact G0|congruence].
  - destruct IH as [R M B O]. destruct (attempt_cases _ _ _ _ _ _ _ _ _ _ _ R Pe E) as [(e & K & _)|[(e & K & _ & _)|(w' & m & q' & C & K & ->)]]; try discriminate.
    injection K as <- <-. pose proof (re_new _ _ _ _ _ _ _ _ _ _ R Wo Pe C) as R'.
    apply construct_parts in C as (_ & _ & props' & opts & prov & protect & _ & _ & _ & -> & -> & _).
    constructor; cbn [fm_world fm_children fm_remote].
    + exact R'.
    + intros p k. rewrite children_add, M. split.
      * intros [(r & G & P)|[P Ek]]; [exists r; split; [apply wget_old; exact G|exact P]|]. injection Ek as ->. eexists. split; [apply wget_new|exact P].
      * intros (r & G & P). apply wget_inv in G as [G|[-> ->]]; [left; eauto|right]. simpl in P. split; [exact P|reflexivity].
    + intros p c i K. apply children_add in K as [K|[_ K]]; [|discriminate]. apply B in K as [K L]. split; [exact K|]. simpl. rewrite app_length. simpl. lia.
    + intros k r p G P. apply wget_inv in G as [G|[-> ->]]; [eauto|]. simpl in P. destruct (Pe p P) as [x Gx]. eapply wget_lt; eauto.
  - destruct IH as [R M B O]. destruct (attempt_cases _ _ _ _ _ _ _ _ _ _ _ R Pe E) as [(e' & _ & -> & _)|[(e' & K & -> & Gf)|(w' & m & q' & C & K & ->)]]; [constructor; assumption| |discriminate].
    destruct Q as [Q|Q].
    + contradiction.
    + rewrite Q. constructor; simpl; assumption.
  - destruct IH as [R M B O]. destruct (attempt_cases _ _ _ _ _ _ _ _ _ _ _ R Pe E) as [(e' & _ & -> & _)|[(e' & K & -> & Gf)|(w' & m & q' & C & K & ->)]].
    + constructor; try assumption. intros p' c i K. apply B in K as [K L]. split; [right; exact K|exact L].
    + rewrite Q. constructor; cbn [fm_world fm_children].
      * exact R.
      * intros p' n. rewrite children_add, M. split; [intros [K'|[_ K']]; [exact K'|discriminate]|auto].
      * intros p' c i K'. apply children_add in K' as [K'|[K' _]]; [apply B in K' as [K' L]; split; [right; exact K'|exact L]|].
        injection K' as ->. split; [left; reflexivity|]. destruct (Pe p' Q) as [x G]. eapply wget_lt; eauto.
      * exact O.
    + discriminate.
Qed.

(* ------------------------------------------------------------------ *)
(** Objects. *)

Lemma is_local_spec f n : is_local f n = true <-> local f n.
Proof.
  unfold is_local, local. destruct (wget (fm_world f) n) as [r|].
  - rewrite andb_true_iff, !negb_true_iff, nmem_notIn. split; [intros [A B]; exists r; auto|].
    intros (r' & E & A & B). injection E as <-. auto.
  - split; [discriminate|]. intros (r & E & _). discriminate.
Qed.
Lemma children_of_spec f n k : In k (children_of f n) <-> In (n, k) (fm_children f).
Proof.
  unfold children_of. rewrite in_map_iff. split.
  - intros ((p & j) & <- & H). apply filter_In in H as [H E]. apply Nat.eqb_eq in E. simpl in *. subst. exact H.
  - intros H. exists (n, k). split; [reflexivity|]. apply filter_In. split; [exact H|apply Nat.eqb_refl].
Qed.
Lemma childless f n : (forall k, ~ In (n, k) (fm_children f)) -> children_of f n = [].
Proof.
  intros H. destruct (children_of f n) as [|k l] eqn:E; [reflexivity|]. exfalso. apply (H k). apply children_of_spec. rewrite E. left. reflexivity.
Qed.

Section Objects.
Context (tf : nat -> transformation) (late : list nat) (f : family) (S0 : sound tf late f).
Let L := length (w_resources (fm_world f)).

Lemma child_bounds p n : In (p, Made n) (fm_children f) -> p < n /\ n < L.
Proof.
  intros H. apply (so_made _ _ _ S0) in H as (r & G & P). split; [eapply (so_order _ _ _ S0); eauto|eapply wget_lt; eauto].
Qed.
Lemma last_childless n : L <= n -> children_of f n = [].
Proof.
  intros H. apply childless. intros [m|c i] K; [apply child_bounds in K; lia|]. apply (so_broken _ _ _ S0) in K. unfold L in H. lia.
Qed.
Lemma object_fuel urns : forall a b n, L <= a + n -> L <= b + n -> object a urns f (Made n) = object b urns f (Made n).
Proof.
  induction a as [|a IH]; intros b n Ha Hb.
  - destruct b as [|b]; [reflexivity|]. simpl. rewrite last_childless by lia. reflexivity.
  - destruct b as [|b]; simpl.
    + rewrite last_childless by lia. reflexivity.
    + f_equal. apply map_ext_in. intros [m|c i] K; [|destruct a, b; reflexivity].
      apply children_of_spec, child_bounds in K. apply IH; lia.
Qed.
Lemma object_eq urns n : object_of urns f n = Model_Deps.Rsrc (2 * n) (is_local f n) (urns n) (map (fun k => object L urns f k) (children_of f n)).
Proof.
  unfold object_of. fold L. rewrite (object_fuel urns L (S L) n) by lia. simpl. reflexivity.
Qed.

Lemma inside_trans d p x : inside f d p -> inside f p x -> inside f d x.
Proof. intros H K. induction K as [|q x r K IH Lq G P]; [exact H|]. eapply In_child; eauto. Qed.
Lemma inside_step d x : inside f d x -> d = x \/ exists c r, local f d /\ wget (fm_world f) c = Some r /\ ro_parent (s_given r) = Some d /\ inside f c x.
Proof.
  intros H. induction H as [|p x r H IH Lp G P]; [left; reflexivity|]. right.
  destruct IH as [->|(c & r' & Ld & G' & P' & I)].
  - exists x, r. repeat split; auto. constructor.
  - exists c, r'. repeat split; auto. eapply In_child; eauto.
Qed.

Lemma stands_inside urns : forall k d, L <= k + d -> (forall p, inside f d p -> local f p -> ~ In p late) ->
  forall y, Spec_Deps.stands_for (object_of urns f d) y <-> exists x, inside f d x /\ ~ local f x /\ y = object_of urns f x.
Proof.
  assert (Leaf : forall d, ~ local f d -> forall y, Spec_Deps.stands_for (object_of urns f d) y <-> exists x, inside f d x /\ ~ local f x /\ y = object_of urns f x).
  { intros d N y. assert (E : is_local f d = false) by (apply not_true_is_false; intros K; apply N, is_local_spec, K).
    rewrite object_eq, E. split.
    - intros K. inversion K; subst. exists d. split; [constructor|]. split; [exact N|]. rewrite object_eq, E. reflexivity.
    - intros (x & I & Nx & ->). apply inside_step in I as [<-|(c & r & Ld & _)]; [|contradiction]. rewrite object_eq, E. constructor. }
  induction k as [|k IH]; intros d Hd Hl y.
  - apply Leaf. intros (r & G & _). apply wget_lt in G. fold L in G. lia.
  - destruct (is_local f d) eqn:E; [|apply Leaf; intros K; apply is_local_spec in K; congruence].
    assert (Ld : local f d) by (apply is_local_spec; exact E).
    assert (Kids : forall c, In c (children_of f d) -> exists n r, c = Made n /\ wget (fm_world f) n = Some r /\ ro_parent (s_given r) = Some d /\ d < n /\
      object L urns f c = object_of urns f n).
    { intros c K. apply children_of_spec in K. destruct c as [n|b i].
      - pose proof (child_bounds _ _ K) as B. apply (so_made _ _ _ S0) in K as (r & G & P). exists n, r. repeat split; auto. lia.
      - exfalso. apply (so_broken _ _ _ S0) in K as [K _]. exact (Hl d (In_self _ _) Ld K). }
    assert (Sub : forall n r, wget (fm_world f) n = Some r -> ro_parent (s_given r) = Some d -> forall p, inside f n p -> inside f d p).
    { intros n r G P p I. eapply inside_trans; [|exact I]. eapply In_child; eauto. constructor. }
    rewrite object_eq, E. split.
    + intros K. inversion K as [|? ? ? c x Hc Hs]; subst. apply in_map_iff in Hc as (k0 & <- & Hk).
      destruct (Kids k0 Hk) as (n & r & -> & G & P & Ln & Eo). rewrite Eo in Hs. apply IH in Hs.
      * destruct Hs as (z & I & Nz & ->). exists z. eauto.
      * lia.
      * intros p I. apply Hl. eauto.
    + intros (x & I & Nx & ->). apply inside_step in I as [<-|(c & r & _ & G & P & I)]; [contradiction|].
      assert (Hc : In (Made c) (children_of f d)) by (apply children_of_spec, (so_made _ _ _ S0); eauto).
      destruct (Kids _ Hc) as (n & r' & En & _ & _ & Ln & Eo). injection En as <-.
      apply (Spec_Deps.stands_child _ _ _ (object L urns f (Made c))); [exact (in_map (fun k => object L urns f k) _ _ Hc)|]. rewrite Eo. apply IH.
      * lia.
      * intros p I'. apply Hl. eauto.
      * exists x. auto.
Qed.
End Objects.

Lemma components_ok tf late f urns d : history tf late f -> (forall p, inside f d p -> local f p -> ~ In p late) ->
  forall y, Spec_Deps.stands_for (object_of urns f d) y <-> exists x, inside f d x /\ ~ local f x /\ y = object_of urns f x.
Proof.
  intros H Hl. apply (stands_inside tf late f (history_sound _ _ _ H) urns (length (w_resources (fm_world f))) d); [lia|exact Hl].
Qed.

Lemma expansion_ok ord tf late f urns ds g : history tf late f ->
  (forall d p, In d ds -> inside f d p -> local f p -> ~ In p late) -> (forall x, exists u, urns x = Ok u) ->
  exists l, Model_Deps.expand_dependencies ord None g (map (object_of urns f) ds) = Ok (g, l) /\ NoDup l /\
    forall s, In s l <-> s <> "" /\ exists d x, In d ds /\ inside f d x /\ ~ local f x /\ urns x = Ok (Some s).
Proof.
  intros H Hl Hu. pose proof (history_sound _ _ _ H) as S0.
  assert (A : forall y, Spec_Deps.any_of (map (object_of urns f) ds) y <-> exists d x, In d ds /\ inside f d x /\ ~ local f x /\ y = object_of urns f x).
  { intros y. split.
    - intros (o & Ho & K). apply in_map_iff in Ho as (d & <- & Hd). apply (components_ok tf late) in K; [|exact H|intros p; apply Hl; exact Hd].
      destruct K as (x & K). exists d, x. tauto.
    - intros (d & x & Hd & I & N & ->). exists (object_of urns f d). split; [now apply in_map|]. apply (components_ok tf late); [exact H|intros p; apply Hl; exact Hd|eauto]. }
  destruct (Proof_Deps.expand_none ord g (map (object_of urns f) ds)) as (l & E & N & Sp).
  - intros y K. apply A in K as (d & x & _ & _ & _ & ->). rewrite (object_eq tf late f S0). destruct (Hu x) as [u ->]. do 4 eexists. reflexivity.
  - exists l. split; [exact E|]. split; [exact N|]. intros s. rewrite Sp. split.
    + intros (y & K & (r & lc & cs & Ey & Ns)). apply A in K as (d & x & Hd & I & Nl & ->). rewrite (object_eq tf late f S0) in Ey. injection Ey as _ _ Eu _.
      split; [exact Ns|]. exists d, x. auto.
    + intros (Ns & d & x & Hd & I & Nl & Eu). exists (object_of urns f x). split; [apply A; eauto 6|].
      rewrite (object_eq tf late f S0), Eu. do 3 eexists. split; [reflexivity|exact Ns].
Qed.

(* ------------------------------------------------------------------ *)
(** What a failed construction does not change. *)
Lemma add_local ord from r u cs : forall st, Model_Deps.add_dependency ord from st (Model_Deps.Rsrc r true u cs) = Model_Deps.expand_loop ord from st cs.
Proof.
  induction cs as [|c cs IH]; intros st; [reflexivity|]. cbn [Model_Deps.expand_loop].
  change (Model_Deps.add_dependency ord from st (Model_Deps.Rsrc r true u (c :: cs))) with
    (let+ st' := Model_Deps.add_dependency ord from st c in Model_Deps.add_dependency ord from st' (Model_Deps.Rsrc r true u cs)).
  destruct (Model_Deps.add_dependency ord from st c) as [st'|e]; [apply IH|reflexivity].
Qed.
Lemma loop_map {A} ord from (g h : A -> Model_Deps.rsrc) l : 
  (forall c, In c l -> forall st, Model_Deps.add_dependency ord from st (g c) = Model_Deps.add_dependency ord from st (h c)) ->
  forall st, Model_Deps.expand_loop ord from st (map g l) = Model_Deps.expand_loop ord from st (map h l).
Proof.
  induction l as [|c l IH]; intros H st; [reflexivity|]. simpl. rewrite H by (left; reflexivity).
  destruct (Model_Deps.add_dependency ord from st (h c)) as [st'|e]; [|reflexivity]. cbn [rbind]. apply IH. intros x Hx. apply H. right. exact Hx.
Qed.

Lemma failure_local ord tf late f al t name custom remote props given f' e : history tf late f -> parent_exists (fm_world f) given ->
  attempt tf al f t name custom remote props given = (f', Err e) ->
  fm_world f' = fm_world f /\ fm_remote f' = fm_remote f /\
  forall urns from g ds, (forall d p, In d ds -> inside f d p -> local f p -> ro_parent given <> Some p) ->
    Model_Deps.expand_dependencies ord from g (map (object_of urns f') ds) =
    Model_Deps.expand_dependencies ord from g (map (object_of urns f) ds).
Proof.
  intros H Pe E. pose proof (history_sound _ _ _ H) as S0.
  destruct (attempt_cases _ _ _ _ _ _ _ _ _ _ _ (so_reach _ _ _ S0) Pe E) as [(e' & _ & -> & _)|[(e' & _ & -> & _)|(w' & n & q & _ & K & _)]]; [auto| |discriminate].
  split; [reflexivity|]. split; [reflexivity|]. intros urns from g ds Hd.
  set (f' := mkFamily _ _ _ _). unfold Model_Deps.expand_dependencies. apply loop_map. intros d Id st. specialize (fun p => Hd d p Id).
  unfold object_of. change (fm_world f') with (fm_world f). generalize (length (w_resources (fm_world f))) as k.
  intros k. clear Id. revert d st Hd. induction k as [|k IH]; intros d st Hd.
  - reflexivity.
  - cbn [object]. change (is_local f' d) with (is_local f d). destruct (is_local f d) eqn:El; [|reflexivity].
    assert (Ld : local f d) by (apply is_local_spec; exact El).
    rewrite !add_local.
    assert (Ec : children_of f' d = children_of f d).
    { unfold children_of, f'. cbn [fm_children]. destruct (ro_parent given) as [p|] eqn:Ep; [|reflexivity]. simpl. rewrite filter_app, map_app. simpl.
      destruct (Nat.eqb_spec p d) as [->|N]; [|simpl; apply app_nil_r]. exfalso. exact (Hd d (In_self _ _) Ld eq_refl). }
    rewrite Ec. apply loop_map. intros [m|b i] Hm st'; [|destruct k; reflexivity].
    apply children_of_spec in Hm. apply (so_made _ _ _ S0) in Hm as (r & G & P).
    apply (IH m st'). intros p I. apply Hd. eapply inside_trans; [|exact I]. eapply In_child; [constructor|exact Ld|exact G|exact P].
Qed.
