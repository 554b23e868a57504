From Verif Require Import Base PyVal Model_Urn Proof_Urn Model_Options Spec_Options Proof_Options Model_Resource Spec_Resource.
Open Scope string_scope.
Open Scope list_scope.

(* ---- types and packages ---- *)
Definition join (c : ascii) (l : list string) : string :=
  match l with [] => "" | x :: l' => (x ++ fold_right (fun y acc => String c (y ++ acc)) "" l')%string end.
Lemma split_join c s : exists x l, split_c c s = x :: l /\ join c (x :: l) = s /\ Forall (fun y => ~ In c (list_ascii_of_string y)) (x :: l).
Proof.
  unfold split_c. induction s as [|a s IH].
  - exists "", []. simpl. split; [reflexivity|]. split; [reflexivity|]. constructor; [simpl; auto|constructor].
  - destruct IH as (x & l & E & J & F). injection E as E1 E2. simpl. destruct (Ascii.eqb a c) eqn:Ea.
    + apply Ascii.eqb_eq in Ea. subst a. exists "", (x :: l). rewrite E1, E2. split; [reflexivity|]. split.
      * simpl. simpl in J. rewrite J. reflexivity.
      * constructor; [simpl; auto|exact F].
    + apply Ascii.eqb_neq in Ea. exists (String a x), l. rewrite E1, E2. split; [reflexivity|]. split.
      * simpl. simpl in J. rewrite J. reflexivity.
      * inversion F; subst. constructor; [simpl; intros [H|H]; [congruence|contradiction]|assumption].
Qed.
Lemma split_nocolon c s : ~ In c (list_ascii_of_string s) -> split1 c s = (s, []).
Proof.
  induction s as [|a s IH]; simpl; intros H; [reflexivity|]. rewrite IH by tauto. simpl.
  destruct (Ascii.eqb a c) eqn:E; [apply Ascii.eqb_eq in E; tauto|reflexivity].
Qed.
Lemma split_first c a b : ~ In c (list_ascii_of_string a) ->
  split1 c (a ++ String c b)%string = (a, fst (split1 c b) :: snd (split1 c b)).
Proof.
  induction a as [|x a IH]; simpl; intros H; [rewrite Ascii.eqb_refl; reflexivity|]. rewrite IH by tauto. simpl.
  destruct (Ascii.eqb x c) eqn:E; [apply Ascii.eqb_eq in E; tauto|reflexivity].
Qed.
Lemma type_package_spec t pkg : type_package t = Some pkg <-> has_package t pkg.
Proof.
  unfold type_package. split.
  - destruct (split_join ":" t) as (x & l & E & J & F). rewrite E. destruct l as [|y [|z [|? ?]]]; try discriminate.
    intros [= <-]. exists y, z. inversion F as [|? ? F1 F2]; subst. inversion F2 as [|? ? F3 F4]; subst. inversion F4; subst.
    split; [|auto]. simpl. rewrite sapp_nil. reflexivity.
  - intros (m & n & -> & A & B & C). unfold split_c. change (pkg ++ ":" ++ m ++ ":" ++ n)%string with (pkg ++ String ":" (m ++ String ":" n))%string. rewrite (split_first ":" pkg (m ++ String ":" n)%string A). simpl fst; simpl snd.
    rewrite (split_first ":" m n B). simpl fst; simpl snd. rewrite (split_nocolon ":" n C). reflexivity.
Qed.

(* ---- transformations ---- *)
Lemma opt_nat_eqb_spec a b : opt_nat_eqb a b = true <-> a = b.
Proof.
  destruct a, b; simpl; try (split; discriminate); [|split; reflexivity].
  rewrite Nat.eqb_eq. split; [intros ->; reflexivity|intros [= ->]; reflexivity].
Qed.
Lemma transform_ok tf t name ts : forall p o po, run_transformations tf t name ts p o = Ok po <-> runs tf t name ts (p, o) po.
Proof.
  induction ts as [|x ts IH]; intros p o po; simpl.
  - split; [intros [= <-]; constructor|inversion 1; reflexivity].
  - split.
    + destruct (tf x t name p o) as [[[p' o']|]|e] eqn:E; simpl; try discriminate.
      * destruct (opt_nat_eqb (ro_parent o') (ro_parent o)) eqn:P; simpl; [|discriminate].
        apply opt_nat_eqb_spec in P. intros H. apply IH in H. eapply runs_change; eauto.
      * intros H. apply IH in H. eapply runs_keep; eauto.
    + inversion 1 as [|? ? ? ? ? E R|? ? ? ? ? ? ? E P R]; subst; rewrite E; simpl.
      * apply IH. exact R.
      * rewrite (proj2 (opt_nat_eqb_spec _ _) P). simpl. apply IH. exact R.
Qed.
Lemma run_app tf t name ts1 ts2 : forall p o p1 o1, runs tf t name ts1 (p, o) (p1, o1) ->
  run_transformations tf t name (ts1 ++ ts2) p o = run_transformations tf t name ts2 p1 o1.
Proof.
  induction ts1 as [|x ts1 IH]; intros p o p1 o1 R; inversion R as [|? ? ? ? ? E R'|? ? ? ? ? ? ? E P R']; subst; [reflexivity| |]; simpl; rewrite E; simpl.
  - apply IH. exact R'.
  - rewrite (proj2 (opt_nat_eqb_spec _ _) P). simpl. apply IH. exact R'.
Qed.
Lemma runs_parent tf t name ts po po' : runs tf t name ts po po' -> ro_parent (snd po') = ro_parent (snd po).
Proof. induction 1 as [| |? ? ? ? ? ? ? ? P ? IH]; simpl in *; congruence. Qed.
Lemma runs_wf tf t name ts po po' : honest tf -> runs tf t name ts po po' -> wf_opts (snd po) -> wf_opts (snd po').
Proof. intros Hn R. induction R; simpl in *; auto. intros Wo. apply IHR. eapply Hn; eauto. Qed.

(* ---- providers ---- *)
Definition opt_providers (o : ropts) : dict provider :=
  match ro_providers o with
  | Some (PList l) => fold_left (fun d p => dset d (p_package p) p) l []
  | Some (PMap d) => d
  | None => []
  end.
Lemma opt_providers_spec o : wf_opts o -> wf_dict (opt_providers o) /\
  forall pkg p, dget (opt_providers o) pkg = Some p <-> option_gives o pkg p.
Proof.
  unfold wf_opts, opt_providers, option_gives. destruct (ro_providers o) as [[l|d]|]; intros W.
  - destruct (keyed_spec l) as [W' S]. split; [exact W'|]. intros pkg p. rewrite <- S.
    split; [apply dget_In|apply In_dget; exact W'].
  - split; [exact W|]. intros pkg p. split; [apply dget_In|apply In_dget; exact W].
  - split; [constructor|]. intros pkg p. split; [discriminate|tauto].
Qed.
Definition own_providers (t : string) (o : ropts) : dict provider :=
  match pkg_of (type_package t), ro_provider o with
  | Some p, Some q => if dmem (opt_providers o) p then opt_providers o else dset (opt_providers o) p q
  | _, _ => opt_providers o
  end.
Lemma pkg_of_named t : named t -> pkg_of (type_package t) = type_package t.
Proof.
  intros N. destruct (type_package t) as [p|] eqn:E; [|reflexivity]. simpl. destruct (String.eqb p "") eqn:Ep; [|reflexivity].
  apply String.eqb_eq in Ep. subst p. apply type_package_spec in E as (m & n & -> & _). exfalso. eapply N. reflexivity.
Qed.
Lemma own_providers_spec t o : named t -> wf_opts o -> wf_dict (own_providers t o) /\
  forall pkg p, dget (own_providers t o) pkg = Some p <-> own_gives t o pkg p.
Proof.
  intros N W. destruct (opt_providers_spec o W) as [Wd S]. unfold own_providers, own_gives. rewrite (pkg_of_named t N).
  assert (Nn : forall pkg, dget (opt_providers o) pkg = None <-> forall q, ~ option_gives o pkg q).
  { intros pkg. split; [intros E q H; apply S in H; congruence|]. intros H. destruct (dget (opt_providers o) pkg) as [q|] eqn:E; [|reflexivity].
    exfalso. apply (H q). apply S. exact E. }
  destruct (type_package t) as [k|] eqn:Et.
  - pose proof (proj1 (type_package_spec t k) Et) as Hk.
    assert (U : forall k', has_package t k' -> k' = k) by (intros k' H; apply type_package_spec in H; congruence).
    destruct (ro_provider o) as [q|] eqn:Eq.
    + unfold dmem. destruct (dget (opt_providers o) k) as [q'|] eqn:Ek.
      * split; [exact Wd|]. intros pkg p. rewrite S. split; [auto|]. intros [H|(Hp & _ & M)]; [exact H|].
        apply U in Hp. subst pkg. apply S in Ek. exfalso. eapply M; eauto.
      * split; [apply wf_dset; exact Wd|]. intros pkg p. rewrite dget_dset. destruct (String.eqb pkg k) eqn:E.
        -- apply String.eqb_eq in E. subst pkg. split.
           ++ intros [= <-]. right. split; [exact Hk|split; [reflexivity|apply Nn; exact Ek]].
           ++ intros [H|(_ & [= <-] & _)]; [apply S in H; congruence|reflexivity].
        -- apply String.eqb_neq in E. rewrite S. split; [auto|]. intros [H|(Hp & _)]; [exact H|apply U in Hp; contradiction].
    + split; [exact Wd|]. intros pkg p. rewrite S. split; [auto|]. intros [H|(_ & K & _)]; [exact H|discriminate].
  - split; [exact Wd|]. intros pkg p. rewrite S. split; [auto|]. intros [H|(K & _)]; [exact H|].
    apply type_package_spec in K. congruence.
Qed.

Definition world_ok (w : world) : Prop := forall n r, wget w n = Some r -> wf_dict (s_providers r).

(** The parts of a successful construction. *)
Lemma construct_parts tf w t name custom props given w' n q : construct tf w t name custom props given = Ok (w', n, q) ->
  t <> "" /\ name <> "" /\ exists props' opts prov protect,
    let parent := match or_else (ro_parent given) (w_root w) with Some p => wget w p | None => None end in
    let ts := items (ro_transformations given) ++ match parent with Some r => s_transformations r | None => [] end in
    let oparent := match ro_parent opts with Some p => wget w p | None => None end in
    let inherited := match oparent with Some r => s_providers r | None => [] end in
    runs tf t name ts (props, given) (props', opts) /\
    protect = match oparent with Some r => or_else (ro_protect opts) (Some (s_protect r)) | None => ro_protect opts end /\
    prov = fst (get_providers t (type_package t) opts inherited oparent) /\
    n = length (w_resources w) /\
    w' = mkWorld (w_resources w ++ [mkResource t custom given (set_provider opts protect prov) ts
            (match protect with Some b => b | None => false end) (if custom then prov else None)
            (snd (get_providers t (type_package t) opts inherited oparent))]) (w_root w) /\
    (custom = true -> forall p, prov = Some p -> type_package t = Some (p_package p)) /\
    ((exists u, ro_urn opts = Some u /\ q = RGet u props') \/
     (ro_urn opts = None /\ ro_id opts <> None /\ custom = true /\ q = RRead t name props' (set_provider opts protect prov)) \/
     (ro_urn opts = None /\ ro_id opts = None /\ q = RRegister t name custom props' (set_provider opts protect prov))).
Proof.
  unfold construct. intros H. destruct (String.eqb t "") eqn:Et; [discriminate|]. destruct (String.eqb name "") eqn:En; [discriminate|].
  apply String.eqb_neq in Et. apply String.eqb_neq in En. split; [exact Et|split; [exact En|]].
  set (parent := match or_else (ro_parent given) (w_root w) with Some p => wget w p | None => None end) in *.
  change (match ro_transformations given with Some l => l | None => [] end) with (items (ro_transformations given)) in *.
  set (ts := items (ro_transformations given) ++ match parent with Some r => s_transformations r | None => [] end) in *.
  destruct (run_transformations tf t name ts props given) as [[props' opts]|e] eqn:R; [|discriminate]. cbn [rbind] in H.
  apply transform_ok in R. exists props', opts.
  set (oparent := match ro_parent opts with Some p => wget w p | None => None end) in *.
  set (protect := match oparent with Some r => or_else (ro_protect opts) (Some (s_protect r)) | None => ro_protect opts end) in *.
  destruct (get_providers t (type_package t) opts match oparent with Some r => s_providers r | None => [] end oparent) as [prov provs] eqn:G.
  exists prov, protect. cbn zeta. fold parent. fold ts. fold oparent. split; [exact R|]. split; [reflexivity|].
  cbn [fst snd]. split; [reflexivity|].
  destruct (match (if custom then prov else None) with Some p => _ | None => false end) eqn:Bad; [discriminate|].
  assert (Hp : custom = true -> forall p, prov = Some p -> type_package t = Some (p_package p)).
  { intros -> p ->. destruct (type_package t) as [k|]; [|discriminate]. apply negb_false_iff, String.eqb_eq in Bad. congruence. }
  cbn [set_provider ro_urn ro_id] in H.
  destruct (ro_urn opts) as [u|] eqn:Eu.
  - injection H as <- <- <-. do 3 (split; [reflexivity||exact Hp|]). left. eauto.
  - destruct (is_some (ro_id opts)) eqn:Ei.
    + destruct custom; [|discriminate]. injection H as <- <- <-. do 3 (split; [reflexivity||exact Hp|]). right; left.
      repeat split. destruct (ro_id opts); discriminate.
    + injection H as <- <- <-. do 3 (split; [reflexivity||exact Hp|]). right; right. repeat split. destruct (ro_id opts); [discriminate|reflexivity].
Qed.

Lemma wget_new w r root : wget (mkWorld (w_resources w ++ [r]) root) (length (w_resources w)) = Some r.
Proof. unfold wget. simpl. rewrite nth_error_app2, Nat.sub_diag by lia. reflexivity. Qed.
Lemma wget_old w r root k x : wget w k = Some x -> wget (mkWorld (w_resources w ++ [r]) root) k = Some x.
Proof. unfold wget. simpl. intros H. rewrite nth_error_app1; [exact H|]. apply nth_error_Some. congruence. Qed.
Lemma wget_inv w r root k x : wget (mkWorld (w_resources w ++ [r]) root) k = Some x -> wget w k = Some x \/ (k = length (w_resources w) /\ x = r).
Proof.
  unfold wget. simpl. intros H. destruct (lt_dec k (length (w_resources w))) as [L|L].
  - rewrite nth_error_app1 in H by exact L. auto.
  - rewrite nth_error_app2 in H by lia. destruct (k - length (w_resources w)) as [|m] eqn:E; [|destruct m; discriminate].
    injection H as <-. right. split; [lia|reflexivity].
Qed.
Lemma rset_same l : forall n r, n < length l -> nth_error (rset l n r) n = Some r.
Proof. induction l as [|x l IH]; intros [|n] r H; simpl in *; try lia; [reflexivity|apply IH; lia]. Qed.
Lemma rset_other l : forall n m r, n <> m -> nth_error (rset l n r) m = nth_error l m.
Proof. induction l as [|x l IH]; intros [|n] [|m] r H; simpl; try reflexivity; try congruence. apply IH. congruence. Qed.
Lemma rset_length l : forall n r, length (rset l n r) = length l.
Proof. induction l as [|x l IH]; intros [|n] r; simpl; auto. Qed.

Lemma register_inv w x w' : register_stack_transformation w x = Ok w' ->
  exists n, w_root w = Some n /\ w_root w' = Some n /\ length (w_resources w') = length (w_resources w) /\
    (forall k r', wget w' k = Some r' -> exists r, wget w k = Some r /\ s_type r' = s_type r /\ s_custom r' = s_custom r /\ s_given r' = s_given r /\
       s_opts r' = s_opts r /\ s_protect r' = s_protect r /\ s_provider r' = s_provider r /\ s_providers r' = s_providers r /\
       s_transformations r' = s_transformations r ++ (if Nat.eqb k n then [x] else [])) /\
    (forall k, wget w k <> None -> wget w' k <> None).
Proof.
  unfold register_stack_transformation. destruct (w_root w) as [n|] eqn:R; [|discriminate].
  destruct (wget w n) as [r|] eqn:G; intros [= <-]; exists n.
  - split; [reflexivity|split; [reflexivity|split; [simpl; apply rset_length|]]].
    assert (L : n < length (w_resources w)) by (apply nth_error_Some; unfold wget in G; congruence).
    split.
    + intros k r'. unfold wget at 1. simpl. destruct (Nat.eq_dec n k) as [<-|N].
      * rewrite rset_same by exact L. intros [= <-]. exists r. rewrite Nat.eqb_refl. simpl. repeat split. exact G.
      * rewrite rset_other by exact N. intros H. exists r'. destruct (Nat.eqb k n) eqn:E; [apply Nat.eqb_eq in E; congruence|].
        rewrite app_nil_r. repeat split. exact H.
    + intros k. unfold wget. simpl. rewrite !nth_error_Some. rewrite rset_length. auto.
  - split; [reflexivity|split; [exact R|split; [reflexivity|]]]. split; [|auto].
    intros k r' H. exists r'. destruct (Nat.eqb k n) eqn:E; [apply Nat.eqb_eq in E; congruence|]. rewrite app_nil_r. repeat split. exact H.
Qed.

Lemma construct_wf tf w t name custom props o w' n q : honest tf -> world_ok w -> wf_opts o ->
  construct tf w t name custom props o = Ok (w', n, q) -> world_ok w'.
Proof.
  intros Hn W Wo H. apply construct_parts in H as (_ & _ & props' & opts & prov & protect & R & _ & _ & -> & -> & _).
  apply (runs_wf _ _ _ _ _ _ Hn) in R; [|exact Wo]. intros k r Hk. apply wget_inv in Hk as [Hk|[_ ->]]; [eapply W; eauto|]. simpl.
  apply wf_dupdate. destruct (ro_parent opts) as [p|]; [|constructor]. destruct (wget w p) as [r|] eqn:G; [eapply W; eauto|constructor].
Qed.
Lemma reachable_ok tf w : honest tf -> reachable tf w -> world_ok w.
Proof.
  intros Hn R. induction R as [|w name w' R IH H|w x w' R IH H|w t name custom props o w' n q R IH Wo Pe H].
  - intros [|n] r H; discriminate.
  - unfold new_stack in H. destruct (w_root w); [discriminate|].
    destruct (construct tf w _ name false [] (new_ropts 0)) as [[[w1 n] q]|e] eqn:C; [|discriminate]. simpl in H. injection H as <-.
    eapply construct_wf in C; [exact C|exact Hn|exact IH|exact I].
  - apply register_inv in H as (n & _ & _ & _ & K & _). intros k r' Hk. apply K in Hk as (r & Hr & _ & _ & _ & _ & _ & _ & -> & _). eapply IH; eauto.
  - eapply construct_wf; eauto.
Qed.

Lemma reachable_root tf w n : reachable tf w -> w_root w = Some n -> exists r, wget w n = Some r.
Proof.
  intros R. revert n. induction R as [|w name w' R IH H|w x w' R IH H|w t name custom props o w' n q R IH Wo Pe H]; intros m Hm.
  - discriminate.
  - unfold new_stack in H. destruct (w_root w); [discriminate|].
    destruct (construct tf w _ name false [] (new_ropts 0)) as [[[w1 n] q]|e] eqn:C; [|discriminate]. simpl in H. injection H as <-.
    apply construct_parts in C as (_ & _ & props' & opts & prov & protect & _ & _ & _ & -> & -> & _). simpl in Hm. injection Hm as <-.
    eexists. apply (wget_new w).
  - apply register_inv in H as (k & Hk & Hk' & _ & _ & E). destruct (IH k Hk) as [r G].
    assert (m = k) by congruence. subst m. destruct (wget w' k) as [r'|] eqn:G'; [eauto|]. exfalso. apply (E k); congruence.
  - apply construct_parts in H as (_ & _ & props' & opts & prov & protect & _ & _ & _ & -> & -> & _). simpl in Hm.
    destruct (IH m Hm) as [r G]. eexists. apply wget_old. exact G.
Qed.
Lemma applies_eq tf w given ts : reachable tf w -> parent_exists w given -> applies w given ts <->
  ts = items (ro_transformations given) ++ match match or_else (ro_parent given) (w_root w) with Some p => wget w p | None => None end with Some r => s_transformations r | None => [] end.
Proof.
  intros Re Pe. unfold applies, parent_of. split.
  - intros [(p & r & [P|[P Q]] & G & ->)|(P & Q & ->)]; rewrite P; simpl; try rewrite Q; try rewrite G; auto. rewrite app_nil_r. reflexivity.
  - intros ->. destruct (ro_parent given) as [p|] eqn:P; simpl.
    + destruct (Pe p P) as [r G]. rewrite G. left. exists p, r. auto.
    + destruct (w_root w) as [p|] eqn:Q; [|right; rewrite app_nil_r; auto].
      destruct (reachable_root _ _ _ Re Q) as [r G]. rewrite G. left. exists p, r. auto.
Qed.

Lemma parent_gives_dget w o pkg p : world_ok w ->
  parent_gives w o pkg p <-> exists r, match ro_parent o with Some n => wget w n | None => None end = Some r /\ dget (s_providers r) pkg = Some p.
Proof.
  intros W. split.
  - intros (n & r & E & G & H). exists r. rewrite E. split; [exact G|]. apply In_dget; [eapply W; eauto|exact H].
  - intros (r & E & H). destruct (ro_parent o) as [n|] eqn:P; [|discriminate]. exists n, r. repeat split; auto. apply dget_In. exact H.
Qed.

Lemma get_providers_selected w t o : world_ok w -> wf_opts o -> named t ->
  let parent := match ro_parent o with Some n => wget w n | None => None end in
  selected w t o (fst (get_providers t (type_package t) o (match parent with Some r => s_providers r | None => [] end) parent)).
Proof.
  intros W Wo N parent. destruct (opt_providers_spec o Wo) as [Wd S]. unfold get_providers. cbn [fst].
  change (match ro_providers o with Some (PList l) => _ | Some (PMap d) => d | None => [] end) with (opt_providers o).
  rewrite (pkg_of_named t N). destruct (ro_provider o) as [p|] eqn:Ep; [simpl; apply sel_explicit; exact Ep|].
  cbn [or_else]. unfold get_provider. destruct (type_package t) as [k|] eqn:Et.
  - pose proof (proj1 (type_package_spec t k) Et) as Hk. destruct (dget (opt_providers o) k) as [p|] eqn:Ek; cbn [or_else].
    + apply (sel_option _ _ _ k); [exact Ep|exact Hk|apply S; exact Ek].
    + assert (No : forall q, ~ option_gives o k q) by (intros q H; apply S in H; congruence).
      destruct parent as [r|] eqn:Er; [destruct (dget (s_providers r) k) as [p|] eqn:Eg|].
      * apply (sel_parent _ _ _ k); auto. apply parent_gives_dget; [exact W|]. exists r. split; [exact Er|exact Eg].
      * apply sel_none; [exact Ep|]. intros pkg q H. apply type_package_spec in H. assert (pkg = k) by congruence. subst pkg.
        split; [apply No|]. intros K. apply parent_gives_dget in K as (r' & E' & K); [|exact W]. fold parent in E'. congruence.
      * apply sel_none; [exact Ep|]. intros pkg q H. apply type_package_spec in H. assert (pkg = k) by congruence. subst pkg.
        split; [apply No|]. intros K. apply parent_gives_dget in K as (r' & E' & K); [|exact W]. fold parent in E'. congruence.
  - cbn [or_else]. assert (NP : forall pkg, ~ has_package t pkg) by (intros pkg H; apply type_package_spec in H; congruence).
    replace (match parent with Some _ => None | None => None end) with (@None provider) by (destruct parent; reflexivity).
    apply sel_none; [exact Ep|]. intros pkg q H. destruct (NP _ H).
Qed.
Lemma selected_fun w t o a b : world_ok w -> wf_opts o -> selected w t o a -> selected w t o b -> a = b.
Proof.
  intros W Wo A B. destruct (opt_providers_spec o Wo) as [Wd S].
  assert (P1 : forall k k', has_package t k -> has_package t k' -> k = k') by (intros k k' H H'; apply type_package_spec in H, H'; congruence).
  assert (P2 : forall k p q, option_gives o k p -> option_gives o k q -> p = q) by (intros k p q H H'; apply S in H, H'; congruence).
  assert (P3 : forall k p q, parent_gives w o k p -> parent_gives w o k q -> p = q).
  { intros k p q H H'. apply parent_gives_dget in H as (r & E & H), H' as (r' & E' & H'); auto. congruence. }
  inversion A as [p Hp|k p Hp Hk Hg|k p Hp Hk Hn Hg|Hp Hn]; inversion B as [p' Hp'|k' p' Hp' Hk' Hg'|k' p' Hp' Hk' Hn' Hg'|Hp' Hn']; subst; try congruence;
    try (assert (k' = k) by (eapply P1; eauto); subst k').
  - f_equal. eapply P2; eauto.
  - destruct (Hn' _ Hg).
  - destruct (Hn' _ p Hk) as [Q _]. contradiction.
  - destruct (Hn _ Hg').
  - f_equal. eapply P3; eauto.
  - destruct (Hn' _ p Hk) as [_ Q]. contradiction.
  - destruct (Hn _ p' Hk') as [Q _]. contradiction.
  - destruct (Hn _ p' Hk') as [_ Q]. contradiction.
Qed.
Lemma get_providers_passes w t o r : world_ok w -> wf_opts o -> named t ->
  let parent := match ro_parent o with Some n => wget w n | None => None end in
  s_providers r = snd (get_providers t (type_package t) o (match parent with Some r => s_providers r | None => [] end) parent) ->
  wf_dict (s_providers r) -> passes_on w t o r.
Proof.
  intros W Wo N parent E Wr pkg p. destruct (own_providers_spec t o N Wo) as [Wd S].
  assert (E' : s_providers r = dupdate (match parent with Some r => s_providers r | None => [] end) (own_providers t o)) by (rewrite E; reflexivity).
  assert (G : In (pkg, p) (s_providers r) <-> dget (s_providers r) pkg = Some p) by (split; [apply In_dget; exact Wr|apply dget_In]).
  rewrite G, E', dget_dupdate by exact Wd. rewrite parent_gives_dget by exact W. fold parent.
  destruct (dget (own_providers t o) pkg) as [q|] eqn:Eq.
  - apply S in Eq. split.
    + intros [= <-]. left. exact Eq.
    + intros [H|[H _]]; [|destruct (H _ Eq)]. apply S in H. apply S in Eq. congruence.
  - assert (No : forall q, ~ own_gives t o pkg q) by (intros q H; apply S in H; congruence).
    split.
    + intros H. right. split; [exact No|]. destruct parent as [x|]; [exists x; auto|discriminate].
    + intros [H|[_ (x & Ex & H)]]; [destruct (No _ H)|]. rewrite Ex. exact H.
Qed.

(* ---- main lemmas ---- *)
Lemma construct_ok tf w t name custom props given w' n q : honest tf -> reachable tf w -> wf_opts given -> parent_exists w given -> named t ->
  construct tf w t name custom props given = Ok (w', n, q) ->
  exists ts props' opts r, applies w given ts /\ runs tf t name ts (props, given) (props', opts) /\ request_props q = props' /\
    wget w n = None /\ wget w' n = Some r /\ s_type r = t /\ s_custom r = custom /\
    (custom = true -> selected w t opts (s_provider r)) /\ (custom = false -> s_provider r = None) /\
    (forall p, s_provider r = Some p -> has_package t (p_package p)) /\
    passes_on w t opts r /\ protection w opts (s_protect r) /\
    (forall k x, wget w k = Some x -> wget w' k = Some x).
Proof.
  intros Hn Re Wo Pe N H. pose proof (reachable_ok _ _ Hn Re) as W.
  assert (W' : world_ok w') by (eapply construct_wf; eauto).
  apply construct_parts in H as (_ & _ & props' & opts & prov & protect & R & Ep & Ev & -> & -> & Hp & Hq).
  pose proof (runs_wf _ _ _ _ _ _ Hn R Wo) as Wo'. simpl in Wo'. pose proof (runs_parent _ _ _ _ _ _ R) as Par. simpl in Par.
  eexists _, props', opts, _. split; [apply (applies_eq tf); [exact Re|exact Pe|reflexivity]|]. split; [exact R|].
  split; [destruct Hq as [(u & _ & ->)|[(_ & _ & _ & ->)|(_ & _ & ->)]]; reflexivity|].
  split; [apply nth_error_None; lia|]. split; [apply wget_new|]. cbn [s_type s_custom s_provider s_protect].
  split; [reflexivity|]. split; [reflexivity|].
  split; [intros ->; rewrite Ev; apply get_providers_selected; assumption|].
  split; [intros ->; reflexivity|].
  split; [intros p; destruct custom; [intros K; apply type_package_spec; apply Hp; auto|discriminate]|].
  split; [apply get_providers_passes; try assumption; [reflexivity|apply (W' _ _ (wget_new w _ _))]|].
  split; [|intros k x Hk; apply wget_old; exact Hk].
  subst protect. destruct (ro_parent opts) as [p|] eqn:E.
  - destruct (Pe p) as [x Gx]; [congruence|]. rewrite Gx. destruct (ro_protect opts) as [b|] eqn:Eb; simpl.
    + apply prot_own. exact Eb.
    + eapply prot_parent; eauto.
  - destruct (ro_protect opts) as [b|] eqn:Eb; [apply prot_own|apply prot_none]; assumption.
Qed.

Lemma construct_wrong_provider tf w t name props given ts props' opts p : honest tf -> reachable tf w -> wf_opts given -> parent_exists w given -> named t ->
  t <> "" -> name <> "" -> applies w given ts ->
  runs tf t name ts (props, given) (props', opts) -> selected w t opts (Some p) -> ~ has_package t (p_package p) ->
  construct tf w t name true props given = Err wrong_provider.
Proof.
  intros Hn Re Wo Pe N Ht Hname Ets R S NP. apply (applies_eq tf) in Ets; [|exact Re|exact Pe]. pose proof (reachable_ok _ _ Hn Re) as W.
  pose proof (runs_wf _ _ _ _ _ _ Hn R Wo) as Wo'. simpl in Wo'. apply transform_ok in R. subst ts.
  unfold construct. rewrite (proj2 (String.eqb_neq _ _) Ht), (proj2 (String.eqb_neq _ _) Hname).
  change (match ro_transformations given with Some l => l | None => [] end) with (items (ro_transformations given)).
  rewrite R. cbn [rbind].
  pose proof (get_providers_selected w t opts W Wo' N) as S'. cbn zeta in S'.
  pose proof (selected_fun _ _ _ _ _ W Wo' S S') as E.
  destruct (get_providers t (type_package t) opts _ _) as [prov provs]. cbn [fst] in E. subst prov.
  destruct (type_package t) as [k|] eqn:Et; [|reflexivity].
  destruct (String.eqb (p_package p) k) eqn:Ek; [|reflexivity].
  apply String.eqb_eq in Ek. subst k. destruct NP. apply type_package_spec. exact Et.
Qed.

Lemma transformation_keeps w x w' k r : register_stack_transformation w x = Ok w' -> wget w' k = Some r ->
  exists r0, wget w k = Some r0 /\ s_protect r = s_protect r0 /\ s_provider r = s_provider r0 /\ s_providers r = s_providers r0.
Proof. intros H G. apply register_inv in H as (n & _ & _ & _ & K & _). apply K in G as (r0 & G0 & _ & _ & _ & _ & E1 & E2 & E3 & _). eauto 6. Qed.

(* ---- transformations in a program ---- *)
Definition inv (ts : list nat) (w : world) : Prop :=
  exists root, w_root w = Some root /\ (exists r, wget w root = Some r) /\ root = 0 /\
    (forall k r, wget w k = Some r -> hands_down w ts k (s_transformations r)) /\
    (forall k r p, wget w k = Some r -> parent_of w (s_given r) p -> w_root w <> Some k -> p < k).

Lemma hands_down_ext w w' ts : w_root w' = w_root w -> (forall k r, wget w k = Some r -> exists r', wget w' k = Some r' /\ s_given r' = s_given r) ->
  forall n l, hands_down w ts n l -> hands_down w' ts n l.
Proof.
  intros Hr K n l H. induction H as [n E|n r p l G N P H IH].
  - apply hd_stack. congruence.
  - destruct (K _ _ G) as (r' & G' & Eg). rewrite <- Eg. apply (hd_child _ _ n r' p); [exact G'|congruence| |exact IH].
    rewrite Eg. destruct P as [P|[P Q]]; [left; exact P|right; split; [exact P|congruence]].
Qed.
Lemma hands_down_fun w ts n l : hands_down w ts n l -> forall l', hands_down w ts n l' -> l = l'.
Proof.
  induction 1 as [n E|n r p l G N P H IH]; intros l' H'; inversion H' as [? E'|? r' p' l1 G' N' P' H1]; subst; try congruence.
  assert (r' = r) by congruence. subst r'. f_equal. apply IH.
  assert (p' = p) by (destruct P as [P|[P Q]], P' as [P'|[P' Q']]; congruence). subst p'. exact H1.
Qed.

Lemma program_inv tf ts w : program tf ts w -> inv ts w.
Proof.
  induction 1 as [name w H|ts w x w' Pr IH L H|ts w t name custom props o w' n q Pr IH Pe H].
  - unfold new_stack in H. simpl in H.
    destruct (construct tf (mkWorld [] None) _ name false [] (new_ropts 0)) as [[[w1 n] q]|e] eqn:C; [|discriminate]. simpl in H. injection H as <-.
    apply construct_parts in C as (_ & _ & props' & opts & prov & protect & R & Ep & Ev & -> & -> & _). simpl.
    exists 0. split; [reflexivity|]. split; [eexists; reflexivity|]. split; [reflexivity|]. split.
    + intros [|k] r Hk; [|destruct k; discriminate]. injection Hk as <-. simpl. apply hd_stack. reflexivity.
    + intros [|k] r p Hk _ Nk; [destruct Nk; reflexivity|destruct k; discriminate].
  - destruct IH as (root & Hr & (r0 & G0) & -> & Hd & Hp).
    apply register_inv in H as (n & Hn & Hn' & Len & K & E). assert (n = 0) by congruence. subst n.
    assert (Single : forall k r, wget w' k = Some r -> k = 0).
    { intros k r Hk. assert (k < length (w_resources w')) by (apply nth_error_Some; unfold wget in Hk; congruence). lia. }
    exists 0. split; [exact Hn'|]. split; [destruct (wget w' 0) as [r|] eqn:G; [eauto|exfalso; apply (E 0); congruence]|]. split; [reflexivity|].
    split.
    + intros k r' Hk. pose proof (Single _ _ Hk). subst k. destruct (K _ _ Hk) as (r & G & _ & _ & _ & _ & _ & _ & _ & Et). simpl in Et. rewrite Et.
      pose proof (Hd _ _ G) as D. assert (D' : s_transformations r = ts).
      { eapply hands_down_fun; [exact D|apply hd_stack; exact Hr]. }
      rewrite D'. apply hd_stack. exact Hn'.
    + intros k r p Hk _ Nk. pose proof (Single _ _ Hk). subst k. destruct Nk. exact Hn'.
  - destruct IH as (root & Hr & (r0 & G0) & -> & Hd & Hp).
    apply construct_parts in H as (_ & _ & props' & opts & prov & protect & R & Ep & Ev & -> & -> & _).
    assert (Ext : forall n l, hands_down w ts n l -> hands_down (mkWorld (w_resources w ++ [mkResource t custom o (set_provider opts protect prov)
       (items (ro_transformations o) ++ match match or_else (ro_parent o) (w_root w) with Some p => wget w p | None => None end with Some r => s_transformations r | None => [] end)
       (match protect with Some b => b | None => false end) (if custom then prov else None)
       (snd (get_providers t (type_package t) opts (match (match ro_parent opts with Some p => wget w p | None => None end) with Some r => s_providers r | None => [] end)
          (match ro_parent opts with Some p => wget w p | None => None end)))]) (w_root w)) ts n l).
    { apply hands_down_ext; [reflexivity|]. intros k r Hk. exists r. split; [apply wget_old; exact Hk|reflexivity]. }
    assert (Lpos : 0 < length (w_resources w)) by (apply nth_error_Some; unfold wget in G0; congruence).
    exists 0. split; [exact Hr|]. split; [exists r0; apply wget_old; exact G0|]. split; [reflexivity|]. split.
    + intros k r Hk. apply wget_inv in Hk as [Hk|[-> ->]]; [apply Ext; apply Hd; exact Hk|].
      cbn [s_transformations].
      assert (PP : exists p rp, or_else (ro_parent o) (w_root w) = Some p /\ wget w p = Some rp /\ parent_of w o p).
      { destruct (ro_parent o) as [p|] eqn:E.
        - destruct (Pe p E) as [rp Hrp]. exists p, rp. repeat split; auto. left. exact E.
        - exists 0, r0. simpl. repeat split; auto. right. auto. }
      destruct PP as (p & rp & E1 & E2 & E3). rewrite E1 in Ext |- *. rewrite E2 in Ext |- *.
      match goal with |- hands_down ?W _ _ (items (ro_transformations o) ++ ?l) =>
        apply (hd_child W ts (length (w_resources w)) _ p l (wget_new w _ (w_root w))) end.
      * simpl. rewrite Hr. intros [= K]. lia.
      * simpl. destruct E3 as [E3|[E3 E4]]; [left; exact E3|right; split; [exact E3|exact E4]].
      * apply Ext. apply Hd. exact E2.
    + intros k r p Hk Pk Nk. apply wget_inv in Hk as [Hk|[-> ->]]; [eapply Hp; eauto|]. simpl in Pk.
      destruct Pk as [Pk|[Pk Pr']]; [destruct (Pe p Pk) as [x Hx]; apply nth_error_Some; unfold wget in Hx; congruence|].
      simpl in Pr'. assert (p = 0) by congruence. subst p. exact Lpos.
Qed.

Lemma construct_transforms tf ts w t name custom props given w' n q : program tf ts w -> parent_exists w given ->
  construct tf w t name custom props given = Ok (w', n, q) ->
  exists p l opts, parent_of w given p /\ hands_down w ts p l /\
    runs tf t name (items (ro_transformations given) ++ l) (props, given) (request_props q, opts) /\ ro_parent opts = ro_parent given /\
    match q with
    | RGet u _ => ro_urn opts = Some u
    | RRead _ _ _ o => exists pr pv, o = set_provider opts pr pv
    | RRegister _ _ _ _ o => exists pr pv, o = set_provider opts pr pv
    end.
Proof.
  intros Pr Pe H. destruct (program_inv _ _ _ Pr) as (root & Hr & (r0 & G0) & -> & Hd & Hp).
  apply construct_parts in H as (_ & _ & props' & opts & prov & protect & R & Ep & Ev & _ & _ & _ & Hq).
  assert (PP : exists p rp, or_else (ro_parent given) (w_root w) = Some p /\ wget w p = Some rp /\ parent_of w given p).
  { destruct (ro_parent given) as [p|] eqn:E.
    - destruct (Pe p E) as [rp Hrp]. exists p, rp. repeat split; auto. left. exact E.
    - exists 0, r0. simpl. repeat split; auto. right. auto. }
  destruct PP as (p & rp & E1 & E2 & E3). exists p, (s_transformations rp), opts. split; [exact E3|]. split; [apply Hd; exact E2|].
  cbn zeta in R. rewrite E1, E2 in R. pose proof (runs_parent _ _ _ _ _ _ R) as Par. simpl in Par.
  destruct Hq as [(u & Eu & ->)|[(_ & _ & _ & ->)|(_ & _ & ->)]]; simpl; (split; [exact R|split; [exact Par|eauto]]).
Qed.

Lemma construct_stops tf ts w t name custom props given p l x ts1 ts2 props1 opts1 : program tf ts w -> parent_exists w given ->
  t <> "" -> name <> "" -> parent_of w given p -> hands_down w ts p l ->
  items (ro_transformations given) ++ l = ts1 ++ x :: ts2 -> runs tf t name ts1 (props, given) (props1, opts1) ->
  (forall props2 opts2, tf x t name props1 opts1 = Ok (Some (props2, opts2)) -> ro_parent opts2 <> ro_parent opts1 ->
     construct tf w t name custom props given = Err reparented) /\
  (forall e, tf x t name props1 opts1 = Err e -> construct tf w t name custom props given = Err e).
Proof.
  intros Pr Pe Ht Hname Hpar Hd E R. destruct (program_inv _ _ _ Pr) as (root & Hr & (r0 & G0) & -> & Hd' & Hp).
  assert (PP : exists rp, or_else (ro_parent given) (w_root w) = Some p /\ wget w p = Some rp).
  { destruct Hpar as [E1|[E1 E2]]; rewrite E1.
    - destruct (Pe p E1) as [rp Hrp]. exists rp. auto.
    - simpl. exists r0. split; [exact E2|]. congruence. }
  destruct PP as (rp & E1 & E2).
  assert (El : l = s_transformations rp) by (eapply hands_down_fun; [exact Hd|apply Hd'; exact E2]). subst l.
  unfold construct. rewrite (proj2 (String.eqb_neq _ _) Ht), (proj2 (String.eqb_neq _ _) Hname).
  change (match ro_transformations given with Some l => l | None => [] end) with (items (ro_transformations given)).
  rewrite E1, E2, E. rewrite (run_app _ _ _ _ _ _ _ _ _ R). simpl. split.
  - intros props2 opts2 Hx N. rewrite Hx. simpl. destruct (opt_nat_eqb (ro_parent opts2) (ro_parent opts1)) eqn:Eb; [apply opt_nat_eqb_spec in Eb; contradiction|]. reflexivity.
  - intros e Hx. rewrite Hx. reflexivity.
Qed.
