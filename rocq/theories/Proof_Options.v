From Verif Require Import Base PyVal Model_Output Model_Options Spec_Options.
Open Scope string_scope.
Open Scope list_scope.

Lemma or_dest_spec {A} (d s : option A) : overrides d s (or_dest d s).
Proof. split; [intros v ->; reflexivity|intros ->; reflexivity]. Qed.
Lemma merge_lists_spec {A} (d s : option (list A)) : appended d s (merge_lists d s).
Proof.
  unfold appended. destruct d as [d|], s as [s|]; simpl; rewrite ?app_nil_r; (split; [reflexivity|intuition discriminate]).
Qed.

(* ---- providers ---- *)
Lemma last_for_unique l pkg p q : last_for l pkg p -> last_for l pkg q -> p = q.
Proof.
  intros (a & b & -> & Hp & Nb) (c & d & E & Hq & Nd).
  revert c E. induction a as [|x a IH]; intros [|y c] E; simpl in E.
  - injection E as E _. exact E.
  - injection E as _ E. exfalso. apply (Nb q); [rewrite E; apply in_app_iff; simpl; auto|exact Hq].
  - injection E as _ E. exfalso. apply (Nd p); [rewrite <- E; apply in_app_iff; simpl; auto|exact Hp].
  - injection E as _ E. eauto.
Qed.
Lemma last_for_snoc l x pkg p :
  last_for (l ++ [x]) pkg p <-> (p = x /\ p_package x = pkg) \/ (p_package x <> pkg /\ last_for l pkg p).
Proof.
  split.
  - intros (a & b & E & Hp & N). destruct b as [|y b] using rev_ind.
    + apply app_inj_tail in E as [-> ->]. left. auto.
    + clear IHb. rewrite app_comm_cons, app_assoc in E. apply app_inj_tail in E as [-> ->].
      right. split; [apply N; apply in_app_iff; simpl; auto|]. exists a, b. split; [reflexivity|split; [exact Hp|]].
      intros q Hq. apply N. apply in_app_iff. auto.
  - intros [[-> H]|[H (a & b & -> & Hp & N)]].
    + exists l, []. split; [reflexivity|split; [exact H|intros q []]].
    + exists a, (b ++ [x]). rewrite app_comm_cons, app_assoc. split; [reflexivity|split; [exact Hp|]].
      intros q Hq. apply in_app_iff in Hq as [Hq|[<-|[]]]; auto.
Qed.
Definition keyed (l : list provider) : dict provider := fold_left (fun d pr => dset d (p_package pr) pr) l [].
Lemma keyed_snoc l x : keyed (l ++ [x]) = dset (keyed l) (p_package x) x.
Proof. unfold keyed. rewrite fold_left_app. reflexivity. Qed.
Lemma keyed_spec l : wf_dict (keyed l) /\ forall pkg p, In (pkg, p) (keyed l) <-> last_for l pkg p.
Proof.
  induction l as [|x l [W IH]] using rev_ind.
  - split; [constructor|]. intros pkg p. split; [intros []|intros ([|? ?] & b & E & _); discriminate].
  - rewrite keyed_snoc. split; [apply wf_dset; exact W|]. intros pkg p. rewrite last_for_snoc, <- IH.
    assert (W' : wf_dict (dset (keyed l) (p_package x) x)) by (apply wf_dset; exact W).
    split.
    + intros H. apply In_dget in H; [|exact W']. rewrite dget_dset in H. destruct (String.eqb pkg (p_package x)) eqn:E.
      * apply String.eqb_eq in E. injection H as <-. left. auto.
      * apply String.eqb_neq in E. right. split; [congruence|apply dget_In; exact H].
    + intros H. apply dget_In. rewrite dget_dset. destruct (String.eqb pkg (p_package x)) eqn:E.
      * apply String.eqb_eq in E. destruct H as [[-> _]|[N _]]; [reflexivity|congruence].
      * apply String.eqb_neq in E. destruct H as [[_ H]|[_ H]]; [congruence|apply In_dget; assumption].
Qed.
Lemma collapse_spec l : (collapse_providers l = None <-> items l = []) /\
  (collapse_providers l <> None -> collapse_providers l = Some (PMap (keyed (items l)))).
Proof.
  destruct l as [[|x l]|]; simpl; split; try (split; [reflexivity|reflexivity]); try (intros H; contradiction H; reflexivity).
  - split; discriminate.
  - reflexivity.
Qed.
Lemma expand_given p : items (expand_providers p) = given p.
Proof. destruct p as [[l|d]|]; reflexivity. Qed.
Lemma providers_united a b :
  united a b (collapse_providers (merge_lists (expand_providers a) (expand_providers b))).
Proof.
  destruct (merge_lists_spec (expand_providers a) (expand_providers b)) as [E _]. rewrite !expand_given in E.
  destruct (collapse_spec (merge_lists (expand_providers a) (expand_providers b))) as [N S]. rewrite E in N, S.
  split.
  - rewrite N. split; [apply app_eq_nil|intros [-> ->]; reflexivity].
  - intros H. eexists. split; [apply S; exact H|]. apply keyed_spec.
Qed.

Lemma last_for_app l1 l2 pkg p : last_for (l1 ++ l2) pkg p <->
  last_for l2 pkg p \/ ((forall q, In q l2 -> p_package q <> pkg) /\ last_for l1 pkg p).
Proof.
  induction l2 as [|x l2 IH] using rev_ind.
  - rewrite app_nil_r. split; [intros H; right; split; [intros q []|exact H]|].
    intros [([|? ?] & b & E & _)|[_ H]]; [discriminate|discriminate|exact H].
  - rewrite app_assoc, last_for_snoc, last_for_snoc, IH. split.
    + intros [H|[N [H|[M H]]]]; [left; auto|left; auto|right]. split; [|exact H].
      intros q Hq. apply in_app_iff in Hq as [Hq|[<-|[]]]; auto.
    + intros [[H|[N H]]|[M H]]; [auto|auto|right]. split; [apply M; apply in_app_iff; simpl; auto|].
      right. split; [intros q Hq; apply M; apply in_app_iff; auto|exact H].
Qed.
Lemma last_for_in l pkg p : last_for l pkg p -> In p l /\ p_package p = pkg.
Proof. intros (a & b & -> & H & _). split; [apply in_app_iff; simpl; auto|exact H]. Qed.
Lemma last_for_none l pkg : (forall q, In q l -> p_package q <> pkg) \/ exists p, last_for l pkg p.
Proof.
  induction l as [|x l IH] using rev_ind; [left; intros q []|].
  destruct (string_dec (p_package x) pkg) as [E|E].
  - right. exists x. apply last_for_snoc. auto.
  - destruct IH as [IH|[p IH]]; [left|right; exists p; apply last_for_snoc; auto].
    intros q Hq. apply in_app_iff in Hq as [Hq|[<-|[]]]; auto.
Qed.
Lemma last_for_congr a a' b b' :
  (forall pkg p, last_for a pkg p <-> last_for a' pkg p) -> (forall pkg p, last_for b pkg p <-> last_for b' pkg p) ->
  forall pkg p, last_for (a ++ b) pkg p <-> last_for (a' ++ b') pkg p.
Proof.
  intros Ha Hb pkg p. rewrite !last_for_app, Ha, Hb.
  assert (N : (forall q, In q b -> p_package q <> pkg) <-> (forall q, In q b' -> p_package q <> pkg)).
  { split; intros H.
    - destruct (last_for_none b' pkg) as [K|[q K]]; [exact K|]. apply Hb in K. apply last_for_in in K as [K1 K2]. exfalso. eapply H; eauto.
    - destruct (last_for_none b pkg) as [K|[q K]]; [exact K|]. apply Hb in K. apply last_for_in in K as [K1 K2]. exfalso. eapply H; eauto. }
  rewrite N. reflexivity.
Qed.

(* ---- depends_on ---- *)
Inductive lst : pyval -> list pyval -> Prop :=
| l_plain l : contains_unknowns (VList l) = false -> lst (VList l) l
| l_await l : contains_unknowns (VList l) = false -> lst (VAwait (Done (VList l))) l
| l_out rs k s l : contains_unknowns (VList l) = false -> lst (VOut rs (Done (VList l)) k s) l.
Lemma to_list_ok v l : as_list v l -> to_list v = Ok (VList l).
Proof. inversion 1 as [|? N1 N2]; subst; [reflexivity|]. destruct v as [| | |s|x| | | | | | | | | | | | | |]; try reflexivity; [destruct (N2 s)|destruct (N1 x)]; reflexivity. Qed.
Lemma as_list_known v l : as_list v l -> contains_unknowns v = false -> contains_unknowns (VList l) = false.
Proof. inversion 1; subst; simpl; intros E; [exact E|rewrite E; reflexivity]. Qed.
Lemma depends_on_lst o l : waits_on (ro_depends_on o) l -> exists v, depends_on_list o = Ok v /\ lst v l.
Proof.
  unfold depends_on_list. inversion 1 as [|v ? P U A|v ? U A|rs v k s ? N U A]; subst.
  - eexists. split; [reflexivity|]. constructor. reflexivity.
  - eexists. split; [|constructor; eapply as_list_known; eassumption].
    rewrite <- (to_list_ok v l A). destruct v; try discriminate P; reflexivity.
  - simpl. rewrite (to_list_ok v l A). eexists. split; [reflexivity|]. constructor. eapply as_list_known; eassumption.
  - simpl. unfold map_output, VO, future; simpl. rewrite U.
    assert (is_none v = false) as -> by (destruct v; try reflexivity; congruence). rewrite (to_list_ok v l A). simpl.
    eexists. split; [reflexivity|]. constructor. eapply as_list_known; eassumption.
Qed.
Lemma lst_waits v l : lst v l -> waits_on (Some v) l.
Proof. destruct 1; constructor; try reflexivity; try assumption; try constructor; discriminate. Qed.
Lemma known_app a b : contains_unknowns (VList a) = false -> contains_unknowns (VList b) = false ->
  contains_unknowns (VList (a ++ b)) = false.
Proof. simpl. intros A B. rewrite existsb_app, A, B. reflexivity. Qed.
Lemma known_future o l : o_val o = Done (VList l) -> contains_unknowns (VList l) = false -> future o false = Done (VList l).
Proof. unfold future. intros -> U. cbn [fbind negb andb]. rewrite U. reflexivity. Qed.
Lemma plus_lst v w a b : lst v a -> lst w b -> exists x, map2_input v w plus = Ok x /\ lst x (a ++ b).
Proof.
  intros Hv Hw. inversion Hv; subst; inversion Hw; subst; unfold map2_input, is_prompt, map_input;
    try (cbn [fbind plus of_res]; eexists; split; [reflexivity|]; constructor; apply known_app; assumption).
  all: eexists; (split; [reflexivity|]); unfold VO, map_output, map2_output, new_output; cbn [o_val o_res o_known o_secret];
    repeat match goal with |- context[future ?o false] => erewrite (known_future o) by (try reflexivity; eassumption) end;
    cbn [fbind is_none negb andb plus of_res]; constructor; apply known_app; assumption.
Qed.

(* ---- merge_fields ---- *)
Lemma depends_on_total o : exists v, depends_on_list o = Ok v.
Proof.
  unfold depends_on_list. destruct (ro_depends_on o) as [d|]; [|eauto].
  destruct d; simpl; eauto.
Qed.
Lemma listy o v : depends_on_list o = Ok v -> is_prompt v = true -> exists l, v = VList l.
Proof.
  unfold depends_on_list. destruct (ro_depends_on o) as [d|]; [|intros [= <-]; eauto].
  destruct d; simpl; intros [= <-]; simpl; eauto; discriminate.
Qed.
Lemma merge_fields_ok a b : exists r, merge_fields a b = Ok r /\ merged a b r /\ ro_merge r = ro_merge a.
Proof.
  unfold merge_fields.
  destruct (depends_on_total a) as [v Hv], (depends_on_total b) as [w Hw].
  assert (T : exists x, map2_input v w plus = Ok x).
  { destruct (is_prompt v) eqn:Pv; [destruct (listy _ _ Hv Pv) as [l ->]|].
    - destruct (is_prompt w) eqn:Pw; [destruct (listy _ _ Hw Pw) as [l' ->]; eexists; reflexivity|].
      destruct w; try discriminate Pw; eexists; reflexivity.
    - destruct (is_prompt w) eqn:Pw; [destruct (listy _ _ Hw Pw) as [l' ->]|].
      + destruct v; try discriminate Pv; eexists; reflexivity.
      + destruct v; try discriminate Pv; destruct w; try discriminate Pw; eexists; reflexivity. }
  destruct T as [x Hx]. rewrite Hv, Hw. cbn [rbind]. rewrite Hx. cbn [rbind].
  eexists. split; [reflexivity|]. split; [|reflexivity]. unfold merged.
  cbn [ro_parent ro_depends_on ro_protect ro_provider ro_providers ro_delete_before_replace ro_ignore_changes ro_version ro_aliases
       ro_additional_secret_outputs ro_id ro_import ro_custom_timeouts ro_transformations ro_urn ro_replace_on_changes ro_plugin_download_url ro_retain_on_delete].
  repeat (split; [first [apply or_dest_spec|apply merge_lists_spec|apply providers_united]|]).
  intros la lb Ha Hb. destruct (depends_on_lst a la Ha) as (v' & Ev & Lv), (depends_on_lst b lb Hb) as (w' & Ew & Lw).
  rewrite Hv in Ev. rewrite Hw in Ew. injection Ev as <-. injection Ew as <-.
  destruct (plus_lst _ _ _ _ Lv Lw) as (y & Ey & Ly). rewrite Hx in Ey. injection Ey as <-. apply lst_waits. exact Ly.
Qed.

(* ---- the heap ---- *)
Lemma oset_length h : forall a o, length (oset h a o) = length h.
Proof. induction h as [|x h IH]; intros [|a] o; simpl; auto. Qed.
Lemma oset_same h : forall a o, a < length h -> nth_error (oset h a o) a = Some o.
Proof. induction h as [|x h IH]; intros [|a] o H; simpl in *; try lia; [reflexivity|apply IH; lia]. Qed.
Lemma oset_other h : forall a b o, a <> b -> nth_error (oset h a o) b = nth_error h b.
Proof. induction h as [|x h IH]; intros [|a] [|b] o H; simpl; try reflexivity; try congruence. apply IH. congruence. Qed.
Lemma oget_nth h a r : nth_error h a = Some r -> oget h a = r.
Proof. intros H. unfold oget. apply nth_error_nth. exact H. Qed.
Lemma nth_alloc (h : oheap) x a r : nth_error h a = Some r -> nth_error (h ++ [x]) a = Some r.
Proof. intros H. rewrite nth_error_app1; [exact H|]. apply nth_error_Some. congruence. Qed.
Lemma nth_new (h : oheap) x : nth_error (h ++ [x]) (length h) = Some x.
Proof. rewrite nth_error_app2, Nat.sub_diag by lia. reflexivity. Qed.
Lemma ensure_ok h o r : stands_for h o r -> exists h' a r', ensure h o = (h', a) /\ nth_error h' a = Some r' /\
  (exists n, r' = r \/ (o = None /\ r' = new_ropts n)) /\ (forall b x, nth_error h b = Some x -> nth_error h' b = Some x) /\ length h <= length h'.
Proof.
  destruct o as [a|]; simpl.
  - intros H. exists h, a, r. repeat split; auto. exists 0. auto.
  - intros [n ->]. exists (h ++ [new_ropts (length h)]), (length h), (new_ropts (length h)). unfold oalloc. split; [reflexivity|].
    split; [apply nth_new|]. split; [exists (length h); auto|]. split; [intros; apply nth_alloc; assumption|]. rewrite app_length. lia.
Qed.
(** Options do not depend on the address of an empty left or right operand. *)
Lemma merged_new_l n m b r : merged (new_ropts n) b r -> merged (new_ropts m) b r.
Proof. intros H. exact H. Qed.
Lemma merged_new_r a n m r : merged a (new_ropts n) r -> merged a (new_ropts m) r.
Proof. intros H. exact H. Qed.

Lemma merge_ok h o1 o2 a b : stands_for h o1 a -> stands_for h o2 b ->
  exists h' d r, merge h o1 o2 = Ok (h', d) /\ nth_error h' d = Some r /\ merged a b r /\
    length h <= d /\ (forall x v, nth_error h x = Some v -> nth_error h' x = Some v) /\
    (forall x, o1 = Some x -> ro_merge r = ro_merge a).
Proof.
  intros H1 H2. unfold merge.
  destruct (ensure_ok h o1 a H1) as (h1 & a1 & r1 & -> & N1 & (n1 & C1) & K1 & L1).
  assert (H2' : stands_for h1 o2 b) by (destruct o2; [apply K1; exact H2|exact H2]).
  destruct (ensure_ok h1 o2 b H2') as (h2 & a2 & r2 & -> & N2 & (n2 & C2) & K2 & L2).
  unfold oalloc. rewrite (oget_nth h2 a1 r1) by auto. rewrite (oget_nth _ a2 r2) by (apply nth_alloc; exact N2).
  rewrite (oget_nth _ (length h2) r1) by (apply nth_alloc, nth_new). rewrite (oget_nth _ _ r2) by apply nth_new.
  destruct (merge_fields_ok r1 r2) as (r & -> & M & E). cbn [rbind].
  eexists _, _, r. split; [reflexivity|]. split; [apply oset_same; rewrite !app_length; simpl; lia|].
  split; [|split; [lia|split]].
  - assert (M1 : merged a r2 r) by (destruct C1 as [->|[-> ->]]; [exact M|destruct H1 as [n ->]; exact M]).
    destruct C2 as [->|[-> ->]]; [exact M1|destruct H2 as [n ->]; exact M1].
  - intros x v Hx. rewrite oset_other; [apply nth_alloc, nth_alloc; auto|].
    assert (x < length h) by (apply nth_error_Some; congruence). lia.
  - intros x ->. destruct C1 as [->|[K _]]; [exact E|discriminate K].
Qed.

(* ---- laws ---- *)
Lemma overrides_eq {A} (a b r : option A) : overrides a b r -> r = or_dest a b.
Proof. intros [H K]. destruct b as [v|]; [apply H|apply K]; reflexivity. Qed.
Lemma appended_eq {A} (a b r : option (list A)) : appended a b r -> r = merge_lists a b.
Proof.
  intros [H K]. destruct a as [a|], b as [b|], r as [r|]; simpl in *; rewrite ?app_nil_r in H; subst; try reflexivity;
    exfalso; intuition discriminate.
Qed.
Lemma united_last a b r : united a b r -> forall pkg p, last_for (given r) pkg p <-> last_for (given a ++ given b) pkg p.
Proof.
  intros [N S] pkg p. destruct r as [r|].
  - destruct S as (d & [= ->] & W & D); [discriminate|].
    assert (U : forall k q, In (k, q) d -> p_package q = k) by (intros k q H; apply D in H; apply last_for_in in H; tauto).
    rewrite <- D. simpl. split; intros H.
    + apply last_for_in in H as [H E]. apply in_map_iff in H as ([k q] & Eq & H). simpl in Eq. subst q. rewrite <- E, (U _ _ H). exact H.
    + pose proof (U _ _ H) as E.
      destruct (last_for_none (map snd d) pkg) as [K|[q K]].
      * exfalso. apply (K p); [apply (in_map snd) in H; exact H|exact E].
      * pose proof (last_for_in _ _ _ K) as [K1 K2]. apply in_map_iff in K1 as ([k q'] & Eq & K1). simpl in Eq. subst q'.
        pose proof (U _ _ K1) as E'. assert (k = pkg) by congruence. subst k.
        apply In_dget in H; [|exact W]. apply In_dget in K1; [|exact W]. assert (p = q) by congruence. subst q. exact K.
  - destruct N as [N _]. destruct (N eq_refl) as [-> ->]. reflexivity.
Qed.
Lemma or_dest_assoc {A} (a b c : option A) : or_dest (or_dest a b) c = or_dest a (or_dest b c).
Proof. destruct a, b, c; reflexivity. Qed.
Lemma merge_lists_assoc {A} (a b c : option (list A)) : merge_lists (merge_lists a b) c = merge_lists a (merge_lists b c).
Proof. destruct a, b, c; simpl; try reflexivity. rewrite app_assoc. reflexivity. Qed.

Ltac fields := repeat match goal with
  | H : overrides _ _ _ |- _ => apply overrides_eq in H
  | H : appended _ _ _ |- _ => apply appended_eq in H
  | H : merged _ _ _ |- _ => unfold merged in H
  | H : _ /\ _ |- _ => destruct H
  end.

Lemma merged_right_unit a n r : merged a (new_ropts n) r -> same_options r a /\
  (forall l, waits_on (ro_depends_on a) l -> waits_on (ro_depends_on r) l).
Proof.
  intros M. fields. split.
  - unfold same_options. simpl in *.
    repeat (split; [match goal with E : ?x = _ |- ?x = _ => rewrite E end; first [reflexivity|match goal with |- merge_lists ?y None = _ => destruct y; reflexivity end]|]).
    intros pkg p. match goal with U : united _ _ _ |- _ => rewrite (united_last _ _ _ U) end. simpl. rewrite app_nil_r. reflexivity.
  - intros l W. rewrite <- (app_nil_r l). match goal with H : forall la lb, _ |- _ => apply H end; [exact W|constructor].
Qed.
Lemma merged_left_unit a n r : merged (new_ropts n) a r -> same_options r a /\
  (forall l, waits_on (ro_depends_on a) l -> waits_on (ro_depends_on r) l).
Proof.
  intros M. fields. split.
  - unfold same_options. simpl in *.
    repeat (split; [match goal with E : ?x = _ |- ?x = _ => rewrite E end; first [reflexivity|match goal with |- or_dest None ?y = _ => destruct y; reflexivity end]|]).
    intros pkg p. match goal with U : united _ _ _ |- _ => rewrite (united_last _ _ _ U) end. simpl. reflexivity.
  - intros l W. change l with ([] ++ l). match goal with H : forall la lb, _ |- _ => apply H end; [constructor|exact W].
Qed.
Lemma merged_assoc a b c ab bc l r : merged a b ab -> merged ab c l -> merged b c bc -> merged a bc r ->
  same_options l r /\ forall la lb lc, waits_on (ro_depends_on a) la -> waits_on (ro_depends_on b) lb -> waits_on (ro_depends_on c) lc ->
    waits_on (ro_depends_on l) (la ++ lb ++ lc) /\ waits_on (ro_depends_on r) (la ++ lb ++ lc).
Proof.
  intros M1 M2 M3 M4. split.
  - fields. unfold same_options.
    repeat (split; [match goal with |- ?x ?l = ?x ?r => repeat match goal with E : x _ = _ |- _ => rewrite E; clear E end end;
                    first [apply or_dest_assoc|apply merge_lists_assoc]|]).
    intros pkg p.
    repeat match goal with U : united _ _ _ |- _ => pose proof (united_last _ _ _ U); clear U end.
    match goal with A : forall _ _, last_for (given (ro_providers ab)) _ _ <-> _, B : forall _ _, last_for (given (ro_providers l)) _ _ <-> _,
      C : forall _ _, last_for (given (ro_providers bc)) _ _ <-> _, D : forall _ _, last_for (given (ro_providers r)) _ _ <-> _ |- _ =>
      rewrite B, D; rewrite (last_for_congr _ _ _ _ A (fun _ _ => iff_refl _)), <- app_assoc;
      symmetry; apply (last_for_congr _ _ _ _ (fun _ _ => iff_refl _) C) end.
  - intros la lb lc Wa Wb Wc.
    assert (D : forall x y z, merged x y z -> forall p q, waits_on (ro_depends_on x) p -> waits_on (ro_depends_on y) q -> waits_on (ro_depends_on z) (p ++ q)).
    { intros x y z M. unfold merged in M. decompose [and] M. assumption. }
    split; [rewrite app_assoc|]; eauto.
Qed.

(* ---- invoke options ---- *)
Lemma iset_same h : forall a o, a < length h -> nth_error (iset h a o) a = Some o.
Proof. induction h as [|x h IH]; intros [|a] o H; simpl in *; try lia; [reflexivity|apply IH; lia]. Qed.
Lemma iset_other h : forall a b o, a <> b -> nth_error (iset h a o) b = nth_error h b.
Proof. induction h as [|x h IH]; intros [|a] [|b] o H; simpl; try reflexivity; try congruence. apply IH. congruence. Qed.
Lemma inth_alloc (h : iheap) x a r : nth_error h a = Some r -> nth_error (h ++ [x]) a = Some r.
Proof. intros H. rewrite nth_error_app1; [exact H|]. apply nth_error_Some. congruence. Qed.
Lemma inth_new (h : iheap) x : nth_error (h ++ [x]) (length h) = Some x.
Proof. rewrite nth_error_app2, Nat.sub_diag by lia. reflexivity. Qed.
Lemma iget_nth h a r : nth_error h a = Some r -> iget h a = r.
Proof. intros H. unfold iget. apply nth_error_nth. exact H. Qed.
Lemma iensure_ok h o r : istands_for h o r -> exists h' a r', iensure h o = (h', a) /\ nth_error h' a = Some r' /\
  (r' = r \/ (exists n, o = None /\ r' = new_iopts n)) /\ (forall b x, nth_error h b = Some x -> nth_error h' b = Some x) /\ length h <= length h'.
Proof.
  destruct o as [a|]; simpl.
  - intros H. exists h, a, r. repeat split; auto.
  - intros [n ->]. exists (h ++ [new_iopts (length h)]), (length h), (new_iopts (length h)). split; [reflexivity|].
    split; [apply inth_new|]. split; [right; exists (length h); auto|]. split; [intros; apply inth_alloc; assumption|]. rewrite app_length. lia.
Qed.
Lemma imerge_ok h o1 o2 a b : istands_for h o1 a -> istands_for h o2 b ->
  exists h' d r, imerge h o1 o2 = (h', d) /\ nth_error h' d = Some r /\ imerged a b r /\
    length h <= d /\ (forall x v, nth_error h x = Some v -> nth_error h' x = Some v) /\
    (forall x, o1 = Some x -> io_merge r = io_merge a).
Proof.
  intros H1 H2. unfold imerge.
  destruct (iensure_ok h o1 a H1) as (h1 & a1 & r1 & -> & N1 & C1 & K1 & L1).
  assert (H2' : istands_for h1 o2 b) by (destruct o2; [apply K1; exact H2|exact H2]).
  destruct (iensure_ok h1 o2 b H2') as (h2 & a2 & r2 & -> & N2 & C2 & K2 & L2).
  rewrite (iget_nth h2 a1 r1) by auto. rewrite (iget_nth _ (length h2) r1) by apply inth_new. rewrite (iget_nth _ a2 r2) by (apply inth_alloc; exact N2).
  eexists _, _, _. split; [reflexivity|]. split; [apply iset_same; rewrite app_length; simpl; lia|].
  split; [|split; [lia|split]].
  - assert (M1 : imerged a r2 (mkIopts (io_merge r1) (or_dest (io_parent r1) (io_parent r2)) (or_dest (io_provider r1) (io_provider r2))
       (or_dest (io_version r1) (io_version r2)) (or_dest (io_plugin_download_url r1) (io_plugin_download_url r2)))).
    { destruct C1 as [->|(n & -> & ->)]; [|destruct H1 as [m ->]]; repeat split; simpl; intros; try match goal with H : _ = Some _ |- _ => rewrite H end; try match goal with H : _ = None |- _ => rewrite H end; reflexivity. }
    destruct C2 as [->|(n & -> & ->)]; [exact M1|destruct H2 as [m ->]; exact M1].
  - intros x v Hx. rewrite iset_other; [apply inth_alloc; auto|].
    assert (x < length h) by (apply nth_error_Some; congruence). lia.
  - intros x ->. destruct C1 as [->|(n & K & _)]; [reflexivity|discriminate K].
Qed.

Lemma instance_ok h a ra o b : nth_error h a = Some ra -> ro_merge ra = a -> stands_for h o b ->
  exists h' d r, merge_instance h a o = Ok (h', d) /\ nth_error h' d = Some r /\ merged ra b r /\
    (forall x v, nth_error h x = Some v -> nth_error h' x = Some v).
Proof.
  intros Ha E Hb. unfold merge_instance. rewrite (oget_nth h a ra Ha), E.
  destruct (merge_ok h (Some a) o ra b Ha Hb) as (h' & d & r & M & N & S & _ & K & _). eauto 10.
Qed.
Lemma iinstance_ok h a ra o b : nth_error h a = Some ra -> io_merge ra = a -> istands_for h o b ->
  exists h' d r, imerge_instance h a o = (h', d) /\ nth_error h' d = Some r /\ imerged ra b r /\
    (forall x v, nth_error h x = Some v -> nth_error h' x = Some v).
Proof.
  intros Ha E Hb. unfold imerge_instance. rewrite (iget_nth h a ra Ha), E.
  destruct (imerge_ok h (Some a) o ra b Ha Hb) as (h' & d & r & M & N & S & _ & K & _). eauto 10.
Qed.
