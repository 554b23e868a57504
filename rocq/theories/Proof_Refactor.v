(** Proofs for C98 *)
From Verif Require Import Base Model_Urn Spec_Urn Proof_Urn Model_Refactor Spec_Refactor.
Open Scope string_scope.
Ltac inv H := inversion H; subst; clear H.

(* ---- URNs ---- *)
Lemma drop_urn stack project q name : sdrop 11 (urn_of stack project q name) = stack ++ "::" ++ project ++ "::" ++ q ++ "::" ++ name.
Proof. reflexivity. Qed.
Lemma qualified_type_ok stack project q name : stack_name stack -> piece project -> piece q ->
  qualified_type (urn_of stack project q name) = q.
Proof.
  intros [Hs _] Hp Hq. unfold qualified_type. rewrite drop_urn. now rewrite !split_cc_piece by auto.
Qed.

Definition good_place (u : surn) : Prop :=
  stack_name (s_stack u) /\ piece (s_project u) /\ Forall (fun t => piece t /\ ~ has_char "$" t) (s_type u :: s_ancestors u).
Lemma place_piece u : good_place u -> piece (qualified (s_ancestors u) (s_type u)).
Proof. intros (_ & _ & H). apply piece_qualified. revert H. apply Forall_impl. tauto. Qed.
Lemma place_qualified u : good_place u -> qualified_type (render u) = qualified (s_ancestors u) (s_type u).
Proof. intros H. apply qualified_type_ok; [apply H|apply H|now apply place_piece]. Qed.
Lemma place_type u : good_place u -> type_of (render u) = s_type u.
Proof.
  intros H. unfold type_of. rewrite place_qualified by auto. apply last_type_qualified. destruct H as (_ & _ & H). inv H. tauto.
Qed.
Lemma render_nonempty u : String.eqb (render u) "" = false. Proof. reflexivity. Qed.
Lemma qualified_nonempty l t : t <> "" -> qualified l t <> "".
Proof. intros H. destruct l as [|a l]; cbn; auto. destruct a; discriminate. Qed.
Definition stack_surn (v : env) : surn := mkSurn (v_stack v) (v_project v) [] "pulumi:pulumi:Stack" (stack_name_of v).
Lemma stack_urn_eq v : stack_urn v = render (stack_surn v).
Proof. reflexivity. Qed.
Ltac no_sep := let x := fresh in let y := fresh in let E := fresh in
  intros (x & y & E); apply (f_equal rest2) in E;
  let H := fresh in pose proof (rest2_sep x y) as H; rewrite <- E in H; vm_compute in H; lia.
Ltac walk := let x := fresh "x" in let E := fresh "E" in
  intros (x & E); repeat (destruct x as [|? x]; simpl in E; [discriminate|]; try discriminate; injection E as _ E).
Ltac walk2 := let x := fresh "x" in let y := fresh "y" in let E := fresh "E" in
  intros (x & y & E); repeat (destruct x as [|? x]; simpl in E; [discriminate|]; try discriminate; injection E as _ E).
Lemma stack_place v : proper_env v -> good_place (stack_surn v).
Proof.
  intros [H1 H2]. split; [exact H1|]. split; [exact H2|]. constructor; [|constructor]. cbn [s_type stack_surn]. split; [split|].
  - no_sep.
  - walk.
  - walk2.
Qed.
Lemma stack_type v : proper_env v -> type_of (stack_urn v) = "pulumi:pulumi:Stack".
Proof. intros H. rewrite stack_urn_eq. now rewrite place_type by now apply stack_place. Qed.
Lemma urn_at_top v t n : proper_env v -> generate_urn v (stack_urn v) t n = render (mkSurn (v_stack v) (v_project v) [] t n).
Proof. intros H. unfold generate_urn. rewrite stack_type by auto. rewrite orb_true_r. reflexivity. Qed.
Lemma good_is_place u : good_surn u -> good_place u.
Proof. intros (A & B & C & _). exact (conj A (conj B C)). Qed.
Lemma urn_under v u t n : good_surn u -> s_type u <> "pulumi:pulumi:Stack" -> s_type u <> "" ->
  s_stack u = v_stack v -> s_project u = v_project v ->
  generate_urn v (render u) t n = render (child_of u t n).
Proof.
  intros G N Ne E1 E2. apply good_is_place in G. unfold generate_urn. rewrite place_type, place_qualified by auto.
  cbn [String.eqb orb]. rewrite render_nonempty. cbn [orb]. destruct (String.eqb_spec (s_type u) "pulumi:pulumi:Stack"); [contradiction|].
  unfold new_urn. destruct (String.eqb_spec (qualified (s_ancestors u) (s_type u)) "") as [E|_]; [now apply qualified_nonempty in E|].
  unfold render, urn_of, child_of. cbn [s_stack s_project s_ancestors s_type s_name]. rewrite qualified_snoc, E1, E2. now rewrite !sapp_assoc.
Qed.
Lemma good_child u t n : good_surn u -> type_word t -> last_piece n -> good_surn (child_of u t n).
Proof.
  intros (A & B & C & D) (_ & T1 & T2) N. inv C. split; [exact A|]. split; [exact B|]. split; [|exact N].
  cbn. constructor; [now split|]. apply Forall_app. split; [assumption|]. now constructor.
Qed.
Lemma good_top v t n : proper_env v -> type_word t -> last_piece n -> good_surn (mkSurn (v_stack v) (v_project v) [] t n).
Proof. intros [A B] (_ & T1 & T2) N. split; [exact A|]. split; [exact B|]. split; [|exact N]. constructor; [now split|constructor]. Qed.
Lemma render_name u w : good_surn u -> good_surn w -> render u = render w -> s_name u = s_name w.
Proof.
  intros G W E. assert (K : urn_type_and_name (render u) = urn_type_and_name (render w)) by now rewrite E.
  rewrite !good_parts in K by auto. congruence.
Qed.
Lemma renamed_same p n : renamed p p n = n.
Proof. unfold renamed. pose proof (strip_spec p n). destruct (strip p n); auto. Qed.

Lemma NoDup_snoc {A} (l : list A) x : NoDup l -> ~ In x l -> NoDup (l ++ [x]).
Proof.
  intros N H. induction N as [|a l Ha N IH]; cbn; [repeat constructor; auto|]. constructor.
  - rewrite in_app_iff. cbn. intros [K|[K|[]]]; [contradiction|]. apply H. now left.
  - apply IH. intros K. apply H. now right.
Qed.
(* ---- the resources a program declares ---- *)
Definition info_ok (v : env) (infos : list parent_info) (i : nat) (d : decl) (info : parent_info) (u : surn) : Prop :=
  p_name info = k_name d /\ p_urn info = render u /\ good_surn u /\ s_name u = k_name d /\ s_type u = k_type d /\
  s_stack u = v_stack v /\ s_project u = v_project v /\
  match k_parent d with
  | Top => u = mkSurn (v_stack v) (v_project v) [] (k_type d) (k_name d) /\
           all_aliases (v_project v) (v_stack v) (k_aliases d) (k_name d) (k_type d) None = Ok (p_aliases info)
  | Stack => u = mkSurn (v_stack v) (v_project v) [] (k_type d) (k_name d)
  | Under p => (p < i)%nat /\ exists ip, nth_error infos p = Some ip /\
      all_aliases (v_project v) (v_stack v) (k_aliases d) (k_name d) (k_type d) (Some ip) = Ok (p_aliases info) /\
      forall up, good_surn up -> p_urn ip = render up -> render u = render (child_of up (k_type d) (k_name d))
  end /\
  (exists parent, all_aliases (v_project v) (v_stack v) (k_aliases d) (k_name d) (k_type d) parent = Ok (p_aliases info)).

Lemma declare_all_app v olds x l d : declare_all v olds x (l ++ [d]) = (let+ x' := declare_all v olds x l in declare v olds x' d).
Proof.
  revert x. induction l as [|a l IH]; intros x; cbn.
  - destruct (declare v olds x d); reflexivity.
  - destruct (declare v olds x a); cbn; auto.
Qed.
Lemma info_mono v infos more i d info u : info_ok v infos i d info u -> info_ok v (infos ++ more) i d info u.
Proof.
  intros (A & B & C & D & E & F & G & H & I). repeat (split; [assumption|]). split; [|assumption]. destruct (k_parent d); auto.
  destruct H as (H1 & ip & H2 & H3). split; [exact H1|]. exists ip. split; [|exact H3]. rewrite nth_error_app1; auto. apply nth_error_Some. now rewrite H2.
Qed.
Lemma register_urn v olds g r g' u t : register v olds g r = Ok (g', u, t) ->
  u = generate_urn v (q_parent r) (q_type r) (q_name r) /\ n_urns g' = u :: n_urns g /\ ~ In u (n_urns g).
Proof.
  unfold register. destruct (negb _ && negb _); [discriminate|]. set (w := generate_urn _ _ _ _).
  destruct (smem w (n_urns g)) eqn:E; [discriminate|]. apply smem_notIn in E. destruct (find _ _) as [z|].
  - destruct (String.eqb z w); [intros [= <- <- <-]; auto|]. destruct (dmem _ _); [discriminate|]. intros [= <- <- <-]; auto.
  - intros [= <- <- <-]; auto.
Qed.

Lemma declared_ok v olds ds x : proper_env v -> Forall proper ds ->
  declare_all v olds (mkRunning [] (new_gen v) []) ds = Ok x ->
  List.length (x_infos x) = List.length ds /\ List.length (x_taken x) = List.length ds /\
  NoDup (map p_urn (x_infos x)) /\ (forall u, In u (n_urns (x_gen x)) <-> u = stack_urn v \/ In u (map p_urn (x_infos x))) /\
  forall i d, nth_error ds i = Some d -> exists info u, nth_error (x_infos x) i = Some info /\ info_ok v (x_infos x) i d info u.
Proof.
  intros Hv. revert x. induction ds as [|d ds IH] using rev_ind; intros x Hd E.
  - injection E as <-. split; [reflexivity|]. split; [reflexivity|]. split; [constructor|]. split; [cbn; intuition|]. intros i d H. destruct i; discriminate.
  - apply Forall_app in Hd as [Hd Hd']. inv Hd'. rewrite declare_all_app in E.
    destruct (declare_all v olds _ ds) as [y|] eqn:Ey; [|discriminate]. cbn [rbind] in E.
    destruct (IH y Hd eq_refl) as (L1 & L2 & N & U & I). unfold declare in E.
    destruct (parent_info_of v (x_infos y) (k_parent d)) as [parent|] eqn:Ep; [|discriminate]. cbn [rbind] in E.
    destruct (all_aliases _ _ _ _ _ parent) as [al|] eqn:Ea; [|discriminate]. cbn [rbind] in E.
    destruct (register _ _ _ _) as [[[g u] t]|] eqn:Er; [|discriminate]. cbn [rbind] in E. injection E as <-.
    apply register_urn in Er as (Eu & Eg & En). cbn [q_parent q_type q_name] in Eu. cbn [x_infos x_taken x_gen].
    destruct H1 as (P1 & P2 & P3 & P4).
    rewrite !app_length, L1, L2, map_app. cbn [map p_urn List.length].
    split; [reflexivity|]. split; [reflexivity|]. split.
    { apply NoDup_snoc; [exact N|]. intros K. apply En. apply U. now right. }
    split; [intros z; rewrite Eg, in_app_iff; cbn [In]; rewrite U; intuition|].
    intros i d' H. destruct (Nat.lt_ge_cases i (List.length ds)) as [Li|Li].
    { rewrite nth_error_app1 in H by auto. destruct (I i d' H) as (info & w & K1 & K2). exists info, w. rewrite nth_error_app1 by lia. split; [exact K1|]. now apply info_mono. }
    rewrite nth_error_app2 in H by auto. destruct (i - List.length ds)%nat as [|m] eqn:Em; [|destruct m; discriminate]. injection H as <-.
    assert (i = List.length ds) as -> by lia. rewrite nth_error_app2 by lia. rewrite L1, Nat.sub_diag. cbn [nth_error].
    assert (W : exists w, p_urn (mkParent (k_name d) u al) = render w /\ good_surn w /\ s_name w = k_name d /\ s_type w = k_type d /\
      s_stack w = v_stack v /\ s_project w = v_project v /\
      match k_parent d with
      | Top => w = mkSurn (v_stack v) (v_project v) [] (k_type d) (k_name d) /\ parent = None
      | Stack => w = mkSurn (v_stack v) (v_project v) [] (k_type d) (k_name d)
      | Under p => (p < List.length ds)%nat /\ exists ip, nth_error (x_infos y) p = Some ip /\ parent = Some ip /\
          forall up, good_surn up -> p_urn ip = render up -> render w = render (child_of up (k_type d) (k_name d))
      end).
    { destruct (k_parent d) as [| |p]; cbn [parent_info_of] in Ep.
      - injection Ep as <-. cbn [p_urn] in Eu. rewrite urn_at_top in Eu by auto. eexists. split; [exact Eu|]. split; [now apply good_top|]. auto 10.
      - injection Ep as <-. cbn [p_urn] in Eu. rewrite urn_at_top in Eu by auto. eexists. split; [exact Eu|]. split; [now apply good_top|]. auto 10.
      - destruct (nth_error (x_infos y) p) as [ip|] eqn:Enp; [|discriminate]. injection Ep as <-.
        assert (Lp : (p < List.length ds)%nat) by (rewrite <- L1; apply nth_error_Some; now rewrite Enp).
        destruct (nth_error ds p) as [dp|] eqn:Edp; [|apply nth_error_None in Edp; lia].
        destruct (I p dp Edp) as (ip' & up & K1 & K2). rewrite Enp in K1. injection K1 as <-.
        destruct K2 as (_ & K3 & K4 & K5 & K6 & K7 & K8 & _).
        assert (Q : proper dp) by (rewrite Forall_forall in Hd; apply Hd; eapply nth_error_In; eauto). destruct Q as (_ & Q2 & Q3 & _).
        rewrite K3, urn_under in Eu; auto; [|now rewrite K6|rewrite K6; apply Q2].
        exists (child_of up (k_type d) (k_name d)). split; [exact Eu|]. split; [now apply good_child|]. split; [reflexivity|]. split; [reflexivity|].
        split; [exact K7|]. split; [exact K8|]. split; [exact Lp|]. exists ip. split; [reflexivity|]. split; [reflexivity|].
        intros up' G' E'. rewrite <- !render_child by (apply K4 || apply G'). now rewrite <- K3, E'. }
    destruct W as (w & W1 & W2 & W3 & W4 & W5 & W6 & W7). exists (mkParent (k_name d) u al), w. split; [reflexivity|].
    split; [reflexivity|]. repeat (split; [assumption|]). split; [|eauto]. destruct (k_parent d) as [| |p].
    + destruct W7 as [W7 ->]. split; [exact W7|exact Ea].
    + exact W7.
    + destruct W7 as (W7 & ip & W8 & -> & W9). split; [exact W7|]. exists ip. split; [|split; [exact Ea|exact W9]].
      rewrite nth_error_app1; auto. apply nth_error_Some. now rewrite W8.
Qed.

(* ---- the old URN is among the names a resource goes by ---- *)
Lemma own_alias project stack al name type_ parent l a : all_aliases project stack al name type_ parent = Ok l -> In a al ->
  In (collapse_alias project stack a name type_ (option_map p_urn parent)) l.
Proof.
  intros E H. unfold all_aliases in E. destruct parent as [p|]; cbn [option_map] in *.
  - destruct (rmap_all _ (p_aliases p)) as [inh|] eqn:Er; [|discriminate]. injection E as <-. apply in_app_iff. left. now apply in_map with (f := fun a => collapse_alias project stack a name type_ (Some (p_urn p))).
  - injection E as <-. now apply in_map with (f := fun a => collapse_alias project stack a name type_ None).
Qed.
Lemma rmap_all_in {A B} (f : A -> res B) l r a : rmap_all f l = Ok r -> In a l -> exists b, f a = Ok b /\ In b r.
Proof.
  intros E. apply rmap_all_inv in E. induction E as [|x y l r Hxy E IH]; [easy|]. intros [<-|H]; [exists y; split; [auto|now left]|].
  destruct (IH H) as (b & K1 & K2). exists b. split; [auto|now right].
Qed.
Lemma inherited_alias project stack al name type_ p l pa : all_aliases project stack al name type_ (Some p) = Ok l -> In pa (p_aliases p) ->
  In (inherited_child_alias name (p_name p) pa type_) l.
Proof.
  intros E H. unfold all_aliases in E. cbn [option_map] in E. destruct (rmap_all _ (p_aliases p)) as [inh|] eqn:Er; [|discriminate]. injection E as <-.
  apply in_app_iff. right. destruct (rmap_all_in _ _ _ _ Er H) as (b & K1 & K2). apply in_concat. exists b. split; [exact K2|].
  cbv beta in K1. destruct (rmap_all _ (map _ al)) as [cs|]; [|discriminate]. cbn [rbind] in K1. injection K1 as <-. now left.
Qed.
Lemma inherited_own project stack al name type_ p l pa a n t : all_aliases project stack al name type_ (Some p) = Ok l -> In pa (p_aliases p) ->
  In a al -> urn_type_and_name (collapse_alias project stack a name type_ (Some (p_urn p))) = Ok (n, t) ->
  In (inherited_child_alias n (p_name p) pa t) l.
Proof.
  intros E H Ha Hu. unfold all_aliases in E. cbn [option_map] in E. destruct (rmap_all _ (p_aliases p)) as [inh|] eqn:Er; [|discriminate]. injection E as <-.
  apply in_app_iff. right. destruct (rmap_all_in _ _ _ _ Er H) as (b & K1 & K2). apply in_concat. exists b. split; [exact K2|].
  cbv beta in K1. destruct (rmap_all _ (map _ al)) as [cs|] eqn:Ec; [|discriminate]. cbn [rbind] in K1. injection K1 as <-. right.
  assert (Hm : In (collapse_alias project stack a name type_ (Some (p_urn p))) (map (fun a => collapse_alias project stack a name type_ (Some (p_urn p))) al)).
  { now apply in_map with (f := fun a => collapse_alias project stack a name type_ (Some (p_urn p))). }
  destruct (rmap_all_in _ _ _ _ Ec Hm) as (c & K3 & K4). cbv beta in K3. rewrite Hu in K3. cbn [rbind fst snd] in K3. injection K3 as <-. exact K4.
Qed.

Definition goes_by (info : parent_info) : list string := p_urn info :: p_aliases info.

Section Names.
  Variables (old new : env) (before after : list decl) (i0 i1 : list parent_info) (was : nat -> option nat).
  Hypothesis Hold : proper_env old.
  Hypothesis Hnew : proper_env new.
  Hypothesis Pb : Forall proper before.
  Hypothesis Pa : Forall proper after.
  Hypothesis I0 : forall j o, nth_error before j = Some o -> exists info u, nth_error i0 j = Some info /\ info_ok old i0 j o info u.
  Hypothesis I1 : forall i d, nth_error after i = Some d -> exists info u, nth_error i1 i = Some info /\ info_ok new i1 i d info u.
  Hypothesis Hwas : forall i j d, nth_error after i = Some d -> was i = Some j ->
    exists o u, nth_error before j = Some o /\ nth_error (map p_urn i0) j = Some u /\ comes_from old new before after (map p_urn i0) was d o u.

  Lemma old_name i : forall j d info u, nth_error after i = Some d -> was i = Some j -> nth_error i1 i = Some info ->
    nth_error (map p_urn i0) j = Some u -> In u (goes_by info).
  Proof.
    induction i as [i IH] using (well_founded_induction lt_wf). intros j d info u Ed Ew Ei Eu.
    destruct (Hwas i j d Ed Ew) as (o & u' & Eo & Eu' & C). rewrite Eu in Eu'. injection Eu' as <-.
    destruct (I1 i d Ed) as (info' & w & Ei' & W). rewrite Ei in Ei'. injection Ei' as <-.
    destruct (I0 j o Eo) as (oinfo & z & Ej & Z). rewrite (map_nth_error p_urn _ _ Ej) in Eu. injection Eu as <-.
    destruct W as (W1 & W2 & W3 & W4 & W5 & W6 & W7 & W8 & par & Wp), Z as (Z1 & Z2 & Z3 & Z4 & Z5 & Z6 & Z7 & Z8 & _).
    assert (Pd : proper d) by (rewrite Forall_forall in Pa; apply Pa; eapply nth_error_In; eauto).
    assert (Po : proper o) by (rewrite Forall_forall in Pb; apply Pb; eapply nth_error_In; eauto).
    destruct Pd as (Pd1 & Pd2 & Pd3 & Pd4), Po as (Po1 & Po2 & Po3 & Po4).
    assert (Ztop : at_top (k_parent o) -> z = mkSurn (v_stack old) (v_project old) [] (k_type o) (k_name o)).
    { intros [K|K]; rewrite K in Z8; tauto. }
    (* the names of the parent *)
    assert (Place : forall p q dp oq, k_parent d = Under p -> k_parent o = Under q -> was p = Some q ->
        nth_error after p = Some dp -> nth_error before q = Some oq ->
        exists ip uq up, nth_error i1 p = Some ip /\ p_name ip = k_name dp /\ good_surn uq /\ s_name uq = k_name oq /\
          good_surn up /\ p_urn ip = render up /\ s_name up = k_name dp /\ In (render uq) (goes_by ip) /\
          render z = render (child_of uq (k_type o) (k_name o)) /\
          all_aliases (v_project new) (v_stack new) (k_aliases d) (k_name d) (k_type d) (Some ip) = Ok (p_aliases info) /\
          render w = render (child_of up (k_type d) (k_name d))).
    { intros p q dp oq Kd Ko Kw Kdp Koq. rewrite Kd in W8. rewrite Ko in Z8. destruct W8 as (Lp & ip & Np & Al & Cw), Z8 as (Lq & iq & Nq & _ & Cz).
      destruct (I1 p dp Kdp) as (ip' & up & Np' & (U1 & U2 & U3 & U4 & _)). rewrite Np in Np'. injection Np' as <-.
      destruct (I0 q oq Koq) as (iq' & uq & Nq' & (Q1 & Q2 & Q3 & Q4 & _)). rewrite Nq in Nq'. injection Nq' as <-.
      exists ip, uq, up. split; [exact Np|]. split; [exact U1|]. split; [exact Q3|]. split; [exact Q4|]. split; [exact U3|]. split; [exact U2|].
      split; [exact U4|]. split; [|split; [apply Cz; auto|split; [exact Al|apply Cw; auto]]].
      rewrite <- Q2. eapply IH; eauto. now apply map_nth_error. }
    rewrite Z2. destruct C as [T1 T2 Ee En Et|Pl Et|Ia|n t pr st Ia Pl Et|n t p pr st Ia Hp To En Et Epr Est|n t pr st q uq Ia Ko Kq En Et].
    - left. rewrite W2, (Ztop T2). assert (w = mkSurn (v_stack new) (v_project new) [] (k_type d) (k_name d)) as ->.
      { destruct T1 as [K|K]; rewrite K in W8; tauto. }
      now rewrite Ee, En, Et.
    - inv Pl. destruct (Place _ _ _ _ H H0 H1 H2 H3) as (ip & uq & up & N1 & N2 & G1 & G2 & G3 & G4 & G5 & [K|K] & Cz & Al & Cw).
      + left. assert (Es : s_name up = s_name uq) by (apply render_name; auto; congruence).
        rewrite W2, Cw, Cz, <- !render_child by (apply G1 || apply G3). rewrite <- G4, K, Et, H4.
        replace (k_name oq) with (k_name dp) by congruence. now rewrite renamed_same.
      + right. pose proof (inherited_alias _ _ _ _ _ _ _ _ Al K) as A. rewrite render_inherited in A by apply G1. unfold under_parent_alias in A.
        now rewrite Cz, Et, H4, <- G2, <- N2.
    - right. pose proof (own_alias _ _ _ _ _ _ _ _ Wp Ia) as A. cbn [collapse_alias] in A. now rewrite <- Z2.
    - inv Pl. destruct (Place _ _ _ _ H H0 H1 H2 H3) as (ip & uq & up & N1 & N2 & G1 & G2 & G3 & G4 & G5 & K & Cz & Al & Cw).
      pose proof (own_alias _ _ _ _ _ _ _ _ Al Ia) as A. cbn [collapse_alias option_map] in A.
      change (match n with Some x => x | None => k_name d end) with (or_default n (k_name d)) in A.
      change (match t with Some x => x | None => k_type d end) with (or_default t (k_type d)) in A.
      assert (Pal : proper_alias (AliasObj n t APDefault pr st)) by (rewrite Forall_forall in Pd4; now apply Pd4). destruct Pal as [Pn Pt].
      assert (Gc : good_surn (child_of up (or_default t (k_type d)) (or_default n (k_name d)))).
      { apply good_child; auto; [destruct t; cbn; auto|destruct n; cbn; auto]. }
      rewrite G4, render_child in A by apply G3. destruct K as [K|K].
      + right. assert (Es : s_name up = s_name uq) by (apply render_name; auto; congruence).
        rewrite Cz, <- render_child by apply G1. rewrite <- render_child in A by apply G3. rewrite <- K, G4, H4, Et.
        replace (k_name oq) with (k_name dp) by congruence. now rewrite renamed_same.
      + right. assert (Hu : urn_type_and_name (collapse_alias (v_project new) (v_stack new) (AliasObj n t APDefault pr st) (k_name d) (k_type d) (Some (p_urn ip))) =
          Ok (or_default n (k_name d), or_default t (k_type d))).
        { cbn [collapse_alias]. rewrite G4, render_child by apply G3. exact (good_parts _ Gc). }
        pose proof (inherited_own _ _ _ _ _ _ _ _ _ _ _ Al K Ia Hu) as B. rewrite render_inherited in B by apply G1. unfold under_parent_alias in B.
        now rewrite Cz, Et, H4, <- G2, <- N2.
    - right. rewrite (Ztop To). assert (A : In (create_urn (or_default n (k_name d)) (or_default t (k_type d)) (NoParent (or_default pr (v_project new)) (or_default st (v_stack new)))) (p_aliases info)).
      { destruct Hp as [->|[-> Hp]].
        - exact (own_alias _ _ _ _ _ _ _ _ Wp Ia).
        - rewrite Hp in W8. exact (own_alias _ _ _ _ _ _ _ _ (proj2 W8) Ia). }
      rewrite create_urn_root in A. now rewrite Epr, Est, En, Et.
    - right. pose proof (own_alias _ _ _ _ _ _ _ _ Wp Ia) as A. cbn [collapse_alias] in A.
      rewrite Ko in Z8. destruct Z8 as (Lq & iq & Nq & _ & Cz). rewrite (map_nth_error p_urn _ _ Nq) in Kq. injection Kq as <-.
      destruct (nth_error before q) as [oq|] eqn:Eq; [|apply nth_error_None in Eq; assert (nth_error before j <> None) by congruence; apply nth_error_Some in H; lia].
      destruct (I0 q oq Eq) as (iq' & uq & Nq' & (Q1 & Q2 & Q3 & Q4 & _)). rewrite Nq in Nq'. injection Nq' as <-.
      rewrite (Cz uq Q3 Q2), <- render_child by apply Q3. rewrite <- Q2, En, Et. exact A.
  Qed.
End Names.

(* ---- what the engine takes the resources to be ---- *)
Definition found (olds : list string) (info : parent_info) : option string :=
  find (fun u => smem u olds) (p_urn info :: unique_aliases (p_aliases info)).
Definition as_taken (f : option string) : taken := match f with Some u => Existing u | None => Fresh end.

Record matched (v : env) (olds : list string) (x : running) : Prop := mkMatched {
  M_taken : x_taken x = map (fun info => as_taken (found olds info)) (x_infos x);
  M_kept : forall u, In u (n_kept (x_gen x)) <-> u = stack_urn v \/ exists info, In info (x_infos x) /\ p_urn info = u /\ found olds info <> None;
  M_aliased : forall u, dmem (n_aliased (x_gen x)) u = true <-> exists info, In info (x_infos x) /\ found olds info = Some u /\ u <> p_urn info
}.

Lemma dmem_dset {V} (d : dict V) k v k' : dmem (dset d k v) k' = String.eqb k' k || dmem d k'.
Proof.
  unfold dmem. rewrite dget_dset. destruct (String.eqb_spec k' k) as [->|N].
  - reflexivity.
  - reflexivity.
Qed.

(** The engine gives the same URNs whatever is deployed, and finds what
    [found] says, if no old resource is found twice by an alias. *)
Lemma simulate v olds ds : forall x1 x1' x2,
  declare_all v [] x1 ds = Ok x1' -> x_infos x2 = x_infos x1 -> n_urns (x_gen x2) = n_urns (x_gen x1) -> matched v olds x2 ->
  (forall i i' info info' u, nth_error (x_infos x1') i = Some info -> nth_error (x_infos x1') i' = Some info' ->
     found olds info = Some u -> found olds info' = Some u -> u <> p_urn info -> u <> p_urn info' -> i = i') ->
  (exists more, x_infos x1' = (x_infos x1 ++ more)%list) /\
  exists x2', declare_all v olds x2 ds = Ok x2' /\ x_infos x2' = x_infos x1' /\ matched v olds x2'.
Proof.
  induction ds as [|d ds IH]; intros x1 x1' x2 E Ei En M Hd.
  - injection E as <-. split; [exists []; now rewrite app_nil_r|]. exists x2. auto.
  - cbn [declare_all] in E. destruct (declare v [] x1 d) as [y1|] eqn:Ey; [|discriminate]. cbn [rbind] in E.
    unfold declare in Ey. destruct (parent_info_of v (x_infos x1) (k_parent d)) as [parent|] eqn:Ep; [|discriminate]. cbn [rbind] in Ey.
    destruct (all_aliases _ _ _ _ _ parent) as [al|] eqn:Ea; [|discriminate]. cbn [rbind] in Ey.
    destruct (register v [] _ _) as [[[g u] t]|] eqn:Er; [|discriminate]. cbn [rbind] in Ey. injection Ey as <-.
    set (info := mkParent (k_name d) u al).
    assert (Pre : exists more, x_infos x1' = ((x_infos x1 ++ [info]) ++ more)%list).
    { clear - E. revert E. match goal with |- declare_all _ _ ?y _ = _ -> _ => change (x_infos x1 ++ [info])%list with (x_infos y); generalize y end.
      induction ds as [|d' ds IH]; intros y; cbn [declare_all]; [intros [= <-]; exists []; now rewrite app_nil_r|].
      destruct (declare v [] y d') as [z|] eqn:Ez; [|discriminate]. cbn [rbind]. intros E. destruct (IH z E) as (more & ->).
      unfold declare in Ez. destruct (parent_info_of v (x_infos y) (k_parent d')) as [parent'|]; [|discriminate]. cbn [rbind] in Ez.
      destruct (all_aliases _ _ _ _ _ parent') as [al'|]; [|discriminate]. cbn [rbind] in Ez.
      destruct (register v [] _ _) as [[[g' u'] t']|]; [|discriminate]. cbn [rbind] in Ez. injection Ez as <-. cbn [x_infos]. rewrite <- app_assoc. eauto. }
    destruct Pre as (more & Pre).
    assert (Step : exists g2, register v olds (x_gen x2) (mkDeclared (k_type d) (k_name d) (match parent with Some p => p_urn p | None => stack_urn v end) (unique_aliases al)) = Ok (g2, u, as_taken (found olds info)) /\
      n_urns g2 = n_urns g /\ matched v olds (mkRunning (x_infos x2 ++ [info]) g2 (x_taken x2 ++ [as_taken (found olds info)]))).
    { pose proof (register_urn _ _ _ _ _ _ _ Er) as (Eu & Eg & Nu). unfold register in Er |- *.
      cbn [q_parent q_type q_name q_aliases] in *. rewrite En. destruct (negb _ && negb _) eqn:Ep'; [discriminate|]. rewrite <- Eu in *.
      apply smem_notIn in Nu. rewrite Nu. change (find (fun w => smem w olds) (u :: unique_aliases al)) with (found olds info).
      rewrite Nu in Er.
      assert (G : forall al', (forall z, dmem al' z = true <-> dmem (n_aliased (x_gen x2)) z = true \/ found olds info = Some z /\ z <> u) ->
        forall kept, (forall z, In z kept <-> In z (n_kept (x_gen x2)) \/ z = u /\ found olds info <> None) ->
        matched v olds (mkRunning (x_infos x2 ++ [info]) (mkGen (u :: n_urns (x_gen x2)) kept al') (x_taken x2 ++ [as_taken (found olds info)]))).
      { intros al' Hal kept Hk. destruct M as [M1 M2 M3]. split; cbn [x_infos x_gen x_taken n_kept n_aliased].
        - rewrite map_app, M1. reflexivity.
        - intros z. rewrite Hk, M2. split.
          + intros [[K|(f & K1 & K2 & K3)]|[-> K]]; [now left| |]; right; [exists f; rewrite in_app_iff; auto|exists info; rewrite in_app_iff; cbn; auto].
          + intros [K|(f & K1 & K2 & K3)]; [auto|]. apply in_app_iff in K1 as [K1|[<-|[]]]; [left; right; eauto|right; auto].
        - intros z. rewrite Hal, M3. split.
          + intros [(f & K1 & K2 & K3)|[K1 K2]]; [exists f; rewrite in_app_iff; auto|exists info; rewrite in_app_iff; cbn; auto].
          + intros (f & K1 & K2 & K3). apply in_app_iff in K1 as [K1|[<-|[]]]; [left; eauto|right; auto]. }
      rewrite En in G. rewrite Eg. destruct (found olds info) as [z|] eqn:Ef; cbn [as_taken].
      - destruct (String.eqb_spec z u) as [->|Nz].
        + eexists. split; [reflexivity|]. split; [reflexivity|]. apply G; [intuition congruence|]. cbn. intuition congruence.
        + assert (Nd : dmem (n_aliased (x_gen x2)) z = false).
          { destruct (dmem (n_aliased (x_gen x2)) z) eqn:Ed; [|reflexivity]. exfalso. apply (M_aliased _ _ _ M) in Ed as (f & K1 & K2 & K3).
            rewrite Ei in K1. apply In_nth_error in K1 as (m & K1).
            assert (Lm : (m < List.length (x_infos x1))%nat) by (apply nth_error_Some; congruence).
            assert (m = List.length (x_infos x1)); [|lia]. apply (Hd m (List.length (x_infos x1)) f info z); auto.
            - rewrite Pre, <- app_assoc, nth_error_app1 by auto. exact K1.
            - rewrite Pre, <- app_assoc, nth_error_app2 by auto. rewrite Nat.sub_diag. reflexivity. }
          rewrite Nd. eexists. split; [reflexivity|]. split; [reflexivity|]. apply G.
          * intros y. rewrite dmem_dset. rewrite orb_true_iff, String.eqb_eq. split; [intros [->|K]; auto|intros [K|[[= ->] _]]; auto].
          * cbn. intuition congruence.
      - eexists. split; [reflexivity|]. split; [reflexivity|]. apply G; intuition congruence. }
    destruct Step as (g2 & R2 & U2 & M2).
    edestruct IH as ((more' & K) & x2' & K1 & K2 & K3); [exact E| | |exact M2|exact Hd|]; [cbn; now rewrite Ei|exact U2|].
    split; [rewrite Pre, <- app_assoc; eauto|]. exists x2'. split; [|auto]. cbn [declare_all]. unfold declare. rewrite Ei, Ep. cbn [rbind]. rewrite Ea. cbn [rbind].
    rewrite R2. cbn [rbind]. rewrite <- Ei. exact K1.
Qed.

Lemma found_some olds info u : found olds info = Some u -> In u (goes_by info) /\ In u olds.
Proof.
  intros H. apply find_some in H as [H1 H2]. apply smem_In in H2. split; [|exact H2]. destruct H1 as [H1|H1]; [now left|right]. now apply unique_ok.
Qed.
Lemma found_none olds info u : found olds info = None -> In u (goes_by info) -> ~ In u olds.
Proof.
  intros H K. apply smem_notIn. apply (find_none _ _ H u). destruct K as [K|K]; [now left|right]. now apply unique_ok.
Qed.
Lemma start v olds : matched v olds (mkRunning [] (new_gen v) []).
Proof.
  split; cbn; [reflexivity| |].
  - intros u. split; [intros [<-|[]]; auto|]. intros [->|(info & [] & _)]. auto.
  - intros u. split; [discriminate|]. intros (info & [] & _).
Qed.
Lemma urn_not_stack v v' infos i d info u : proper_env v' -> proper d -> info_ok v infos i d info u -> p_urn info <> stack_urn v'.
Proof.
  intros Hv (_ & _ & N & _) (_ & E & G & _ & T & _) K. apply N. rewrite <- T. rewrite <- (place_type u) by now apply good_is_place.
  rewrite <- E, K. now apply stack_type.
Qed.

Lemma recognised old new before after was s0 r0 r1 :
  proper_env old -> proper_env new -> Forall proper before -> Forall proper after ->
  deploy old s0 before = Ok r0 -> deploy new [] after = Ok r1 ->
  (forall i j d, nth_error after i = Some d -> was i = Some j ->
     exists o u, nth_error before j = Some o /\ nth_error (urns_of r0) j = Some u /\
       comes_from old new before after (urns_of r0) was d o u) ->
  (forall i i' j, (i < List.length after)%nat -> (i' < List.length after)%nat -> was i = Some j -> was i' = Some j -> i = i') ->
  (forall i info j u, nth_error (y_infos r1) i = Some info -> nth_error (urns_of r0) j = Some u ->
     In u (p_urn info :: p_aliases info) -> was i = Some j) ->
  exists r, deploy new (urns_of r0) after = Ok r /\ urns_of r = urns_of r1 /\
    (forall i, (i < List.length after)%nat ->
       match was i with
       | Some j => exists u, nth_error (urns_of r0) j = Some u /\ nth_error (y_taken r) i = Some (Existing u)
       | None => nth_error (y_taken r) i = Some Fresh
       end) /\
    (forall u, In u (y_deleted r) <->
       exists j, nth_error (urns_of r0) j = Some u /\ forall i, (i < List.length after)%nat -> was i <> Some j).
Proof.
  intros Hold Hnew Pb Pa E0 E1 Hw Hi Ha. unfold deploy in E0, E1.
  destruct (declare_all old s0 _ before) as [x0|] eqn:D0; [|discriminate]. injection E0 as <-.
  destruct (declare_all new [] _ after) as [x1|] eqn:D1; [|discriminate]. injection E1 as <-. unfold urns_of in *. cbn [y_infos] in *.
  destruct (declared_ok _ _ _ _ Hold Pb D0) as (L0 & _ & N0 & _ & I0). destruct (declared_ok _ _ _ _ Hnew Pa D1) as (L1 & _ & N1 & _ & I1).
  set (olds := map p_urn (x_infos x0)) in *.
  assert (F : forall i info, nth_error (x_infos x1) i = Some info ->
    match found olds info with
    | Some u => exists j, was i = Some j /\ nth_error olds j = Some u
    | None => was i = None
    end).
  { intros i info K. destruct (found olds info) as [u|] eqn:Ef.
    - apply found_some in Ef as [K1 K2]. apply In_nth_error in K2 as (j & K2). exists j. split; [|exact K2]. eapply Ha; eauto.
    - destruct (was i) as [j|] eqn:Ew; [|reflexivity]. exfalso.
      assert (Li : (i < List.length after)%nat) by (rewrite <- L1; apply nth_error_Some; congruence).
      destruct (nth_error after i) as [d|] eqn:Ed; [|apply nth_error_None in Ed; lia].
      destruct (Hw i j d Ed Ew) as (o & u & K1 & K2 & _).
      eapply (found_none _ _ u Ef); [|eapply nth_error_In; exact K2].
      eapply (old_name old new before after (x_infos x0) (x_infos x1) was); eauto. }
  destruct (simulate new olds after _ _ (mkRunning [] (new_gen new) []) D1) as (_ & x2 & D2 & E2 & M); [reflexivity|reflexivity|apply start| |].
  { intros i i' info info' u K K' F1 F2 _ _. pose proof (F _ _ K) as G1. pose proof (F _ _ K') as G2. rewrite F1 in G1. rewrite F2 in G2.
    destruct G1 as (j & G1 & G3), G2 as (j' & G2 & G4).
    assert (j = j') as <-. { rewrite NoDup_nth_error in N0. apply N0; [apply nth_error_Some; congruence|congruence]. }
    apply (Hi i i' j); auto; rewrite <- L1; apply nth_error_Some; congruence. }
  exists (mkDeployed (x_infos x2) (x_taken x2) (deletes olds (x_gen x2))). unfold deploy. rewrite D2. cbn [rbind y_infos y_taken y_deleted].
  split; [reflexivity|]. split; [now rewrite E2|]. split.
  - intros i Li. destruct (nth_error (x_infos x1) i) as [info|] eqn:Ei; [|apply nth_error_None in Ei; lia].
    pose proof (F i info Ei) as G. rewrite (M_taken _ _ _ M), E2. rewrite (map_nth_error _ _ _ Ei). unfold as_taken.
    destruct (found olds info) as [u|]; [destruct G as (j & -> & K); eauto|now rewrite G].
  - intros u. unfold deletes. rewrite filter_In, <- in_rev, andb_true_iff, !negb_true_iff. split.
    + intros (K & K1 & K2). apply In_nth_error in K as (j & K). exists j. split; [exact K|]. intros i Li Ew.
      destruct (nth_error (x_infos x1) i) as [info|] eqn:Ei; [|apply nth_error_None in Ei; lia]. pose proof (F i info Ei) as G.
      destruct (found olds info) as [u'|] eqn:Ef; [|congruence]. destruct G as (j' & G1 & G2). assert (j' = j) as -> by congruence. assert (u' = u) as -> by congruence.
      destruct (string_dec u (p_urn info)) as [->|Nu].
      * apply smem_notIn in K1. apply K1. apply (M_kept _ _ _ M). right. exists info. rewrite E2, Ef. split; [eapply nth_error_In; eauto|]. split; [reflexivity|discriminate].
      * assert (T : dmem (n_aliased (x_gen x2)) u = true); [|congruence]. apply (M_aliased _ _ _ M). exists info. rewrite E2. split; [eapply nth_error_In; eauto|auto].
    + intros (j & K & Kn). split; [eapply nth_error_In; eauto|]. split.
      * apply smem_notIn. intros Kk. apply (M_kept _ _ _ M) in Kk as [Kk|(info & K1 & K2 & K3)].
        -- assert (Lj : (j < List.length (x_infos x0))%nat) by (rewrite <- (map_length p_urn); apply nth_error_Some; fold olds; congruence).
           destruct (nth_error before j) as [o|] eqn:Eo; [|apply nth_error_None in Eo; lia]. destruct (I0 j o Eo) as (info & w & K1 & K2).
           assert (Po : proper o) by (rewrite Forall_forall in Pb; apply Pb; eapply nth_error_In; eauto).
           apply (urn_not_stack _ new _ _ _ _ _ Hnew Po K2). unfold olds in K. rewrite (map_nth_error p_urn _ _ K1) in K. congruence.
        -- rewrite E2 in K1. apply In_nth_error in K1 as (i & K1). apply (Kn i); [rewrite <- L1; apply nth_error_Some; congruence|].
           eapply Ha; eauto. left. exact K2.
      * destruct (dmem _ u) eqn:Ed; [|reflexivity]. exfalso. apply (M_aliased _ _ _ M) in Ed as (info & K1 & K2 & K3).
        rewrite E2 in K1. apply In_nth_error in K1 as (i & K1). apply (Kn i); [rewrite <- L1; apply nth_error_Some; congruence|].
        apply found_some in K2 as [K2 _]. eapply Ha; eauto.
Qed.

(** The same program again. *)
Lemma keep_urns v olds ds : forall y z, declare_all v olds y ds = Ok z ->
  forall w, In w (map p_urn (x_infos y)) -> In w (map p_urn (x_infos z)).
Proof.
  induction ds as [|d ds IH]; intros y z E w K; cbn [declare_all] in E; [injection E as <-; exact K|].
  destruct (declare v olds y d) as [y'|] eqn:Ey; [|discriminate]. cbn [rbind] in E. apply (IH y' z E).
  unfold declare in Ey. destruct (parent_info_of v (x_infos y) (k_parent d)) as [parent'|]; [|discriminate]. cbn [rbind] in Ey.
  destruct (all_aliases _ _ _ _ _ parent') as [al'|]; [|discriminate]. cbn [rbind] in Ey.
  destruct (register v olds _ _) as [[[g' u'] t']|]; [|discriminate]. cbn [rbind] in Ey. injection Ey as <-. cbn [x_infos]. rewrite map_app, in_app_iff. auto.
Qed.
Lemma keep v s0 olds ds : forall x1 x1' x2,
  declare_all v s0 x1 ds = Ok x1' -> x_infos x2 = x_infos x1 -> n_urns (x_gen x2) = n_urns (x_gen x1) ->
  x_taken x2 = map Existing (map p_urn (x_infos x2)) -> (forall u, In u (map p_urn (x_infos x2)) -> In u (n_kept (x_gen x2))) ->
  (forall u, In u (map p_urn (x_infos x1')) -> In u olds) ->
  exists x2', declare_all v olds x2 ds = Ok x2' /\ x_infos x2' = x_infos x1' /\ x_taken x2' = map Existing (map p_urn (x_infos x1')) /\
    (forall u, In u (map p_urn (x_infos x1')) -> In u (n_kept (x_gen x2'))) /\
    (forall u, In u (map p_urn (x_infos x1)) -> In u (map p_urn (x_infos x1'))).
Proof.
  induction ds as [|d ds IH]; intros x1 x1' x2 E Ei En Et Ek Ho.
  - injection E as <-. exists x2. rewrite <- Ei. auto.
  - cbn [declare_all] in E. destruct (declare v s0 x1 d) as [y1|] eqn:Ey; [|discriminate]. cbn [rbind] in E.
    unfold declare in Ey. destruct (parent_info_of v (x_infos x1) (k_parent d)) as [parent|] eqn:Ep; [|discriminate]. cbn [rbind] in Ey.
    destruct (all_aliases _ _ _ _ _ parent) as [al|] eqn:Ea; [|discriminate]. cbn [rbind] in Ey.
    destruct (register v s0 _ _) as [[[g u] t]|] eqn:Er; [|discriminate]. cbn [rbind] in Ey. injection Ey as <-.
    set (info := mkParent (k_name d) u al) in *. pose proof (register_urn _ _ _ _ _ _ _ Er) as (Eu & Eg & Nu).
    assert (Pre : forall w, In w (map p_urn (x_infos x1 ++ [info])%list) -> In w (map p_urn (x_infos x1'))).
    { exact (keep_urns _ _ _ _ _ E). }
    assert (R2 : register v olds (x_gen x2) (mkDeclared (k_type d) (k_name d) (match parent with Some p => p_urn p | None => stack_urn v end) (unique_aliases al)) =
      Ok (mkGen (u :: n_urns (x_gen x2)) (u :: n_kept (x_gen x2)) (n_aliased (x_gen x2)), u, Existing u)).
    { unfold register in Er |- *. cbn [q_parent q_type q_name q_aliases] in *. rewrite En. destruct (negb _ && negb _) eqn:Ep'; [discriminate|]. rewrite <- Eu in *.
      apply smem_notIn in Nu. rewrite Nu. cbn [find]. assert (S : smem u olds = true).
      { apply smem_In. apply Ho. apply Pre. rewrite map_app, in_app_iff. right. now left. }
      rewrite S, String.eqb_refl. reflexivity. }
    edestruct (IH _ _ (mkRunning (x_infos x2 ++ [info]) (mkGen (u :: n_urns (x_gen x2)) (u :: n_kept (x_gen x2)) (n_aliased (x_gen x2))) (x_taken x2 ++ [Existing u])) E) as (x2' & K1 & K2 & K3 & K4 & K5).
    + cbn. now rewrite Ei.
    + cbn. now rewrite Eg, En.
    + cbn [x_taken x_infos]. now rewrite !map_app, Et.
    + cbn [x_infos x_gen n_kept]. intros w. rewrite map_app, in_app_iff. cbn [map In p_urn info]. intros [K|[<-|[]]]; [right; auto|now left].
    + exact Ho.
    + exists x2'. split; [|split; [exact K2|split; [exact K3|split; [exact K4|]]]].
      * cbn [declare_all]. unfold declare. rewrite Ei, Ep. cbn [rbind]. rewrite Ea. cbn [rbind]. rewrite R2. cbn [rbind]. rewrite <- Ei. exact K1.
      * intros w K. apply Pre. rewrite map_app, in_app_iff. now left.
Qed.
Lemma again v ds s0 r0 : deploy v s0 ds = Ok r0 ->
  exists r, deploy v (urns_of r0) ds = Ok r /\ urns_of r = urns_of r0 /\ y_taken r = map Existing (urns_of r0) /\ y_deleted r = [].
Proof.
  intros E. unfold deploy in E |- *. destruct (declare_all v s0 _ ds) as [x|] eqn:D; [|discriminate]. injection E as <-. unfold urns_of. cbn [y_infos].
  destruct (keep v s0 (map p_urn (x_infos x)) ds _ _ (mkRunning [] (new_gen v) []) D) as (x' & K1 & K2 & K3 & K4 & _); cbn; auto.
  rewrite K1. cbn [rbind]. eexists. split; [reflexivity|]. cbn [y_infos y_taken y_deleted]. rewrite K2, K3. split; [reflexivity|]. split; [reflexivity|].
  unfold deletes. set (us := map p_urn (x_infos x)) in *. destruct (filter _ (rev us)) as [|a l] eqn:F; [reflexivity|].
  exfalso. assert (Q : In a (filter (fun u => negb (smem u (n_kept (x_gen x'))) && negb (dmem (n_aliased (x_gen x')) u)) (rev us))) by (rewrite F; now left).
  apply filter_In in Q as [Q1 Q2]. apply in_rev in Q1. apply K4 in Q1. apply smem_In in Q1. rewrite Q1 in Q2. discriminate.
Qed.
