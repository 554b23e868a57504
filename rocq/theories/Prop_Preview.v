(** C137: previews. *)
From Verif Require Import Base Model_Preview Spec_Preview Proof_Preview.
Open Scope string_scope.
Open Scope list_scope.

Lemma run_ops : forall V b (p : provider V) rec prog ev u o, In (u, o) (run b p rec prog ev) ->
  o <> Delete /\ (o <> Create -> exists e, In e rec /\ e_urn e = u).
Proof.
  intros V b p rec. assert (FI : forall u e l, find_entry (V := V) u l = Some e -> In e l /\ e_urn e = u).
  { intros u e l. induction l as [|x l IH]; cbn; [discriminate|]. destruct (String.eqb u (e_urn x)) eqn:Q.
    - intros E; inversion E; subst. apply String.eqb_eq in Q. auto.
    - intros E. destruct (IH E). auto. }
  induction prog as [|[urn f] prog IH]; intros ev u o H; cbn in H; [destruct H|].
  destruct (f ev) as [c i| |]; eauto. destruct (register b p rec urn c i) as [o' outs] eqn:R. destruct H as [H|H]; [|eauto].
  inversion H; subst. unfold register in R. destruct (find_entry u rec) as [e|] eqn:F.
  - apply FI in F. destruct (differs p c (e_outputs e) _); inversion R; subst; (split; [discriminate | eauto]).
  - inversion R; subst. split; [discriminate | congruence].
Qed.
Lemma run_urns : forall V b (p : provider V) rec prog ev u, In u (map fst (run b p rec prog ev)) -> In u (map fst prog).
Proof.
  intros V b p rec. induction prog as [|[urn f] prog IH]; intros ev u H; cbn in *; auto.
  destruct (f ev) as [c i| |]; eauto. destruct (register b p rec urn c i). cbn in H. destruct H; eauto.
Qed.
Lemma run_once : forall V b (p : provider V) rec prog ev, NoDup (map fst prog) -> NoDup (map fst (run b p rec prog ev)).
Proof.
  intros V b p rec. induction prog as [|[urn f] prog IH]; intros ev ND; cbn; [constructor|].
  inversion ND; subst. destruct (f ev) as [c i| |]; auto. destruct (register b p rec urn c i). cbn. constructor; auto.
  intros H. now apply run_urns in H.
Qed.
Lemma ops_in : forall V b (p : provider V) rec prog u o, In (u, o) (operations b p rec prog) <->
  In (u, o) (run b p rec prog []) \/ (o = Delete /\ (exists e, In e rec /\ e_urn e = u) /\ ~ In u (map fst (run b p rec prog []))).
Proof.
  intros V b p rec prog u o. unfold operations. rewrite in_app_iff, in_map_iff. split.
  - intros [H|[e [E H]]]; auto. inversion E; subst. right. apply filter_In in H as [H1 H2]. rewrite <- in_rev in H1.
    split; auto. split; eauto. intros H. apply Bool.negb_true_iff in H2. apply Bool.not_true_iff_false in H2. apply H2.
    apply existsb_exists. exists (e_urn e). split; auto. apply String.eqb_refl.
  - intros [H|[-> [[e [H1 H2]] H3]]]; auto. right. exists e. subst. split; auto. apply filter_In. split; [now rewrite <- in_rev|].
    apply Bool.negb_true_iff, Bool.not_true_iff_false. intros H. apply existsb_exists in H as [x [A B]].
    apply String.eqb_eq in B. subst. auto.
Qed.

(** C137.  up() does what preview() showed, for a program that does the same once it knows
    more, and a provider that keeps its word.  What is shown as unchanged is not touched.  What is
    shown as created is created.  What is shown as updated is updated, or needs nothing.  What is
    shown as replaced is, or is updated, or needs nothing.  What is deleted was shown as
    deleted.  Everything is shown that concerns a resource that is recorded.  Each resource is shown,
    and treated, once.

    Missing: what is shown as updated may be replaced if the configuration of the provider was not
    known; see the counterexamples for this and for providers that do not keep their word only
    because they have no previews.  And the converse, that what is shown is also done: see
    [C137_refuted_unchanged]. *)
Theorem C137_expected_partial : forall V (p : provider V) recorded prog,
  checks_steadily p -> careful p -> truthful p ->
  (forall urn f, In (urn, f) prog -> steady f /\ definite f) -> NoDup (map fst prog) -> NoDup (map e_urn recorded) ->
  let shown := operations true p recorded prog in
  let done := operations false p recorded prog in
  (forall u, In (u, Same) shown -> In (u, Same) done) /\
  (forall u, In (u, Create) shown -> In (u, Create) done) /\
  (forall u, In (u, Update) shown -> In (u, Same) done \/ In (u, Update) done
     \/ In (u, Replace) done /\ exists f i ev, In (u, f) prog /\ f ev = Declare false i) /\
  (forall u, In (u, Replace) shown -> In (u, Same) done \/ In (u, Update) done \/ In (u, Replace) done) /\
  (forall u, In (u, Delete) done -> In (u, Delete) shown) /\
  (forall u o, In (u, o) done -> o = Create \/ exists s, In (u, s) shown) /\
  NoDup (map fst shown) /\ NoDup (map fst done).
Proof.
  intros V p rec prog CK CA TR PR ND NR shown done.
  assert (R := run_fits V p CK CA TR rec prog [] [] (fun u f H => proj1 (PR u f H)) ND (fun _ _ _ => eq_refl)).
  destruct R as [R _].
  { intros u f x c i H E K. exact (proj2 (PR u f H) x K c i E). }
  { cbn; discriminate. }
  { intros u vw; cbn; discriminate. }
  assert (RS : forall u s, s <> Delete -> In (u, s) shown -> exists b c, In (u, b) done /\ fits c s b /\ (c = true \/ exists f i x, In (u, f) prog /\ f x = Declare false i)).
  { intros u s NE H. apply ops_in in H as [H|[-> _]]; [|congruence]. destruct (R u s H) as [b [c [A [B C]]]].
    exists b, c. split; [apply ops_in; now left|]. auto. }
  assert (SUB : forall u, In u (map fst (run true p rec prog [])) -> In u (map fst (run false p rec prog []))).
  { intros u H. apply in_map_iff in H as [[u' a] [E H]]. cbn in E; subst. destruct (R u a H) as [b [c [A _]]].
    apply in_map_iff. exists (u, b). auto. }
  assert (DEL : forall u, In (u, Delete) done -> In (u, Delete) shown).
  { intros u H. apply ops_in in H as [H|[_ [E N]]]; [apply run_ops in H as [H _]; congruence|].
    apply ops_in. right. split; auto. }
  assert (ONCE : forall b, NoDup (map fst (operations b p rec prog))).
  { intros b. unfold operations. rewrite map_app, map_map. cbn [fst].
    set (l := filter _ _). assert (L : NoDup (map e_urn l) /\ forall u, In u (map e_urn l) -> ~ In u (map fst (run b p rec prog []))).
    { unfold l. split.
      - assert (NV : NoDup (map e_urn (rev rec))) by (rewrite map_rev; now apply NoDup_rev).
        induction (rev rec) as [|e r IH]; cbn; [constructor|]. inversion NV; subst. destruct (negb _); cbn; auto. constructor; auto.
        intros H. apply in_map_iff in H as [e' [E H]]. apply filter_In in H as [H _]. apply H1. rewrite <- E. now apply in_map.
      - intros u H Q. apply in_map_iff in H as [e [E H]]. apply filter_In in H as [_ H]. apply Bool.negb_true_iff in H.
        apply Bool.not_true_iff_false in H. apply H, existsb_exists. exists u. subst. split; auto. apply String.eqb_refl. }
    clearbody l. destruct L as [L1 L2]. pose proof (run_once V b p rec prog [] ND) as RO. revert L2.
    induction (map fst (run b p rec prog [])) as [|x r IH]; cbn; auto. intros L2. inversion RO; subst. constructor.
    - rewrite in_app_iff. intros [H|H]; auto. apply (L2 x H). now left.
    - apply IH; auto. intros u H Q. apply (L2 u H). now right. }
  split; [|split; [|split; [|split; [|split; [exact DEL|split; [|split; apply ONCE]]]]]].
  - intros u H. destruct (RS u Same ltac:(discriminate) H) as [b [c [A [B _]]]]. cbn in B. now subst.
  - intros u H. destruct (RS u Create ltac:(discriminate) H) as [b [c [A [B _]]]]. cbn in B. now subst.
  - intros u H. destruct (RS u Update ltac:(discriminate) H) as [b [c [A [B C]]]]. cbn in B. destruct B as [->|[->|[-> ->]]]; auto.
    destruct C as [C|C]; [discriminate|]. auto.
  - intros u H. destruct (RS u Replace ltac:(discriminate) H) as [b [c [A [B _]]]]. cbn in B. destruct B as [->|[->| ->]]; auto.
  - intros u o H. destruct o; auto; right; try (exists Delete; now apply DEL);
      (destruct (in_dec string_dec u (map fst (run true p rec prog []))) as [I|I];
       [apply in_map_iff in I as [[u' a] [E I]]; cbn in E; subst; exists a; apply ops_in; now left|];
       apply ops_in in H as [H|[E _]]; [|discriminate]; apply run_ops in H as [_ H]; exists Delete; apply ops_in; right;
       split; [reflexivity|]; split; [apply H; discriminate | exact I]).
Qed.
(** So if nothing but unchanged resources is shown, nothing that is recorded is touched. *)
Theorem C137_unchanged_partial : forall V (p : provider V) recorded prog,
  checks_steadily p -> careful p -> truthful p ->
  (forall urn f, In (urn, f) prog -> steady f /\ definite f) -> NoDup (map fst prog) -> NoDup (map e_urn recorded) ->
  (forall u o, In (u, o) (operations true p recorded prog) -> o = Same) ->
  forall u o, In (u, o) (operations false p recorded prog) -> o = Same \/ o = Create /\ forall e, In e recorded -> e_urn e <> u.
Proof.
  intros V p rec prog CK CA TR PR ND NR ALL u o H.
  destruct (C137_expected_partial V p rec prog CK CA TR PR ND NR) as [S [_ [_ [_ [_ [E [_ N]]]]]]].
  assert (EQ : forall s, In (u, s) (operations true p rec prog) -> o = Same).
  { intros s Q. pose proof (ALL u s Q). subst s. apply S in Q. apply In_nth_error in H as [n H], Q as [m Q].
    assert (n = m).
    { apply (proj1 (NoDup_nth_error _) N); [apply nth_error_Some; rewrite nth_error_map, H; discriminate|].
      rewrite !nth_error_map, H, Q. reflexivity. }
    subst. congruence. }
  destruct (E u o H) as [->|[s Q]]; [|left; eauto].
  destruct (in_dec string_dec u (map fst (operations true p rec prog))) as [I|I].
  - apply in_map_iff in I as [[u' s] [X I]]. cbn in X. subst. left. eauto.
  - right. split; auto. intros e He X. apply I.
    destruct (in_dec string_dec u (map fst (run true p rec prog []))) as [J|J].
    + apply in_map_iff in J as [[u' a] [Y J]]. cbn in Y. subst. apply in_map_iff. exists (e_urn e, a). split; auto. apply ops_in. now left.
    + apply in_map_iff. exists (u, Delete). split; auto. apply ops_in. right. split; auto. split; eauto.
Qed.
Print Assumptions C137_expected_partial.
Print Assumptions C137_unchanged_partial.

(* ---------------------------------------------------------------- *)
(** A provider whose resources have their inputs as outputs, and which has no previews. *)
Definition ex_strip (i : inputs nat) : outputs nat := flat_map (fun kv => match snd kv with Some v => [(fst kv, v)] | None => [] end) i.
Definition ex_eq (a b : inputs nat) : {a = b} + {a <> b}.
Proof. decide equality. decide equality; [decide equality; apply PeanoNat.Nat.eq_dec | apply string_dec]. Defined.
Definition ex_provider (shape : outputs nat -> outputs nat) : provider nat :=
  mkProvider (fun _ i => i) (fun o i => if ex_eq (known o) i then Unchanged else Changed)
    (fun i => shape (ex_strip i)) (fun _ i => shape (ex_strip i)) false (fun i => i) (fun _ i => i).
Lemma ex_filled : forall (o : outputs nat) i', filled (known o) i' -> i' = known o.
Proof.
  induction o as [|[k v] o IH]; intros i' H; inversion H; subst; auto. cbn. f_equal. auto.
Qed.
Lemma ex_steadily : forall s, checks_steadily (ex_provider s).
Proof. intros s old i i' H. exact H. Qed.
Lemma ex_careful : forall s, careful (ex_provider s).
Proof.
  intros s o i i' H. cbn. destruct (ex_eq (known o) i) as [<-|N].
  - apply ex_filled in H. subst. split; [|discriminate]. destruct (ex_eq (known o) (known o)); congruence.
  - split; [discriminate|]. destruct (ex_eq (known o) i'); discriminate.
Qed.
Lemma ex_look : forall (i i' : inputs nat) k v, filled i i' -> look k i = Some (Some v) -> look k i' = Some (Some v) /\ look k (ex_strip i') = Some v.
Proof.
  intros i i' k v H. induction H as [|a b i i' H IH|a b i i' H IH|a i i' H IH]; cbn; [discriminate| | |];
    destruct (String.eqb k a) eqn:Q; intros E; try discriminate; auto.
  - inversion E; subst. cbn. rewrite Q. auto.
  - destruct (IH E) as [A B]. split; auto. destruct b; cbn; [rewrite Q|]; auto.
  - destruct (IH E) as [A B]. split; auto. destruct b; cbn; [rewrite Q|]; auto.
Qed.
Lemma ex_truthful : truthful (ex_provider (fun o => o)).
Proof.
  intros old i i' k v o F P E. assert (L : look k i = Some (Some v)) by (inversion P; subst; auto).
  destruct (ex_look i i' k v F L) as [A B]. inversion E; subst; auto.
  cbn in H. destruct (ex_eq (known o) i') as [<-|]; [|discriminate]. rewrite look_known in A. destruct (look k o); cbn in A; congruence.
Qed.

(** A resource, one with an input from an output of it, and one that is declared in an apply on
    another output of it. *)
Definition ex_first : env nat -> decision nat := fun _ => Declare true [("size", Some 1)].
Definition ex_second : env nat -> decision nat := fun ev =>
  match look "first" ev with
  | None => Undecided
  | Some vw => match vw "size" with Value v => Declare true [("of", Some v)] | Unknown => Declare true [("of", None)] | Nothing => Declare true [] end
  end.
Definition ex_inner : env nat -> decision nat := fun ev =>
  match look "first" ev with
  | None => Undecided
  | Some vw => match vw "extra" with Unknown => Undecided | _ => Declare true [("x", Some 7)] end
  end.
Definition ex_program : program nat := [("first", ex_first); ("second", ex_second); ("inner", ex_inner)].
Lemma filled_refl : forall i : inputs nat, filled i i.
Proof. induction i as [|[k v] i IH]; constructor; auto. Qed.
Lemma ex_steady : forall urn f, In (urn, f) ex_program -> steady f /\ definite f.
Proof.
  intros urn f [E|[E|[E|[]]]]; inversion E; subst; clear E.
  - split.
    + intros ev ev' _. split; [discriminate|]. intros c i E. inversion E; subst. do 2 eexists. split; [reflexivity|]. split; auto. apply filled_refl.
    + intros ev _ c i E. inversion E; subst. split; auto. intros k. cbn. destruct (String.eqb k "size"); discriminate.
  - split.
    + intros ev ev' M. unfold ex_second. destruct (look "first" ev) as [vw|] eqn:L; [|split; intros; discriminate].
      destruct (M _ _ L) as [vw' [-> C]]. specialize (C "size"). split; [destruct (vw "size"); discriminate|].
      intros c i E. destruct C as [C|C]; rewrite C in E.
      * inversion E; subst. destruct (vw' "size"); do 2 eexists; (split; [reflexivity|]); (split; [auto|]).
        -- apply filled_refl.
        -- apply left_out, nothing.
        -- apply value, nothing.
      * destruct (vw' "size"); inversion E; subst; do 2 eexists; (split; [reflexivity|]); (split; [auto|]); apply filled_refl.
    + intros ev K c i. unfold ex_second. destruct (@look (view nat) "first" ev) as [vw|] eqn:L; [|discriminate]. intros E.
      specialize (K _ _ L "size"). destruct (vw "size"); [congruence| |]; inversion E; subst; (split; [auto|]); intros k; cbn; [discriminate|].
      destruct (String.eqb k "of"); discriminate.
  - split.
    + intros ev ev' M. unfold ex_inner. destruct (look "first" ev) as [vw|] eqn:L; [|split; intros; discriminate].
      destruct (M _ _ L) as [vw' [-> C]]. specialize (C "extra"). split; [destruct (vw "extra"); discriminate|].
      intros c i E. destruct C as [C|C]; rewrite C in E; [discriminate|].
      destruct (vw' "extra"); inversion E; subst; do 2 eexists; (split; [reflexivity|]); (split; [auto|]); apply filled_refl.
    + intros ev K c i. unfold ex_inner. destruct (@look (view nat) "first" ev) as [vw|] eqn:L; [|discriminate]. intros E.
      specialize (K _ _ L "extra"). destruct (vw "extra"); [congruence| |]; inversion E; subst; (split; [auto|]); intros k; cbn;
        destruct (String.eqb k "x"); discriminate.
Qed.
Lemma ex_once : NoDup (map fst ex_program).
Proof. repeat constructor; cbn; intuition discriminate. Qed.
(** The first resource is new, the second is recorded with another input, and there is one that the
    program does not have. *)
Definition ex_recorded : list (entry nat) :=
  [mkEntry "old" [] []; mkEntry "second" [("of", Some 4)] [("of", 4)]].
Example C137_applies :
  operations true (ex_provider (fun o => o)) ex_recorded ex_program = [("first", Create); ("second", Update); ("old", Delete)]
  /\ operations false (ex_provider (fun o => o)) ex_recorded ex_program = [("first", Create); ("second", Update); ("inner", Create); ("old", Delete)]
  /\ NoDup (map e_urn ex_recorded).
Proof. split; [reflexivity|]. split; [reflexivity|]. repeat constructor; cbn; intuition discriminate. Qed.

(** A stack where nothing changes: the update finds nothing to do.  The preview takes an output that
    is None for one that is not known yet, does not run the apply, and shows the resource in it as
    deleted. *)
Theorem C137_refuted_unchanged : exists V (p : provider V) recorded prog u,
  checks_steadily p /\ careful p /\ truthful p /\ (forall urn f, In (urn, f) prog -> steady f /\ definite f) /\
  NoDup (map fst prog) /\ NoDup (map e_urn recorded) /\
  (forall u o, In (u, o) (operations false p recorded prog) -> o = Same) /\ In (u, Same) (operations false p recorded prog) /\
  In (u, Delete) (operations true p recorded prog).
Proof.
  exists nat, (ex_provider (fun o => o)),
    [mkEntry "first" [("size", Some 1)] [("size", 1)]; mkEntry "second" [("of", Some 1)] [("of", 1)]; mkEntry "inner" [("x", Some 7)] [("x", 7)]], ex_program, "inner".
  split; [apply ex_steadily|]. split; [apply ex_careful|]. split; [apply ex_truthful|]. split; [apply ex_steady|]. split; [apply ex_once|].
  split; [repeat constructor; cbn; intuition discriminate|]. split; [|split; cbn; auto].
  cbn. intros u o [E|[E|[E|[]]]]; congruence.
Qed.

(** If the provider has no previews, the inputs are taken for the outputs of the same names: the
    second resource is shown as unchanged and is updated. *)
Theorem C137_refuted_inputs : exists V (p : provider V) recorded prog u,
  previews p = false /\ checks_steadily p /\ careful p /\ (forall urn f, In (urn, f) prog -> steady f /\ definite f) /\
  NoDup (map fst prog) /\ NoDup (map e_urn recorded) /\
  In (u, Same) (operations true p recorded prog) /\ In (u, Update) (operations false p recorded prog).
Proof.
  exists nat, (ex_provider (map (fun kv => if String.eqb (fst kv) "size" then (fst kv, S (snd kv)) else kv))),
    [mkEntry "second" [("of", Some 1)] [("of", 1)]], ex_program, "second".
  split; [reflexivity|]. split; [apply ex_steadily|]. split; [apply ex_careful|]. split; [apply ex_steady|]. split; [apply ex_once|].
  split; [repeat constructor; cbn; intuition discriminate|]. split; cbn; auto.
Qed.

(** If the configuration of the provider is not known, an update is shown, and the resource is
    replaced. *)
Definition ex_replacer : provider nat :=
  mkProvider (fun _ i => i) (fun _ _ => Needs_replacement) (fun _ => []) (fun _ _ => []) true (fun _ => []) (fun _ _ => []).
Definition ex_using : env nat -> decision nat := fun ev =>
  match look "first" ev with None => Undecided | Some vw => match vw "size" with Unknown => Declare false [] | _ => Declare true [] end end.
Theorem C137_refuted_replaced : exists V (p : provider V) recorded prog u,
  previews p = true /\ checks_steadily p /\ careful p /\ truthful p /\ (forall urn f, In (urn, f) prog -> steady f /\ definite f) /\
  NoDup (map fst prog) /\ NoDup (map e_urn recorded) /\
  In (u, Update) (operations true p recorded prog) /\ In (u, Replace) (operations false p recorded prog).
Proof.
  exists nat, ex_replacer, [mkEntry "second" [] []], [("first", ex_first); ("second", ex_using)], "second".
  split; [reflexivity|]. split; [intros old i i' H; exact H|]. split; [intros o i i' _; cbn; split; discriminate|].
  split. { intros old i i' k v o _ P _. inversion P; subst; cbn in *; discriminate. }
  split. { intros urn f [E|[E|[]]]; inversion E; subst; clear E.
    - apply (ex_steady "first"). now left.
    - split.
      + intros ev ev' M. unfold ex_using. destruct (look "first" ev) as [vw|] eqn:L; [|split; intros; discriminate].
        destruct (M _ _ L) as [vw' [-> C]]. specialize (C "size"). split; [destruct (vw "size"); discriminate|].
        intros c i E. destruct C as [C|C]; rewrite C in E.
        * inversion E; subst. destruct (vw' "size"); do 2 eexists; (split; [reflexivity|]); (split; [discriminate|]); apply filled_refl.
        * destruct (vw' "size"); inversion E; subst; do 2 eexists; (split; [reflexivity|]); (split; [auto|]); apply filled_refl.
      + intros ev K c i. unfold ex_using. destruct (@look (view nat) "first" ev) as [vw|] eqn:L; [|discriminate]. intros E.
        specialize (K _ _ L "size"). destruct (vw "size"); [congruence| |]; inversion E; subst; (split; [auto|]); intros k; discriminate. }
  split; [repeat constructor; cbn; intuition discriminate|]. split; [repeat constructor; cbn; intuition discriminate|]. split; cbn; auto.
Qed.
Print Assumptions C137_refuted_unchanged.
Print Assumptions C137_refuted_inputs.
Print Assumptions C137_refuted_replaced.
