(** Proofs about what updates write down: resources that are recorded exist. *)
From Verif Require Import Base Model_Lock Model_Snapshot Spec_Snapshot Proof_Snapshot.
From Coq Require Import Lia.
Open Scope string_scope.
Open Scope list_scope.
Ltac inv H := inversion H; subst; clear H.

Definition b2n (b : bool) : nat := if b then 1 else 0.
(** Who may delete an old resource, or keeps it; who may drop it, or keeps it. *)
Definition c1 (s : step) (o : nat) : bool := match s with Delete p | Create_replacement p _ true | Same p _ _ | Update p _ => Nat.eqb p o | _ => false end.
Definition c2 (s : step) (o : nat) : bool := match s with Remove_pending_replace p | Create_replacement p _ false | Same p _ _ | Update p _ => Nat.eqb p o | _ => false end.
Fixpoint wt (c : step -> nat -> bool) (o : nat) (l : list step) : nat := match l with [] => 0 | s :: l' => b2n (c s o) + wt c o l' end.
Fixpoint tot (c : step -> nat -> bool) (o : nat) (ts : list thread) : nat := match ts with [] => 0 | t :: ts' => wt c o (fst t) + tot c o ts' end.
Lemma tot_app c o a b : tot c o (a ++ b) = tot c o a + tot c o b.
Proof. induction a as [|t a IH]; cbn; lia. Qed.
Lemma wt_app c o a b : wt c o (a ++ b) = wt c o a + wt c o b.
Proof. induction a as [|t a IH]; cbn; lia. Qed.
Lemma tot_set c o ts : forall i t t', nth_error ts i = Some t -> tot c o (firstn i ts ++ t' :: skipn (S i) ts) + wt c o (fst t) = tot c o ts + wt c o (fst t').
Proof.
  induction ts as [|u ts IH]; intros [|i] t t' E; cbn in E; try discriminate.
  - injection E as ->. cbn. lia.
  - pose proof (IH i t t' E) as H. cbn [firstn app tot]. change (skipn (S (S i)) (u :: ts)) with (skipn (S i) ts). lia.
Qed.
Lemma tot_one c o ts : forall i t, nth_error ts i = Some t -> wt c o (fst t) <= tot c o ts.
Proof. induction ts as [|u ts IH]; intros [|i] t E; cbn in *; try discriminate; [injection E as ->; lia|]. pose proof (IH i t E). lia. Qed.
Lemma tot_two c o ts : forall i j t t', nth_error ts i = Some t -> nth_error ts j = Some t' -> i <> j -> wt c o (fst t) + wt c o (fst t') <= tot c o ts.
Proof.
  induction ts as [|u ts IH]; intros [|i] [|j] t t' E E' N; cbn in *; try discriminate; try contradiction.
  - injection E as ->. pose proof (tot_one c o ts j t' E'). lia.
  - injection E' as ->. pose proof (tot_one c o ts i t E). lia.
  - pose proof (IH i j t t' E E' ltac:(congruence)). lia.
Qed.
Lemma wt_In c o l s : In s l -> c s o = true -> 1 <= wt c o l.
Proof. induction l as [|x l IH]; cbn; [intros []|]. intros [->|I] E; [rewrite E; cbn; lia|]. pose proof (IH I E). lia. Qed.

Definition keeps (s : step) (o : nat) : Prop := (exists n w, s = Same o n w) \/ (exists n, s = Update o n).
Definition removes (s : step) (o : nat) : Prop := s = Delete o \/ exists n, s = Create_replacement o n true.
Lemma keeps_c s o : keeps s o -> c1 s o = true /\ c2 s o = true /\ old_of s = Some o.
Proof. intros [(n & w & ->)|(n & ->)]; cbn; rewrite Nat.eqb_refl; auto. Qed.
Lemma removes_c s o : removes s o -> c1 s o = true /\ old_of s = Some o.
Proof. intros [->|(n & ->)]; cbn; rewrite Nat.eqb_refl; auto. Qed.
Definition y1 (s : step) : option nat := match s with Delete o => Some o | _ => None end.
Lemma y1_c s o : y1 s = Some o -> s = Delete o /\ c1 s o = true.
Proof. destruct s; try discriminate. cbn. intros [= ->]. now rewrite Nat.eqb_refl. Qed.
Lemma old_c s o : old_of s = Some o -> c1 s o = true \/ c2 s o = true.
Proof. destruct s as [|? ? []| | | | |]; cbn; try discriminate; intros [= ->]; rewrite Nat.eqb_refl; auto. Qed.

Section Inv.
  Implicit Types (m : machine) (t : thread).
  Definition live m q : Prop := In q (m_resources m) \/ (In q (m_base m) /\ ~ In q (m_dones m)).
  Definition safe m o : Prop := ~ In o (m_dones m) -> forall p, r_id (m_heap m o) = Some p -> exists_in (m_world m) p \/ r_marked (m_heap m o) = true.
  Definition head2 m (s : step) (ph : phase) : Prop :=
    match ph with
    | Ready => True
    | Begun => match s with Delete o => In (Deleting, o) (m_ops m) /\ (forall p, r_id (m_heap m o) = Some p -> being_deleted (m_saved m) p) /\ safe m o | _ => True end
    | Applied ok _ =>
        match s with
        | Delete o => ok = false -> safe m o
        | Create n | Create_replacement _ n _ => forall p, r_id (m_heap m n) = Some p -> exists_in (m_world m) p /\ forall q, q <> n -> r_id (m_heap m q) <> Some p
        | _ => True
        end
    end.
  Definition TI2 m t : Prop :=
    (forall s o, In s (fst t) -> keeps s o -> ~ In o (m_dones m) /\ forall p, r_id (m_heap m o) = Some p -> exists_in (m_world m) p) /\
    (forall o n, In (Create_replacement o n true) (fst t) -> ~ In (Deleting, o) (m_ops m)) /\
    (forall o, In (Delete o) (waiting t) -> ~ In (Deleting, o) (m_ops m)) /\
    (forall s o, In s (fst t) -> removes s o -> ~ In o (m_completes m)) /\
    (match t with (s :: _, ph) => head2 m s ph | ([], _) => True end).
  Definition W1 m o : nat := tot c1 o (m_threads m) + b2n (has o (m_replaced m)).
  Definition W2 m o : nat := tot c2 o (m_threads m) + b2n (has o (m_condemned m)).
  Definition distinct_ids (l : list rec) : Prop := forall i j r r' p, nth_error l i = Some r -> nth_error l j = Some r' -> r_id r = Some p -> r_id r' = Some p -> i = j.
  Record Inv2 m : Prop := {
    w_mem : forall q p, live m q -> r_id (m_heap m q) = Some p -> exists_in (m_world m) p \/ (In (Deleting, q) (m_ops m) /\ ~ In q (m_completes m)) \/ r_marked (m_heap m q) = true;
    w_saved : forall r p, In r (fst (m_saved m)) -> r_id r = Some p -> exists_in (m_world m) p \/ being_deleted (m_saved m) p \/ r_marked r = true;
    w_ids : forall q q' p, In q (m_base m) -> In q' (m_base m) -> r_id (m_heap m q) = Some p -> r_id (m_heap m q') = Some p -> q = q';
    w_new : forall n p, In n (m_resources m) -> r_id (m_heap m n) = Some p -> (exists o, In o (m_base m) /\ r_id (m_heap m o) = Some p /\ In o (m_dones m) /\ W1 m o = 0) \/ (forall o, In o (m_base m) -> r_id (m_heap m o) <> Some p);
    w_w : forall o, W1 m o <= 1 /\ W2 m o <= 1 /\ (~ In o (m_touched m) -> W1 m o = 0 /\ W2 m o = 0);
    w_dones : forall q, In q (m_dones m) -> In q (m_touched m);
    w_del : forall q, In (Deleting, q) (m_ops m) -> In q (m_touched m);
    w_comp : forall q, In q (m_completes m) -> In q (m_base m) -> In q (m_touched m);
    w_repl : forall q, In q (m_replaced m) -> (r_marked (m_heap m q) = true -> In q (m_dones m)) /\ ~ In (Deleting, q) (m_ops m) /\ ~ In q (m_completes m);
    w_live : forall q q' p, live m q -> live m q' -> r_id (m_heap m q) = Some p -> r_id (m_heap m q') = Some p -> q = q';
    w_nodup : NoDup (m_resources m ++ m_base m);
    w_sids : distinct_ids (fst (m_saved m));
    w_threads : forall i t, nth_error (m_threads m) i = Some t -> TI2 m t }.

  Record quiet2 m m' (x : nat) (u v : option nat) : Prop := {
    z_base : m_base m' = m_base m;
    z_ids : forall q, In q (m_base m) -> r_id (m_heap m' q) = r_id (m_heap m q);
    z_marks : forall q, In q (m_touched m) -> r_marked (m_heap m q) = true -> r_marked (m_heap m' q) = true \/ In q (m_replaced m);
    z_dones : forall o, In o (m_dones m') -> In o (m_dones m) \/ v = Some o;
    z_dones' : incl (m_dones m) (m_dones m');
    z_ops : forall o, In (Deleting, o) (m_ops m') -> In (Deleting, o) (m_ops m) \/ u = Some o;
    z_ops' : incl (m_ops m) (m_ops m');
    z_comp : forall o, In o (m_base m) -> In o (m_completes m') -> In o (m_completes m) \/ u = Some o;
    z_world : forall p, exists_in (m_world m) p -> exists_in (m_world m') p \/ exists o, u = Some o /\ In o (m_base m) /\ r_id (m_heap m o) = Some p;
    z_heap : forall q p, r_id (m_heap m' q) = Some p -> r_id (m_heap m q) = Some p \/ p = m_id m \/ exists o, In o (m_base m) /\ r_id (m_heap m o) = Some p;
    z_news : forall n, n < m_next m -> n <> x -> r_id (m_heap m' n) = r_id (m_heap m n);
    z_saved : m_saved m' = m_saved m \/ m_saved m' = snap m' }.
  Lemma quiet2_safe m m' x u v o : quiet2 m m' x u v -> Inv2 m -> In o (m_base m) -> In o (m_touched m) -> ~ In o (m_replaced m) -> u <> Some o -> safe m o -> safe m' o.
  Proof using.
    intros Z V B T R U S N p E. rewrite (z_ids _ _ _ _ _ Z o B) in E. destruct (S (fun Y => N (z_dones' _ _ _ _ _ Z o Y)) p E) as [W|M].
    - destruct (z_world _ _ _ _ _ Z p W) as [W'|(o' & -> & B' & E')]; [now left|]. exfalso. apply U. f_equal. exact (w_ids m V o' o p B' B E' E).
    - right. destruct (z_marks _ _ _ _ _ Z o T M); [assumption|contradiction].
  Qed.
  Lemma noted m o : In (Deleting, o) (m_ops m) -> ~ In o (m_completes m) -> forall p, r_id (m_heap m o) = Some p -> being_deleted (snap m) p.
  Proof using.
    intros O C p E. exists (m_heap m o). split; [|exact E]. cbn [snap snd]. apply in_or_app. left. apply in_map_iff. exists (Deleting, o). split; [reflexivity|]. apply filter_In. split; [exact O|]. apply has_not in C. cbn. now rewrite C.
  Qed.
  (** Chains that are not worked on. *)
  Lemma quiet2_TI2 m m' x u v t : quiet2 m m' x u v -> Inv m -> Inv2 m -> TI m t ->
    (forall s, In s (fst t) -> new_of s <> Some x) -> (forall s o, In s (fst t) -> removes s o -> u <> Some o /\ ~ In o (m_replaced m)) -> (forall s o, In s (fst t) -> keeps s o -> u <> Some o /\ v <> Some o) ->
    TI2 m t -> TI2 m' t.
  Proof using.
    intros Z V0 V T Nx Nr Nk (A & B & C & D & H). pose proof T as (_ & T2 & T3 & _). assert (W : forall s, In s (waiting t) -> In s (fst t)) by (intros s I; destruct t as [[|s0 l] [| |]]; cbn in *; auto).
    split; [|split; [|split; [|split]]].
    - intros s o I K. destruct (keeps_c s o K) as (_ & _ & Eo). destruct (T3 s o I Eo) as [Bo _]. destruct (Nk s o I K) as [U1 U2]. destruct (A s o I K) as [A1 A2]. split.
      + intros Y. destruct (z_dones _ _ _ _ _ Z o Y); contradiction.
      + intros p E. rewrite (z_ids _ _ _ _ _ Z o Bo) in E. destruct (z_world _ _ _ _ _ Z p (A2 p E)) as [W'|(o' & -> & B' & E')]; [exact W'|]. exfalso. apply U1. f_equal. exact (w_ids m V o' o p B' Bo E' E).
    - intros o n I Y. destruct (z_ops _ _ _ _ _ Z o Y) as [Y'|Y']; [exact (B o n I Y')|]. exact (proj1 (Nr _ o I (or_intror (ex_intro _ n eq_refl))) Y').
    - intros o I Y. destruct (z_ops _ _ _ _ _ Z o Y) as [Y'|Y']; [exact (C o I Y')|]. exact (proj1 (Nr _ o (W _ I) (or_introl eq_refl)) Y').
    - intros s o I R Y. destruct (T3 s o I (proj2 (removes_c s o R))) as [Bo _]. destruct (z_comp _ _ _ _ _ Z o Bo Y) as [Y'|Y']; [exact (D s o I R Y')|exact (proj1 (Nr s o I R) Y')].
    - destruct t as [[|s l] ph]; [exact I|]. destruct ph as [| |ok go]; [exact I| |]; cbn [head2] in *.
      + destruct s; auto. destruct H as (H1 & H2 & H3). rename old into o. assert (R : removes (Delete o) o) by now left. destruct (T3 _ o (or_introl eq_refl) eq_refl) as [Bo To]. destruct (Nr _ o (or_introl eq_refl) R) as [Uo Ro].
        split; [exact (z_ops' _ _ _ _ _ Z _ H1)|]. split; [|exact (quiet2_safe m m' x u v o Z V Bo To Ro Uo H3)].
        destruct (z_saved _ _ _ _ _ Z) as [->| ->]; [intros p E; apply H2; now rewrite <- (z_ids _ _ _ _ _ Z o Bo)|]. apply noted; [exact (z_ops' _ _ _ _ _ Z _ H1)|].
        intros Y. destruct (z_comp _ _ _ _ _ Z o Bo Y) as [Y'|Y']; [exact (D _ o (or_introl eq_refl) R Y')|contradiction].
      + assert (Cr : forall n, new_of s = Some n -> (forall p, r_id (m_heap m n) = Some p -> exists_in (m_world m) p /\ forall q, q <> n -> r_id (m_heap m q) <> Some p) -> forall p, r_id (m_heap m' n) = Some p -> exists_in (m_world m') p /\ forall q, q <> n -> r_id (m_heap m' q) <> Some p).
        { intros n En G p E. destruct (T2 s n (or_introl eq_refl) En) as (Ln & Nb & _). rewrite (z_news _ _ _ _ _ Z n Ln) in E by (intros ->; exact (Nx s (or_introl eq_refl) En)). destruct (G p E) as [G1 G2]. split.
          - destruct (z_world _ _ _ _ _ Z p G1) as [W'|(o' & _ & B' & E')]; [exact W'|]. exfalso. apply (G2 o'); [congruence|exact E'].
          - intros q X E'. destruct (z_heap _ _ _ _ _ Z q p E') as [F|[F|(o' & B' & F)]]; [exact (G2 q X F)|pose proof (v_heap m V0 n p E); lia|apply (G2 o'); [congruence|exact F]]. }
        destruct s; auto. rename old into o. intros Ok. destruct (T3 _ o (or_introl eq_refl) eq_refl) as [Bo To]. destruct (Nr _ o (or_introl eq_refl) (or_introl eq_refl)) as [Uo Ro]. exact (quiet2_safe m m' x u v o Z V Bo To Ro Uo (H Ok)).
  Qed.
  Lemma clash_other m i j t t' s s' o : Inv2 m -> nth_error (m_threads m) i = Some t -> nth_error (m_threads m) j = Some t' -> j <> i -> In s (fst t) -> In s' (fst t') ->
    (c1 s o = true -> c1 s' o = true -> False) /\ (c2 s o = true -> c2 s' o = true -> False).
  Proof using.
    intros V E E' N I I'. destruct (w_w m V o) as (A & B & _). unfold W1, W2 in *. split; intros F G.
    - pose proof (wt_In c1 o _ _ I F). pose proof (wt_In c1 o _ _ I' G). pose proof (tot_two c1 o _ j i t' t E' E N). lia.
    - pose proof (wt_In c2 o _ _ I F). pose proof (wt_In c2 o _ _ I' G). pose proof (tot_two c2 o _ j i t' t E' E N). lia.
  Qed.
  Lemma clash_rest m i s rest ph s' o : Inv2 m -> nth_error (m_threads m) i = Some (s :: rest, ph) -> In s' rest -> (c1 s o = true -> c1 s' o = true -> False) /\ (c2 s o = true -> c2 s' o = true -> False).
  Proof using.
    intros V E I. destruct (w_w m V o) as (A & B & _). unfold W1, W2 in *. split; intros F G.
    - pose proof (wt_In c1 o _ _ I G). pose proof (tot_one c1 o _ i _ E) as H'. cbn [fst wt] in H'. rewrite F in H'. cbn in H'. lia.
    - pose proof (wt_In c2 o _ _ I G). pose proof (tot_one c2 o _ i _ E) as H'. cbn [fst wt] in H'. rewrite F in H'. cbn in H'. lia.
  Qed.
  Lemma not_replaced m i t s o : Inv2 m -> nth_error (m_threads m) i = Some t -> In s (fst t) -> c1 s o = true -> ~ In o (m_replaced m).
  Proof using.
    intros V E I C R. destruct (w_w m V o) as (A & _). unfold W1 in A. apply has_In in R. rewrite R in A. pose proof (wt_In c1 o _ _ I C). pose proof (tot_one c1 o _ i t E). cbn in A. lia.
  Qed.
  Lemma apart s s' o : ((c1 s o = true -> c1 s' o = true -> False) /\ (c2 s o = true -> c2 s' o = true -> False)) ->
    (removes s' o -> y1 s <> Some o) /\ (keeps s' o -> y1 s <> Some o /\ old_of s <> Some o).
  Proof using.
    intros [A B]. split.
    - intros R Y. apply y1_c in Y as [_ Y]. exact (A Y (proj1 (removes_c s' o R))).
    - intros K. destruct (keeps_c s' o K) as (K1 & K2 & _). split; intros Y; [apply y1_c in Y as [_ Y]; auto|]. apply old_c in Y as [Y|Y]; auto.
  Qed.
  Lemma threads2_set m m' i t t0 s : Inv m -> Inv2 m -> nth_error (m_threads m) i = Some t0 -> In s (fst t0) -> m_threads m' = m_threads m -> quiet2 m m' (ptr m s) (y1 s) (old_of s) -> TI2 m' t ->
    forall j t', nth_error (m_threads (set_thread m' i t)) j = Some t' -> TI2 (set_thread m' i t) t'.
  Proof using.
    intros V0 V E0 I Et Z T j t' A. assert (N : nth_error (m_threads (set_thread m' i t)) j = if Nat.eqb j i then Some t else nth_error (m_threads m) j).
    { cbn [set_thread set_threads m_threads]. rewrite Et. apply nth_set. exact (nth_lt _ _ _ E0). }
    rewrite N in A. clear N. destruct (Nat.eqb_spec j i) as [->|Nj]; [injection A as <-; exact T|]. change (TI2 m' t').
    apply (quiet2_TI2 m m' (ptr m s) (y1 s) (old_of s)); auto; [exact (v_threads m V0 _ _ A)| | | |exact (w_threads m V _ _ A)].
    - intros s' I'. exact (other_ne m i j t0 t' s s' V0 E0 A Nj I I').
    - intros s' o I' R. split; [exact (proj1 (apart s s' o (clash_other m i j t0 t' s s' o V E0 A Nj I I')) R)|]. exact (not_replaced m j t' s' o V A I' (proj1 (removes_c s' o R))).
    - intros s' o I' K. exact (proj2 (apart s s' o (clash_other m i j t0 t' s s' o V E0 A Nj I I')) K).
  Qed.
  (** The chain that begins or applies a step. *)
  Lemma own2 m m' i s rest ph ph' : quiet2 m m' (ptr m s) (y1 s) None -> Inv m -> Inv2 m -> nth_error (m_threads m) i = Some (s :: rest, ph) ->
    m_completes m' = m_completes m -> ph' <> Ready -> head2 m' s ph' -> TI2 m' (s :: rest, ph').
  Proof using.
    intros Z V0 V E Ec Np H. pose proof (v_threads m V0 _ _ E) as (_ & T2 & T3 & _). pose proof (w_threads m V _ _ E) as (A & B & C & D & _). cbn [fst] in *.
    assert (Wr : waiting (s :: rest, ph') = rest) by (destruct ph'; [contradiction|reflexivity|reflexivity]).
    split; [|split; [|split; [|split; [|exact H]]]]; cbn [fst].
    - intros s' o I K. destruct (T3 s' o I (proj2 (proj2 (keeps_c s' o K)))) as [Bo _]. destruct (A s' o I K) as [A1 A2]. split; [intros Y; destruct (z_dones _ _ _ _ _ Z o Y) as [|]; [contradiction|discriminate]|].
      intros p Ep. rewrite (z_ids _ _ _ _ _ Z o Bo) in Ep. destruct (z_world _ _ _ _ _ Z p (A2 p Ep)) as [W'|(o' & Y & B' & E')]; [exact W'|]. exfalso. pose proof (w_ids m V o' o p B' Bo E' Ep) as ->.
      destruct (y1_c s o Y) as [-> Yc]. destruct I as [<-|I]; [destruct K as [(? & ? & ?)|(? & ?)]; discriminate|]. exact (proj1 (clash_rest m i _ rest ph s' o V E I) Yc (proj1 (keeps_c s' o K))).
    - intros o n I Y. destruct (z_ops _ _ _ _ _ Z o Y) as [Y'|Y']; [exact (B o n I Y')|]. destruct (y1_c s o Y') as [-> Yc]. destruct I as [[=]|I].
      apply (proj1 (clash_rest m i _ rest ph _ o V E I) Yc). cbn. apply Nat.eqb_refl.
    - rewrite Wr. intros o I Y. destruct (z_ops _ _ _ _ _ Z o Y) as [Y'|Y']; [apply (C o); [destruct ph; cbn; auto|exact Y']|]. destruct (y1_c s o Y') as [-> Yc].
      apply (proj1 (clash_rest m i _ rest ph _ o V E I) Yc). cbn. apply Nat.eqb_refl.
    - intros s' o I R. rewrite Ec. exact (D s' o I R).
  Qed.
  (** The chain that ends a step. *)
  Lemma tail2 m m' i s rest ok go : quiet2 m m' (ptr m s) (y1 s) (old_of s) -> Inv m -> Inv2 m -> nth_error (m_threads m) i = Some (s :: rest, Applied ok go) -> TI2 m' (rest, Ready).
  Proof using.
    intros Z V0 V E. pose proof (v_threads m V0 _ _ E) as (_ & T2 & T3 & _). pose proof (w_threads m V _ _ E) as (A & B & C & D & _). cbn [fst waiting] in *.
    split; [|split; [|split; [|split]]]; cbn [fst].
    - intros s' o I K. destruct (T3 s' o (or_intror I) (proj2 (proj2 (keeps_c s' o K)))) as [Bo _]. destruct (A s' o (or_intror I) K) as [A1 A2]. destruct (proj2 (apart s s' o (clash_rest m i s rest _ s' o V E I)) K) as [U1 U2].
      split; [intros Y; destruct (z_dones _ _ _ _ _ Z o Y) as [|]; contradiction|]. intros p Ep. rewrite (z_ids _ _ _ _ _ Z o Bo) in Ep. destruct (z_world _ _ _ _ _ Z p (A2 p Ep)) as [W'|(o' & Y & B' & E')]; [exact W'|].
      exfalso. apply U1. rewrite Y. f_equal. exact (w_ids m V o' o p B' Bo E' Ep).
    - intros o n I Y. destruct (z_ops _ _ _ _ _ Z o Y) as [Y'|Y']; [exact (B o n (or_intror I) Y')|]. exact (proj1 (apart s _ o (clash_rest m i s rest _ _ o V E I)) (or_intror (ex_intro _ n eq_refl)) Y').
    - intros o I0 Y. assert (I : In (Delete o) rest) by (destruct rest; exact I0). destruct (z_ops _ _ _ _ _ Z o Y) as [Y'|Y']; [exact (C o I Y')|]. exact (proj1 (apart s _ o (clash_rest m i s rest _ _ o V E I)) (or_introl eq_refl) Y').
    - intros s' o I R Y. destruct (T3 s' o (or_intror I) (proj2 (removes_c s' o R))) as [Bo _]. destruct (z_comp _ _ _ _ _ Z o Bo Y) as [Y'|Y']; [exact (D s' o (or_intror I) R Y')|]. exact (proj1 (apart s _ o (clash_rest m i s rest _ _ o V E I)) R Y').
    - destruct rest; exact I.
  Qed.
  Lemma stop2 m : TI2 m ([], Ready).
  Proof using. split; [intros ? ? []|]. split; [intros ? ? []|]. split; [intros ? []|]. split; [intros ? ? []|exact I]. Qed.

  Lemma nodup_filter (f : nat -> bool) b : forall a, NoDup (a ++ b) -> NoDup (a ++ filter f b).
  Proof using.
    induction a as [|x a IH]; cbn; [apply NoDup_filter|]. intros N. inv N. constructor; [|auto]. intros I. apply H1. apply in_or_app. apply in_app_or in I as [I|I]; [now left|right]. now apply filter_In in I as [I _].
  Qed.
  Lemma live_In m q : In q (m_resources m ++ filter (fun p => negb (has p (m_dones m))) (m_base m)) -> live m q.
  Proof using. intros I. apply in_app_or in I as [I|I]; [now left|right]. apply filter_In in I as [I N]. split; [exact I|]. apply has_not. now destruct (has q (m_dones m)). Qed.
  Lemma snap_saved m : (forall q p, live m q -> r_id (m_heap m q) = Some p -> exists_in (m_world m) p \/ (In (Deleting, q) (m_ops m) /\ ~ In q (m_completes m)) \/ r_marked (m_heap m q) = true) ->
    forall r p, In r (fst (snap m)) -> r_id r = Some p -> exists_in (m_world m) p \/ being_deleted (snap m) p \/ r_marked r = true.
  Proof using.
    intros M r p I E. cbn [snap fst] in I. apply in_map_iff in I as (q & <- & I). destruct (M q p (live_In m q I) E) as [A|[[A B]|A]]; auto. right; left. exact (noted m q A B p E).
  Qed.
  Lemma nth_map {A B} (f : A -> B) l i y : nth_error (map f l) i = Some y -> exists x, nth_error l i = Some x /\ y = f x.
  Proof using. revert i. induction l as [|a l IH]; intros [|i] E; cbn in *; try discriminate; [injection E as <-; now exists a|auto]. Qed.
  Lemma snap_ids m : (forall q q' p, live m q -> live m q' -> r_id (m_heap m q) = Some p -> r_id (m_heap m q') = Some p -> q = q') -> NoDup (m_resources m ++ m_base m) -> distinct_ids (fst (snap m)).
  Proof using.
    intros L N i j r r' p A B E E'. cbn [snap fst] in *. apply nth_map in A as (q & A & ->), B as (q' & B & ->).
    assert (q = q') by (apply (L q q' p); auto; apply live_In; eapply nth_error_In; eassumption). subst q'. apply (nodup_filter (fun p => negb (has p (m_dones m)))) in N. rewrite NoDup_nth_error in N. apply N; [exact (nth_lt _ _ _ A)|congruence].
  Qed.
  Lemma W1_set m m' i t0 t o : nth_error (m_threads m) i = Some t0 -> m_threads m' = m_threads m -> W1 (set_thread m' i t) o + wt c1 o (fst t0) + b2n (has o (m_replaced m)) = W1 m o + wt c1 o (fst t) + b2n (has o (m_replaced m')).
  Proof using. intros E Et. unfold W1. cbn [set_thread set_threads m_threads m_replaced]. rewrite Et. pose proof (tot_set c1 o _ i t0 t E). lia. Qed.
  Lemma W2_set m m' i t0 t o : nth_error (m_threads m) i = Some t0 -> m_threads m' = m_threads m -> m_condemned m' = m_condemned m -> W2 (set_thread m' i t) o + wt c2 o (fst t0) = W2 m o + wt c2 o (fst t).
  Proof using. intros E Et Ec. unfold W2. cbn [set_thread set_threads m_threads m_condemned]. rewrite Et, Ec. pose proof (tot_set c2 o _ i t0 t E). lia. Qed.
  (** Weights go down. *)
  Lemma ww_set m m' i t0 t : Inv2 m -> nth_error (m_threads m) i = Some t0 -> m_threads m' = m_threads m -> m_condemned m' = m_condemned m -> m_touched m' = m_touched m ->
    (forall o, wt c1 o (fst t) + b2n (has o (m_replaced m')) <= wt c1 o (fst t0) + b2n (has o (m_replaced m))) -> (forall o, wt c2 o (fst t) <= wt c2 o (fst t0)) ->
    (forall o, W1 (set_thread m' i t) o <= W1 m o) /\
    forall o, W1 (set_thread m' i t) o <= 1 /\ W2 (set_thread m' i t) o <= 1 /\ (~ In o (m_touched (set_thread m' i t)) -> W1 (set_thread m' i t) o = 0 /\ W2 (set_thread m' i t) o = 0).
  Proof using.
    intros V E Et Ec Eh H1 H2. assert (L : forall o, W1 (set_thread m' i t) o <= W1 m o) by (intros o; pose proof (W1_set m m' i t0 t o E Et); specialize (H1 o); lia).
    split; [exact L|]. intros o. pose proof (L o). pose proof (W2_set m m' i t0 t o E Et Ec). specialize (H2 o). destruct (w_w m V o) as (A & B & C). split; [lia|]. split; [lia|].
    cbn [set_thread set_threads m_touched]. rewrite Eh. intros N. destruct (C N) as [C1 C2]. lia.
  Qed.

  Lemma begin_inv2 m i r : Inv m -> Inv2 m -> Inv2 (react m (Begin i r)).
  Proof using.
    intros V0 V. cbn [react]. destruct (nth_error (m_threads m) i) as [[[|s rest] [| |]]|] eqn:E; try exact V. pose proof (v_threads m V0 _ _ E) as T. pose proof (w_threads m V _ _ E) as TT. unfold begin_step.
    destruct (pending_of s) as [[k p]|] eqn:P.
    - pose (m' := save (mark_pending m k p) r). fold m'.
      assert (So : m_saved m' = m_saved m \/ m_saved m' = snap m') by (subst m'; unfold save; destruct (performed r); [right|left]; reflexivity).
      assert (Po : forall o, In (Deleting, o) (m_ops m') -> In (Deleting, o) (m_ops m) \/ y1 s = Some o).
      { intros o I. cbn in I. apply in_app_or in I as [I|[I|[]]]; [now left|right]. destruct s; cbn in *; inv P; try discriminate. congruence. }
      assert (Q : forall v, quiet2 m m' (ptr m s) (y1 s) v).
      { intros v. constructor; try (cbn; auto; fail); try apply incl_refl; try exact So; try exact Po. cbn. apply incl_appl, incl_refl. }
      assert (Mem : forall q p, live m' q -> r_id (m_heap m' q) = Some p -> exists_in (m_world m') p \/ (In (Deleting, q) (m_ops m') /\ ~ In q (m_completes m')) \/ r_marked (m_heap m' q) = true).
      { intros q p' L Ep. destruct (w_mem m V q p' L Ep) as [A|[[A B]|A]]; auto. right; left. split; [cbn; apply in_or_app; now left|exact B]. }
      assert (Ti : TI2 m' (if fine r then (s :: rest, Begun) else ([], Ready))).
      { destruct r as [|b]; cbn [fine]; [|apply stop2]. apply (own2 m m' i s rest Ready); auto; [discriminate|]. destruct s as [|? ? ?| | |o| |]; cbn [head2]; try exact I. cbn in P. inv P.
        assert (Io : In (Deleting, p) (m_ops m')) by (cbn; apply in_or_app; right; now left).
        destruct TT as (_ & _ & C & D & _). pose proof (D _ p (or_introl eq_refl) (or_introl eq_refl)) as Nc. pose proof (C p (or_introl eq_refl)) as No. destruct T as (_ & _ & T3 & _). destruct (T3 _ p (or_introl eq_refl) eq_refl) as [Bp _].
        split; [exact Io|]. split; [exact (noted m' p Io Nc)|]. intros Nd p' Ep. destruct (w_mem m V p p' (or_intror (conj Bp Nd)) Ep) as [A|[[A _]|A]]; [now left|contradiction|now right]. }
      destruct (ww_set m m' i _ (if fine r then (s :: rest, Begun) else ([], Ready)) V E eq_refl eq_refl eq_refl) as [W0 WW]; [intros o; destruct (fine r); cbn [fst wt]; change (m_replaced m') with (m_replaced m); lia|intros o; destruct (fine r); cbn [fst wt]; lia|].
      pose proof (threads2_set m m' i _ _ s V0 V E (or_introl eq_refl) eq_refl (Q _) Ti) as Th.
      constructor; try exact Mem; try exact WW; try exact Th; try (destruct V; assumption).
      + change (forall r0 p, In r0 (fst (m_saved m')) -> r_id r0 = Some p -> exists_in (m_world m') p \/ being_deleted (m_saved m') p \/ r_marked r0 = true). destruct So as [-> | ->]; [exact (w_saved m V)|exact (snap_saved m' Mem)].
      + intros n p' I Ep. destruct (w_new m V n p' I Ep) as [(o & A & B & C & D)|A]; [left; exists o; specialize (W0 o); repeat split; auto; lia|now right].
      + intros q I. destruct (Po q I) as [A|A]; [exact (w_del m V q A)|]. destruct (y1_c s q A) as [-> _]. destruct T as (_ & _ & T3 & _). exact (proj2 (T3 _ q (or_introl eq_refl) eq_refl)).
      + intros q I. destruct (w_repl m V q I) as (A & B & C). split; [exact A|]. split; [|exact C]. intros Y. destruct (Po q Y) as [Y'|Y']; [contradiction|]. destruct (y1_c s q Y') as [_ Yc]. exact (not_replaced m i _ s q V E (or_introl eq_refl) Yc I).
      + change (distinct_ids (fst (m_saved m'))). destruct So as [-> | ->]; [exact (w_sids m V)|exact (snap_ids m' (w_live m V) (w_nodup m V))].
    - assert (Q : forall v, quiet2 m m (ptr m s) (y1 s) v) by (intros v; constructor; auto using incl_refl).
      assert (Ti : TI2 m (s :: rest, Begun)) by (apply (own2 m m i s rest Ready); auto; [discriminate|]; destruct s; cbn in P; try discriminate; exact I).
      destruct (ww_set m m i _ (s :: rest, Begun) V E eq_refl eq_refl eq_refl) as [W0 WW]; [auto|auto|].
      pose proof (threads2_set m m i _ _ s V0 V E (or_introl eq_refl) eq_refl (Q _) Ti) as Th.
      constructor; try exact WW; try exact Th; try (destruct V; assumption).
      intros n p' I Ep. destruct (w_new m V n p' I Ep) as [(o & A & B & C & D)|A]; [left; exists o; specialize (W0 o); repeat split; auto; lia|now right].
  Qed.

  Lemma applied2 m i s rest ok go w id' h : Inv m -> Inv2 m -> nth_error (m_threads m) i = Some (s :: rest, Begun) ->
    (forall v, quiet2 m (set_world m w id' h) (ptr m s) (y1 s) v) -> head2 (set_world m w id' h) s (Applied ok go) ->
    (forall q, In q (m_base m) \/ In q (m_resources m) -> h q = m_heap m q) ->
    (forall q p, live m q -> r_id (m_heap m q) = Some p -> exists_in (m_world m) p -> exists_in w p \/ (In (Deleting, q) (m_ops m) /\ ~ In q (m_completes m))) ->
    (forall p, exists_in (m_world m) p -> exists_in w p \/ being_deleted (m_saved m) p) ->
    Inv2 (set_thread (set_world m w id' h) i (s :: rest, Applied ok go)).
  Proof using.
    intros V0 V E Q H Hh Wm Ws. pose (m' := set_world m w id' h). fold m' in Q, H |- *.
    assert (Lh : forall q, live m q -> h q = m_heap m q) by (intros q [A|[A _]]; auto).
    assert (Ti : TI2 m' (s :: rest, Applied ok go)) by (apply (own2 m m' i s rest Begun); auto; discriminate).
    destruct (ww_set m m' i _ (s :: rest, Applied ok go) V E eq_refl eq_refl eq_refl) as [W0 WW]; [auto|auto|].
    pose proof (threads2_set m m' i _ _ s V0 V E (or_introl eq_refl) eq_refl (Q _) Ti) as Th.
    constructor; try exact WW; try exact Th; try (destruct V; assumption).
    - intros q p L Ep. change (r_id (h q) = Some p) in Ep. change (exists_in w p \/ (In (Deleting, q) (m_ops m) /\ ~ In q (m_completes m)) \/ r_marked (h q) = true). rewrite (Lh q L) in *. destruct (w_mem m V q p L Ep) as [A|[A|A]]; auto. destruct (Wm q p L Ep A); auto.
    - intros r p I Ep. change (exists_in w p \/ being_deleted (m_saved m) p \/ r_marked r = true). destruct (w_saved m V r p I Ep) as [A|[A|A]]; auto. destruct (Ws p A); auto.
    - intros q q' p B B'. change (r_id (h q) = Some p -> r_id (h q') = Some p -> q = q'). rewrite !Hh by auto. exact (w_ids m V q q' p B B').
    - intros n p I Ep. change (r_id (h n) = Some p) in Ep. rewrite Hh in Ep by auto. destruct (w_new m V n p I Ep) as [(o & A & B & C & D)|A]; [left; exists o; specialize (W0 o)|right].
      + split; [exact A|]. split; [change (r_id (h o) = Some p); rewrite Hh by auto; exact B|]. split; [exact C|lia].
      + intros o B. change (r_id (h o) <> Some p). rewrite Hh by auto. auto.
    - intros q I. destruct (w_repl m V q I) as (A & B & C). split; [|auto]. change (r_marked (h q) = true -> In q (m_dones m)). rewrite Hh; [exact A|left]. exact (v_touched m V0 q (v_replaced m V0 q I)).
    - intros q q' p L L'. change (r_id (h q) = Some p -> r_id (h q') = Some p -> q = q'). rewrite (Lh q L), (Lh q' L'). exact (w_live m V q q' p L L').
  Qed.
  Lemma set_world_id m : set_world m (m_world m) (m_id m) (m_heap m) = m. Proof using. now destruct m. Qed.
  Lemma still2 m i s rest ok go : Inv m -> Inv2 m -> nth_error (m_threads m) i = Some (s :: rest, Begun) -> head2 m s (Applied ok go) -> Inv2 (set_thread m i (s :: rest, Applied ok go)).
  Proof using.
    intros V0 V E H. pose proof (applied2 m i s rest ok go (m_world m) (m_id m) (m_heap m) V0 V E) as R. rewrite set_world_id in R. apply R; auto. intros v. constructor; auto using incl_refl.
  Qed.
  Lemma upd2 m s n w id' r : Inv m -> new_of s = Some n -> ~ In n (m_base m) -> (forall p, exists_in (m_world m) p -> exists_in w p) -> (forall p, r_id r = Some p -> p = m_id m \/ exists o, In o (m_base m) /\ r_id (m_heap m o) = Some p) ->
    forall v, quiet2 m (set_world m w id' (upd (m_heap m) n r)) (ptr m s) (y1 s) v.
  Proof using.
    intros V En Nb W R v. assert (Px : ptr m s = n) by (unfold ptr; now rewrite En). rewrite Px. constructor; try (cbn; auto; fail); try apply incl_refl.
    - intros q B. cbn. rewrite upd_other; congruence.
    - intros q I M. left. cbn. rewrite upd_other; [exact M|]. intros ->. exact (Nb (v_touched m V n I)).
    - intros q p. cbn. destruct (Nat.eq_dec q n) as [->|X]; [rewrite upd_same; auto|rewrite upd_other by exact X; auto].
    - intros q _ X. cbn. now rewrite upd_other.
  Qed.
  Lemma apply_inv2 m i a : Inv m -> Inv2 m -> a <> Lost -> Inv2 (react m (Apply i a)).
  Proof using.
    intros V0 V Na. cbn [react]. destruct (nth_error (m_threads m) i) as [[[|s rest] [| |]]|] eqn:E; try exact V. pose proof (v_threads m V0 _ _ E) as (_ & T2 & T3 & _ & _ & _ & H0). pose proof (w_threads m V _ _ E) as (A & B & C & D & H). cbn [fst] in *.
    assert (Cr : forall n, new_of s = Some n -> r_id (m_heap m n) = None -> (forall m' ok go, (forall p, r_id (m_heap m' n) = Some p -> exists_in (m_world m') p /\ forall q, q <> n -> r_id (m_heap m' q) <> Some p) -> head2 m' s (Applied ok go)) ->
      Inv2 (let (m', x) := create_apply m n a in set_thread m' i (s :: rest, Applied (fst x) (snd x)))).
    { intros n En Hi Hd. destruct (T2 s n (or_introl eq_refl) En) as (Ln & Nb & Nr & Nc).
      assert (Kept : forall ok go, Inv2 (set_thread m i (s :: rest, Applied ok go))) by (intros ok go; apply still2; auto; apply Hd; intros p Ep; congruence).
      assert (Made : forall ok go, Inv2 (set_thread (set_world m ((m_id m, r_urn (m_heap m n)) :: m_world m) (S (m_id m)) (upd (m_heap m) n (set_id (m_heap m n) (Some (m_id m))))) i (s :: rest, Applied ok go))).
      { intros ok go. assert (G : forall p, exists_in (m_world m) p -> exists_in ((m_id m, r_urn (m_heap m n)) :: m_world m) p) by (intros p (u & I); exists u; now right). apply applied2; auto.
        - apply upd2; auto. intros p [= <-]. now left.
        - apply Hd. intros p Ep. cbn in Ep. rewrite upd_same in Ep. injection Ep as <-. split; [exists (r_urn (m_heap m n)); now left|]. intros q X Y. cbn in Y. rewrite upd_other in Y by exact X. pose proof (v_heap m V0 q _ Y). lia.
        - intros q Y. apply upd_other. intros ->. destruct Y; contradiction. }
      unfold create_apply. destruct (r_custom (m_heap m n)); [|apply Kept]. destruct a; [apply Made|apply Made|apply Kept|contradiction]. }
    assert (Kp : forall o n ok go, (exists w, s = Same o n w) \/ s = Update o n -> Inv2 (set_thread (keep_id m o n) i (s :: rest, Applied ok go))).
    { intros o n ok go Es. assert (En : new_of s = Some n /\ old_of s = Some o) by (destruct Es as [[w ->]| ->]; auto). destruct En as [En Eo].
      destruct (T2 s n (or_introl eq_refl) En) as (Ln & Nb & Nr & Nc). destruct (T3 s o (or_introl eq_refl) Eo) as (Ob & _). apply applied2; auto.
      - apply upd2; auto. intros p Ep. cbn in Ep. right. now exists o.
      - destruct Es as [[w ->]| ->]; exact I.
      - intros q Y. apply upd_other. intros ->. destruct Y; contradiction. }
    destruct s as [n|o n af|o n w|o n|o|o|]; cbn [apply_step].
    - apply Cr; [reflexivity|exact (proj1 (proj2 H0))|auto].
    - apply Cr; [reflexivity|exact (proj1 (proj2 H0))|auto].
    - apply Kp. eauto.
    - destruct a; cbn [fst snd]; apply Kp; auto.
    - destruct H as (H1 & H2 & H3). destruct (T3 _ o (or_introl eq_refl) eq_refl) as (Ob & _). pose proof (D _ o (or_introl eq_refl) (or_introl eq_refl)) as Nc.
      destruct a; cbn [fst snd]; try contradiction; try (apply still2; auto; intros _; exact H3).
      assert (G : forall p, exists_in (m_world m) p -> exists_in (without (m_world m) (r_id (m_heap m o))) p \/ r_id (m_heap m o) = Some p).
      { intros p (u & I). destruct (r_id (m_heap m o)) as [p'|] eqn:Ei; [|left; now exists u]. destruct (Nat.eq_dec p p') as [->|X]; [now right|left]. exists u. cbn. apply filter_In. split; [exact I|]. cbn. apply Nat.eqb_neq in X. now rewrite X. }
      apply applied2; auto.
      + intros v. constructor; try (cbn; auto; fail); try apply incl_refl. intros p W. destruct (G p W) as [W'|W']; [now left|right]. now exists o.
      + discriminate.
      + intros q p L Ep W. destruct (G p W) as [W'|W']; [now left|right]. assert (q = o); [|subst q; auto]. destruct L as [L|[L _]]; [|exact (w_ids m V q o p L Ob Ep W')]. exfalso.
        destruct (w_new m V q p L Ep) as [(o' & B1 & B2 & _ & B4)|B1]; [|exact (B1 o Ob W')]. pose proof (w_ids m V o' o p B1 Ob B2 W') as ->. unfold W1 in B4. pose proof (tot_one c1 o _ i _ E) as Y. cbn [fst wt c1] in Y. rewrite Nat.eqb_refl in Y. cbn in Y. lia.
      + intros p W. destruct (G p W) as [W'|W']; [now left|right; auto].
    - apply still2; auto; exact I.
    - apply still2; auto; exact I.
  Qed.

  Lemma apart_base m q : Inv2 m -> In q (m_resources m) -> In q (m_base m) -> False.
  Proof using.
    intros V. pose proof (w_nodup m V) as N. revert N. generalize (m_resources m) as a. induction a as [|x a IH]; cbn; [intros _ []|]. intros N. inv N. intros [->|I] B; [apply H1; apply in_or_app; now right|auto].
  Qed.
  Lemma ended2 m i s rest ok go res dones comp el repl (w : bool) r t :
    Inv m -> Inv2 m -> nth_error (m_threads m) i = Some (s :: rest, Applied ok go) ->
    res = m_resources m \/ (exists n, res = m_resources m ++ [n] /\ new_of s = Some n /\ forall p, r_id (m_heap m n) = Some p ->
      exists_in (m_world m) p /\ (forall q, live m q -> (In q (m_base m) -> ~ In q dones) -> r_id (m_heap m q) <> Some p) /\
      ((exists o, In o (m_base m) /\ r_id (m_heap m o) = Some p /\ In o dones /\ keeps s o) \/ forall o, In o (m_base m) -> r_id (m_heap m o) <> Some p)) ->
    (forall o, In o dones -> In o (m_dones m) \/ old_of s = Some o) -> incl (m_dones m) dones ->
    (forall q, In q comp -> In q (m_completes m) \/ new_of s = Some q \/ y1 s = Some q) ->
    repl = m_replaced m \/ (exists o n, s = Create_replacement o n true /\ repl = o :: m_replaced m /\ (r_marked (m_heap m o) = true -> In o dones)) ->
    (forall q p, y1 s = Some q -> ~ In q dones -> r_id (m_heap m q) = Some p -> exists_in (m_world m) p \/ r_marked (m_heap m q) = true) ->
    t = (rest, Ready) \/ t = ([], Ready) ->
    Inv2 (set_thread (if w then save (ended m res dones comp el repl) r else ended m res dones comp el repl) i t).
  Proof using.
    intros V0 V E Hr Hd Hd' Hc Hp Hy Ht. pose proof (v_threads m V0 _ _ E) as (_ & T2 & T3 & _). pose proof (w_threads m V _ _ E) as (A & B & C & D & H). cbn [fst] in *.
    pose (m0 := ended m res dones comp el repl). pose (m' := if w then save m0 r else m0). fold m0 m'.
    assert (Lv : forall q, live m0 q -> (live m q /\ (In q (m_base m) -> ~ In q dones)) \/ (new_of s = Some q /\ res = m_resources m ++ [q])).
    { intros q [L|[L N]]; [|left; split; [right; split; [exact L|intros Y; apply N; now apply Hd']|intros _; exact N]]. change (In q res) in L. destruct Hr as [->|(n & -> & En & Hn)].
      - left. split; [now left|]. intros Y. exfalso. exact (apart_base m q V L Y).
      - apply in_app_or in L as [L|[<-|[]]]; [|right; auto]. left. split; [now left|]. intros Y. exfalso. exact (apart_base m q V L Y). }
    assert (Nw : forall q, new_of s = Some q -> res = m_resources m ++ [q] -> forall p, r_id (m_heap m q) = Some p ->
      exists_in (m_world m) p /\ (forall q', live m q' -> (In q' (m_base m) -> ~ In q' dones) -> r_id (m_heap m q') <> Some p) /\ ((exists o, In o (m_base m) /\ r_id (m_heap m o) = Some p /\ In o dones /\ keeps s o) \/ forall o, In o (m_base m) -> r_id (m_heap m o) <> Some p)).
    { intros q En Eq. destruct Hr as [->|(n & _ & En' & Hn)]; [|replace q with n by congruence; exact Hn]. exfalso. apply (f_equal (@List.length nat)) in Eq. rewrite app_length in Eq. cbn in Eq. lia. }
    assert (Mem : forall q p, live m0 q -> r_id (m_heap m0 q) = Some p -> exists_in (m_world m0) p \/ (In (Deleting, q) (m_ops m0) /\ ~ In q (m_completes m0)) \/ r_marked (m_heap m0 q) = true).
    { intros q p L Ep. destruct (Lv q L) as [[L0 N]|[En Eq]]; [|left; exact (proj1 (Nw q En Eq p Ep))]. destruct (w_mem m V q p L0 Ep) as [X|[[X Y]|X]]; auto. pose proof (v_touched m V0 q (w_del m V q X)) as Bq.
      destruct (in_dec Nat.eq_dec q comp) as [I|I]; [|right; left; split; [exact X|exact I]]. destruct (Hc q I) as [Z|[Z|Z]]; [contradiction|exfalso; exact (proj1 (proj2 (T2 s q (or_introl eq_refl) Z)) Bq)|].
      destruct (Hy q p Z (N Bq) Ep); auto. }
    assert (Live : forall q q' p, live m0 q -> live m0 q' -> r_id (m_heap m0 q) = Some p -> r_id (m_heap m0 q') = Some p -> q = q').
    { intros q q' p L L' Ep Ep'. destruct (Lv q L) as [[L0 N]|[En Eq]], (Lv q' L') as [[L0' N']|[En' Eq']].
      - exact (w_live m V q q' p L0 L0' Ep Ep').
      - exfalso. exact (proj1 (proj2 (Nw q' En' Eq' p Ep')) q L0 N Ep).
      - exfalso. exact (proj1 (proj2 (Nw q En Eq p Ep)) q' L0' N' Ep').
      - congruence. }
    assert (Nd : NoDup (m_resources m0 ++ m_base m0)).
    { change (NoDup (res ++ m_base m)). destruct Hr as [->|(n & -> & En & _)]; [exact (w_nodup m V)|]. destruct (T2 s n (or_introl eq_refl) En) as (_ & Nb & Nr & _). rewrite <- app_assoc. cbn [app]. apply (Permutation.Permutation_NoDup (Permutation.Permutation_middle _ _ n)). constructor; [|exact (w_nodup m V)].
      intros I. apply in_app_or in I as [I|I]; contradiction. }
    assert (Sn : snap m' = snap m0) by (subst m'; destruct w; reflexivity).
    assert (So : m_saved m' = m_saved m \/ m_saved m' = snap m') by (rewrite Sn; subst m'; destruct w; [unfold save; cbn [set_saved m_saved]; destruct (performed r); [now right|now left]|now left]).
    assert (Eq : m' = mkM (m_world m) (m_id m) (m_saved m') (m_heap m) (m_next m) (m_base m) (m_base_ops m) res dones (m_ops m) comp (m_elided m') (m_threads m) (m_touched m) repl (m_condemned m)) by (subst m'; destruct w; reflexivity).
    clearbody m'. rewrite Eq in Sn, So |- *. generalize (m_saved m') (m_elided m') Sn So. clear m' Eq Sn So. cbn [m_saved]. intros sv el' Sn So.
    pose (m' := mkM (m_world m) (m_id m) sv (m_heap m) (m_next m) (m_base m) (m_base_ops m) res dones (m_ops m) comp el' (m_threads m) (m_touched m) repl (m_condemned m)). fold m' in Sn, So |- *.
    assert (Q : quiet2 m m' (ptr m s) (y1 s) (old_of s)).
    { constructor; try (cbn; auto; fail); try apply incl_refl; try exact So; try exact Hd; try exact Hd'. intros o Bo I. destruct (Hc o I) as [X|[X|X]]; auto. exfalso. exact (proj1 (proj2 (T2 s o (or_introl eq_refl) X)) Bo). }
    assert (Ti : TI2 m' t) by (destruct Ht as [->| ->]; [exact (tail2 m m' i s rest ok go Q V0 V E)|apply stop2]).
    assert (Wl : forall c o, wt c o (fst t) <= wt c o rest) by (intros c o; destruct Ht as [->| ->]; cbn; lia).
    destruct (ww_set m m' i _ t V E eq_refl eq_refl eq_refl) as [W0 WW].
    { intros o. change (m_replaced m') with repl. cbn [fst wt]. pose proof (Wl c1 o). destruct Hp as [->|(o' & n & -> & -> & _)]; [lia|]. cbn [c1 has]. rewrite (Nat.eqb_sym o o'). destruct (Nat.eqb o' o); cbn [b2n orb]; destruct (has o (m_replaced m)); cbn [b2n]; lia. }
    { intros o. cbn [fst wt]. pose proof (Wl c2 o). lia. }
    pose proof (threads2_set m m' i t _ s V0 V E (or_introl eq_refl) eq_refl Q Ti) as Th.
    constructor; try exact WW; try exact Th; try exact Mem; try exact Live; try exact Nd; try (destruct V; assumption).
    - change (forall r0 p, In r0 (fst sv) -> r_id r0 = Some p -> exists_in (m_world m) p \/ being_deleted sv p \/ r_marked r0 = true). destruct So as [-> | So]; [exact (w_saved m V)|]. rewrite So, Sn. exact (snap_saved m0 Mem).
    - intros n p I Ep. change (In n res) in I. change (r_id (m_heap m n) = Some p) in Ep.
      assert (O : In n (m_resources m) \/ (new_of s = Some n /\ res = m_resources m ++ [n])) by (destruct Hr as [->|(n' & -> & En & _)]; [now left|apply in_app_or in I as [I|[<-|[]]]; auto]).
      destruct O as [O|[En Er]].
      + destruct (w_new m V n p O Ep) as [(o & X & Y & Z & W)|X]; [left; exists o; specialize (W0 o)|now right]. split; [exact X|]. split; [exact Y|]. split; [exact (Hd' o Z)|lia].
      + destruct (Nw n En Er p Ep) as (_ & _ & [(o & X & Y & Z & K)|X]); [left; exists o|now right]. split; [exact X|]. split; [exact Y|]. split; [exact Z|].
        pose proof (W1_set m m' i _ t o E eq_refl) as F. cbn [fst wt] in F. rewrite (proj1 (keeps_c s o K)) in F. change (m_replaced m') with repl in F. pose proof (Wl c1 o). destruct (w_w m V o) as (W & _). pose proof (tot_one c1 o _ i _ E) as G. cbn [fst wt] in G. rewrite (proj1 (keeps_c s o K)) in G. unfold W1 in W.
        destruct Hp as [->|(o' & n' & -> & _)]; [|destruct K as [(? & ? & ?)|(? & ?)]; discriminate]. unfold W1 in F |- *. cbn [b2n] in *. lia.
    - intros q I. destruct (Hd q I) as [X|X]; [exact (w_dones m V q X)|exact (proj2 (T3 s q (or_introl eq_refl) X))].
    - intros q I Bq. destruct (Hc q I) as [X|[X|X]]; [exact (w_comp m V q X Bq)|exfalso; exact (proj1 (proj2 (T2 s q (or_introl eq_refl) X)) Bq)|]. destruct (y1_c s q X) as [-> _]. exact (proj2 (T3 _ q (or_introl eq_refl) eq_refl)).
    - intros q I. change (In q repl) in I. change ((r_marked (m_heap m q) = true -> In q dones) /\ ~ In (Deleting, q) (m_ops m) /\ ~ In q comp).
      assert (O : (In q (m_replaced m) /\ ~ (y1 s = Some q)) \/ exists n, s = Create_replacement q n true /\ (r_marked (m_heap m q) = true -> In q dones)).
      { destruct Hp as [->|(o & n & -> & -> & M)]; [left; split; [exact I|]; intros Y; destruct (y1_c s q Y) as [_ Yc]; exact (not_replaced m i _ s q V E (or_introl eq_refl) Yc I)|]. destruct I as [<-|I]; [right; now exists n|left; split; [exact I|discriminate]]. }
      assert (Bq : In q (m_base m)) by (destruct O as [[O _]|(n & -> & _)]; [exact (v_touched m V0 q (v_replaced m V0 q O))|exact (proj1 (T3 _ q (or_introl eq_refl) eq_refl))]).
      destruct O as [[O Ny]|(n & Es & M)].
      + destruct (w_repl m V q O) as (X & Y & Z). split; [intros M; exact (Hd' q (X M))|]. split; [exact Y|]. intros I'. destruct (Hc q I') as [F|[F|F]]; [contradiction|exact (proj1 (proj2 (T2 s q (or_introl eq_refl) F)) Bq)|contradiction].
      + split; [exact M|]. subst s. split; [exact (B q n (or_introl eq_refl))|]. intros I'. destruct (Hc q I') as [F|[F|F]]; [exact (D _ q (or_introl eq_refl) (or_intror (ex_intro _ n eq_refl)) F)|exact (proj1 (proj2 (T2 _ q (or_introl eq_refl) F)) Bq)|discriminate].
    - change (distinct_ids (fst sv)). destruct So as [-> | So]; [exact (w_sids m V)|]. rewrite So, Sn. exact (snap_ids m0 Live Nd).
  Qed.

  Ltac tidy2 C D := try exact (C _ (or_introl eq_refl)); try exact (C _ (or_intror eq_refl)); try exact (D _ eq_refl); try (auto using incl_refl; fail).
  Lemma end_inv2 m i r : Inv m -> Inv2 m -> Inv2 (react m (End i r)).
  Proof using.
    intros V0 V. cbn [react]. destruct (nth_error (m_threads m) i) as [[[|s rest] [| |ok go]]|] eqn:E; try exact V.
    pose proof (v_threads m V0 _ _ E) as (_ & T2 & T3 & T4 & _ & _ & H0). pose proof (w_threads m V _ _ E) as (A & B & C & D & H). cbn [fst] in *.
    assert (Fin : forall x, (if go && x then (rest, Ready) else ([], Ready)) = (rest, Ready) \/ (if go && x then (rest, Ready) else ([], Ready)) = ([], Ready)) by (intros x; destruct (go && x); auto).
    assert (Cr : forall n dones, new_of s = Some n -> (forall p, r_id (m_heap m n) = Some p -> exists_in (m_world m) p /\ forall q, q <> n -> r_id (m_heap m q) <> Some p) ->
      exists n', m_resources m ++ [n] = m_resources m ++ [n'] /\ new_of s = Some n' /\ forall p, r_id (m_heap m n') = Some p ->
      exists_in (m_world m) p /\ (forall q, live m q -> (In q (m_base m) -> ~ In q dones) -> r_id (m_heap m q) <> Some p) /\
      ((exists o, In o (m_base m) /\ r_id (m_heap m o) = Some p /\ In o dones /\ keeps s o) \/ forall o, In o (m_base m) -> r_id (m_heap m o) <> Some p)).
    { intros n dones En Hn. exists n. split; [reflexivity|]. split; [exact En|]. intros p Ep. destruct (Hn p Ep) as [X Y]. destruct (T2 s n (or_introl eq_refl) En) as (_ & Nb & Nr & _). split; [exact X|]. split.
      - intros q L _. apply Y. intros ->. destruct L as [L|[L _]]; contradiction.
      - right. intros o Bo. apply Y. congruence. }
    assert (Kp : forall o n, new_of s = Some n -> keeps s o -> r_id (m_heap m n) = r_id (m_heap m o) ->
      exists n', m_resources m ++ [n] = m_resources m ++ [n'] /\ new_of s = Some n' /\ forall p, r_id (m_heap m n') = Some p ->
      exists_in (m_world m) p /\ (forall q, live m q -> (In q (m_base m) -> ~ In q (o :: m_dones m)) -> r_id (m_heap m q) <> Some p) /\
      ((exists o', In o' (m_base m) /\ r_id (m_heap m o') = Some p /\ In o' (o :: m_dones m) /\ keeps s o') \/ forall o', In o' (m_base m) -> r_id (m_heap m o') <> Some p)).
    { intros o n En K Ei. exists n. split; [reflexivity|]. split; [exact En|]. intros p Ep. rewrite Ei in Ep. destruct (A s o (or_introl eq_refl) K) as [Nd Wo]. destruct (T3 s o (or_introl eq_refl) (proj2 (proj2 (keeps_c s o K)))) as [Bo _]. split; [exact (Wo p Ep)|]. split.
      - intros q L N Eq. destruct L as [L|[L _]].
        + destruct (w_new m V q p L Eq) as [(o' & X & Y & Z & _)|X]; [|exact (X o Bo Ep)]. pose proof (w_ids m V o' o p X Bo Y Ep) as ->. contradiction.
        + pose proof (w_ids m V q o p L Bo Eq Ep) as ->. apply (N Bo). now left.
      - left. exists o. split; [exact Bo|]. split; [exact Ep|]. split; [now left|exact K]. }
    assert (Dn : forall o, old_of s = Some o -> forall o', In o' (o :: m_dones m) -> In o' (m_dones m) \/ old_of s = Some o') by (intros o Eo o' [<-|I]; auto).
    assert (Di : forall o, incl (m_dones m) (o :: m_dones m)) by (intros o; apply incl_tl, incl_refl).
    assert (Cn : forall x, new_of s = Some x \/ y1 s = Some x -> forall q, In q (x :: m_completes m) -> In q (m_completes m) \/ new_of s = Some q \/ y1 s = Some q) by (intros x X q [<-|I]; auto).
    destruct s as [n|o n af|o n w|o n|o|o|]; cbn [end_step].
    - destruct ok.
      + apply (ended2 m i _ rest true go (m_resources m ++ [n]) (m_dones m) (n :: m_completes m) (m_elided m) (m_replaced m) true r _ V0 V E); tidy2 Cn Dn; try discriminate; try (right; apply Cr; [reflexivity|exact H]).
      + apply (ended2 m i _ rest false go (m_resources m) (m_dones m) (n :: m_completes m) (m_elided m) (m_replaced m) true r _ V0 V E); tidy2 Cn Dn; try discriminate.
    - destruct ok.
      + change (m_heap (mark_new (mark_complete m n) n) o) with (m_heap m o). destruct (r_marked (m_heap m o)) eqn:Mk, af.
        * apply (ended2 m i _ rest true go (m_resources m ++ [n]) (o :: m_dones m) (n :: m_completes m) (m_elided m) (o :: m_replaced m) true r _ V0 V E); tidy2 Cn Dn; try discriminate; try (right; apply Cr; [reflexivity|exact H]). right. exists o, n. split; [reflexivity|]. split; [reflexivity|]. intros _. now left.
        * apply (ended2 m i _ rest true go (m_resources m ++ [n]) (o :: m_dones m) (n :: m_completes m) (m_elided m) (m_replaced m) true r _ V0 V E); tidy2 Cn Dn; try discriminate; try (right; apply Cr; [reflexivity|exact H]).
        * apply (ended2 m i _ rest true go (m_resources m ++ [n]) (m_dones m) (n :: m_completes m) (m_elided m) (o :: m_replaced m) true r _ V0 V E); tidy2 Cn Dn; try discriminate; try (right; apply Cr; [reflexivity|exact H]). right. exists o, n. split; [reflexivity|]. split; [reflexivity|]. congruence.
        * apply (ended2 m i _ rest true go (m_resources m ++ [n]) (m_dones m) (n :: m_completes m) (m_elided m) (m_replaced m) true r _ V0 V E); tidy2 Cn Dn; try discriminate; try (right; apply Cr; [reflexivity|exact H]).
      + apply (ended2 m i _ rest false go (m_resources m) (m_dones m) (n :: m_completes m) (m_elided m) (m_replaced m) true r _ V0 V E); tidy2 Cn Dn; try discriminate.
    - assert (K : keeps (Same o n w) o) by (left; eauto). destruct w.
      + apply (ended2 m i _ rest ok go (m_resources m ++ [n]) (o :: m_dones m) (m_completes m) (m_elided m) (m_replaced m) true r _ V0 V E); tidy2 Cn Dn; try discriminate. right. apply Kp; [reflexivity|exact K|exact (proj2 H0)].
      + apply (ended2 m i _ rest ok go (m_resources m ++ [n]) (o :: m_dones m) (m_completes m) true (m_replaced m) false r _ V0 V E); tidy2 Cn Dn; try discriminate. right. apply Kp; [reflexivity|exact K|exact (proj2 H0)].
    - assert (K : keeps (Update o n) o) by (right; eauto). destruct ok.
      + apply (ended2 m i _ rest true go (m_resources m ++ [n]) (o :: m_dones m) (n :: m_completes m) (m_elided m) (m_replaced m) true r _ V0 V E); tidy2 Cn Dn; try discriminate. right. apply Kp; [reflexivity|exact K|exact (proj2 H0)].
      + apply (ended2 m i _ rest false go (m_resources m) (m_dones m) (n :: m_completes m) (m_elided m) (m_replaced m) true r _ V0 V E); tidy2 Cn Dn; try discriminate.
    - destruct ok.
      + change (m_heap (mark_complete m o) o) with (m_heap m o). destruct (r_marked (m_heap m o)) eqn:Mk.
        * apply (ended2 m i _ rest true go (m_resources m) (m_dones m) (o :: m_completes m) (m_elided m) (m_replaced m) true r _ V0 V E); tidy2 Cn Dn. intros q p [= <-] _ _. now right.
        * apply (ended2 m i _ rest true go (m_resources m) (o :: m_dones m) (o :: m_completes m) (m_elided m) (m_replaced m) true r _ V0 V E); tidy2 Cn Dn. intros q p [= <-] N. exfalso. apply N. now left.
      + apply (ended2 m i _ rest false go (m_resources m) (m_dones m) (o :: m_completes m) (m_elided m) (m_replaced m) true r _ V0 V E); tidy2 Cn Dn. intros q p [= <-] N Ep. exact (H eq_refl N p Ep).
    - apply (ended2 m i _ rest ok go (m_resources m) (o :: m_dones m) (m_completes m) (m_elided m) (m_replaced m) true r _ V0 V E); tidy2 Cn Dn. discriminate.
    - assert (Em : ended m (m_resources m) (m_dones m) (m_completes m) (m_elided m) (m_replaced m) = m) by (destruct m; reflexivity).
      pose proof (ended2 m i _ rest ok go (m_resources m) (m_dones m) (m_completes m) (m_elided m) (m_replaced m) false r (if go && (negb false || fine r) then (rest, Ready) else ([], Ready)) V0 V E) as R. rewrite Em in R. apply R; tidy2 Cn Dn. discriminate.
  Qed.
  Lemma save_inv2 m r : Inv m -> Inv2 m -> Inv2 (save m r).
  Proof using.
    intros V0 V. assert (So : m_saved (save m r) = m_saved m \/ m_saved (save m r) = snap m) by (unfold save; cbn; destruct (performed r); auto).
    assert (Q : quiet2 m (save m r) (m_next m) None None) by (constructor; try (cbn; auto; fail); try apply incl_refl; exact So).
    constructor; try (destruct V; assumption).
    - destruct So as [So|So]; rewrite So; [exact (w_saved m V)|exact (snap_saved m (w_mem m V))].
    - destruct So as [So|So]; rewrite So; [exact (w_sids m V)|exact (snap_ids m (w_live m V) (w_nodup m V))].
    - intros j t E. pose proof (v_threads m V0 j t E) as T. apply (quiet2_TI2 m _ (m_next m) None None); auto; [| | |exact (w_threads m V j t E)].
      + intros s I X. destruct T as (_ & T2 & _). destruct (T2 s _ I X) as (L & _). lia.
      + intros s o I R. split; [discriminate|]. exact (not_replaced m j t s o V E I (proj1 (removes_c s o R))).
      + intros s o I K. split; discriminate.
  Qed.
  Lemma stop_inv2 m i : Inv m -> Inv2 m -> Inv2 (react m (Stop i)).
  Proof using.
    intros V0 V. cbn [react]. destruct (nth_error (m_threads m) i) as [t|] eqn:E; [|exact V]. pose proof (nth_lt _ _ _ E) as L.
    destruct (ww_set m m i t ([], Ready) V E eq_refl eq_refl eq_refl) as [W0 WW]; [intros o; cbn; lia|intros o; cbn; lia|].
    constructor; try exact WW; try (destruct V; assumption).
    - intros n p I Ep. destruct (w_new m V n p I Ep) as [(o & X & Y & Z & W)|X]; [left; exists o; specialize (W0 o); repeat split; auto; lia|now right].
    - intros j t' A. cbn [set_thread set_threads m_threads] in A. rewrite nth_set in A by exact L. destruct (Nat.eqb j i); [injection A as <-; apply stop2|exact (w_threads m V j t' A)].
  Qed.

  Lemma planned2 m h next steps touched repl cond : Inv m -> Inv2 m -> Inv (planned m h next steps touched repl cond) ->
    (forall q, q <> m_next m -> r_id (h q) = r_id (m_heap m q)) -> (forall q id, r_id (h q) = Some id -> r_id (m_heap m q) = Some id) ->
    (forall q, In q (m_touched m) -> r_marked (h q) = true -> r_marked (m_heap m q) = true) ->
    (forall q, q < m_next m -> r_marked (m_heap m q) = true -> r_marked (h q) = true \/ In q (m_replaced m)) ->
    incl (m_touched m) touched -> incl repl (m_replaced m) ->
    (forall o, wt c1 o steps + b2n (has o repl) <= b2n (has o (m_replaced m)) \/ (~ In o (m_touched m) /\ In o touched /\ wt c1 o steps + b2n (has o repl) <= 1)) ->
    (forall o, wt c2 o steps + b2n (has o cond) <= b2n (has o (m_condemned m)) \/ (~ In o (m_touched m) /\ In o touched /\ wt c2 o steps + b2n (has o cond) <= 1)) ->
    (forall s o, In s steps -> keeps s o -> ~ In o (m_dones m) /\ In o (m_base m) /\ forall p, r_id (m_heap m o) = Some p -> exists_in (m_world m) p) ->
    (forall s o, In s steps -> removes s o -> ~ In (Deleting, o) (m_ops m) /\ ~ In o (m_completes m)) ->
    Inv2 (planned m h next steps touched repl cond).
  Proof using.
    intros V0 V V0' Hh Hi Hm Hm' Tt Rr H1 H2 K R. pose (m' := planned m h next steps touched repl cond). fold m'.
    assert (Bn : forall q, In q (m_base m) -> q <> m_next m) by (intros q I; pose proof (v_base m V0 q I); lia).
    assert (Ln : forall q, live m q -> q < m_next m) by (intros q [I|[I _]]; [exact (v_res m V0 q I)|exact (v_base m V0 q I)]).
    assert (Lh : forall q, live m q -> r_id (h q) = r_id (m_heap m q)) by (intros q L; apply Hh; specialize (Ln q L); lia).
    assert (Q : quiet2 m m' (m_next m) None None).
    { constructor; try (cbn; auto; fail); try apply incl_refl.
      - intros q I M. apply Hm'; [exact (v_base m V0 q (v_touched m V0 q I))|exact M]. }
    assert (Ti : TI2 m' (steps, Ready)).
    { split; [|split; [|split; [|split]]]; cbn [fst].
      - intros s o I X. destruct (K s o I X) as (A & B & C). split; [exact A|]. intros p Ep. apply C. exact (Hi o p Ep).
      - intros o n I. exact (proj1 (R _ o I (or_intror (ex_intro _ n eq_refl)))).
      - intros o I0. assert (I : In (Delete o) steps) by (destruct steps; exact I0). exact (proj1 (R _ o I (or_introl eq_refl))).
      - intros s o I X. exact (proj2 (R s o I X)).
      - destruct steps; exact I. }
    assert (E1 : forall o, W1 m' o + b2n (has o (m_replaced m)) = W1 m o + wt c1 o steps + b2n (has o repl)) by (intros o; unfold W1; cbn; rewrite tot_app; cbn; lia).
    assert (E2 : forall o, W2 m' o + b2n (has o (m_condemned m)) = W2 m o + wt c2 o steps + b2n (has o cond)) by (intros o; unfold W2; cbn; rewrite tot_app; cbn; lia).
    constructor; try (destruct V; assumption).
    - intros q p L Ep. change (r_id (h q) = Some p) in Ep. rewrite (Lh q L) in Ep. change (exists_in (m_world m) p \/ (In (Deleting, q) (m_ops m) /\ ~ In q (m_completes m)) \/ r_marked (h q) = true).
      destruct (w_mem m V q p L Ep) as [A|[A|A]]; auto. destruct (Hm' q (Ln q L) A) as [B|B]; auto. exfalso. pose proof (proj1 (w_repl m V q B) A) as D. destruct L as [L|[_ L]]; [|contradiction]. exact (apart_base m q V L (v_touched m V0 q (v_replaced m V0 q B))).
    - intros q q' p B B'. change (r_id (h q) = Some p -> r_id (h q') = Some p -> q = q'). rewrite !Hh by auto. exact (w_ids m V q q' p B B').
    - intros n p I Ep. change (r_id (h n) = Some p) in Ep. rewrite (Lh n (or_introl I)) in Ep. destruct (w_new m V n p I Ep) as [(o & A & B & C & D)|A]; [left; exists o|right].
      + split; [exact A|]. split; [change (r_id (h o) = Some p); rewrite Hh by auto; exact B|]. split; [exact C|]. pose proof (E1 o). destruct (H1 o) as [F|[F _]]; [lia|]. destruct (F (w_dones m V o C)).
      + intros o B. change (r_id (h o) <> Some p). rewrite Hh by auto. auto.
    - intros o. destruct (w_w m V o) as (A & B & C). pose proof (E1 o). pose proof (E2 o). change (m_touched m') with touched.
      assert (Z1 : ~ In o (m_touched m) -> has o (m_replaced m) = false) by (intros N; apply has_not; intros Y; exact (N (v_replaced m V0 o Y))).
      assert (Z2 : ~ In o (m_touched m) -> has o (m_condemned m) = false) by (intros N; apply has_not; intros Y; exact (N (v_condemned m V0 o Y))).
      split; [|split].
      + destruct (H1 o) as [F|(N & _ & F)]; [lia|]. destruct (C N). lia.
      + destruct (H2 o) as [F|(N & _ & F)]; [lia|]. destruct (C N). lia.
      + intros N. assert (N' : ~ In o (m_touched m)) by (intros Y; exact (N (Tt o Y))). destruct (C N') as [C1 C2]. split; [destruct (H1 o) as [F|(_ & F & _)]|destruct (H2 o) as [F|(_ & F & _)]]; try contradiction; lia.
    - intros q I. exact (Tt q (w_dones m V q I)).
    - intros q I. exact (Tt q (w_del m V q I)).
    - intros q I B. exact (Tt q (w_comp m V q I B)).
    - intros q I. apply Rr in I. destruct (w_repl m V q I) as (A & B & C). split; [|auto]. intros M. apply A. apply Hm; [exact (v_replaced m V0 q I)|exact M].
    - intros q q' p L L'. change (r_id (h q) = Some p -> r_id (h q') = Some p -> q = q'). rewrite (Lh q L), (Lh q' L'). exact (w_live m V q q' p L L').
    - intros j t E. cbn in E. destruct (Nat.lt_ge_cases j (List.length (m_threads m))) as [L|L].
      + rewrite nth_error_app1 in E by exact L. pose proof (v_threads m V0 j t E) as T. apply (quiet2_TI2 m m' (m_next m) None None); auto; [| | |exact (w_threads m V j t E)].
        * intros s I X. destruct T as (_ & T2 & _). destruct (T2 s _ I X) as (L' & _). lia.
        * intros s o I X. split; [discriminate|]. exact (not_replaced m j t s o V E I (proj1 (removes_c s o X))).
        * intros s o I X. split; discriminate.
      + rewrite nth_error_app2 in E by exact L. destruct (j - List.length (m_threads m)) as [|[|?]]; cbn in E; try discriminate. injection E as <-. exact Ti.
  Qed.
  Lemma unused2 m o : Inv2 m -> unused m o = true -> In o (m_base m) /\ ~ In o (m_touched m) /\ ~ In o (m_dones m) /\ ~ In (Deleting, o) (m_ops m) /\ ~ In o (m_completes m).
  Proof using.
    intros V U. apply unused_spec in U as [B U]. split; [exact B|]. split; [exact U|]. split; [intros Y; exact (U (w_dones m V o Y))|]. split; [intros Y; exact (U (w_del m V o Y))|intros Y; exact (U (w_comp m V o Y B))].
  Qed.
  Lemma wt_deletes l : forall o, wt c1 o (map Delete l) <= b2n (has o l) * (List.length l) /\ (distinct l = true -> wt c1 o (map Delete l) = b2n (has o l)) /\ wt c2 o (map Delete l) = 0.
  Proof using.
    induction l as [|x l IH]; intros o; [cbn; auto|]. destruct (IH o) as (A & B & C). cbn [map wt c1 c2 has List.length distinct]. rewrite C. rewrite (Nat.eqb_sym o x). destruct (Nat.eqb_spec x o) as [->|N]; cbn [b2n orb].
    - split; [destruct (has o l); cbn [b2n] in A; lia|]. split; [|reflexivity]. intros D. apply andb_prop in D as [D1 D2]. rewrite (B D2). destruct (has o l); [discriminate|reflexivity].
    - split; [destruct (has o l); cbn [b2n] in *; lia|]. split; [|reflexivity]. intros D. apply andb_prop in D as [_ D]. rewrite (B D). lia.
  Qed.
  Lemma has_app o a b : has o (a ++ b) = has o a || has o b.
  Proof using. induction a as [|x a IH]; cbn; [reflexivity|]. now rewrite IH, Bool.orb_assoc. Qed.
  Lemma has_remove o p l : has o (remove_one p l) = has o l && negb (Nat.eqb p o).
  Proof using.
    unfold remove_one. induction l as [|x l IH]; cbn [filter has]; [reflexivity|]. destruct (Nat.eqb_spec p x) as [->|N]; cbn [negb has].
    - rewrite IH, (Nat.eqb_sym o x). destruct (Nat.eqb_spec x o) as [->|X]; cbn; [now rewrite !Bool.andb_false_r|reflexivity].
    - rewrite IH. destruct (Nat.eqb_spec o x) as [->|X]; cbn; [|reflexivity]. apply Nat.eqb_neq in N. now rewrite N.
  Qed.
  Lemma plan_inv2 m d : Inv m -> Inv2 m -> steady m (Plan d) -> Inv2 (plan m d).
  Proof using.
    intros V0 V [Or St]. pose proof (plan_inv m d V0 Or) as V0'. unfold plan in *.
    assert (Hh : forall r, forall q, q <> m_next m -> r_id (upd (m_heap m) (m_next m) r q) = r_id (m_heap m q)) by (intros r q X; now rewrite upd_other).
    assert (Hi : forall r, r_id r = None -> forall q id, r_id (upd (m_heap m) (m_next m) r q) = Some id -> r_id (m_heap m q) = Some id) by (intros r E q id; destruct (Nat.eq_dec q (m_next m)) as [->|X]; [rewrite upd_same; congruence|now rewrite upd_other]).
    assert (Tn : forall q, In q (m_touched m) -> q <> m_next m) by (intros q I; pose proof (v_base m V0 q (v_touched m V0 q I)); lia).
    assert (Hm : forall r q, In q (m_touched m) -> r_marked (upd (m_heap m) (m_next m) r q) = true -> r_marked (m_heap m q) = true) by (intros r q I; rewrite upd_other by auto; auto).
    assert (Hm' : forall r q, q < m_next m -> r_marked (m_heap m q) = true -> r_marked (upd (m_heap m) (m_next m) r q) = true \/ In q (m_replaced m)) by (intros r q L M; left; rewrite upd_other by lia; exact M).
    assert (Rf : forall o, ~ In o (m_touched m) -> has o (m_replaced m) = false) by (intros o N; apply has_not; intros Y; exact (N (v_replaced m V0 o Y))).
    assert (Cf : forall o, ~ In o (m_touched m) -> has o (m_condemned m) = false) by (intros o N; apply has_not; intros Y; exact (N (v_condemned m V0 o Y))).
    assert (Lw : forall o, In o (m_base m) -> ~ In o (m_dones m) -> ~ In (Deleting, o) (m_ops m) -> r_marked (m_heap m o) = false -> forall p, r_id (m_heap m o) = Some p -> exists_in (m_world m) p).
    { intros o B N D M p Ep. destruct (w_mem m V o p (or_intror (conj B N)) Ep) as [A|[[A _]|A]]; [exact A|contradiction|congruence]. }
    destruct d as [urn custom|o urn w|o urn|o urn|deps o urn|o urn|o|o].
    - apply (planned2 m _ _ _ _ (m_replaced m) _ V0 V V0'); try exact (Hm _); try exact (Hm' _); try exact (Hh _); try (refine (Hi _ _); reflexivity); auto using incl_refl; cbn; try lia; try (intros; left; lia).
      + intros s o [<-|[]] [(? & ? & [=])|(? & [=])].
      + intros s o [<-|[]] [[=]|(? & [=])].
    - destruct (unused m o) eqn:U; [|exact V]. destruct (unused2 m o V U) as (B & N & Nd & No & Nc). apply (planned2 m _ _ _ _ (m_replaced m) _ V0 V V0'); try exact (Hm _); try exact (Hm' _); try exact (Hh _); try (refine (Hi _ _); reflexivity); auto using incl_refl; try (apply incl_tl, incl_refl).
      + intros o'. cbn. destruct (Nat.eqb_spec o o') as [<-|X]; cbn [b2n]; [right; rewrite (Rf o N); cbn; auto|left; lia].
      + intros o'. cbn. destruct (Nat.eqb_spec o o') as [<-|X]; cbn [b2n]; [right; rewrite (Cf o N); cbn; auto|left; lia].
      + intros s o' [<-|[]] [(? & ? & [= <- _ _])|(? & [=])]. split; [exact Nd|]. split; [exact B|]. exact (Lw o B Nd No St).
      + intros s o' [<-|[]] [[=]|(? & [=])].
    - destruct (unused m o) eqn:U; [|exact V]. destruct (unused2 m o V U) as (B & N & Nd & No & Nc). apply (planned2 m _ _ _ _ (m_replaced m) _ V0 V V0'); try exact (Hm _); try exact (Hm' _); try exact (Hh _); try (refine (Hi _ _); reflexivity); auto using incl_refl; try (apply incl_tl, incl_refl).
      + intros o'. cbn. destruct (Nat.eqb_spec o o') as [<-|X]; cbn [b2n]; [right; rewrite (Rf o N); cbn; auto|left; lia].
      + intros o'. cbn. destruct (Nat.eqb_spec o o') as [<-|X]; cbn [b2n]; [right; rewrite (Cf o N); cbn; auto|left; lia].
      + intros s o' [<-|[]] [(? & ? & [=])|(? & [= <- _])]. split; [exact Nd|]. split; [exact B|]. exact (Lw o B Nd No St).
      + intros s o' [<-|[]] [[=]|(? & [=])].
    - destruct (unused m o) eqn:U; [|exact V]. destruct (unused2 m o V U) as (B & N & Nd & No & Nc). apply (planned2 m _ _ _ _ (m_replaced m) _ V0 V V0'); try exact (Hm _); try exact (Hm' _); try exact (Hh _); try (refine (Hi _ _); reflexivity); auto using incl_refl; try (apply incl_tl, incl_refl).
      + intros o'. cbn. destruct (Nat.eqb_spec o o') as [<-|X]; cbn [b2n]; [right; rewrite (Rf o N); cbn; auto|left; lia].
      + intros s o' [<-|[<-|[]]] [(? & ? & [=])|(? & [=])].
      + intros s o' [<-|[<-|[]]] [[=]|(? & [= <- _])]. auto.
    - destruct (forallb (unused m) (deps ++ [o]) && distinct (deps ++ [o])) eqn:U; [|exact V]. apply andb_prop in U as [U Ds]. rewrite forallb_forall in U.
      assert (Ub : forall q, In q (deps ++ [o]) -> In q (m_base m) /\ ~ In q (m_touched m) /\ ~ In q (m_dones m) /\ ~ In (Deleting, q) (m_ops m) /\ ~ In q (m_completes m)) by (intros q I; apply unused2; auto). clear U.
      assert (Mem : forall s, In s (map Delete (deps ++ [o]) ++ [Replace; Create_replacement o (m_next m) false]) -> (exists q, s = Delete q /\ In q (deps ++ [o])) \/ s = Replace \/ s = Create_replacement o (m_next m) false).
      { intros s I. apply in_app_or in I as [I|[<-|[<-|[]]]]; auto. apply in_map_iff in I as (q & <- & I). left. now exists q. }
      assert (Lo : In o (deps ++ [o])) by (apply in_or_app; right; now left).
      apply (planned2 m _ _ _ _ (m_replaced m) _ V0 V V0'); try exact (Hm _); try exact (Hm' _); try exact (Hh _); try (refine (Hi _ _); reflexivity); auto using incl_refl; try (apply incl_appr, incl_refl).
      + intros q X. rewrite upd_other by exact X. now destruct (mark_all_spec (deps ++ [o]) (m_heap m) q) as (_ & B & _).
      + intros q id. destruct (Nat.eq_dec q (m_next m)) as [->|X]; [rewrite upd_same; discriminate|]. rewrite upd_other by exact X. destruct (mark_all_spec (deps ++ [o]) (m_heap m) q) as (_ & B & _). congruence.
      + intros q I. rewrite upd_other by auto. destruct (mark_all_spec (deps ++ [o]) (m_heap m) q) as (_ & _ & _ & B). rewrite B; [auto|]. intros Y. exact (proj1 (proj2 (Ub q Y)) I).
      + intros q L M. left. rewrite upd_other by lia. clear - M. revert M. generalize (m_heap m) as h. induction (deps ++ [o]) as [|x l IH]; intros h M; [exact M|]. change (mark_all h (x :: l)) with (mark_all (upd h x (set_marked (h x) true)) l). apply IH. destruct (Nat.eq_dec q x) as [->|X]; [now rewrite upd_same|now rewrite upd_other].
      + intros o'. rewrite wt_app. cbn [wt c1 b2n]. destruct (wt_deletes (deps ++ [o]) o') as (_ & A & _). rewrite (A Ds). destruct (has o' (deps ++ [o])) eqn:Ho; [right|left; cbn; lia].
        apply has_In in Ho. destruct (Ub o' Ho) as (_ & N & _). rewrite (Rf o' N). split; [exact N|]. split; [apply in_or_app; now left|cbn; lia].
      + intros o'. rewrite wt_app. cbn [wt c2 b2n]. destruct (wt_deletes (deps ++ [o]) o') as (_ & A0 & A). rewrite A. rewrite has_app.
        destruct (has o' (deps ++ [o])) eqn:Ho.
        * right. apply has_In in Ho. destruct (Ub o' Ho) as (_ & N & _). split; [exact N|]. split; [apply in_or_app; now left|]. rewrite (Cf o' N), Bool.orb_false_r.
          assert (X : o = o' -> has o' deps = false). { intros ->. clear - Ds. induction deps as [|x l IH]; [reflexivity|]. cbn in *. apply andb_prop in Ds as [D1 D2]. rewrite (IH D2), Bool.orb_false_r. rewrite has_app in D1. destruct (Nat.eqb_spec o' x) as [->|]; [|reflexivity]. cbn in D1. rewrite Nat.eqb_refl in D1. cbn in D1. rewrite Bool.orb_true_r in D1. discriminate. }
          destruct (Nat.eqb_spec o o') as [Y|Y]; [rewrite (X Y); cbn; lia|]. destruct (has o' deps); cbn; lia.
        * left. rewrite has_app in Ho. apply Bool.orb_false_iff in Ho as [Hd Hq]. rewrite Hd. cbn in Hq. rewrite Bool.orb_false_r in Hq. rewrite (Nat.eqb_sym o o'), Hq. cbn. lia.
      + intros s o' I [(? & ? & ->)|(? & ->)]; apply Mem in I as [(q & [=] & _)|[[=]|[=]]].
      + intros s o' I [->|(? & ->)]; apply Mem in I as [(q & [= <-] & Iq)|[[=]|[=]]]. destruct (Ub o' Iq) as (_ & _ & _ & X & Y). auto.
    - destruct (has o (m_condemned m)) eqn:U; [|exact V]. apply (planned2 m _ _ _ _ (m_replaced m) _ V0 V V0'); try exact (Hm _); try exact (Hm' _); try exact (Hh _); try (refine (Hi _ _); reflexivity); auto using incl_refl.
      + intros o'. left. rewrite has_remove. cbn. destruct (Nat.eqb_spec o o') as [<-|X]; [rewrite U; cbn; lia|]. destruct (has o' (m_condemned m)); cbn; lia.
      + intros s o' [<-|[<-|[]]] [(? & ? & [=])|(? & [=])].
      + intros s o' [<-|[<-|[]]] [[=]|(? & [=])].
    - destruct (has o (m_replaced m)) eqn:U.
      + pose proof U as U'. apply has_In in U'. destruct (w_repl m V o U') as (X1 & X2 & X3). apply (planned2 m _ _ _ (m_touched m) _ _ V0 V V0'); try exact (Hm _); try exact (Hm' _); try exact (Hh _); try (refine (Hi _ _); reflexivity); auto using incl_refl.
        * intros q _. destruct (Nat.eq_dec q o) as [->|X]; [rewrite upd_same|rewrite upd_other by exact X]; auto.
        * intros q id. destruct (Nat.eq_dec q o) as [->|X]; [rewrite upd_same|rewrite upd_other by exact X]; auto.
        * intros q _. destruct (Nat.eq_dec q o) as [->|X]; [rewrite upd_same; discriminate|rewrite upd_other by exact X; auto].
        * intros q _ M. destruct (Nat.eq_dec q o) as [->|X]; [now right|left; now rewrite upd_other].
        * intros q I. exact (remove_one_In _ _ _ I).
        * intros o'. left. rewrite has_remove. cbn. destruct (Nat.eqb_spec o o') as [<-|X]; [rewrite U; cbn; lia|]. destruct (has o' (m_replaced m)); cbn; lia.
        * intros s o' [<-|[]] [(? & ? & [=])|(? & [=])].
        * intros s o' [<-|[]] [[= <-]|(? & [=])]. auto.
      + destruct (unused m o && negb (r_marked (m_heap m o))) eqn:W; [|exact V]. apply andb_prop in W as [W Wm]. destruct (unused2 m o V W) as (B & N & Nd & No & Nc). apply (planned2 m _ _ _ _ (m_replaced m) _ V0 V V0'); try exact (Hm _); try exact (Hm' _); try exact (Hh _); try (refine (Hi _ _); reflexivity); auto using incl_refl; try (apply incl_tl, incl_refl).
        * intros o'. cbn. destruct (Nat.eqb_spec o o') as [<-|X]; cbn [b2n]; [right; rewrite (Rf o N); cbn; auto|left; lia].
        * intros s o' [<-|[]] [(? & ? & [=])|(? & [=])].
        * intros s o' [<-|[]] [[= <-]|(? & [=])]. auto.
    - destruct (has o (m_condemned m)) eqn:U.
      + apply (planned2 m _ _ _ _ (m_replaced m) _ V0 V V0'); try exact (Hm _); try exact (Hm' _); try exact (Hh _); try (refine (Hi _ _); reflexivity); auto using incl_refl.
        * intros o'. left. rewrite has_remove. cbn. destruct (Nat.eqb_spec o o') as [<-|X]; [rewrite U; cbn; lia|]. destruct (has o' (m_condemned m)); cbn; lia.
        * intros s o' [<-|[]] [(? & ? & [=])|(? & [=])].
        * intros s o' [<-|[]] [[=]|(? & [=])].
      + destruct (unused m o && r_marked (m_heap m o)) eqn:W; [|exact V]. apply andb_prop in W as [W Wm]. destruct (unused2 m o V W) as (B & N & Nd & No & Nc). apply (planned2 m _ _ _ _ (m_replaced m) _ V0 V V0'); try exact (Hm _); try exact (Hm' _); try exact (Hh _); try (refine (Hi _ _); reflexivity); auto using incl_refl; try (apply incl_tl, incl_refl).
        * intros o'. cbn. destruct (Nat.eqb_spec o o') as [<-|X]; cbn [b2n]; [right; rewrite (Cf o N); cbn; auto|left; lia].
        * intros s o' [<-|[]] [(? & ? & [=])|(? & [=])].
        * intros s o' [<-|[]] [[=]|(? & [=])].
  Qed.
  Lemma next_inv2 m : Inv m -> Inv2 m -> steady m Next -> Inv2 (next_update m).
  Proof using.
    intros V0 V [_ St]. assert (Ids : forall q q' p, In q (m_base (next_update m)) -> In q' (m_base (next_update m)) -> r_id (m_heap (next_update m) q) = Some p -> r_id (m_heap (next_update m) q') = Some p -> q = q').
    { intros q q' p B B' E E'. cbn in *. apply in_seq in B, B'. apply (w_sids m V q q' (nth q (fst (m_saved m)) (mkRec "" false None false)) (nth q' (fst (m_saved m)) (mkRec "" false None false)) p); auto; apply nth_error_nth'; lia. }
    constructor; try (cbn; intros; contradiction); try exact Ids; try exact (w_saved m V); try exact (w_sids m V).
    - intros q p [[]|[B _]] Ep. cbn in *. apply in_seq in B. destruct (w_saved m V _ p (nth_In _ _ (proj2 B)) Ep) as [A|[(r & A & _)|A]]; auto. destruct (St r A).
    - intros o. cbn. auto.
    - intros q q' p [[]|[B _]] [[]|[B' _]]. exact (Ids q q' p B B').
    - cbn. apply seq_NoDup.
    - intros [|?] ? E; discriminate.
  Qed.
  Lemma react_inv2 m e : Inv m -> Inv2 m -> steady m e -> Inv2 (react m e).
  Proof using.
    intros V0 V O. destruct e as [d|i r|i a|i r|i|r|r|].
    - now apply plan_inv2.
    - now apply begin_inv2.
    - apply apply_inv2; auto. exact (proj1 O).
    - now apply end_inv2.
    - now apply stop_inv2.
    - now apply save_inv2.
    - cbn [react]. destruct (m_elided m); [now apply save_inv2|exact V].
    - now apply next_inv2.
  Qed.
  Lemma run_inv2 es : forall m, Inv m -> Inv2 m -> all_steady m es -> Inv (run m es) /\ Inv2 (run m es).
  Proof using. induction es as [|e es IH]; intros m V0 V O; [auto|]. destruct O as [O Os]. cbn [run fold_left]. apply IH; [apply react_inv; [exact V0|exact (proj1 O)]|now apply react_inv2|exact Os]. Qed.
  Lemma empty_inv2 : Inv2 empty.
  Proof using.
    unfold empty. constructor; try (cbn; intros; contradiction); try (intros [|?] ? E; discriminate); try (intros [|?] ? ? ? ? E; discriminate); try (intros o; cbn; auto; fail); try constructor.
    all: try (intros ? ? [[]|[[] _]]); try (intros ? ? ? [[]|[[] _]]).
  Qed.
End Inv.

(** Deciding [steady], for examples. *)
Definition steadyb (m : machine) (e : event) : bool :=
  orderlyb m e &&
  match e with
  | Plan (D_same p _ _) | Plan (D_update p _) => negb (r_marked (m_heap m p))
  | Next => forallb (fun o => match fst o with Deleting => false | _ => true end) (snd (m_saved m))
  | _ => true
  end.
Fixpoint all_steadyb (m : machine) (es : list event) : bool := match es with [] => true | e :: es' => steadyb m e && all_steadyb (react m e) es' end.
Lemma all_steadyb_spec es : forall m, all_steadyb m es = true -> all_steady m es.
Proof.
  induction es as [|e es IH]; intros m E; [exact I|]. cbn [all_steadyb all_steady] in *. apply andb_prop in E as [A B]. split; [|now apply IH]. clear - A. apply andb_prop in A as [A B]. split.
  - assert (X : all_orderlyb m [e] = true) by (cbn; now rewrite A). exact (proj1 (all_orderlyb_spec [e] m X)).
  - destruct e as [[]| | | | | | |]; try exact I; try (now apply Bool.negb_true_iff in B). intros r R. rewrite forallb_forall in B. discriminate (B _ R).
Qed.
