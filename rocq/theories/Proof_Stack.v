From Verif Require Import Base Model_Stack Spec_Stack.
From Coq Require Import Relations.Relation_Operators.
Open Scope string_scope.
Open Scope list_scope.

Lemma mem_in a l : existsb (Nat.eqb a) l = true <-> In a l.
Proof.
  rewrite existsb_exists. split; [intros (x & H & E); apply Nat.eqb_eq in E; subst; exact H|intros H; exists a; split; [exact H|apply Nat.eqb_refl]].
Qed.
Lemma mem_notin a l : existsb (Nat.eqb a) l = false <-> ~ In a l.
Proof. rewrite <- mem_in. destruct (existsb (Nat.eqb a) l); split; congruence. Qed.
Lemma NoDup_snoc (l : list nat) a : NoDup l -> ~ In a l -> NoDup (l ++ [a]).
Proof. intros D N. apply NoDup_rev in D. rewrite <- (rev_involutive (l ++ [a])). apply NoDup_rev. rewrite rev_app_distr. simpl. constructor; [rewrite <- in_rev; exact N|exact D]. Qed.
Lemma NoDup_app_intro {A} (l1 l2 : list A) : NoDup l1 -> NoDup l2 -> (forall x, In x l1 -> ~ In x l2) -> NoDup (l1 ++ l2).
Proof.
  intros D1 D2 Dj. induction D1 as [|x l1 N D1 IH]; [exact D2|]. simpl. constructor.
  - rewrite in_app_iff. intros [H|H]; [contradiction|]. apply (Dj x); [left; reflexivity|exact H].
  - apply IH. intros y Hy. apply Dj. right. exact Hy.
Qed.
Lemma NoDup_app_inv {A} (l1 l2 : list A) : NoDup (l1 ++ l2) -> NoDup l1 /\ NoDup l2 /\ forall x, In x l1 -> ~ In x l2.
Proof.
  induction l1 as [|x l1 IH]; simpl; intros D; [repeat split; [constructor|exact D|contradiction]|].
  inversion D as [|? ? N D']; subst. destruct (IH D') as (D1 & D2 & Dj). rewrite in_app_iff in N. repeat split.
  - constructor; [tauto|exact D1].
  - exact D2.
  - intros y [<-|Hy]; [tauto|apply Dj; exact Hy].
Qed.
Lemma bound_len N (st : list nat) : NoDup st -> (forall x, In x st -> x < N) -> length st <= N.
Proof.
  intros D B. rewrite <- (seq_length N 0). apply NoDup_incl_length; [exact D|]. intros x H. apply in_seq. specialize (B x H). lia.
Qed.
Lemma private_spec k : private_key k = false -> forall s, k <> ("_" ++ s)%string.
Proof. intros H s ->. simpl in H. discriminate. Qed.

(* ---- the walk ends, and what it gives ---- *)
Definition okseen (g : ograph) (s : list nat) : Prop := NoDup s /\ forall x, In x s -> x < length g.
Definition step_ok (g : ograph) (seen s' p : list nat) : Prop :=
  incl seen s' /\ okseen g s' /\ NoDup p /\ (forall x, In x p -> In x s' /\ ~ In x seen /\ is_output g x).
Lemma step_refl g seen : okseen g seen -> step_ok g seen seen [].
Proof. intros H. split; [apply incl_refl|]. split; [exact H|]. split; [constructor|contradiction]. Qed.
Lemma step_trans g s0 s1 s2 p1 p2 : step_ok g s0 s1 p1 -> step_ok g s1 s2 p2 -> step_ok g s0 s2 (p1 ++ p2).
Proof.
  intros (I1 & O1 & D1 & K1) (I2 & O2 & D2 & K2). split; [eapply incl_tran; eauto|]. split; [exact O2|]. split.
  - apply NoDup_app_intro; [exact D1|exact D2|]. intros x H1 H2. apply (K2 x H2). apply K1. exact H1.
  - intros x Hx. apply in_app_or in Hx as [Hx|Hx].
    + destruct (K1 x Hx) as (A & B & C). split; [apply I2; exact A|auto].
    + destruct (K2 x Hx) as (A & B & C). split; [exact A|]. split; [intros H; apply B; apply I1; exact H|exact C].
Qed.
Lemma step_sub g s0 s1 p p' : step_ok g s0 s1 p -> NoDup p' -> incl p' p -> step_ok g s0 s1 p'.
Proof. intros (I & O & D & K) D' I'. split; [exact I|]. split; [exact O|]. split; [exact D'|]. intros x H. apply K. apply I'. exact H. Qed.

Lemma pending_dset l k p : NoDup (flat_map (fun kv => pending (snd kv)) l) ->
  NoDup (flat_map (fun kv => pending (snd kv)) (dset l k (MPrim p))) /\
  incl (flat_map (fun kv => pending (snd kv)) (dset l k (MPrim p))) (flat_map (fun kv => pending (snd kv)) l).
Proof.
  induction l as [|[k' v] l IH]; simpl; intros D; [split; [constructor|intros x []]|].
  apply NoDup_app_inv in D as (D1 & D2 & Dj). destruct (String.eqb k k'); simpl.
  - split; [exact D2|]. intros x H. apply in_or_app. right. exact H.
  - destruct (IH D2) as [A B]. split.
    + apply NoDup_app_intro; [exact D1|exact A|]. intros x H K. apply (Dj x H). apply B. exact K.
    + intros x H. apply in_app_or in H as [H|H]; apply in_or_app; [left|right; apply B]; exact H.
Qed.
Lemma clean_dset l k v : clean (MDict l) -> (forall s, k <> ("_" ++ s)%string) -> clean v -> clean (MDict (dset l k v)).
Proof.
  intros C Hk Cv. constructor. inversion C as [| | | |? F]; subst. clear C. induction l as [|[k' w] l IH]; simpl.
  - constructor; [split; assumption|constructor].
  - inversion F as [|? ? F1 F2]; subst. destruct (String.eqb k k'); constructor; try assumption; [|apply IH; assumption].
    split; simpl; [apply F1|exact Cv].
Qed.

Definition walk_ok (g : ograph) (seen : list nat) (r : res (mval * list nat)) : Prop :=
  match r with
  | Err e => e <> out_of_fuel
  | Ok (m, s') => step_ok g seen s' (pending m) /\ clean m
  end.
Lemma massage_walk dry g : closed g -> forall fuel a seen, okseen g seen -> a < length g -> length g - length seen < fuel ->
  walk_ok g seen (massage fuel dry g a seen).
Proof.
  intros C. induction fuel as [|fuel IH]; intros a seen O L F; [lia|]. cbn [massage]. unfold massage_body.
  assert (Fi : forall es s, okseen g s -> (forall k x, In (k, x) es -> x < length g) -> length g - length s < fuel ->
            match fields (massage fuel dry g) es s with
            | Err e => e <> out_of_fuel
            | Ok (d, s') => step_ok g s s' (flat_map (fun kv => pending (snd kv)) d) /\ clean (MDict d)
            end).
  { induction es as [|[k x] es IHe]; intros s Os B Fs; [simpl; split; [apply step_refl; exact Os|constructor; constructor]|].
    simpl. destruct k as [k|n]; [|discriminate]. destruct (private_key k) eqn:Pk.
    { apply IHe; auto. intros k' y H. eapply B. right. exact H. }
    pose proof (IH x s Os (B _ _ (or_introl eq_refl)) Fs) as W. destruct (massage fuel dry g x s) as [[m s1]|e]; simpl in *; [|exact W].
    destruct W as [W1 W2].
    assert (Len : length s <= length s1) by (apply NoDup_incl_length; [apply Os|apply W1]).
    specialize (IHe s1 (proj1 (proj2 W1)) (fun k' y H => B k' y (or_intror H)) ltac:(lia)).
    destruct (fields (massage fuel dry g) es s1) as [[d s2]|e]; simpl; [|exact IHe]. destruct IHe as [E1 E2]. split; [eapply step_trans; eauto|].
    constructor. constructor; [split; [apply private_spec; exact Pk|exact W2]|]. inversion E2; subst. assumption. }
  assert (It : forall l s, okseen g s -> (forall x, In x l -> x < length g) -> length g - length s < fuel ->
            match elements (massage fuel dry g) l s with
            | Err e => e <> out_of_fuel
            | Ok (d, s') => step_ok g s s' (flat_map pending d) /\ Forall clean d
            end).
  { induction l as [|x l IHl]; intros s Os B Fs; [simpl; split; [apply step_refl; exact Os|constructor]|].
    simpl. pose proof (IH x s Os (B _ (or_introl eq_refl)) Fs) as W. destruct (massage fuel dry g x s) as [[m s1]|e]; simpl in *; [|exact W].
    destruct W as [W1 W2].
    assert (Len : length s <= length s1) by (apply NoDup_incl_length; [apply Os|apply W1]).
    specialize (IHl s1 (proj1 (proj2 W1)) (fun y H => B y (or_intror H)) ltac:(lia)).
    destruct (elements (massage fuel dry g) l s1) as [[d s2]|e]; simpl; [|exact IHl]. destruct IHl as [E1 E2]. split; [eapply step_trans; eauto|].
    constructor; assumption. }
  destruct (existsb (Nat.eqb a) seen) eqn:Ex.
  - destruct (obj_at g a); simpl; (split; [apply step_refl; exact O|constructor]).
  - apply mem_notin in Ex.
    assert (O' : okseen g (seen ++ [a])).
    { split; [apply NoDup_snoc; [apply O|exact Ex]|]. intros x Hx. apply in_app_or in Hx as [Hx|[<-|[]]]; [apply O; exact Hx|exact L]. }
    assert (Lb : length (seen ++ [a]) <= length g) by (apply bound_len; apply O').
    rewrite app_length in Lb. simpl in Lb.
    assert (F' : length g - length (seen ++ [a]) < fuel) by (rewrite app_length; simpl; lia).
    assert (S0 : step_ok g seen (seen ++ [a]) []).
    { split; [intros x Hx; apply in_or_app; left; exact Hx|]. split; [exact O'|]. split; [constructor|contradiction]. }
    assert (Push : forall r, walk_ok g (seen ++ [a]) r -> walk_ok g seen r).
    { intros [[m s']|e] W; [|exact W]. destruct W as [W1 W2]. split; [|exact W2]. exact (step_trans _ _ _ _ [] _ S0 W1). }
    destruct (obj_at g a) as [p|es|v|v|d u|d|l] eqn:Eo; cbv beta iota zeta.
    + simpl. split; [apply step_refl; exact O|constructor].
    + specialize (Fi es _ O' (fun k x H => C a x L (rf_entry g a x k es Eo H)) F').
      destruct (fields (massage fuel dry g) es (seen ++ [a])) as [[d s']|e]; simpl; [|exact Fi].
      apply (Push (Ok (MDict d, s'))). exact Fi.
    + simpl. split; [|constructor]. split; [intros x Hx; apply in_or_app; left; exact Hx|]. split; [exact O'|].
      split; [constructor; [intros []|constructor]|]. intros x [<-|[]]. split; [apply in_or_app; right; left; reflexivity|]. split; [exact Ex|].
      exists v. unfold value_of. rewrite Eo. reflexivity.
    + simpl. split; [|constructor]. split; [intros x Hx; apply in_or_app; left; exact Hx|]. split; [exact O'|].
      split; [constructor; [intros []|constructor]|]. intros x [<-|[]]. split; [apply in_or_app; right; left; reflexivity|]. split; [exact Ex|].
      exists v. unfold value_of. rewrite Eo. reflexivity.
    + pose proof (IH d _ O' (C a d L (rf_attrs g a d u Eo)) F') as W.
      destruct (massage fuel dry g d (seen ++ [a])) as [[m s']|e]; simpl in W |- *; [|exact W].
      destruct dry; [|apply (Push (Ok (m, s'))); exact W]. destruct m as [p|dd|l|x|x]; simpl; try discriminate.
      destruct W as [W1 W2]. apply (Push (Ok (MDict (dset dd "@isPulumiResource" (MPrim (PBool true))), s'))). simpl.
      assert (Pd : NoDup (flat_map (fun kv => pending (snd kv)) dd)) by (apply W1).
      destruct (pending_dset dd "@isPulumiResource" (PBool true) Pd) as [Pd1 Pd2]. split; [eapply step_sub; eauto|].
      apply clean_dset; [exact W2|intros s K; discriminate|constructor].
    + apply Push. apply IH; [exact O'|exact (C a d L (rf_object g a d Eo))|exact F'].
    + specialize (It l _ O' (fun x H => C a x L (rf_item g a x l Eo H)) F').
      destruct (elements (massage fuel dry g) l (seen ++ [a])) as [[d s']|e]; simpl; [|exact It].
      apply (Push (Ok (MList d, s'))). destruct It as [E1 E2]. split; [exact E1|constructor; exact E2].
Qed.

(* ---- no exceptions on exportable graphs ---- *)
Definition kept (dry : bool) (g : ograph) (seen : list nat) : Prop :=
  dry = true -> forall a d u, obj_at g a = OResource d u -> In d seen -> In a seen.
Definition enterable (dry : bool) (g : ograph) (v : nat) (seen : list nat) : Prop :=
  dry = true -> forall a u, obj_at g a = OResource v u -> In a seen.
Lemma massage_no_exn dry g : exportable dry g -> forall fuel a seen, kept dry g seen -> enterable dry g a seen ->
  match massage fuel dry g a seen with
  | Err e => e = out_of_fuel
  | Ok (m, s') => incl seen s' /\ kept dry g s' /\ forall es, obj_at g a = ODict es -> ~ In a seen -> exists d, m = MDict d
  end.
Proof.
  intros (C & At & Sk & Ow). induction fuel as [|fuel IH]; intros a seen K E; [reflexivity|]. cbn [massage]. unfold massage_body.
  destruct (existsb (Nat.eqb a) seen) eqn:Ex.
  { apply mem_in in Ex. destruct (obj_at g a); split; auto using incl_refl; (split; [exact K|intros es H N]; contradiction). }
  apply mem_notin in Ex.
  assert (K' : kept dry g (seen ++ [a])).
  { intros Hd b d u Hb Hin. apply in_app_or in Hin as [Hin|[<-|[]]]; apply in_or_app; left; [eapply K; eauto|eapply E; eauto]. }
  assert (I' : incl seen (seen ++ [a])) by (intros x Hx; apply in_or_app; left; exact Hx).
  assert (Ch : forall x s, refers g a x -> incl (seen ++ [a]) s -> enterable dry g x s).
  { intros x s R I Hd b u Hb. assert (a = b) by (eapply Ow; eauto). subst b. apply I. apply in_or_app. right. left. reflexivity. }
  assert (Fi : forall es s, kept dry g s -> incl (seen ++ [a]) s -> (forall k x, In (k, x) es -> refers g a x /\ exists q, k = KStr q) ->
            match fields (massage fuel dry g) es s with Err e => e = out_of_fuel | Ok (d, s') => incl s s' /\ kept dry g s' end).
  { induction es as [|[k x] es IHe]; intros s Ks Is B; [simpl; split; [apply incl_refl|exact Ks]|].
    destruct (B k x (or_introl eq_refl)) as [R [q ->]]. simpl.
    assert (B' : forall k x, In (k, x) es -> refers g a x /\ exists q, k = KStr q) by (intros; apply B; right; assumption).
    destruct (private_key q); [apply IHe; assumption|].
    pose proof (IH x s Ks (Ch x s R Is)) as W. destruct (massage fuel dry g x s) as [[m s1]|e]; simpl; [|exact W].
    destruct W as (W1 & W2 & _). specialize (IHe s1 W2 (incl_tran Is W1) B').
    destruct (fields (massage fuel dry g) es s1) as [[d s2]|e]; simpl; [|exact IHe]. destruct IHe as [E1 E2]. split; [eapply incl_tran; eauto|exact E2]. }
  assert (It : forall l s, kept dry g s -> incl (seen ++ [a]) s -> (forall x, In x l -> refers g a x) ->
            match elements (massage fuel dry g) l s with Err e => e = out_of_fuel | Ok (d, s') => incl s s' /\ kept dry g s' end).
  { induction l as [|x l IHe]; intros s Ks Is B; [simpl; split; [apply incl_refl|exact Ks]|].
    pose proof (B x (or_introl eq_refl)) as R. simpl.
    pose proof (IH x s Ks (Ch x s R Is)) as W. destruct (massage fuel dry g x s) as [[m s1]|e]; simpl; [|exact W].
    destruct W as (W1 & W2 & _). specialize (IHe s1 W2 (incl_tran Is W1) (fun y H => B y (or_intror H))).
    destruct (elements (massage fuel dry g) l s1) as [[d s2]|e]; simpl; [|exact IHe]. destruct IHe as [E1 E2]. split; [eapply incl_tran; eauto|exact E2]. }
  destruct (obj_at g a) as [p|es|v|v|d u|d|l] eqn:Eo; cbv beta iota zeta.
  - split; [apply incl_refl|]. split; [exact K|]. intros es H; discriminate.
  - assert (B : forall k x, In (k, x) es -> refers g a x /\ exists q, k = KStr q).
    { intros k x H. split; [eapply rf_entry; eauto|eapply Sk; eauto]. }
    specialize (Fi es _ K' (incl_refl _) B). destruct (fields (massage fuel dry g) es (seen ++ [a])) as [[d s']|e]; simpl; [|exact Fi].
    destruct Fi as [F1 F2]. split; [eapply incl_tran; eauto|]. split; [exact F2|]. intros _ _ _. exists d. reflexivity.
  - split; [exact I'|]. split; [exact K'|]. intros es H; discriminate.
  - split; [exact I'|]. split; [exact K'|]. intros es H; discriminate.
  - pose proof (IH d _ K' (Ch d _ (rf_attrs g a d u Eo) (incl_refl _))) as W.
    destruct (massage fuel dry g d (seen ++ [a])) as [[m s']|e]; simpl; [|exact W]. destruct W as (W1 & W2 & W3).
    destruct dry.
    + destruct (At a d u Eo) as [es Ed].
      assert (Nd : ~ In d (seen ++ [a])).
      { intros H. apply in_app_or in H as [H|[H|[]]]; [apply Ex; eapply K; eauto|subst d; congruence]. }
      destruct (W3 es Ed Nd) as [dd ->]. simpl. split; [eapply incl_tran; eauto|]. split; [exact W2|]. intros ? H; discriminate.
    + split; [eapply incl_tran; eauto|]. split; [exact W2|]. intros ? H; discriminate.
  - pose proof (IH d _ K' (Ch d _ (rf_object g a d Eo) (incl_refl _))) as W.
    destruct (massage fuel dry g d (seen ++ [a])) as [[m s']|e]; [|exact W]. destruct W as (W1 & W2 & _).
    split; [eapply incl_tran; eauto|]. split; [exact W2|]. intros ? H; discriminate.
  - specialize (It l _ K' (incl_refl _) (fun x H => rf_item g a x l Eo H)).
    destruct (elements (massage fuel dry g) l (seen ++ [a])) as [[d s']|e]; simpl; [|exact It].
    destruct It as [F1 F2]. split; [eapply incl_tran; eauto|]. split; [exact F2|]. intros ? H; discriminate.
Qed.

Lemma massage_ok dry g a seen fuel : exportable dry g -> okseen g seen -> kept dry g seen -> enterable dry g a seen -> a < length g -> length g < fuel ->
  exists m s', massage fuel dry g a seen = Ok (m, s') /\ step_ok g seen s' (pending m) /\ clean m /\ kept dry g s'.
Proof.
  intros X O K E L F. pose proof (massage_walk dry g (proj1 X) fuel a seen O L ltac:(lia)) as W.
  pose proof (massage_no_exn dry g X fuel a seen K E) as N.
  destruct (massage fuel dry g a seen) as [[m s']|e]; simpl in W; [|contradiction]. exists m, s'. destruct W, N as (N1 & N2 & _). auto.
Qed.

(* ---- any finite graph: the walk ends ---- *)
Lemma massage_ends dry g a fuel : closed g -> a < length g -> length g < fuel -> massage fuel dry g a [] <> Err out_of_fuel.
Proof.
  intros C L F. assert (O : okseen g []) by (split; [constructor|contradiction]).
  pose proof (massage_walk dry g C fuel a [] O L ltac:(simpl; lia)) as W. intros E. rewrite E in W. apply W. reflexivity.
Qed.

(* ---- callbacks ---- *)
Definition start (m : mval) (seen : list nat) : exporting := mkExporting seen (pending m) [].
Definition good_state (dry : bool) (g : ograph) (s : exporting) : Prop :=
  okseen g (e_seen s) /\ kept dry g (e_seen s) /\ NoDup (e_waiting s ++ map fst (e_results s)) /\
  (forall x, In x (e_waiting s ++ map fst (e_results s)) -> In x (e_seen s) /\ is_output g x) /\
  Forall (fun r => clean (snd r)) (e_results s).
Lemma output_refers g a v : value_of g a = Some v -> refers g a v.
Proof. unfold value_of. destruct (obj_at g a) eqn:E; try discriminate; intros [= <-]; [apply rf_output|apply rf_await]; exact E. Qed.
Lemma runnable dry g s l1 a l2 : exportable dry g -> good_state dry g s -> e_waiting s = l1 ++ a :: l2 ->
  exists v m seen', value_of g a = Some v /\ massage (S (length g)) dry g v (e_seen s) = Ok (m, seen') /\ step_ok g (e_seen s) seen' (pending m) /\ clean m /\ kept dry g seen'.
Proof.
  intros X (O & K & D & B & Cl) E. assert (Ha : In a (e_waiting s ++ map fst (e_results s))) by (rewrite E, !in_app_iff; simpl; auto).
  destruct (B a Ha) as [Sa [v Hv]]. pose proof (output_refers g a v Hv) as R.
  assert (Lv : v < length g) by (eapply (proj1 X); [apply O; exact Sa|exact R]).
  assert (En : enterable dry g v (e_seen s)).
  { intros Hd b u Hb. destruct X as (_ & _ & _ & Ow). assert (a = b) by (eapply Ow; eauto). subst b. exact Sa. }
  destruct (massage_ok dry g v (e_seen s) (S (length g)) X O K En Lv ltac:(lia)) as (m & s' & M & S1 & C1 & K1).
  exists v, m, s'. auto 6.
Qed.
Lemma resolve_good dry g s s' : exportable dry g -> good_state dry g s -> resolve dry g s s' -> good_state dry g s'.
Proof.
  intros X G R. inversion R as [? l1 a l2 v m seen' E Hv M]; subst.
  destruct (runnable dry g s l1 a l2 X G E) as (v' & m' & s1 & Hv' & M' & S1 & C1 & K1).
  assert (v' = v) by congruence. subst v'. rewrite M in M'. injection M' as <- <-.
  destruct G as (O & K & D & B & Cl). destruct S1 as (I1 & O1 & D1 & P1). split; [exact O1|]. split; [exact K1|]. cbn [e_waiting e_results map fst]. rewrite E in D, B.
  split; [|split].
  - replace ((l1 ++ l2 ++ pending m) ++ a :: map fst (e_results s)) with (l1 ++ (l2 ++ pending m) ++ a :: map fst (e_results s)) by (rewrite <- !app_assoc; reflexivity).
    rewrite <- app_assoc in D. simpl in D.
    assert (D2 : NoDup (l1 ++ l2 ++ a :: map fst (e_results s))).
    { apply NoDup_remove in D as [D N]. rewrite app_assoc in D |- *. apply NoDup_Add with (a := a) (l := (l1 ++ l2) ++ map fst (e_results s)); [apply Add_app|].
      split; [exact D|]. rewrite <- app_assoc. exact N. }
    assert (N : forall x, In x (pending m) -> ~ In x (l1 ++ l2 ++ a :: map fst (e_results s))).
    { intros x Hx Hi. apply (P1 x Hx). apply B. rewrite !in_app_iff in Hi |- *. simpl in Hi |- *. tauto. }
    rewrite <- app_assoc. rewrite app_assoc. apply NoDup_app_inv in D2 as (A1 & A2 & A3). apply NoDup_app_inv in A2 as (A4 & A5 & A6).
    apply NoDup_app_intro; [apply NoDup_app_intro; [exact A1|exact A4|intros x H K'; apply (A3 x H); apply in_or_app; left; exact K']| |].
    + apply NoDup_app_intro; [exact D1|exact A5|]. intros x H K'. apply (N x H). rewrite !in_app_iff. auto.
    + intros x H K'. apply in_app_or in K' as [K'|K'].
      * apply (N x K'). rewrite !in_app_iff. apply in_app_or in H. tauto.
      * apply in_app_or in H as [H|H]; [apply (A3 x H); apply in_or_app; right; exact K'|exact (A6 x H K')].
  - intros x Hx. assert (Hc : In x (pending m) \/ In x ((l1 ++ a :: l2) ++ map fst (e_results s))) by (repeat rewrite in_app_iff in Hx; repeat rewrite in_app_iff; simpl in Hx |- *; tauto).
    cbn [e_seen]. destruct Hc as [Hc|Hc]; [destruct (P1 x Hc) as (A & _ & A'); auto|]. destruct (B x Hc) as [A A']. split; [apply I1; exact A|exact A'].
  - constructor; assumption.
Qed.

Lemma export_ok dry g a : exportable dry g -> a < length g -> (dry = true -> ~ is_attrs g a) ->
  exists m seen, massage (S (length g)) dry g a [] = Ok (m, seen) /\ clean m /\
    forall s, clos_refl_trans_1n _ (resolve dry g) (start m seen) s ->
      Forall (fun r => clean (snd r)) (e_results s) /\ NoDup (map fst (e_results s)) /\ length (e_results s) <= length g /\
      (forall l1 b l2, e_waiting s = l1 ++ b :: l2 -> exists m' seen', resolve dry g s (mkExporting seen' (l1 ++ l2 ++ pending m') ((b, m') :: e_results s))).
Proof.
  intros X L Na. assert (O : okseen g []) by (split; [constructor|contradiction]).
  assert (K : kept dry g []) by (intros _ b d u _ []).
  assert (En : enterable dry g a []) by (intros Hd b u Hb; destruct (Na Hd); exists b, u; exact Hb).
  destruct (massage_ok dry g a [] (S (length g)) X O K En L ltac:(lia)) as (m & s' & M & S1 & C1 & K1).
  exists m, s'. split; [exact M|]. split; [exact C1|].
  assert (G : good_state dry g (start m s')).
  { destruct S1 as (I1 & O1 & D1 & P1). split; [exact O1|]. split; [exact K1|]. simpl. rewrite app_nil_r. split; [exact D1|]. split; [|constructor].
    intros x Hx. destruct (P1 x Hx) as (A & _ & B). auto. }
  intros s R. assert (Gs : good_state dry g s).
  { revert G. induction R as [|x y z H R IH]; intros G; [exact G|]. apply IH. eapply resolve_good; eauto. }
  pose proof Gs as Gs0. destruct Gs as (Os & Ks & Ds & Bs & Cs). split; [exact Cs|].
  apply NoDup_app_inv in Ds as (_ & Ds & _). split; [exact Ds|]. split.
  - rewrite <- (map_length fst). apply bound_len; [exact Ds|]. intros x Hx. apply Os. apply Bs. apply in_or_app. right. exact Hx.
  - intros l1 b l2 E. destruct (runnable dry g s l1 b l2 X Gs0 E) as (v & m' & s1 & Hv & M' & _). exists m', s1. econstructor; eauto.
Qed.

(* ---- plain data ---- *)
Scheme tree_mut := Minimality for tree Sort Prop with trees_mut := Minimality for trees Sort Prop.
Lemma massage_tree dry g : forall a m l, tree g a m l -> forall fuel seen, length l < fuel -> NoDup l -> (forall x, In x l -> ~ In x seen) ->
  massage fuel dry g a seen = Ok (m, seen ++ l).
Proof.
  apply (tree_mut g
    (fun a m l => forall fuel seen, length l < fuel -> NoDup l -> (forall x, In x l -> ~ In x seen) -> massage fuel dry g a seen = Ok (m, seen ++ l))
    (fun as_ ms l => forall fuel seen, length l < fuel -> NoDup l -> (forall x, In x l -> ~ In x seen) ->
       elements (massage fuel dry g) as_ seen = Ok (ms, seen ++ l) /\
       forall es ks, as_ = map snd es -> map fst es = map KStr ks -> (forall k s, In k ks -> k <> ("_" ++ s)%string) ->
         fields (massage fuel dry g) es seen = Ok (combine ks ms, seen ++ l))).
  - intros a p E fuel seen F D N. destruct fuel as [|fuel]; [simpl in F; lia|]. cbn [massage]. unfold massage_body. rewrite E, app_nil_r. reflexivity.
  - intros a v E fuel seen F D N. destruct fuel as [|fuel]; [simpl in F; lia|]. cbn [massage]. unfold massage_body. rewrite E. cbv beta iota zeta.
    rewrite (proj2 (mem_notin a seen) (N a (or_introl eq_refl))). reflexivity.
  - intros a l ms ls E T IH fuel seen F D N. destruct fuel as [|fuel]; [simpl in F; lia|]. cbn [massage]. unfold massage_body. rewrite E. cbv beta iota zeta.
    rewrite (proj2 (mem_notin a seen) (N a (or_introl eq_refl))). inversion D as [|? ? Na D']; subst. simpl in F.
    destruct (IH fuel (seen ++ [a]) ltac:(lia) D') as [H _].
    { intros x Hx Hi. apply in_app_or in Hi as [Hi|[<-|[]]]; [apply (N x (or_intror Hx) Hi)|contradiction]. }
    rewrite H. simpl. rewrite <- app_assoc. reflexivity.
  - intros a es ks ms ls E Ek Pk T IH fuel seen F D N. destruct fuel as [|fuel]; [simpl in F; lia|]. cbn [massage]. unfold massage_body. rewrite E. cbv beta iota zeta.
    rewrite (proj2 (mem_notin a seen) (N a (or_introl eq_refl))). inversion D as [|? ? Na D']; subst. simpl in F.
    destruct (IH fuel (seen ++ [a]) ltac:(lia) D') as [_ H].
    { intros x Hx Hi. apply in_app_or in Hi as [Hi|[<-|[]]]; [apply (N x (or_intror Hx) Hi)|contradiction]. }
    rewrite (H es ks eq_refl Ek Pk). simpl. rewrite <- app_assoc. reflexivity.
  - intros fuel seen F D N. rewrite app_nil_r. split; [reflexivity|]. intros es ks Ee Ek _. destruct es; [|discriminate]. destruct ks; [|discriminate]. reflexivity.
  - intros a l m ms la ls T1 IH1 T2 IH2 fuel seen F D N. rewrite app_length in F. apply NoDup_app_inv in D as (D1 & D2 & Dj).
    assert (H1 : massage fuel dry g a seen = Ok (m, seen ++ la)).
    { apply IH1; [lia|exact D1|]. intros x Hx. apply N. apply in_or_app. left. exact Hx. }
    destruct (IH2 fuel (seen ++ la) ltac:(lia) D2) as [H2 H3].
    { intros x Hx Hi. apply in_app_or in Hi as [Hi|Hi]; [apply (N x); [apply in_or_app; right; exact Hx|exact Hi]|exact (Dj x Hi Hx)]. }
    split.
    + simpl. rewrite H1. simpl. rewrite H2. simpl. rewrite <- app_assoc. reflexivity.
    + intros es ks Ee Ek Pk. destruct es as [|[k x] es]; [discriminate|]. destruct ks as [|q ks]; [discriminate|]. simpl in Ee, Ek.
      injection Ee as <- Ee. injection Ek as -> Ek. simpl.
      assert (Pq : private_key q = false).
      { destruct q as [|c q']; [reflexivity|]. simpl. destruct (Ascii.eqb c "_") eqn:Ec; [|reflexivity]. apply Ascii.eqb_eq in Ec. subst c.
        exfalso. apply (Pk (String "_" q') q'); [left; reflexivity|reflexivity]. }
      rewrite Pq, H1. simpl. rewrite (H3 es ks Ee Ek (fun k s H => Pk k s (or_intror H))). simpl. rewrite <- app_assoc. reflexivity.
Qed.
Lemma tree_bound g a m l : tree g a m l -> forall x, In x l -> x < length g.
Proof.
  assert (B : forall x, obj_at g x <> OPrim PNone -> x < length g).
  { intros x H. destruct (lt_dec x (length g)) as [L|L]; [exact L|]. exfalso. apply H. unfold obj_at. apply nth_overflow. lia. }
  revert a m l. apply (tree_mut g (fun a m l => forall x, In x l -> x < length g) (fun _ _ l => forall x, In x l -> x < length g)).
  - intros b p E x [].
  - intros b v E x [<-|[]]. apply B. congruence.
  - intros b l0 ms ls E _ IH x [<-|H]; [apply B; congruence|auto].
  - intros b es ks ms ls E _ _ _ IH x [<-|H]; [apply B; congruence|auto].
  - intros x [].
  - intros b l0 m0 ms la ls _ IH1 _ IH2 x H. apply in_app_or in H as [H|H]; auto.
Qed.
Lemma plain_unchanged dry g a m l : tree g a m l -> NoDup l -> massage (S (length g)) dry g a [] = Ok (m, l).
Proof.
  intros T D. apply (massage_tree dry g a m l T); [|exact D|intros x _ []].
  pose proof (bound_len (length g) l D (tree_bound _ _ _ _ T)). lia.
Qed.

(* ---- the stack ---- *)
Lemma exports_spec exports : wf_dict (fold_left (fun d kv => dset d (fst kv) (snd kv)) exports []) /\
  forall k v, dget (fold_left (fun d kv => dset d (fst kv) (snd kv)) exports []) k = Some v <-> exported exports k v.
Proof.
  induction exports as [|[k0 v0] l IH] using rev_ind.
  - split; [constructor|]. intros k v. split; [discriminate|]. intros (l1 & l2 & E & _). destruct l1; discriminate.
  - rewrite fold_left_app. simpl. destruct IH as [W S]. split; [apply wf_dset; exact W|]. intros k v. rewrite dget_dset.
    destruct (String.eqb k k0) eqn:E.
    + apply String.eqb_eq in E. subst k0. split.
      * intros [= <-]. exists l, []. split; [reflexivity|intros []].
      * intros (l1 & l2 & E & N). destruct l2 as [|x l2] using rev_ind.
        -- apply app_inj_tail in E as [_ E]. congruence.
        -- clear IHl2. rewrite app_comm_cons, app_assoc in E. apply app_inj_tail in E as [_ E]. exfalso. apply N. rewrite map_app, in_app_iff. right. left. subst x. reflexivity.
    + apply String.eqb_neq in E. rewrite S. split; intros (l1 & l2 & El & N).
      * exists l1, (l2 ++ [(k0, v0)]). split; [rewrite El, <- app_assoc; reflexivity|]. rewrite map_app, in_app_iff. simpl. intros [H|[H|[]]]; [contradiction|congruence].
      * destruct l2 as [|x l2] using rev_ind; [apply app_inj_tail in El as [_ El]; congruence|]. clear IHl2.
        rewrite app_comm_cons, app_assoc in El. apply app_inj_tail in El as [El _]. exists l1, l2. split; [exact El|].
        rewrite map_app, in_app_iff in N. tauto.
Qed.
Lemma obj_old g o a : a < length g -> obj_at (g ++ [o]) a = obj_at g a.
Proof. intros L. unfold obj_at. apply app_nth1. exact L. Qed.
Lemma obj_new g o : obj_at (g ++ [o]) (length g) = o.
Proof. unfold obj_at. rewrite app_nth2 by lia. rewrite Nat.sub_diag. reflexivity. Qed.
Lemma obj_cases g o a : a < length g \/ a = length g \/ obj_at (g ++ [o]) a = OPrim PNone.
Proof.
  destruct (lt_dec a (length g)); [auto|]. destruct (Nat.eq_dec a (length g)); [auto|]. right. right. unfold obj_at. apply nth_overflow. rewrite app_length. simpl. lia.
Qed.
Lemma obj_bound g a o : obj_at g a = o -> o <> OPrim PNone -> a < length g.
Proof. intros E H. destruct (lt_dec a (length g)) as [L|L]; [exact L|]. exfalso. apply H. rewrite <- E. unfold obj_at. apply nth_overflow. lia. Qed.
Lemma refers_old g o a b : a < length g -> refers (g ++ [o]) a b <-> refers g a b.
Proof.
  intros L. split; intros R; destruct R; rewrite ?(obj_old g o a L) in *; try (rewrite <- (obj_old g o a L) in *);
    [eapply rf_entry|eapply rf_item|eapply rf_output|eapply rf_await|eapply rf_attrs|eapply rf_object|eapply rf_entry|eapply rf_item|eapply rf_output|eapply rf_await|eapply rf_attrs|eapply rf_object];
    rewrite ?(obj_old g o a L) in *; eauto.
Qed.
Lemma exportable_exports dry g exports : exportable dry g -> (forall k v, In (k, v) exports -> v < length g /\ (dry = true -> ~ is_attrs g v)) ->
  exportable dry (g ++ [ODict (exports_dict exports)]) /\ (dry = true -> ~ is_attrs (g ++ [ODict (exports_dict exports)]) (length g)).
Proof.
  intros (C & At & Sk & Ow) Ex. set (o := ODict (exports_dict exports)).
  assert (En : forall b, refers (g ++ [o]) (length g) b -> exists k, In (k, b) exports).
  { intros b R. destruct R as [k es E H|l E H|E|E|u E|E]; rewrite obj_new in E; try discriminate. injection E as <-.
    unfold exports_dict in H. apply in_map_iff in H as ([k' v] & [= _ <-] & H). simpl. exists k'.
    destruct (exports_spec exports) as [W S]. apply (In_dget _ _ _ W) in H. apply S in H as (l1 & l2 & -> & _). rewrite in_app_iff. right. left. reflexivity. }
  assert (Rs : forall a d u, obj_at (g ++ [o]) a = OResource d u -> a < length g /\ obj_at g a = OResource d u).
  { intros a d u E. destruct (obj_cases g o a) as [L|[->|K]]; [rewrite obj_old in E by exact L; auto|rewrite obj_new in E; discriminate|congruence]. }
  split; [split; [|split; [|split]]|].
  - intros a b L R. rewrite app_length. simpl. destruct (obj_cases g o a) as [La|[->|K]].
    + apply refers_old in R; [|exact La]. specialize (C a b La R). lia.
    + apply En in R as [k H]. apply Ex in H as [H _]. lia.
    + destruct R as [? ? E ?|? E ?|E|E|? E|E]; congruence.
  - intros a d u E. apply Rs in E as [L E]. destruct (At a d u E) as [es Ed]. exists es. rewrite obj_old; [exact Ed|]. eapply obj_bound; [exact Ed|discriminate].
  - intros a es k b E H. destruct (obj_cases g o a) as [L|[->|K]]; [rewrite obj_old in E by exact L; eapply Sk; eauto| |congruence].
    rewrite obj_new in E. injection E as <-. unfold exports_dict in H. apply in_map_iff in H as ([k' v] & [= <- _] & _). eauto.
  - intros Hd a d u b E R. apply Rs in E as [L E]. destruct (obj_cases g o b) as [Lb|[->|K]].
    + apply refers_old in R; [|exact Lb]. eapply Ow; eauto.
    + apply En in R as [k H]. apply Ex in H as [_ H]. destruct (H Hd). exists a, u. exact E.
    + destruct R as [? ? E' ?|? E' ?|E'|E'|? E'|E']; congruence.
  - intros Hd (a & u & E). apply Rs in E as [L E]. assert (length g < length g) by (eapply C; [exact L|eapply rf_attrs; exact E]). lia.
Qed.
Lemma fieldsf_keys fuel dry g es : forall seen d s, fields (massage fuel dry g) es seen = Ok (d, s) ->
  forall k, In k (map fst d) <-> In (KStr k) (map fst es) /\ private_key k = false.
Proof.
  induction es as [|[[q|n] x] es IH]; simpl; intros seen d s H k; [injection H as <- _; simpl; tauto| |discriminate].
  destruct (private_key q) eqn:Pq.
  - rewrite (IH _ _ _ H k). split; [tauto|]. intros [[E|H'] P]; [injection E as ->; congruence|auto].
  - destruct (massage fuel dry g x seen) as [[m s1]|e]; [|discriminate]. simpl in H. destruct (fields (massage fuel dry g) es s1) as [[d' s2]|e] eqn:F; [|discriminate].
    simpl in H. injection H as <- <-. simpl. rewrite (IH _ _ _ F k). split.
    + intros [->|[H P]]; [auto|auto].
    + intros [[E|H] P]; [injection E as ->; auto|auto].
Qed.
Lemma private_iff k : private_key k = false <-> forall s, k <> ("_" ++ s)%string.
Proof.
  split; [apply private_spec|]. intros H. destruct k as [|c k]; [reflexivity|]. simpl. destruct (Ascii.eqb c "_") eqn:E; [|reflexivity].
  apply Ascii.eqb_eq in E. subst c. exfalso. apply (H k). reflexivity.
Qed.

Lemma stack_registers dry g exports outcome : exportable dry g -> (forall k v, In (k, v) exports -> v < length g /\ (dry = true -> ~ is_attrs g v)) ->
  exists d, run_stack false dry g exports outcome = ([MDict d], outcome) /\ clean (MDict d) /\
    (forall k, In k (map fst d) <-> (exists v, exported exports k v) /\ forall s, k <> ("_" ++ s)%string) /\
    (forall m l, tree (g ++ [ODict (exports_dict exports)]) (length g) m l -> NoDup l -> MDict d = m).
Proof.
  intros X Ex. destruct (exportable_exports dry g exports X Ex) as [X' Na]. set (g' := g ++ [ODict (exports_dict exports)]) in *.
  assert (L : length g < length g') by (unfold g'; rewrite app_length; simpl; lia).
  destruct (export_ok dry g' (length g) X' L Na) as (m & seen & M & Cm & _).
  assert (Md : exists d s, fields (massage (length g') dry g') (exports_dict exports) [length g] = Ok (d, s) /\ m = MDict d).
  { cbn [massage] in M. unfold massage_body in M. assert (Eo : obj_at g' (length g) = ODict (exports_dict exports)) by apply obj_new. rewrite Eo in M. cbn [existsb app] in M.
    destruct (fields (massage (length g') dry g') (exports_dict exports) [length g]) as [[d s]|e]; [|discriminate]. simpl in M. injection M as <- _. eauto. }
  destruct Md as (d & s & Fd & ->). exists d. unfold run_stack. fold g'. rewrite M. split; [reflexivity|]. split; [exact Cm|]. split.
  - intros k. rewrite (fieldsf_keys _ _ _ _ _ _ _ Fd k), private_iff. destruct (exports_spec exports) as [W S].
    assert (Ke : In (KStr k) (map fst (exports_dict exports)) <-> exists v, exported exports k v).
    { unfold exports_dict. rewrite map_map. simpl. split.
      - intros H. apply in_map_iff in H as ([k' v] & [= ->] & H). exists v. apply S. apply In_dget; assumption.
      - intros [v H]. apply S in H. apply dget_In in H. apply in_map_iff. exists (k, v). auto. }
    rewrite Ke. reflexivity.
  - intros m l T D. pose proof (plain_unchanged dry g' (length g) m l T D) as P. rewrite M in P. congruence.
Qed.
Lemma stack_second dry g exports outcome : run_stack true dry g exports outcome = ([], Err two_stacks).
Proof. reflexivity. Qed.
