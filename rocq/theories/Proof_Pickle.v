(** Proofs about serialising providers. *)
From Verif Require Import Base PyVal Model_Rpc Model_Dynamic Spec_Rpc Spec_Dynamic.
From Coq Require Import Sorting.Sorted.
Open Scope string_scope.
Open Scope list_scope.

Section Ind.
  Variable P : pval -> Prop.
  Hypothesis HNone : P PNone.
  Hypothesis HNum : forall z, P (PNum z).
  Hypothesis HStr : forall s, P (PStr s).
  Hypothesis HList : forall l, Forall P l -> P (PList l).
  Hypothesis HDict : forall d, Forall (fun kv => P (snd kv)) d -> P (PDict d).
  Hypothesis HObj : forall cls st, P st -> P (PObj cls st).
  Fixpoint pval_ind' (v : pval) : P v :=
    match v with
    | PNone => HNone
    | PNum z => HNum z
    | PStr s => HStr s
    | PList l => HList l ((fix go (l : list pval) : Forall P l := match l with [] => Forall_nil _ | x :: l' => Forall_cons x (pval_ind' x) (go l') end) l)
    | PDict d => HDict d ((fix go (d : list (string * pval)) : Forall (fun kv => P (snd kv)) d :=
                             match d with [] => Forall_nil _ | kv :: d' => Forall_cons kv (pval_ind' (snd kv)) (go d') end) d)
    | PObj cls st => HObj cls st (pval_ind' st)
    end.
End Ind.

(** Emitting a value in the order it has, and sorting all its dicts. *)
Fixpoint flat (v : pval) : list opcode :=
  match v with
  | PNone => [ONone]
  | PNum z => [ONum z]
  | PStr s => [OStr s]
  | PList l => OEmptyList :: OMark :: concat (map flat l) ++ [OAppends]
  | PDict d => OEmptyDict :: OMark :: concat (map (fun kv => OStr (fst kv) :: flat (snd kv)) d) ++ [OSetItems]
  | PObj cls st => ONewObj cls :: flat st ++ [OBuild]
  end.
Fixpoint norm (v : pval) : pval :=
  match v with
  | PList l => PList (map norm l)
  | PDict d => PDict (ksort (map (fun kv => (fst kv, norm (snd kv))) d))
  | PObj cls st => PObj cls (norm st)
  | _ => v
  end.

(* ------------------------------------------------------------------ *)
(** Sorting. *)
Lemma leb_trans a : forall b c, String.leb a b = true -> String.leb b c = true -> String.leb a c = true.
Proof.
  unfold String.leb. induction a as [|x a IH]; intros [|y b] [|z c]; cbn [String.compare]; auto; try discriminate.
  unfold Ascii.compare. destruct (N.compare_spec (N_of_ascii x) (N_of_ascii y)) as [E1|E1|E1]; destruct (N.compare_spec (N_of_ascii y) (N_of_ascii z)) as [E2|E2|E2];
    try discriminate; intros H1 H2.
  - rewrite E1, E2, N.compare_refl. now apply (IH b c).
  - rewrite E1. apply N.compare_lt_iff in E2. now rewrite E2.
  - rewrite <- E2. apply N.compare_lt_iff in E1. now rewrite E1.
  - assert (E3 : (N_of_ascii x < N_of_ascii z)%N) by (etransitivity; eauto). apply N.compare_lt_iff in E3. now rewrite E3.
Qed.
Definition kle {A} (a b : string * A) : Prop := String.leb (fst a) (fst b) = true.
Lemma kinsert_perm {A} (a : string * A) l : Permutation (a :: l) (kinsert a l).
Proof. induction l as [|b l IH]; cbn [kinsert]; [auto|]. destruct (String.leb (fst a) (fst b)); [auto|]. rewrite perm_swap. now constructor. Qed.
Lemma ksort_perm {A} (l : list (string * A)) : Permutation l (ksort l).
Proof. induction l as [|a l IH]; cbn; [auto|]. rewrite <- kinsert_perm. now constructor. Qed.
Lemma kinsert_sorted {A} (a : string * A) l : StronglySorted kle l -> StronglySorted kle (kinsert a l).
Proof.
  induction 1 as [|b l S IH F]; cbn [kinsert]; [repeat constructor|].
  destruct (String.leb (fst a) (fst b)) eqn:E.
  - constructor; [constructor; auto|]. constructor; [exact E|]. eapply Forall_impl; [|exact F]. intros c K. eapply leb_trans; eauto.
  - constructor; [exact IH|]. eapply Permutation_Forall; [apply kinsert_perm|]. constructor; [|exact F].
    destruct (String.leb_total (fst a) (fst b)) as [K|K]; [congruence|exact K].
Qed.
Lemma ksort_sorted {A} (l : list (string * A)) : StronglySorted kle (ksort l).
Proof. induction l; cbn; [constructor|]. now apply kinsert_sorted. Qed.
Lemma sorted_unique {A} (l l' : list (string * A)) : wf_dict l -> StronglySorted kle l -> StronglySorted kle l' -> Permutation l l' -> l = l'.
Proof.
  intros W S. revert l'. induction S as [|a l S IH F]; intros l' S' P; [now apply Permutation_nil in P|].
  destruct l' as [|b l']; [apply Permutation_sym, Permutation_nil in P; discriminate|].
  inversion S' as [|? ? S1 F1]; subst. inversion W as [|? ? N W1]; subst. rewrite Forall_forall in F, F1.
  assert (a = b) as <-.
  { destruct (Permutation_in _ P (or_introl eq_refl)) as [E|K]; [now symmetry|].
    destruct (Permutation_in _ (Permutation_sym P) (or_introl eq_refl)) as [E|K']; [exact E|].
    exfalso. assert (E : fst a = fst b) by (apply String.leb_antisym; [now apply F|now apply F1]).
    apply N. rewrite E. unfold dkeys. now apply in_map. }
  f_equal. apply IH; auto. now apply Permutation_cons_inv in P.
Qed.
Lemma ksort_id {A} (l : list (string * A)) : StronglySorted kle l -> ksort l = l.
Proof.
  induction 1 as [|a l S IH F]; [reflexivity|]. cbn [ksort fold_right]. change (fold_right kinsert [] l) with (ksort l). rewrite IH.
  destruct l as [|b l]; [reflexivity|]. inversion F as [|? ? K ?]; subst. cbn [kinsert]. unfold kle in K. now rewrite K.
Qed.
Lemma kinsert_map {A B} (f : string * A -> string * B) (Hf : forall kv, fst (f kv) = fst kv) a l : kinsert (f a) (map f l) = map f (kinsert a l).
Proof. induction l as [|b l IH]; cbn [kinsert map]; [reflexivity|]. rewrite !Hf. destruct (String.leb (fst a) (fst b)); cbn [map]; [reflexivity|]. now rewrite IH. Qed.
Lemma ksort_map {A B} (f : string * A -> string * B) (Hf : forall kv, fst (f kv) = fst kv) l : ksort (map f l) = map f (ksort l).
Proof. induction l as [|a l IH]; cbn [ksort fold_right map]; [reflexivity|]. fold (@ksort B). change (fold_right kinsert [] (map f l)) with (ksort (map f l)).
  rewrite IH. now apply kinsert_map. Qed.
Lemma wf_perm {A} (l l' : dict A) : Permutation l l' -> wf_dict l -> wf_dict l'.
Proof. intros P. unfold wf_dict, dkeys. apply Permutation_NoDup. now apply Permutation_map. Qed.

(* ------------------------------------------------------------------ *)
(** What is written. *)
Lemma items_ok room (d : list (string * pval)) n c :
  save_items room (map (fun kv => (fst kv, save n (snd kv))) d) = Ok c ->
  (forall kv r c, In kv d -> save n (snd kv) r = Ok c -> c = flat (norm (snd kv))) ->
  c = concat (map (fun kv => OStr (fst kv) :: flat (norm (snd kv))) d).
Proof.
  revert c. induction d as [|[k v] d IH]; intros c; cbn [map save_items fst snd]; [intros E; now injection E as <-|].
  unfold frame. destruct room as [|r]; [discriminate|]. destruct (save n v r) as [c1|] eqn:E1; cbn [rbind]; [|discriminate].
  destruct (save_items (S r) (map (fun kv => (fst kv, save n (snd kv))) d)) as [c2|] eqn:E2; cbn [rbind]; [|discriminate].
  intros E H. injection E as <-. rewrite (IH c2 eq_refl) by (intros; eapply H; eauto; now right). rewrite (H (k, v) r c1 (or_introl eq_refl) E1). reflexivity.
Qed.
Lemma batch_sorted n room items : StronglySorted kle items ->
  batch_setitems n room items = Err (Exn "RecursionError" "maximum recursion depth exceeded") \/
  exists r, batch_setitems n room items = let+ c := save_items r items in Ok (OMark :: c ++ [OSetItems]).
Proof.
  intros H. revert room. induction n as [|n IH]; intros room; cbn [batch_setitems]; unfold frame; destruct room as [|room]; [now left| |now left|].
  - right. now exists room.
  - rewrite (ksort_id _ H). apply IH.
Qed.
Lemma save_written v : forall n room c, save (S n) v room = Ok c -> c = flat (norm v).
Proof.
  induction v as [| | |l IH|d IH|cls st IH] using pval_ind'; intros n room c; cbn [save norm flat].
  1-3: intros E; now injection E as <-.
  - match goal with |- rbind (?G l) _ = _ -> _ => set (go := G) end. assert (K : forall c, go l = Ok c -> c = concat (map flat (map norm l))).
    { clear c. induction IH as [|x l Hx IH IHl]; intros c; [cbn; intros E; now injection E as <-|].
      cbn [go]. unfold frame. destruct room as [|r]; [discriminate|]. destruct (save (S n) x r) as [c1|] eqn:E1; cbn [rbind]; [|discriminate]. fold go.
      destruct (go l) as [c2|] eqn:E2; cbn [rbind]; [|discriminate]. intros E. injection E as <-. cbn [map concat]. rewrite (Hx _ _ _ E1), (IHl c2 eq_refl). reflexivity. }
    destruct (go l) as [c1|]; cbn [rbind]; [|discriminate]. intros E. injection E as <-. now rewrite (K c1 eq_refl).
  - cbn [batch_setitems]. unfold frame. destruct room as [|room]; [discriminate|].
    set (g := fun kv : string * pval => (fst kv, save (S n) (snd kv))). rewrite (ksort_map g) by reflexivity.
    destruct (batch_sorted n room (map g (ksort d))) as [->|(r & ->)].
    + rewrite <- (ksort_map g) by reflexivity. apply ksort_sorted.
    + discriminate.
    + destruct (save_items r (map g (ksort d))) as [c1|] eqn:E1; cbn [rbind]; [|discriminate]. intros E. injection E as <-.
      apply items_ok in E1.
      * subst c1. rewrite (ksort_map (fun kv => (fst kv, norm (snd kv)))) by reflexivity. rewrite map_map. reflexivity.
      * intros kv r' c' Hin. rewrite Forall_forall in IH. apply (Permutation_in _ (Permutation_sym (ksort_perm d))) in Hin. apply (IH kv Hin).
  - unfold frame. destruct room as [|r]; [discriminate|]. destruct (save (S n) st r) as [c1|] eqn:E1; cbn [rbind]; [|discriminate].
    intros E. injection E as <-. now rewrite (IH _ _ _ E1).
Qed.

(* ------------------------------------------------------------------ *)
(** Reading it back. *)
Lemma exec_app a b st : exec (a ++ b) st = match exec a st with Some st' => exec b st' | None => None end.
Proof. revert st. induction a as [|o a IH]; intros st; cbn [app exec]; [reflexivity|]. destruct (exec1 o st); auto. Qed.
Lemma pop_vals vs st : pop_mark (map IVal (rev vs) ++ IMark :: st) = Some (vs, st).
Proof.
  rewrite <- (rev_involutive vs) at 2. generalize (rev vs). clear vs. intros vs. induction vs as [|v vs IH]; [reflexivity|].
  cbn [map app pop_mark]. rewrite IH. reflexivity.
Qed.
Fixpoint unpairs (d : list (string * pval)) : list pval := match d with [] => [] | (k, v) :: d' => PStr k :: v :: unpairs d' end.
Lemma pairs_unpairs d : pairs (unpairs d) = Some d.
Proof. induction d as [|[k v] d IH]; cbn [unpairs pairs]; [reflexivity|]. now rewrite IH. Qed.
Lemma dupdate_nil {A} (d : dict A) : wf_dict d -> forall acc, (forall k, In k (dkeys acc) -> ~ In k (dkeys d)) -> dupdate acc d = acc ++ d.
Proof.
  unfold dupdate. induction d as [|[k v] d IH]; intros W acc H; cbn [fold_left]; [now rewrite app_nil_r|]. inversion W as [|? ? N W']; subst.
  assert (E : dset acc k v = acc ++ [(k, v)]).
  { assert (K : ~ In k (dkeys acc)) by (intros K; apply (H k K); now left). clear -K. induction acc as [|[k1 v1] acc IH]; [reflexivity|]. cbn [dset].
    destruct (String.eqb_spec k k1) as [->|]; [elim K; now left|]. cbn [app]. f_equal. apply IH. intros K'. apply K. now right. }
  cbn [fst snd]. rewrite E, IH; auto.
  - now rewrite <- app_assoc.
  - intros k' K. unfold dkeys in K. rewrite map_app, in_app_iff in K. destruct K as [K|[<-|[]]]; [|exact N]. intros K'. apply (H k' K). now right.
Qed.
Lemma loads_flat v : wf_pval v -> forall st, exec (flat v) st = Some (IVal v :: st).
Proof.
  induction v as [| | |l IH|d IH|cls s IH] using pval_ind'; intros W st; cbn [flat].
  1-3: reflexivity.
  - cbn [exec exec1]. rewrite exec_app. assert (E : forall vs, exec (concat (map flat l)) (map IVal (rev vs) ++ IMark :: IVal (PList []) :: st) =
       Some (map IVal (rev (vs ++ l)) ++ IMark :: IVal (PList []) :: st)).
    { inversion W as [| | |? F| |]; subst. clear W. induction l as [|x l IHl]; intros vs; cbn [map concat]; [now rewrite app_nil_r|].
      inversion IH; inversion F; subst. rewrite exec_app, H1 by auto. replace (vs ++ x :: l) with ((vs ++ [x]) ++ l) by now rewrite <- app_assoc.
      rewrite <- IHl by auto. rewrite rev_app_distr. reflexivity. }
    specialize (E []). cbn [rev map app] in E. rewrite E. cbn [exec exec1]. rewrite pop_vals. reflexivity.
  - cbn [exec exec1]. rewrite exec_app. inversion W as [| | | |? Wd F|]; subst.
    assert (E : forall vs, exec (concat (map (fun kv => OStr (fst kv) :: flat (snd kv)) d)) (map IVal (rev vs) ++ IMark :: IVal (PDict []) :: st) =
       Some (map IVal (rev (vs ++ unpairs d)) ++ IMark :: IVal (PDict []) :: st)).
    { clear W Wd. induction d as [|[k x] d IHd]; intros vs; cbn [map concat unpairs]; [now rewrite app_nil_r|].
      inversion IH; inversion F; subst. cbn [fst snd app exec exec1] in *. rewrite exec_app, H1 by auto.
      replace (vs ++ PStr k :: x :: unpairs d) with ((vs ++ [PStr k; x]) ++ unpairs d) by now rewrite <- app_assoc.
      rewrite <- IHd by auto. rewrite rev_app_distr. reflexivity. }
    specialize (E []). cbn [rev map app] in E. rewrite E. cbn [exec exec1]. rewrite pop_vals, pairs_unpairs, dupdate_nil; auto.
  - cbn [exec exec1]. inversion W; subst. rewrite exec_app, IH by auto. reflexivity.
Qed.
Lemma map_norm_wf (d : dict pval) : wf_dict d -> wf_dict (map (fun kv => (fst kv, norm (snd kv))) d).
Proof. unfold wf_dict, dkeys. now rewrite map_map. Qed.
Lemma wf_norm v : wf_pval v -> wf_pval (norm v).
Proof.
  induction v as [| | |l IH|d IH|cls s IH] using pval_ind'; intros W; cbn [norm]; auto; inversion W; subst; constructor.
  - rewrite Forall_forall in *. intros x Hx. apply in_map_iff in Hx as (y & <- & Hy). auto.
  - eapply wf_perm; [apply ksort_perm|]. now apply map_norm_wf.
  - eapply Permutation_Forall; [apply ksort_perm|]. rewrite Forall_forall in *. intros x Hx. apply in_map_iff in Hx as (y & <- & Hy). cbn [snd]. auto.
  - auto.
Qed.
Lemma same_norm v : same v (norm v).
Proof.
  induction v as [| | |l IH|d IH|cls s IH] using pval_ind'; cbn [norm]; [constructor..| | |now constructor].
  - constructor. induction IH; cbn [map]; constructor; auto.
  - eapply Same_dict; [apply ksort_perm|]. rewrite (ksort_map (fun kv => (fst kv, norm (snd kv)))) by reflexivity.
    eapply Permutation_Forall in IH; [|apply ksort_perm]. induction IH; cbn [map]; constructor; auto.
Qed.

(** The same value gives the same sorted value. *)
Lemma norm_same v : wf_pval v -> forall v', same v v' -> norm v = norm v'.
Proof.
  induction v as [| | |l IH|d IH|cls s IH] using pval_ind'; intros W v' Sm; inversion Sm as [| | |? l' F|? d1 d' P F|? ? ? H]; subst; cbn [norm]; auto.
  - f_equal. inversion W as [| | |? Wl| |]; subst. clear W Sm. revert l' F. induction l as [|x l IHl]; intros l' F; inversion F; subst; cbn [map]; [reflexivity|].
    inversion IH; inversion Wl; subst. f_equal; auto.
  - f_equal. inversion W as [| | | |? Wd Wf|]; subst.
    assert (E : map (fun kv => (fst kv, norm (snd kv))) d' = map (fun kv => (fst kv, norm (snd kv))) d1).
    { pose proof (Permutation_Forall P IH) as IH1. pose proof (Permutation_Forall P Wf) as Wf1. clear -F IH1 Wf1.
      induction F as [|[k x] [k' x'] d1 d' [E1 E2] F IHF]; [reflexivity|]. inversion IH1; inversion Wf1; subst. cbn [map fst snd] in *. subst k'.
      f_equal; [|now apply IHF]. f_equal. symmetry. auto. }
    rewrite E. apply sorted_unique; [|apply ksort_sorted..|].
    + eapply wf_perm; [apply ksort_perm|]. now apply map_norm_wf.
    + rewrite <- !ksort_perm. now apply Permutation_map.
  - f_equal. inversion W; subst. auto.
Qed.

(* ------------------------------------------------------------------ *)
(** Room. *)
Lemma items_err room (d : list (string * pval)) n e :
  (forall kv r e, In kv d -> save n (snd kv) r = Err e -> Err e = @recursion_error (list opcode)) ->
  save_items room (map (fun kv => (fst kv, save n (snd kv))) d) = Err e -> Err e = @recursion_error (list opcode).
Proof.
  intros H. induction d as [|[k v] d IH]; cbn [map save_items fst snd]; [discriminate|]. unfold frame. destruct room as [|r]; [cbn; intros E; now injection E as <-|].
  destruct (save n v r) as [c1|e1] eqn:E1; cbn [rbind]; [|intros E; injection E as <-; exact (H (k, v) r e1 (or_introl eq_refl) E1)].
  destruct (save_items (S r) (map (fun kv => (fst kv, save n (snd kv))) d)); cbn [rbind]; [discriminate|].
  intros E; injection E as <-. apply IH; [|reflexivity]. intros kv r' e' Hin. apply H. now right.
Qed.
Lemma batch_err n : forall room (d : list (string * pval)) m e,
  (forall kv r e, In kv d -> save m (snd kv) r = Err e -> Err e = @recursion_error (list opcode)) ->
  batch_setitems n room (map (fun kv => (fst kv, save m (snd kv))) d) = Err e -> Err e = @recursion_error (list opcode).
Proof.
  induction n as [|n IH]; intros room d m e H; cbn [batch_setitems]; unfold frame; destruct room as [|r]; try (intros E; now injection E as <-).
  - destruct (save_items r _) eqn:E1; cbn [rbind]; [discriminate|]. intros E; injection E as <-. eapply items_err; eauto.
  - rewrite (ksort_map (fun kv => (fst kv, save m (snd kv)))) by reflexivity. apply IH. intros kv r' e' Hin. apply H. eapply Permutation_in; [|exact Hin]. apply Permutation_sym, ksort_perm.
Qed.
(** It fails only for lack of room. *)
Lemma save_err v : forall n room e, save n v room = Err e -> Err e = @recursion_error (list opcode).
Proof.
  induction v as [| | |l IH|d IH|cls st IH] using pval_ind'; intros n room e; cbn [save]; try discriminate.
  - match goal with |- rbind (?G l) _ = _ -> _ => set (go := G) end. assert (K : forall e, go l = Err e -> Err e = @recursion_error (list opcode)).
    { clear e. induction IH as [|x l Hx IH IHl]; intros e; [discriminate|]. cbn [go]. unfold frame. destruct room as [|r]; [cbn; intros E; now injection E as <-|].
      destruct (save n x r) as [c1|] eqn:E1; cbn [rbind]; [|intros E; injection E as <-; eapply Hx; eauto]. fold go.
      destruct (go l) eqn:E2; cbn [rbind]; [discriminate|]. intros E; injection E as <-. now apply IHl. }
    destruct (go l) as [c1|]; cbn [rbind]; [discriminate|]. intros E. injection E as <-. now apply K.
  - destruct (batch_setitems n room _) eqn:E1; cbn [rbind]; [discriminate|]. intros E; injection E as <-. eapply batch_err; [|exact E1].
    rewrite Forall_forall in IH. intros kv r e' Hin. now apply IH.
  - unfold frame. destruct room as [|r]; [cbn; intros E; now injection E as <-|]. destruct (save n st r) eqn:E1; cbn [rbind]; [discriminate|].
    intros E; injection E as <-. eauto.
Qed.
Lemma batch_deep n : forall room items, room <= n -> batch_setitems n room items = recursion_error.
Proof. induction n as [|n IH]; intros room items H; cbn [batch_setitems]; unfold frame; destruct room as [|r]; try reflexivity; [lia|]. apply IH. lia. Qed.
Lemma save_deep v : has_dict v -> forall n room, room <= n -> save n v room = recursion_error.
Proof.
  intros H. assert (F : forall n room, room <= n -> exists e, save n v room = Err e).
  { induction H as [d|x l Hin Hx IH|cls st H IH]; intros n room L; cbn [save].
    - rewrite batch_deep by auto. cbn. eexists. reflexivity.
    - match goal with |- exists e, rbind (?G l) _ = _ => set (go := G) end. assert (K : exists e, go l = Err e).
      { induction l as [|y l IHl]; [elim Hin|]. cbn [go]. unfold frame. destruct room as [|r]; [cbn; eexists; reflexivity|].
        destruct Hin as [->|Hin]; [destruct (IH n r) as (e & ->); [lia|]; cbn; eexists; reflexivity|]. destruct (save n y r); cbn [rbind]; [|eexists; reflexivity].
        fold go. destruct (IHl Hin) as (e & ->). cbn. eexists. reflexivity. }
      destruct K as (e & ->). cbn. eexists. reflexivity.
    - unfold frame. destruct room as [|r]; [cbn; eexists; reflexivity|]. destruct (IH n r) as (e & ->); [lia|]. cbn. eexists. reflexivity. }
  intros n room L. destruct (F n room L) as (e & E). rewrite E. eapply save_err. exact E.
Qed.
(** And with enough room it succeeds. *)
Fixpoint depth (n : nat) (v : pval) : nat :=
  match v with
  | PList l => S (list_max (map (depth n) l))
  | PDict d => S (n + S (list_max (map (fun kv => depth n (snd kv)) d)))
  | PObj _ st => S (depth n st)
  | _ => 0
  end.
Lemma items_room room (d : list (string * pval)) n :
  (forall kv r, In kv d -> depth n (snd kv) <= r -> exists c, save n (snd kv) r = Ok c) -> (forall kv, In kv d -> depth n (snd kv) < room) ->
  exists c, save_items room (map (fun kv => (fst kv, save n (snd kv))) d) = Ok c.
Proof.
  intros H L. induction d as [|[k v] d IH]; cbn [map save_items fst snd]; [eexists; reflexivity|]. pose proof (L (k, v) (or_introl eq_refl)) as L1. cbn in L1.
  unfold frame. destruct room as [|r]; [lia|]. destruct (H (k, v) r (or_introl eq_refl)) as (c & E); [cbn; lia|]. cbn [snd] in E. rewrite E. cbn [rbind].
  destruct IH as (c' & ->); [intros; apply H; auto; now right|intros; apply L; now right|]. cbn. eexists. reflexivity.
Qed.
Lemma batch_room m : forall n room (d : list (string * pval)),
  (forall kv r, In kv d -> depth m (snd kv) <= r -> exists c, save m (snd kv) r = Ok c) -> (forall kv, In kv d -> depth m (snd kv) + S n < room) ->
  S n < room -> exists c, batch_setitems n room (map (fun kv => (fst kv, save m (snd kv))) d) = Ok c.
Proof.
  induction n as [|n IH]; intros room d H L L0; cbn [batch_setitems]; unfold frame; destruct room as [|r]; try lia.
  - destruct (items_room r d m H) as (c & ->); [|cbn; eexists; reflexivity]. intros kv Hin. specialize (L kv Hin). lia.
  - rewrite (ksort_map (fun kv => (fst kv, save m (snd kv)))) by reflexivity.
    assert (Hp : forall kv, In kv (ksort d) -> In kv d) by (intros kv Hin; eapply Permutation_in; [apply Permutation_sym, ksort_perm|exact Hin]).
    apply IH; [intros kv r' Hin; apply H; auto|intros kv Hin; specialize (L kv (Hp kv Hin)); lia|lia].
Qed.
Lemma list_max_in l x : In x l -> x <= list_max l.
Proof. intros H. pose proof (proj1 (list_max_le l (list_max l)) (le_n _)) as F. rewrite Forall_forall in F. auto. Qed.
Lemma save_room n v : forall room, depth n v <= room -> exists c, save n v room = Ok c.
Proof.
  induction v as [| | |l IH|d IH|cls st IH] using pval_ind'; intros room L; cbn [save depth] in *; try (eexists; reflexivity).
  - match goal with |- exists c, rbind (?G l) _ = _ => set (go := G) end. assert (K : exists c, go l = Ok c).
    { assert (Lx : forall x, In x l -> S (depth n x) <= room).
      { intros x Hx. pose proof (list_max_in (map (depth n) l) _ (in_map _ _ _ Hx)). lia. }
      clear L. induction IH as [|x l Hx IH IHl]; [cbn; eexists; reflexivity|]. cbn [go]. pose proof (Lx x (or_introl eq_refl)) as L1. unfold frame. destruct room as [|r]; [lia|].
      destruct (Hx r) as (c & ->); [lia|]. cbn [rbind]. fold go. destruct IHl as (c' & ->); [intros; apply Lx; now right|]. cbn. eexists. reflexivity. }
    destruct K as (c & ->). cbn. eexists. reflexivity.
  - assert (Lx : forall kv, In kv d -> depth n (snd kv) + S n < room).
    { intros kv Hin. pose proof (list_max_in (map (fun kv => depth n (snd kv)) d) _ (in_map (fun kv => depth n (snd kv)) _ _ Hin)) as K. cbn in K. lia. }
    rewrite Forall_forall in IH. destruct (batch_room n n room d) as (c & ->); [intros kv r Hin; now apply IH|exact Lx|lia|]. cbn. eexists. reflexivity.
  - unfold frame. destruct room as [|r]; [lia|]. destruct (IH r) as (c & ->); [lia|]. cbn. eexists. reflexivity.
Qed.
(** A sequence of serialisations. *)
Lemma serialize_nth limit vs : forall n i v, nth_error vs i = Some v -> nth_error (serialize_all limit n vs) i = Some (save (S (n + i)) v limit).
Proof.
  induction vs as [|v0 vs IH]; intros n i v E; [destruct i; discriminate|]. cbn [serialize_all serialize_provider].
  destruct i as [|i]; cbn [nth_error] in *; [injection E as <-; now rewrite Nat.add_0_r|]. rewrite (IH (S n) i v E). now rewrite Nat.add_succ_r.
Qed.
