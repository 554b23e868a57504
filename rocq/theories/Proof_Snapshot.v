(** Proofs about what updates write down. *)
From Verif Require Import Base Model_Lock Model_Snapshot Spec_Snapshot.
From Coq Require Import Lia.
Open Scope string_scope.
Open Scope list_scope.
Ltac inv H := inversion H; subst; clear H.

Lemma has_In p l : has p l = true <-> In p l.
Proof. induction l as [|x l IH]; cbn; [split; [discriminate|intros []]|]. rewrite Bool.orb_true_iff, Nat.eqb_eq, IH. split; intros [A|A]; auto. Qed.
Lemma has_not p l : has p l = false <-> ~ In p l.
Proof. rewrite <- has_In. destruct (has p l); split; congruence. Qed.
Lemma upd_same h p r : upd h p r p = r. Proof. unfold upd. now rewrite Nat.eqb_refl. Qed.
Lemma upd_other h p r q : q <> p -> upd h p r q = h q. Proof. intros N. unfold upd. apply Nat.eqb_neq in N. now rewrite N. Qed.
Lemma nth_set {A} (l : list A) i x j : i < List.length l -> nth_error (firstn i l ++ x :: skipn (S i) l) j = if Nat.eqb j i then Some x else nth_error l j.
Proof.
  revert i j. induction l as [|y l IH]; intros [|i] j L; cbn in *; try lia; destruct j as [|j]; try reflexivity. cbn [nth_error Nat.eqb]. apply IH. lia.
Qed.
Lemma nth_lt {A} (l : list A) i x : nth_error l i = Some x -> i < List.length l.
Proof. intros E. apply nth_error_Some. congruence. Qed.

Definition new_of (s : step) : option nat :=
  match s with Create n | Create_replacement _ n _ | Same _ n _ | Update _ n => Some n | Delete _ | Remove_pending_replace _ | Replace => None end.
Definition old_of (s : step) : option nat :=
  match s with Create_replacement o _ _ | Same o _ _ | Update o _ | Delete o | Remove_pending_replace o => Some o | Create _ | Replace => None end.
Definition creates (s : step) : bool := match s with Create _ | Create_replacement _ _ _ => true | _ => false end.
Fixpoint count_news (l : list step) : nat := match l with [] => 0 | s :: l' => (match new_of s with Some _ => 1 | None => 0 end) + count_news l' end.
Definition waiting (t : thread) : list step := match t with (l, Ready) => l | (_ :: l, _) => l | ([], _) => [] end.

Section Inv.
  Implicit Types (m : machine) (t : thread).
  Definition head_ok m (s : step) (ph : phase) : Prop :=
    match ph with
    | Ready => True
    | Begun =>
        match s with
        | Create n | Create_replacement _ n _ => In (Creating, n) (m_ops m) /\ r_id (m_heap m n) = None /\ being_created (m_saved m) (r_urn (m_heap m n))
        | Same _ n _ | Update _ n => ~ In (Creating, n) (m_ops m)
        | _ => True
        end
    | Applied ok go =>
        match s with
        | Create n | Create_replacement _ n _ => In (Creating, n) (m_ops m) /\ (ok = false -> r_id (m_heap m n) = None)
        | Same o n _ | Update o n => ~ In (Creating, n) (m_ops m) /\ r_id (m_heap m n) = r_id (m_heap m o)
        | Delete o => (ok = true -> gone m o) /\ (go = true -> ok = true)
        | _ => True
        end
    end.
  Definition TI m t : Prop :=
    count_news (fst t) <= 1 /\
    (forall s n, In s (fst t) -> new_of s = Some n -> n < m_next m /\ ~ In n (m_base m) /\ ~ In n (m_resources m) /\ ~ In n (m_completes m)) /\
    (forall s o, In s (fst t) -> old_of s = Some o -> In o (m_base m) /\ In o (m_touched m)) /\
    (forall pre o n a post, fst t = pre ++ Create_replacement o n a :: post -> r_marked (m_heap m o) = true -> In (Delete o) pre \/ gone m o) /\
    (forall o, In (Remove_pending_replace o) (fst t) -> gone m o) /\
    (forall s n, In s (waiting t) -> new_of s = Some n -> (forall k, ~ In (k, n) (m_ops m)) /\ r_id (m_heap m n) = None) /\
    (match t with (s :: _, ph) => head_ok m s ph | ([], _) => True end).
  (** Each resource that exists is known to the manager. *)
  Definition known m (id : nat) (u : string) : Prop :=
    (exists q, (In q (m_resources m) \/ (In q (m_base m) /\ ~ In q (m_dones m))) /\ r_id (m_heap m q) = Some id) \/
    (exists q, In (Creating, q) (m_ops m) /\ ~ In q (m_completes m) /\ r_id (m_heap m q) = Some id /\ r_urn (m_heap m q) = u) \/
    (exists r, In r (m_base_ops m) /\ r_urn r = u).
  Definition tracked (s : snapshot) (w : list (nat * string)) : Prop := forall id u, In (id, u) w -> recorded s id \/ being_created s u.
  Definition TS m : Prop := forall i t, nth_error (m_threads m) i = Some t -> TI m t.
  Definition unique m : Prop := forall i j t t' s s' n, nth_error (m_threads m) i = Some t -> nth_error (m_threads m) j = Some t' -> In s (fst t) -> In s' (fst t') -> new_of s = Some n -> new_of s' = Some n -> i = j.
  Record Inv m : Prop := {
    v_known : forall id u, In (id, u) (m_world m) -> known m id u;
    v_saved : tracked (m_saved m) (m_world m);
    v_world : forall id u, In (id, u) (m_world m) -> id < m_id m;
    v_heap : forall q id, r_id (m_heap m q) = Some id -> id < m_id m;
    v_recs : forall r id, In r (fst (m_saved m)) -> r_id r = Some id -> id < m_id m;
    v_base : forall q, In q (m_base m) -> q < m_next m;
    v_res : forall q, In q (m_resources m) -> q < m_next m;
    v_opsn : forall k q, In (k, q) (m_ops m) -> q < m_next m;
    v_cre : forall q, In (Creating, q) (m_ops m) -> ~ In q (m_base m);
    v_comp : forall q, In q (m_completes m) -> q < m_next m;
    v_touched : forall q, In q (m_touched m) -> In q (m_base m);
    v_condemned : forall q, In q (m_condemned m) -> In q (m_touched m);
    v_replaced : forall q, In q (m_replaced m) -> In q (m_touched m);
    v_unique : unique m;
    v_threads : TS m }.

  Lemma known_tracked m : (forall id u, In (id, u) (m_world m) -> known m id u) -> tracked (snap m) (m_world m).
  Proof using.
    intros K id u I. destruct (K id u I) as [(q & Q & E)|[(q & O & C & E & U)|(r & R & U)]].
    - left. exists (m_heap m q). split; [|exact E]. cbn [snap fst]. apply in_map, in_or_app. destruct Q as [Q|[Q N]]; [now left|right]. apply filter_In. split; [exact Q|]. apply has_not in N. now rewrite N.
    - right. exists (m_heap m q). split; [|exact U]. cbn [snap snd]. apply in_or_app. left. apply in_map_iff. exists (Creating, q). split; [reflexivity|]. apply filter_In. split; [exact O|]. apply has_not in C. cbn. now rewrite C.
    - right. exists r. split; [|exact U]. cbn [snap snd]. apply in_or_app. right. now apply in_map.
  Qed.
  (** What other chains see: the pointer [x] is the one that is worked on. *)
  Record quiet m m' (x : nat) : Prop := {
    q_next : m_next m <= m_next m';
    q_base : m_base m' = m_base m;
    q_res : forall n, In n (m_resources m') -> In n (m_resources m) \/ n = x;
    q_comp : forall n, In n (m_completes m') -> In n (m_completes m) \/ n = x;
    q_ops : incl (m_ops m) (m_ops m');
    q_ops' : forall k n, In (k, n) (m_ops m') -> In (k, n) (m_ops m) \/ n = x;
    q_heap : forall n, n < m_next m -> n <> x -> r_urn (m_heap m' n) = r_urn (m_heap m n) /\ r_id (m_heap m' n) = r_id (m_heap m n);
    q_ids : forall n, In n (m_base m) -> r_id (m_heap m' n) = r_id (m_heap m n);
    q_marked : forall n, In n (m_touched m) -> r_marked (m_heap m' n) = true -> r_marked (m_heap m n) = true;
    q_touched : incl (m_touched m) (m_touched m');
    q_world : forall n, In n (m_base m) -> gone m n -> gone m' n;
    q_saved : m_saved m' = m_saved m \/ m_saved m' = snap m' }.
  Lemma quiet_TI m m' x t : quiet m m' x -> (forall s, In s (fst t) -> new_of s <> Some x) -> TI m t -> TI m' t.
  Proof using.
    intros Q N (T1 & T2 & T3 & T4 & T5 & T6 & T7). destruct Q as [Qn Qb Qr Qc Qo Qo' Qh Qi Qm Qt Qw Qs].
    assert (N' : forall s n, In s (fst t) -> new_of s = Some n -> n <> x) by (intros s n I E ->; exact (N s I E)).
    assert (W : forall s, In s (waiting t) -> In s (fst t)) by (intros s I; destruct t as [[|s0 l] [| |]]; cbn in *; auto).
    split; [exact T1|]. split; [|split; [|split; [|split; [|split]]]].
    - intros s n I E. destruct (T2 s n I E) as (A & B & C & D). pose proof (N' s n I E) as X. rewrite Qb. repeat split; [lia|exact B| |]; intros Y; [apply Qr in Y|apply Qc in Y]; intuition.
    - intros s o I E. rewrite Qb. destruct (T3 s o I E). auto.
    - intros pre o n a post E M. assert (I : In (Create_replacement o n a) (fst t)) by (rewrite E; apply in_or_app; right; now left). destruct (T3 _ o I eq_refl) as [Bo To].
      destruct (T4 pre o n a post E (Qm o To M)) as [L|G]; [now left|right; auto].
    - intros o I. destruct (T3 _ o I eq_refl) as [Bo To]. auto.
    - intros s n I E. destruct (T6 s n I E) as [A B]. destruct (T2 s n (W s I) E) as (L & _). pose proof (N' s n (W s I) E) as X. split; [|rewrite (proj2 (Qh n L X)); exact B]. intros k Y. apply Qo' in Y as [Y| ->]; [now apply A in Y|contradiction].
    - destruct t as [[|s l] ph]; [exact I|]. destruct ph as [| |ok go]; [exact I| |]; cbn [head_ok] in *.
      + assert (Cr : forall n, new_of s = Some n -> In (Creating, n) (m_ops m) /\ r_id (m_heap m n) = None /\ being_created (m_saved m) (r_urn (m_heap m n)) ->
          In (Creating, n) (m_ops m') /\ r_id (m_heap m' n) = None /\ being_created (m_saved m') (r_urn (m_heap m' n))).
        { intros n E (A & B & C). destruct (T2 s n (or_introl eq_refl) E) as (L & _ & _ & Cm). pose proof (N' s n (or_introl eq_refl) E) as X. destruct (Qh n L X) as [U V]. split; [now apply Qo|]. split; [congruence|]. rewrite U.
          destruct Qs as [-> | ->]; [exact C|]. exists (m_heap m' n). split; [|exact U]. cbn [snap snd]. apply in_or_app. left. apply in_map_iff. exists (Creating, n). split; [reflexivity|]. apply filter_In. split; [now apply Qo|].
          cbn [snd]. assert (Nc : ~ In n (m_completes m')) by (intros Y; apply Qc in Y as [Y|Y]; contradiction). apply has_not in Nc. now rewrite Nc. }
        assert (Sm : forall n, new_of s = Some n -> ~ In (Creating, n) (m_ops m) -> ~ In (Creating, n) (m_ops m')) by (intros n E A Y; apply Qo' in Y as [Y|Y]; [auto|exact (N' s n (or_introl eq_refl) E Y)]).
        destruct s; auto.
      + assert (Hn : forall n, new_of s = Some n -> r_id (m_heap m' n) = r_id (m_heap m n)) by (intros n E; destruct (T2 s n (or_introl eq_refl) E) as (L & _); apply Qh; [exact L|exact (N' s n (or_introl eq_refl) E)]).
        assert (Ho : forall o, old_of s = Some o -> r_id (m_heap m' o) = r_id (m_heap m o)) by (intros o E; apply Qi; exact (proj1 (T3 s o (or_introl eq_refl) E))).
        assert (Sm : forall n, new_of s = Some n -> ~ In (Creating, n) (m_ops m) -> ~ In (Creating, n) (m_ops m')) by (intros n E A Y; apply Qo' in Y as [Y|Y]; [auto|exact (N' s n (or_introl eq_refl) E Y)]).
        destruct s as [n|o n a|o n w|o n|o|o|]; cbn [new_of old_of] in *; try exact I.
        * destruct T7 as [A B]. split; [now apply Qo|]. rewrite (Hn n eq_refl). exact B.
        * destruct T7 as [A B]. split; [now apply Qo|]. rewrite (Hn n eq_refl). exact B.
        * destruct T7 as [A B]. split; [auto|]. now rewrite (Hn n eq_refl), (Ho o eq_refl).
        * destruct T7 as [A B]. split; [auto|]. now rewrite (Hn n eq_refl), (Ho o eq_refl).
        * destruct T7 as [A B]. split; [|exact B]. intros K. apply Qw; [exact (proj1 (T3 _ o (or_introl eq_refl) eq_refl))|auto].
  Qed.

  Definition ptr m (s : step) : nat := match new_of s with Some n => n | None => match old_of s with Some o => o | None => m_next m end end.
  Lemma other_ne m i j t t' s s' : Inv m -> nth_error (m_threads m) i = Some t -> nth_error (m_threads m) j = Some t' -> j <> i -> In s (fst t) -> In s' (fst t') -> new_of s' <> Some (ptr m s).
  Proof using.
    intros V A B N I I' E. pose proof (v_threads m V _ _ A) as (_ & _ & T3 & _). pose proof (v_threads m V _ _ B) as (_ & T2 & _). destruct (T2 s' _ I' E) as (L & Nb & _).
    unfold ptr in *. destruct (new_of s) as [n|] eqn:En; [apply N; exact (v_unique m V j i t' t s' s n B A I' I E En)|]. destruct (old_of s) as [o|] eqn:Eo; [exact (Nb (proj1 (T3 s o I Eo)))|lia].
  Qed.
  Lemma no_news l : count_news l = 0 -> forall s n, In s l -> new_of s <> Some n.
  Proof using. induction l as [|s l IH]; cbn; [intros _ ? ? []|]. intros E s' n [->|I]; [destruct (new_of s'); [lia|discriminate]|]. apply IH; [lia|exact I]. Qed.
  Lemma rest_ne m s rest ph s' : TI m (s :: rest, ph) -> In s' rest -> new_of s' <> Some (ptr m s).
  Proof using.
    intros (T1 & T2 & T3 & _) I E. cbn [fst] in *. destruct (T2 s' _ (or_intror I) E) as (L & Nb & _). unfold ptr in *. destruct (new_of s) as [n|] eqn:En.
    - cbn [count_news] in T1. rewrite En in T1. exact (no_news rest ltac:(lia) s' n I E).
    - destruct (old_of s) as [o|] eqn:Eo; [exact (Nb (proj1 (T3 s o (or_introl eq_refl) Eo)))|lia].
  Qed.
  Lemma TI_tail m s rest ph : TI m (s :: rest, ph) -> (forall o, s = Delete o -> gone m o) -> TI m (rest, Ready) \/ ph = Ready.
  Proof using.
    intros (T1 & T2 & T3 & T4 & T5 & T6 & _) G. destruct ph as [| |ok go]; [now right|left|left]; cbn [fst waiting] in *.
    all: split; [cbn [fst count_news] in *; lia|]; split; [intros s' n I; exact (T2 s' n (or_intror I))|]; split; [intros s' n I; exact (T3 s' n (or_intror I))|]; split; [|split; [intros o I; exact (T5 o (or_intror I))|split; [destruct rest; exact T6|destruct rest; exact I]]].
    all: intros pre o n a post E M; cbn [fst] in E; subst rest; destruct (T4 (s :: pre) o n a post eq_refl M) as [[E|L]|L]; [right; now apply G|now left|now right].
  Qed.
  Lemma TI_stop m : TI m ([], Ready).
  Proof using. split; [cbn; lia|]. split; [intros ? ? []|]. split; [intros ? ? []|]. split; [intros [|? ?] ? ? ? ? E; discriminate|]. split; [intros ? []|]. split; [intros ? ? []|exact I]. Qed.
  Lemma own_TI m m' s rest ph ph' : quiet m m' (ptr m s) -> TI m (s :: rest, ph) -> m_resources m' = m_resources m -> m_completes m' = m_completes m -> ph' <> Ready -> head_ok m' s ph' -> TI m' (s :: rest, ph').
  Proof using.
    intros Q T Er Ec Np H. pose proof (fun s' => rest_ne m s rest ph s' T) as RN. destruct T as (T1 & T2 & T3 & T4 & T5 & T6 & _). destruct Q as [Qn Qb Qr Qc Qo Qo' Qh Qi Qm Qt Qw Qs]. cbn [fst] in *.
    split; [exact T1|]. split; [|split; [|split; [|split; [|split]]]]; cbn [fst].
    - intros s' n I E. rewrite Qb, Er, Ec. destruct (T2 s' n I E) as (A & B & C & D). repeat split; auto; lia.
    - intros s' o I E. rewrite Qb. destruct (T3 s' o I E). auto.
    - intros pre o n a post E M. assert (I : In (Create_replacement o n a) (s :: rest)) by (rewrite E; apply in_or_app; right; now left). destruct (T3 _ o I eq_refl) as [Bo To].
      destruct (T4 pre o n a post E (Qm o To M)) as [L|G]; [now left|right; auto].
    - intros o I. destruct (T3 _ o I eq_refl) as [Bo To]. auto.
    - assert (W : waiting (s :: rest, ph') = rest) by (destruct ph'; [contradiction|reflexivity|reflexivity]). rewrite W. intros s' n I E.
      assert (I' : In s' (waiting (s :: rest, ph))) by (destruct ph; cbn; auto). destruct (T6 s' n I' E) as [A B]. destruct (T2 s' n (or_intror I) E) as (L & _).
      assert (X : n <> ptr m s) by (intros ->; exact (RN s' I E)). split; [|now rewrite (proj2 (Qh n L X))]. intros k Y. apply Qo' in Y as [Y|Y]; [exact (A k Y)|contradiction].
    - exact H.
  Qed.
  Lemma threads_set m m' i t t0 s : Inv m -> nth_error (m_threads m) i = Some t0 -> In s (fst t0) -> m_threads m' = m_threads m -> quiet m m' (ptr m s) -> incl (fst t) (fst t0) -> TI m' t -> unique (set_thread m' i t) /\ TS (set_thread m' i t).
  Proof using.
    intros V E0 I Et Q Inc T. pose proof (nth_lt _ _ _ E0) as L. assert (N : forall j, nth_error (m_threads (set_thread m' i t)) j = if Nat.eqb j i then Some t else nth_error (m_threads m) j).
    { intros j. cbn [set_thread set_threads m_threads]. rewrite Et. now apply nth_set. }
    split.
    - intros j k t1 t2 s1 s2 n A B I1 I2 E1 E2. rewrite N in A, B.
      assert (A' : exists t1', nth_error (m_threads m) j = Some t1' /\ In s1 (fst t1')) by (destruct (Nat.eqb_spec j i) as [->|]; [injection A as <-; exists t0; auto|exists t1; auto]).
      assert (B' : exists t2', nth_error (m_threads m) k = Some t2' /\ In s2 (fst t2')) by (destruct (Nat.eqb_spec k i) as [->|]; [injection B as <-; exists t0; auto|exists t2; auto]).
      destruct A' as (t1' & A' & J1), B' as (t2' & B' & J2). exact (v_unique m V j k t1' t2' s1 s2 n A' B' J1 J2 E1 E2).
    - intros j t' A. rewrite N in A. destruct (Nat.eqb_spec j i) as [->|Nj]; [injection A as <-; exact T|]. change (TI m' t').
      apply (quiet_TI m m' (ptr m s)); [exact Q| |exact (v_threads m V _ _ A)]. intros s' I'. exact (other_ne m i j t0 t' s s' V E0 A Nj I I').
  Qed.
  Lemma saved_tracked m m' : tracked (m_saved m) (m_world m) -> m_world m' = m_world m -> tracked (snap m') (m_world m') -> m_saved m' = m_saved m \/ m_saved m' = snap m' -> tracked (m_saved m') (m_world m').
  Proof using. intros A W B [->| ->]; [rewrite W; exact A|exact B]. Qed.
  Lemma snap_recs m q : In q (fst (snap m)) -> exists p, q = m_heap m p.
  Proof using. cbn. intros I. apply in_map_iff in I as (p & <- & _). now exists p. Qed.

  Lemma begin_inv m i r : Inv m -> Inv (react m (Begin i r)).
  Proof using.
    intros V. cbn [react]. destruct (nth_error (m_threads m) i) as [[[|s rest] [| |]]|] eqn:E; try exact V. pose proof (v_threads m V _ _ E) as T. unfold begin_step.
    destruct (pending_of s) as [[k p]|] eqn:P.
    - pose (m' := save (mark_pending m k p) r). fold m'.
      assert (Px : p = ptr m s) by (unfold ptr; destruct s; cbn in *; congruence).
      assert (So : m_saved m' = m_saved m \/ m_saved m' = snap m') by (subst m'; unfold save; destruct (performed r); [right|left]; reflexivity).
      assert (K : forall id u, In (id, u) (m_world m') -> known m' id u).
      { intros id u I. destruct (v_known m V id u I) as [A|[(q & O & A)|A]]; [now left| |now right; right]. right; left. exists q. split; [cbn; apply in_or_app; now left|exact A]. }
      assert (Q : quiet m m' (ptr m s)).
      { constructor; try (cbn; auto; fail); try exact So.
        - cbn. apply incl_appl, incl_refl.
        - intros k' n I. cbn in I. apply in_app_or in I as [I|[I|[]]]; [now left|right; congruence].
        - apply incl_refl. }
      assert (Ti : TI m' (if fine r then (s :: rest, Begun) else ([], Ready))).
      { destruct r as [|b]; cbn [fine]; [|apply TI_stop]. apply (own_TI m m' s rest Ready); try reflexivity; [exact Q|exact T|discriminate|]. destruct T as (_ & T2 & _ & _ & _ & T6 & _). cbn [waiting] in T6.
        assert (Hc : forall n, new_of s = Some n -> k = Creating -> p = n -> In (Creating, n) (m_ops m') /\ r_id (m_heap m' n) = None /\ being_created (m_saved m') (r_urn (m_heap m' n))).
        { intros n En -> ->. destruct (T2 s n (or_introl eq_refl) En) as (_ & _ & _ & Nc). destruct (T6 s n (or_introl eq_refl) En) as [A B]. assert (In (Creating, n) (m_ops m')) by (cbn; apply in_or_app; right; now left). split; [assumption|]. split; [exact B|].
          exists (m_heap m' n). split; [|reflexivity]. change (m_saved m') with (snap m'). cbn [snap snd]. apply in_or_app. left. apply in_map_iff. exists (Creating, n). split; [reflexivity|]. apply filter_In. split; [assumption|]. cbn [snd]. apply has_not in Nc. change (m_completes m') with (m_completes m). now rewrite Nc. }
        destruct s as [n|o n a|o n w|o n|o|o|]; cbn [pending_of] in P; inv P; cbn [head_ok]; auto.
        intros I. cbn in I. apply in_app_or in I as [I|[I|[]]]; [|discriminate]. exact (proj1 (T6 _ _ (or_introl eq_refl) eq_refl) _ I). }
      destruct (threads_set m m' i (if fine r then (s :: rest, Begun) else ([], Ready)) _ s V E (or_introl eq_refl) eq_refl Q) as [U TT]; [destruct (fine r); [apply incl_refl|intros ? []]|exact Ti|].
      pose proof (known_tracked m' K) as Tr.
      assert (Pn : p < m_next m /\ (k = Creating -> ~ In p (m_base m))).
      { destruct T as (_ & T2 & T3 & _). rewrite Px. unfold ptr. destruct s as [n|o n a|o n w|o n|o|o|]; cbn in P |- *; inv P;
          try (destruct (T2 _ _ (or_introl eq_refl) eq_refl) as (? & ? & _); split; [assumption|intros _; assumption]). split; [|discriminate]. apply (v_base m V). exact (proj1 (T3 _ _ (or_introl eq_refl) eq_refl)). }
      constructor; try (destruct V; assumption); [|..].
      + change (tracked (m_saved m') (m_world m')). apply (saved_tracked m m'); [exact (v_saved m V)|reflexivity|exact Tr|exact So].
      + intros r0 id I. change (m_saved (set_thread m' i _)) with (m_saved m') in I. change (m_id (set_thread m' i _)) with (m_id m). destruct So as [So|So]; rewrite So in I; [exact (v_recs m V r0 id I)|]. apply snap_recs in I as (q & ->). exact (v_heap m V q id).
      + intros k' q I. cbn in I |- *. apply in_app_or in I as [I|[I|[]]]; [exact (v_opsn m V _ _ I)|]. injection I as <- <-. tauto.
      + intros q I. cbn in I |- *. apply in_app_or in I as [I|[I|[]]]; [exact (v_cre m V _ I)|]. injection I as -> <-. tauto.
    - assert (Q : quiet m m (ptr m s)) by (constructor; auto using incl_refl).
      assert (Ti : TI m (s :: rest, Begun)).
      { apply (own_TI m m s rest Ready); auto; [discriminate|]. destruct T as (_ & _ & _ & _ & _ & T6 & _). cbn [waiting] in T6. destruct s; cbn [pending_of] in P; inv P; cbn [head_ok]; auto. exact (proj1 (T6 _ _ (or_introl eq_refl) eq_refl) _). }
      destruct (threads_set m m i (s :: rest, Begun) _ s V E (or_introl eq_refl) eq_refl Q (incl_refl _) Ti) as [U TT].
      destruct V; constructor; assumption.
  Qed.
  Lemma quiet_world m x w id' h : Inv m -> ~ In x (m_base m) -> (forall q, q <> x -> h q = m_heap m q) -> (forall id u, In (id, u) w -> In (id, u) (m_world m) \/ id = m_id m) -> quiet m (set_world m w id' h) x.
  Proof using.
    intros V N H W. constructor; try (cbn; auto; fail); try apply incl_refl.
    - intros n _ X. cbn. now rewrite H.
    - intros n B. cbn. rewrite H; [reflexivity|congruence].
    - intros n B. cbn. rewrite H; [auto|]. intros ->. exact (N (v_touched m V _ B)).
    - intros n B G id E (u & I). cbn in E, I. rewrite H in E by congruence. apply W in I as [I| ->]; [exact (G id E (ex_intro _ u I))|]. pose proof (v_heap m V n _ E). lia.
  Qed.
  Lemma without_In w i id u : In (id, u) (without w i) -> In (id, u) w /\ i <> Some id.
  Proof using. destruct i as [p|]; cbn; [|intros I; split; [exact I|discriminate]]. intros I. apply filter_In in I as [I N]. split; [exact I|]. cbn in N. destruct (Nat.eqb_spec id p); [discriminate|congruence]. Qed.

  (** The step's own pointers after it was applied. *)
  Lemma create_inv m i s rest n a : Inv m -> nth_error (m_threads m) i = Some (s :: rest, Begun) -> creates s = true -> new_of s = Some n -> a <> Lost ->
    Inv (let (m', x) := create_apply m n a in set_thread m' i (s :: rest, Applied (fst x) (snd x))).
  Proof using.
    intros V E Cs En Na. pose proof (v_threads m V _ _ E) as T. pose proof T as (_ & T2 & _ & _ & _ & _ & H). cbn [fst] in T2. destruct (T2 s n (or_introl eq_refl) En) as (Ln & Nb & Nr & Nc).
    assert (Hd : In (Creating, n) (m_ops m) /\ r_id (m_heap m n) = None /\ being_created (m_saved m) (r_urn (m_heap m n))) by (destruct s; cbn in Cs, En; try discriminate; injection En as ->; exact H). destruct Hd as (Ho & Hi & Hs).
    assert (Px : ptr m s = n) by (unfold ptr; now rewrite En).
    assert (Hok : forall m' ok go, In (Creating, n) (m_ops m') -> (ok = false -> r_id (m_heap m' n) = None) -> head_ok m' s (Applied ok go)) by (intros m' ok go A B; destruct s; cbn in Cs, En; try discriminate; injection En as ->; cbn; auto).
    assert (Made : forall ok go, ok = true -> Inv (set_thread (set_world m ((m_id m, r_urn (m_heap m n)) :: m_world m) (S (m_id m)) (upd (m_heap m) n (set_id (m_heap m n) (Some (m_id m))))) i (s :: rest, Applied ok go))).
    { intros ok go Ok. pose (m' := set_world m ((m_id m, r_urn (m_heap m n)) :: m_world m) (S (m_id m)) (upd (m_heap m) n (set_id (m_heap m n) (Some (m_id m))))). fold m'.
      assert (Q : quiet m m' (ptr m s)).
      { rewrite Px. apply quiet_world; [exact V|exact Nb|intros q X; now apply upd_other|]. intros id u [I|I]; [right; congruence|now left]. }
      destruct (threads_set m m' i (s :: rest, Applied ok go) _ s V E (or_introl eq_refl) eq_refl Q (incl_refl _)) as [U TT].
      { apply (own_TI m m' s rest Begun); auto; [discriminate|]. apply Hok; [exact Ho|congruence]. }
      constructor; try (destruct V; assumption).
      - intros id u [I|I].
        + injection I as <- <-. right; left. exists n. cbn. rewrite upd_same. cbn. auto.
        + destruct (v_known m V id u I) as [(q & A & B)|[(q & A & B & C & D)|A]]; [left|right; left|now right; right].
          * assert (q <> n) by (destruct A as [A|[A _]]; congruence). exists q. cbn. rewrite upd_other by assumption. auto.
          * assert (q <> n) by congruence. exists q. cbn. rewrite upd_other by assumption. auto.
      - intros id u [I|I]; [injection I as <- <-; right; exact Hs|exact (v_saved m V id u I)].
      - intros id u [I|I]; cbn; [injection I as <- <-; lia|]. pose proof (v_world m V id u I). lia.
      - intros q id. cbn. destruct (Nat.eq_dec q n) as [->|X]; [rewrite upd_same; cbn; intros [= <-]; lia|]. rewrite upd_other by exact X. intros A. pose proof (v_heap m V q id A). lia.
      - intros r id I A. cbn in I |- *. pose proof (v_recs m V r id I A). lia. }
    assert (Kept : forall ok go, Inv (set_thread m i (s :: rest, Applied ok go))).
    { intros ok go. assert (Q : quiet m m (ptr m s)) by (constructor; auto using incl_refl).
      destruct (threads_set m m i (s :: rest, Applied ok go) _ s V E (or_introl eq_refl) eq_refl Q (incl_refl _)) as [U TT]; [|destruct V; constructor; assumption].
      apply (own_TI m m s rest Begun); auto; discriminate. }
    unfold create_apply. destruct (r_custom (m_heap m n)); [|apply Kept]. destruct a; [apply Made; reflexivity|apply Made; reflexivity|apply Kept|contradiction].
  Qed.
  Lemma keep_inv m i s rest o n ok go : Inv m -> nth_error (m_threads m) i = Some (s :: rest, Begun) -> (exists w, s = Same o n w) \/ s = Update o n ->
    Inv (set_thread (keep_id m o n) i (s :: rest, Applied ok go)).
  Proof using.
    intros V E Es. pose proof (v_threads m V _ _ E) as T. pose proof T as (_ & T2 & T3 & _ & _ & _ & H). cbn [fst] in T2, T3.
    assert (En : new_of s = Some n /\ old_of s = Some o) by (destruct Es as [[w ->]| ->]; auto). destruct En as [En Eo].
    destruct (T2 s n (or_introl eq_refl) En) as (Ln & Nb & Nr & Nc). destruct (T3 s o (or_introl eq_refl) Eo) as (Ob & _).
    assert (Hc : ~ In (Creating, n) (m_ops m)) by (destruct Es as [[w ->]| ->]; exact H).
    assert (Px : ptr m s = n) by (unfold ptr; now rewrite En). assert (On : o <> n) by congruence.
    assert (Q : quiet m (keep_id m o n) (ptr m s)).
    { rewrite Px. apply quiet_world; [exact V|exact Nb|intros q X; now apply upd_other|auto]. }
    destruct (threads_set m (keep_id m o n) i (s :: rest, Applied ok go) _ s V E (or_introl eq_refl) eq_refl Q (incl_refl _)) as [U TT].
    { apply (own_TI m (keep_id m o n) s rest Begun); auto; [discriminate|].
      assert (G : ~ In (Creating, n) (m_ops m) /\ r_id (m_heap (keep_id m o n) n) = r_id (m_heap (keep_id m o n) o)) by (split; [exact Hc|]; cbn; rewrite upd_same, upd_other by exact On; reflexivity).
      destruct Es as [[w ->]| ->]; exact G. }
    constructor; try (destruct V; assumption).
    - intros id u I. destruct (v_known m V id u I) as [(q & A & B)|[(q & A & B & C & D)|A]]; [left|right; left|now right; right].
      + assert (q <> n) by (destruct A as [A|[A _]]; congruence). exists q. cbn. rewrite upd_other by assumption. auto.
      + assert (q <> n) by congruence. exists q. cbn. rewrite upd_other by assumption. auto.
    - intros q id. cbn. destruct (Nat.eq_dec q n) as [->|X]; [rewrite upd_same; cbn; exact (v_heap m V o id)|]. rewrite upd_other by exact X. exact (v_heap m V q id).
  Qed.
  Lemma still_inv m i s rest ok go : Inv m -> nth_error (m_threads m) i = Some (s :: rest, Begun) -> head_ok m s (Applied ok go) -> Inv (set_thread m i (s :: rest, Applied ok go)).
  Proof using.
    intros V E H. pose proof (v_threads m V _ _ E) as T. assert (Q : quiet m m (ptr m s)) by (constructor; auto using incl_refl).
    destruct (threads_set m m i (s :: rest, Applied ok go) _ s V E (or_introl eq_refl) eq_refl Q (incl_refl _)) as [U TT]; [|destruct V; constructor; assumption].
    apply (own_TI m m s rest Begun); auto; discriminate.
  Qed.
  Lemma delete_inv m i rest o ok go : Inv m -> nth_error (m_threads m) i = Some (Delete o :: rest, Begun) -> (go = true -> ok = true) ->
    Inv (set_thread (set_world m (without (m_world m) (r_id (m_heap m o))) (m_id m) (m_heap m)) i (Delete o :: rest, Applied ok go)).
  Proof using.
    intros V E Hg. pose proof (v_threads m V _ _ E) as T. pose (m' := set_world m (without (m_world m) (r_id (m_heap m o))) (m_id m) (m_heap m)). fold m'.
    assert (Q : quiet m m' (ptr m (Delete o))).
    { constructor; try (cbn; auto; fail); try apply incl_refl. intros n B G id A (u & I). cbn in A, I. apply without_In in I as [I _]. exact (G id A (ex_intro _ u I)). }
    destruct (threads_set m m' i (Delete o :: rest, Applied ok go) _ (Delete o) V E (or_introl eq_refl) eq_refl Q (incl_refl _)) as [U TT].
    { apply (own_TI m m' (Delete o) rest Begun); auto; [discriminate|]. split; [|exact Hg]. intros _ id A (u & I). cbn in A, I. apply without_In in I as [_ I]. congruence. }
    constructor; try (destruct V; assumption).
    - intros id u I. apply without_In in I as [I _]. exact (v_known m V id u I).
    - intros id u I. apply without_In in I as [I _]. exact (v_saved m V id u I).
    - intros id u I. apply without_In in I as [I _]. exact (v_world m V id u I).
  Qed.
  Lemma apply_inv m i a : Inv m -> a <> Lost -> Inv (react m (Apply i a)).
  Proof using.
    intros V Na. cbn [react]. destruct (nth_error (m_threads m) i) as [[[|s rest] [| |]]|] eqn:E; try exact V.
    destruct s as [n|o n af|o n w|o n|o|o|]; cbn [apply_step].
    - apply create_inv; auto.
    - apply create_inv; auto.
    - apply keep_inv; eauto.
    - destruct a; cbn [fst snd]; apply keep_inv; auto.
    - destruct a; cbn [fst snd]; try contradiction; try (apply delete_inv; auto; fail); apply still_inv; auto; split; discriminate.
    - apply still_inv; auto. exact I.
    - apply still_inv; auto. exact I.
  Qed.
  Definition ended m res dones comp el repl : machine :=
    mkM (m_world m) (m_id m) (m_saved m) (m_heap m) (m_next m) (m_base m) (m_base_ops m) res dones (m_ops m) comp el (m_threads m) (m_touched m) repl (m_condemned m).
  Lemma ended_inv m i s rest ok go res dones comp el repl (w : bool) r t :
    Inv m -> nth_error (m_threads m) i = Some (s :: rest, Applied ok go) ->
    (forall n, In n res -> In n (m_resources m) \/ (n = ptr m s /\ n < m_next m)) ->
    (forall n, In n comp -> In n (m_completes m) \/ (n = ptr m s /\ n < m_next m)) ->
    (forall q, In q repl -> In q (m_replaced m) \/ old_of s = Some q) ->
    (forall id u, In (id, u) (m_world m) -> known (ended m res dones comp el repl) id u) ->
    (t = (rest, Ready) /\ go = true) \/ t = ([], Ready) ->
    Inv (set_thread (if w then save (ended m res dones comp el repl) r else ended m res dones comp el repl) i t).
  Proof using.
    intros V E H1 H2 H3 K Ht. pose proof (v_threads m V _ _ E) as T. pose (m0 := ended m res dones comp el repl). pose (m' := if w then save m0 r else m0). fold m0 m'. fold m0 in K.
    assert (Eq : m' = mkM (m_world m) (m_id m) (m_saved m') (m_heap m) (m_next m) (m_base m) (m_base_ops m) res dones (m_ops m) comp (m_elided m') (m_threads m) (m_touched m) repl (m_condemned m)) by (subst m'; destruct w; reflexivity).
    assert (Sn : snap m' = snap m0) by (subst m'; destruct w; reflexivity).
    assert (So : m_saved m' = m_saved m \/ m_saved m' = snap m') by (rewrite Sn; subst m'; destruct w; [unfold save; cbn [set_saved m_saved]; destruct (performed r); [now right|now left]|now left]).
    clearbody m'. rewrite Eq in Sn, So |- *. generalize (m_saved m') (m_elided m') Sn So. clear m' Eq Sn So. cbn [m_saved]. intros sv el' Sn So.
    pose (m' := mkM (m_world m) (m_id m) sv (m_heap m) (m_next m) (m_base m) (m_base_ops m) res dones (m_ops m) comp el' (m_threads m) (m_touched m) repl (m_condemned m)). fold m' in Sn, So |- *.
    assert (Q : quiet m m' (ptr m s)).
    { constructor; try (cbn; auto; fail); try apply incl_refl; try exact So.
      - intros n I. destruct (H1 n I) as [|[? _]]; auto.
      - intros n I. destruct (H2 n I) as [|[? _]]; auto. }
    assert (Ti : TI m' t).
    { destruct Ht as [[-> G]| ->]; [|apply TI_stop]. apply (quiet_TI m m' (ptr m s)); [exact Q| |].
      - intros s' I. exact (rest_ne m s rest _ s' T I).
      - destruct (TI_tail m s rest _ T) as [A|A]; [|exact A|discriminate]. intros o ->. destruct T as (_ & _ & _ & _ & _ & _ & A). destruct A as [A B]. auto. }
    destruct (threads_set m m' i t _ s V E (or_introl eq_refl) eq_refl Q) as [U TT]; [|exact Ti|].
    { cbn [fst]. destruct Ht as [[-> _]| ->]; [apply incl_tl, incl_refl|intros ? []]. }
    pose proof (known_tracked m0 K) as Tr.
    constructor; try (destruct V; assumption).
    - change (tracked sv (m_world m)). destruct So as [So|So]; [rewrite So; exact (v_saved m V)|]. rewrite So, Sn. exact Tr.
    - intros r0 id I. change (In r0 (fst sv)) in I. destruct So as [So|So]; rewrite So in I; [exact (v_recs m V r0 id I)|]. apply snap_recs in I as (q & ->). exact (v_heap m V q id).
    - intros q I. destruct (H1 q I) as [A|[_ A]]; [exact (v_res m V q A)|exact A].
    - intros q I. destruct (H2 q I) as [A|[_ A]]; [exact (v_comp m V q A)|exact A].
    - intros q I. destruct (H3 q I) as [A|A]; [exact (v_replaced m V q A)|]. destruct T as (_ & _ & T3 & _). exact (proj2 (T3 s q (or_introl eq_refl) A)).
  Qed.
  Lemma known_ended m res dones comp el repl :
    (forall q, In q (m_resources m) -> In q res) -> (forall q, In q dones -> In q (m_dones m) \/ (forall id, r_id (m_heap m q) = Some id -> (exists u, In (id, u) (m_world m)) -> exists q', In q' res /\ r_id (m_heap m q') = Some id)) ->
    (forall q, In q comp -> In q (m_completes m) \/ ~ In (Creating, q) (m_ops m) \/ r_id (m_heap m q) = None \/ In q res) ->
    (forall id u, In (id, u) (m_world m) -> known m id u) ->
    forall id u, In (id, u) (m_world m) -> known (ended m res dones comp el repl) id u.
  Proof using.
    intros R D C K id u I. destruct (K id u I) as [(q & A & B)|[(q & A & B & Ci & Cu)|A]]; [| |now right; right].
    - left. destruct A as [A|[A N]]; [exists q; cbn; auto|]. destruct (in_dec Nat.eq_dec q dones) as [Y|Y]; [|exists q; cbn; auto].
      destruct (D q Y) as [Z|Z]; [contradiction|]. destruct (Z id B (ex_intro _ u I)) as (q' & ? & ?). exists q'. cbn. auto.
    - destruct (in_dec Nat.eq_dec q comp) as [Y|Y]; [|right; left; exists q; cbn; auto]. destruct (C q Y) as [Z|[Z|[Z|Z]]]; [contradiction|contradiction|congruence|]. left. exists q. cbn. auto.
  Qed.
  Ltac tidy A P := try (intros ? ?; eapply A; [reflexivity|eassumption]); try (intros ? ?; eapply P; [cbn; auto|eassumption]); try (auto; fail).
  Lemma end_inv m i r : Inv m -> Inv (react m (End i r)).
  Proof using.
    intros V. cbn [react]. destruct (nth_error (m_threads m) i) as [[[|s rest] [| |ok go]]|] eqn:E; try exact V.
    pose proof (v_threads m V _ _ E) as T. pose proof T as (_ & T2 & T3 & T4 & T5 & _ & H). cbn [fst] in *.
    pose proof (fun n => T2 s n (or_introl eq_refl)) as N. pose proof (fun n => T3 s n (or_introl eq_refl)) as O. pose proof (v_known m V) as K.
    assert (Fin : forall x, ((if go && x then (rest, Ready) else ([], Ready)) = (rest, Ready) /\ go = true) \/ (if go && x then (rest, Ready) else ([], Ready)) = ([], Ready)) by (intros x; destruct go; cbn; [destruct x; auto|auto]).
    assert (Pn : forall n, new_of s = Some n -> n = ptr m s /\ n < m_next m) by (intros n A; unfold ptr; rewrite A; split; [reflexivity|exact (proj1 (N n A))]).
    assert (Po : forall o, new_of s = None -> old_of s = Some o -> o = ptr m s /\ o < m_next m) by (intros o A B; unfold ptr; rewrite A, B; split; [reflexivity|exact (v_base m V o (proj1 (O o B)))]).
    assert (Keep : forall (l : list nat) n, In n l -> In n l \/ (n = ptr m s /\ n < m_next m)) by auto.
    assert (Add : forall (l : list nat) n x, new_of s = Some x -> In n (l ++ [x]) -> In n l \/ (n = ptr m s /\ n < m_next m)) by (intros l n x A I; apply in_app_or in I as [I|[<-|[]]]; auto).
    assert (Push : forall (l : list nat) n x, new_of s = Some x \/ (new_of s = None /\ old_of s = Some x) -> In n (x :: l) -> In n l \/ (n = ptr m s /\ n < m_next m)) by (intros l n x A [<-|I]; [right; destruct A as [A|[A B]]; auto|auto]).
    assert (Sub : forall l (x q : nat), In q l -> In q (l ++ [x])) by (intros; apply in_or_app; auto).
    assert (Last : forall l (x : nat), In x (l ++ [x])) by (intros; apply in_or_app; right; now left).
    destruct s as [n|o n af|o n w|o n|o|o|]; cbn [end_step].
    - (* Create *) destruct H as [Ho Hi]. destruct ok.
      + apply (ended_inv m i _ rest true go (m_resources m ++ [n]) (m_dones m) (n :: m_completes m) (m_elided m) (m_replaced m) true r _ V E); tidy Add Push; apply known_ended; eauto. intros q [<-|I]; auto.
      + apply (ended_inv m i _ rest false go (m_resources m) (m_dones m) (n :: m_completes m) (m_elided m) (m_replaced m) true r _ V E); tidy Add Push; apply known_ended; eauto. intros q [<-|I]; auto.
    - (* Create_replacement *) destruct H as [Ho Hi].
      assert (G : r_marked (m_heap m o) = true -> gone m o) by (intros M; destruct (T4 [] o n af rest eq_refl M) as [[]|G]; exact G). destruct ok.
      + change (m_heap (mark_new (mark_complete m n) n) o) with (m_heap m o).
        destruct (r_marked (m_heap m o)) eqn:Mk, af.
        * apply (ended_inv m i _ rest true go (m_resources m ++ [n]) (o :: m_dones m) (n :: m_completes m) (m_elided m) (o :: m_replaced m) true r _ V E); tidy Add Push; [intros q [<-|I]; auto|]. apply known_ended; eauto; intros q [<-|I]; auto. right. intros id A B. exfalso. exact (G eq_refl id A B).
        * apply (ended_inv m i _ rest true go (m_resources m ++ [n]) (o :: m_dones m) (n :: m_completes m) (m_elided m) (m_replaced m) true r _ V E); tidy Add Push. apply known_ended; eauto; intros q [<-|I]; auto. right. intros id A B. exfalso. exact (G eq_refl id A B).
        * apply (ended_inv m i _ rest true go (m_resources m ++ [n]) (m_dones m) (n :: m_completes m) (m_elided m) (o :: m_replaced m) true r _ V E); tidy Add Push; [intros q [<-|I]; auto|]. apply known_ended; eauto; intros q [<-|I]; auto.
        * apply (ended_inv m i _ rest true go (m_resources m ++ [n]) (m_dones m) (n :: m_completes m) (m_elided m) (m_replaced m) true r _ V E); tidy Add Push. apply known_ended; eauto; intros q [<-|I]; auto.
      + apply (ended_inv m i _ rest false go (m_resources m) (m_dones m) (n :: m_completes m) (m_elided m) (m_replaced m) true r _ V E); tidy Add Push; apply known_ended; eauto. intros q [<-|I]; auto.
    - (* Same *) destruct H as [Ho Hi].
      assert (D : forall q, In q (o :: m_dones m) -> In q (m_dones m) \/ (forall id, r_id (m_heap m q) = Some id -> (exists u, In (id, u) (m_world m)) -> exists q', In q' (m_resources m ++ [n]) /\ r_id (m_heap m q') = Some id)).
      { intros q [<-|I]; [right|now left]. intros id A _. exists n. split; [apply Last|congruence]. }
      destruct w.
      + apply (ended_inv m i _ rest ok go (m_resources m ++ [n]) (o :: m_dones m) (m_completes m) (m_elided m) (m_replaced m) true r _ V E); tidy Add Push; apply known_ended; eauto.
      + apply (ended_inv m i _ rest ok go (m_resources m ++ [n]) (o :: m_dones m) (m_completes m) true (m_replaced m) false r _ V E); tidy Add Push; apply known_ended; eauto.
    - (* Update *) destruct H as [Ho Hi].
      assert (D : forall q, In q (o :: m_dones m) -> In q (m_dones m) \/ (forall id, r_id (m_heap m q) = Some id -> (exists u, In (id, u) (m_world m)) -> exists q', In q' (m_resources m ++ [n]) /\ r_id (m_heap m q') = Some id)).
      { intros q [<-|I]; [right|now left]. intros id A _. exists n. split; [apply Last|congruence]. }
      destruct ok.
      + apply (ended_inv m i _ rest true go (m_resources m ++ [n]) (o :: m_dones m) (n :: m_completes m) (m_elided m) (m_replaced m) true r _ V E); tidy Add Push; apply known_ended; eauto. intros q [<-|I]; auto.
      + apply (ended_inv m i _ rest false go (m_resources m) (m_dones m) (n :: m_completes m) (m_elided m) (m_replaced m) true r _ V E); tidy Add Push; apply known_ended; eauto. intros q [<-|I]; auto.
    - (* Delete *) destruct H as [Hg _]. assert (Ob : ~ In (Creating, o) (m_ops m)) by (intros A; exact (v_cre m V o A (proj1 (O o eq_refl)))). destruct ok.
      + change (m_heap (mark_complete m o) o) with (m_heap m o). destruct (r_marked (m_heap m o)).
        * apply (ended_inv m i _ rest true go (m_resources m) (m_dones m) (o :: m_completes m) (m_elided m) (m_replaced m) true r _ V E); tidy Add Push; apply known_ended; eauto. intros q [<-|I]; auto.
        * apply (ended_inv m i _ rest true go (m_resources m) (o :: m_dones m) (o :: m_completes m) (m_elided m) (m_replaced m) true r _ V E); tidy Add Push; apply known_ended; eauto; intros q [<-|I]; auto. right. intros id A B. exfalso. exact (Hg eq_refl id A B).
      + apply (ended_inv m i _ rest false go (m_resources m) (m_dones m) (o :: m_completes m) (m_elided m) (m_replaced m) true r _ V E); tidy Add Push; apply known_ended; eauto. intros q [<-|I]; auto.
    - (* Remove_pending_replace *)
      apply (ended_inv m i _ rest ok go (m_resources m) (o :: m_dones m) (m_completes m) (m_elided m) (m_replaced m) true r _ V E); tidy Add Push; apply known_ended; eauto; intros q [<-|I]; auto. right. intros id A B. exfalso. exact (T5 o (or_introl eq_refl) id A B).
    - (* Replace *)
      assert (Em : ended m (m_resources m) (m_dones m) (m_completes m) (m_elided m) (m_replaced m) = m) by (destruct m; reflexivity). rewrite <- Em in K.
      pose proof (ended_inv m i _ rest ok go (m_resources m) (m_dones m) (m_completes m) (m_elided m) (m_replaced m) false r (if go && (negb false || fine r) then (rest, Ready) else ([], Ready)) V E (Keep _) (Keep _) (fun q I => or_introl I)) as R. rewrite Em in R, K. apply R; auto.
  Qed.

  Definition planned m h next steps touched repl cond : machine :=
    mkM (m_world m) (m_id m) (m_saved m) h next (m_base m) (m_base_ops m) (m_resources m) (m_dones m) (m_ops m) (m_completes m) (m_elided m) (m_threads m ++ [(steps, Ready)]) touched repl cond.
  Lemma planned_inv m h next steps touched repl cond : Inv m -> m_next m <= next ->
    (forall q, q <> m_next m -> r_urn (h q) = r_urn (m_heap m q) /\ r_id (h q) = r_id (m_heap m q)) ->
    (forall q id, r_id (h q) = Some id -> r_id (m_heap m q) = Some id) ->
    (forall q, In q (m_touched m) -> r_marked (h q) = true -> r_marked (m_heap m q) = true) ->
    (forall q, In q touched -> In q (m_base m)) -> incl (m_touched m) touched -> incl cond touched -> incl repl touched ->
    count_news steps <= 1 ->
    (forall s n, In s steps -> new_of s = Some n -> n = m_next m /\ n < next /\ r_id (h n) = None) ->
    (forall s o, In s steps -> old_of s = Some o -> In o touched) ->
    (forall pre o n a post, steps = pre ++ Create_replacement o n a :: post -> r_marked (h o) = true -> In (Delete o) pre \/ gone m o) ->
    (forall o, In (Remove_pending_replace o) steps -> gone m o) ->
    Inv (planned m h next steps touched repl cond).
  Proof using.
    intros V Ln Hh Hi Hm Tb Tt Ct Rt C N O G R. pose (m' := planned m h next steps touched repl cond). fold m'.
    assert (Bn : forall q, In q (m_base m) -> q <> m_next m) by (intros q I; pose proof (v_base m V q I); lia).
    assert (Gn : forall n, gone m n -> gone m' n) by (intros n X id A B; exact (X id (Hi n id A) B)).
    assert (Q : quiet m m' (m_next m)).
    { constructor; try (cbn; auto; fail); try apply incl_refl.
      - intros n B. exact (proj2 (Hh n (Bn n B))). }
    assert (Ti : TI m' (steps, Ready)).
    { split; [exact C|]. cbn [fst]. split; [|split; [|split; [|split; [|split]]]].
      - intros s n I E. destruct (N s n I E) as (-> & L & _). cbn. split; [exact L|]. split; [intros B; exact (Bn _ B eq_refl)|]. split; intros B; [pose proof (v_res m V _ B)|pose proof (v_comp m V _ B)]; lia.
      - intros s o I E. cbn. split; [exact (Tb o (O s o I E))|exact (O s o I E)].
      - intros pre o n a post E M. destruct (G pre o n a post E M) as [|X]; auto.
      - intros o I. exact (Gn o (R o I)).
      - intros s n I E. assert (I' : In s steps) by (destruct steps; exact I). destruct (N s n I' E) as (-> & _ & B). cbn. split; [|exact B]. intros k Y. pose proof (v_opsn m V _ _ Y). lia.
      - destruct steps; exact I. }
    assert (Nth : forall j t, nth_error (m_threads m') j = Some t -> nth_error (m_threads m) j = Some t \/ (j = List.length (m_threads m) /\ t = (steps, Ready))).
    { intros j t E. cbn in E. destruct (Nat.lt_ge_cases j (List.length (m_threads m))) as [L|L]; [rewrite nth_error_app1 in E by exact L; now left|]. rewrite nth_error_app2 in E by exact L. destruct (j - List.length (m_threads m)) as [|[|?]] eqn:D; cbn in E; try discriminate. injection E as <-. right. split; [lia|reflexivity]. }
    assert (Old : forall j t s, nth_error (m_threads m) j = Some t -> In s (fst t) -> new_of s <> Some (m_next m)).
    { intros j t s E I X. pose proof (v_threads m V _ _ E) as (_ & T2 & _). destruct (T2 s _ I X) as (L & _). lia. }
    constructor; try (destruct V; assumption).
    - intros id u I. destruct (v_known m V id u I) as [(q & A & B)|[(q & A & B & D & F)|A]]; [left|right; left|now right; right].
      + exists q. split; [exact A|]. cbn. rewrite (proj2 (Hh q ltac:(destruct A as [A|[A _]]; [pose proof (v_res m V q A)|pose proof (v_base m V q A)]; lia))). exact B.
      + exists q. cbn. destruct (Hh q ltac:(pose proof (v_opsn m V _ q A); lia)) as [-> ->]. auto.
    - intros q id A. exact (v_heap m V q id (Hi q id A)).
    - intros q I. cbn in *. pose proof (v_base m V q I). lia.
    - intros q I. cbn in *. pose proof (v_res m V q I). lia.
    - intros k q I. cbn in *. pose proof (v_opsn m V k q I). lia.
    - intros q I. cbn in *. pose proof (v_comp m V q I). lia.
    - intros j k t1 t2 s1 s2 n A B I1 I2 E1 E2. apply Nth in A as [A|[-> ->]]; apply Nth in B as [B|[-> ->]]; [exact (v_unique m V j k t1 t2 s1 s2 n A B I1 I2 E1 E2)| | |reflexivity]; exfalso.
      + destruct (N s2 n I2 E2) as (-> & _). exact (Old j t1 s1 A I1 E1).
      + destruct (N s1 n I1 E1) as (-> & _). exact (Old k t2 s2 B I2 E2).
    - intros j t E. apply Nth in E as [E|[-> ->]]; [|exact Ti]. apply (quiet_TI m m' (m_next m)); [exact Q|exact (fun s => Old j t s E)|exact (v_threads m V _ _ E)].
  Qed.
  Lemma unused_spec m p : unused m p = true -> In p (m_base m) /\ ~ In p (m_touched m).
  Proof using. unfold unused. intros E. apply andb_prop in E as [A B]. apply has_In in A. destruct (has p (m_touched m)) eqn:D; [discriminate|]. apply has_not in D. auto. Qed.
  Lemma mark_all_spec l : forall h q, r_urn (mark_all h l q) = r_urn (h q) /\ r_id (mark_all h l q) = r_id (h q) /\ r_custom (mark_all h l q) = r_custom (h q) /\ (~ In q l -> r_marked (mark_all h l q) = r_marked (h q)).
  Proof using.
    induction l as [|p l IH]; intros h q; [cbn; auto|]. change (mark_all h (p :: l)) with (mark_all (upd h p (set_marked (h p) true)) l). destruct (IH (upd h p (set_marked (h p) true)) q) as (A & B & C & D). rewrite A, B, C.
    destruct (Nat.eq_dec q p) as [->|X]; [rewrite upd_same in *; cbn; repeat split; auto; intros Y; exfalso; apply Y; now left|]. rewrite upd_other in * by exact X. repeat split; auto. intros Y. apply D. intros Z. apply Y. now right.
  Qed.
  Lemma remove_one_In p l q : In q (remove_one p l) -> In q l.
  Proof using. intros I. now apply filter_In in I as [I _]. Qed.
  Lemma app_last {A} (pre post : list A) x l y : (forall z, In z l -> z <> x) -> l ++ [y] = pre ++ x :: post -> pre = l /\ x = y /\ post = [].
  Proof using.
    revert pre. induction l as [|z l IH]; intros pre N E; destruct pre as [|w pre]; cbn in E.
    - injection E as -> <-. auto.
    - injection E as _ E. destruct pre; discriminate.
    - injection E as -> _. exfalso. exact (N x (or_introl eq_refl) eq_refl).
    - injection E as <- E. destruct (IH pre (fun z I => N z (or_intror I)) E) as (-> & -> & ->). auto.
  Qed.
  Lemma plan_inv m d : Inv m -> orderly m (Plan d) -> Inv (plan m d).
  Proof using.
    intros V Or. unfold plan.
    assert (Hh : forall r, forall q, q <> m_next m -> r_urn (upd (m_heap m) (m_next m) r q) = r_urn (m_heap m q) /\ r_id (upd (m_heap m) (m_next m) r q) = r_id (m_heap m q)) by (intros r q X; now rewrite upd_other).
    assert (Hi : forall r, r_id r = None -> forall q id, r_id (upd (m_heap m) (m_next m) r q) = Some id -> r_id (m_heap m q) = Some id) by (intros r E q id; destruct (Nat.eq_dec q (m_next m)) as [->|X]; [rewrite upd_same; congruence|now rewrite upd_other]).
    assert (Hm : forall r q, In q (m_touched m) -> r_marked (upd (m_heap m) (m_next m) r q) = true -> r_marked (m_heap m q) = true) by (intros r q I; rewrite upd_other; [auto|]; pose proof (v_base m V q (v_touched m V q I)); lia).
    assert (Tb : forall o, In o (m_base m) -> forall q, In q (o :: m_touched m) -> In q (m_base m)) by (intros o B q [<-|I]; [exact B|exact (v_touched m V q I)]).
    assert (Cc : incl (m_condemned m) (m_touched m)) by exact (v_condemned m V). assert (Rr : incl (m_replaced m) (m_touched m)) by exact (v_replaced m V).
    assert (Bn : forall q, In q (m_base m) -> q <> m_next m) by (intros q I; pose proof (v_base m V q I); lia).
    destruct d as [urn custom|o urn w|o urn|o urn|deps o urn|o urn|o|o].
    - apply (planned_inv m _ _ _ _ (m_replaced m) _ V); auto; cbn; try (refine (Hi _ _); reflexivity); try exact (Hm _); try lia; try (exact (v_touched m V)); try apply incl_refl.
      + intros s n [<-|[]] [= <-]. rewrite upd_same. repeat split; lia.
      + intros s n [<-|[]] [=].
      + intros pre o n a post E; destruct pre as [|? [|]]; discriminate.
      + intros o [[=]|[]].
    - destruct (unused m o) eqn:U; [|exact V]. apply unused_spec in U as [B U]. apply (planned_inv m _ _ _ _ (m_replaced m) _ V); auto; cbn; try (refine (Hi _ _); reflexivity); try exact (Hm _); try lia; try (exact (Tb o B)); try (apply incl_tl; auto using incl_refl; fail).
      + intros s n [<-|[]] [= <-]. rewrite upd_same. repeat split; lia.
      + intros s n [<-|[]] [= <-]. now left.
      + intros pre o' n a post E. destruct pre as [|? [|]]; discriminate.
      + intros o' [[=]|[]].
    - destruct (unused m o) eqn:U; [|exact V]. apply unused_spec in U as [B U]. apply (planned_inv m _ _ _ _ (m_replaced m) _ V); auto; cbn; try (refine (Hi _ _); reflexivity); try exact (Hm _); try lia; try (exact (Tb o B)); try (apply incl_tl; auto using incl_refl; fail).
      + intros s n [<-|[]] [= <-]. rewrite upd_same. repeat split; lia.
      + intros s n [<-|[]] [= <-]. now left.
      + intros pre o' n a post E. destruct pre as [|? [|]]; discriminate.
      + intros o' [[=]|[]].
    - destruct (unused m o) eqn:U; [|exact V]. apply unused_spec in U as [B U]. apply (planned_inv m _ _ _ _ (m_replaced m) _ V); auto; cbn; try (refine (Hi _ _); reflexivity); try exact (Hm _); try lia; try (exact (Tb o B)); try (apply incl_tl; auto using incl_refl; fail).
      + intros s n [<-|[<-|[]]] [= <-]. rewrite upd_same. repeat split; lia.
      + intros s n [<-|[<-|[]]] [= <-]. now left.
      + intros pre o' n a post E M. destruct pre as [|? [|? [|]]]; try discriminate. injection E as <- <- <- <-. right. apply Or. rewrite upd_other in M by auto. exact M.
      + intros o' [[=]|[[=]|[]]].
    - destruct (forallb (unused m) (deps ++ [o]) && distinct (deps ++ [o])) eqn:U; [|exact V]. apply andb_prop in U as [U _]. rewrite forallb_forall in U.
      assert (Ub : forall q, In q (deps ++ [o]) -> In q (m_base m) /\ ~ In q (m_touched m)) by (intros q I; apply unused_spec; auto). clear U.
      assert (Ls : map Delete (deps ++ [o]) ++ [Replace; Create_replacement o (m_next m) false] = (map Delete (deps ++ [o]) ++ [Replace]) ++ [Create_replacement o (m_next m) false]) by (now rewrite <- app_assoc).
      assert (Mem : forall s, In s (map Delete (deps ++ [o]) ++ [Replace; Create_replacement o (m_next m) false]) -> (exists q, s = Delete q /\ In q (deps ++ [o])) \/ s = Replace \/ s = Create_replacement o (m_next m) false).
      { intros s I. apply in_app_or in I as [I|[<-|[<-|[]]]]; auto. apply in_map_iff in I as (q & <- & I). left. now exists q. }
      assert (Lo : In o (deps ++ [o])) by (apply in_or_app; right; now left).
      apply (planned_inv m _ _ _ _ (m_replaced m) _ V); auto; try lia; try (apply incl_appr; auto using incl_refl; fail).
      + intros q X. rewrite upd_other by exact X. destruct (mark_all_spec (deps ++ [o]) (m_heap m) q) as (A & B & _). auto.
      + intros q id. destruct (Nat.eq_dec q (m_next m)) as [->|X]; [rewrite upd_same; discriminate|]. rewrite upd_other by exact X. destruct (mark_all_spec (deps ++ [o]) (m_heap m) q) as (_ & B & _). congruence.
      + intros q I. rewrite upd_other by (apply Bn; exact (v_touched m V q I)). destruct (mark_all_spec (deps ++ [o]) (m_heap m) q) as (_ & _ & _ & B). rewrite B; [auto|]. intros Y. exact (proj2 (Ub q Y) I).
      + intros q I. apply in_app_or in I as [I|I]; [exact (proj1 (Ub q I))|exact (v_touched m V q I)].
      + intros q I. apply in_app_or in I as [I|I]; apply in_or_app; [left; apply in_or_app; now left|right; auto].
      + clear. induction (deps ++ [o]) as [|x l IH]; cbn in *; [lia|exact IH].
      + intros s n I E. apply Mem in I as [(q & -> & _)|[->| ->]]; try discriminate. injection E as <-. rewrite upd_same. repeat split; lia.
      + intros s q I E. apply in_or_app. left. apply Mem in I as [(q' & -> & I)|[->| ->]]; [injection E as <-; exact I|discriminate|injection E as <-; exact Lo].
      + intros pre o' n a post E _. left. rewrite Ls in E. apply app_last in E as (-> & E & _).
        * injection E as -> _ _. apply in_or_app. left. now apply in_map.
        * intros z I. apply in_app_or in I as [I|[<-|[]]]; [|discriminate]. apply in_map_iff in I as (q & <- & _). discriminate.
      + intros o' I. apply Mem in I as [(q & [=] & _)|[[=]|[=]]].
    - destruct (has o (m_condemned m)) eqn:U; [|exact V]. apply has_In in U. assert (To : In o (m_touched m)) by auto. apply (planned_inv m _ _ _ _ (m_replaced m) _ V); auto; cbn; try (refine (Hi _ _); reflexivity); try exact (Hm _); try lia; try (exact (v_touched m V)); try apply incl_refl.
      + intros q I. apply remove_one_In in I. auto.
      + intros s n [<-|[<-|[]]] [= <-]. rewrite upd_same. repeat split; lia.
      + intros s n [<-|[<-|[]]] [= <-]. exact To.
      + intros pre o' n a post E M. right. destruct pre as [|? [|? [|]]]; try discriminate. injection E as _ <- _ _ _. exact Or.
      + intros o' [[=]|[[=]|[]]].
    - destruct (has o (m_replaced m)) eqn:U.
      + apply has_In in U. apply (planned_inv m _ _ _ (m_touched m) _ _ V); auto; cbn; try (refine (Hi _ _); reflexivity); try exact (Hm _); try lia; try (exact (v_touched m V)); try apply incl_refl.
        * intros q _. destruct (Nat.eq_dec q o) as [->|X]; [rewrite upd_same|rewrite upd_other by exact X]; auto.
        * intros q id. destruct (Nat.eq_dec q o) as [->|X]; [rewrite upd_same|rewrite upd_other by exact X]; auto.
        * intros q _. destruct (Nat.eq_dec q o) as [->|X]; [rewrite upd_same; discriminate|rewrite upd_other by exact X; auto].
        * intros q I. apply remove_one_In in I. auto.
        * intros s n [<-|[]] [=].
        * intros s n [<-|[]] [= <-]. auto.
        * intros pre o' n a post E. destruct pre as [|? [|]]; discriminate.
        * intros o' [[=]|[]].
      + destruct (unused m o && negb (r_marked (m_heap m o))) eqn:W; [|exact V]. apply andb_prop in W as [W _]. apply unused_spec in W as [B W]. apply (planned_inv m _ _ _ _ (m_replaced m) _ V); auto; cbn; try (refine (Hi _ _); reflexivity); try exact (Hm _); try lia; try (exact (Tb o B)); try (apply incl_tl; auto using incl_refl; fail).
        * intros s n [<-|[]] [=].
        * intros s n [<-|[]] [= <-]. now left.
        * intros pre o' n a post E. destruct pre as [|? [|]]; discriminate.
        * intros o' [[=]|[]].
    - destruct (has o (m_condemned m)) eqn:U.
      + apply has_In in U. apply (planned_inv m _ _ _ _ (m_replaced m) _ V); auto; cbn; try (refine (Hi _ _); reflexivity); try exact (Hm _); try lia; try (exact (v_touched m V)); try apply incl_refl.
        * intros q I. apply remove_one_In in I. auto.
        * intros s n [<-|[]] [=].
        * intros s n [<-|[]] [= <-]. auto.
        * intros pre o' n a post E. destruct pre as [|? [|]]; discriminate.
        * intros o' [[= <-]|[]]. exact Or.
      + destruct (unused m o && r_marked (m_heap m o)) eqn:W; [|exact V]. apply andb_prop in W as [W _]. apply unused_spec in W as [B W]. apply (planned_inv m _ _ _ _ (m_replaced m) _ V); auto; cbn; try (refine (Hi _ _); reflexivity); try exact (Hm _); try lia; try (exact (Tb o B)); try (apply incl_tl; auto using incl_refl; fail).
        * intros s n [<-|[]] [=].
        * intros s n [<-|[]] [= <-]. now left.
        * intros pre o' n a post E. destruct pre as [|? [|]]; discriminate.
        * intros o' [[= <-]|[]]. exact Or.
  Qed.
  Lemma save_inv m r : Inv m -> Inv (save m r).
  Proof using.
    intros V. assert (So : m_saved (save m r) = m_saved m \/ m_saved (save m r) = snap m) by (unfold save; cbn; destruct (performed r); auto).
    assert (Q : quiet m (save m r) (m_next m)) by (constructor; try (cbn; auto; fail); try apply incl_refl; exact So).
    constructor; try (destruct V; assumption).
    - destruct So as [So|So]; rewrite So; [exact (v_saved m V)|exact (known_tracked m (v_known m V))].
    - intros r0 id I. destruct So as [So|So]; rewrite So in I; [exact (v_recs m V r0 id I)|]. apply snap_recs in I as (q & ->). exact (v_heap m V q id).
    - intros j t E. pose proof (v_threads m V j t E) as T. apply (quiet_TI m _ (m_next m)); [exact Q| |exact T]. intros s I X. destruct T as (_ & T2 & _). destruct (T2 s _ I X) as (L & _). lia.
  Qed.
  Lemma stop_inv m i : Inv m -> Inv (react m (Stop i)).
  Proof using.
    intros V. cbn [react]. destruct (nth_error (m_threads m) i) as [t|] eqn:E; [|exact V]. pose proof (nth_lt _ _ _ E) as L.
    assert (N : forall j, nth_error (m_threads (set_thread m i ([], Ready))) j = if Nat.eqb j i then Some ([], Ready) else nth_error (m_threads m) j) by (intros j; cbn [set_thread set_threads m_threads]; now apply nth_set).
    constructor; try (destruct V; assumption).
    - intros j k t1 t2 s1 s2 n A B I1 I2. rewrite N in A, B. destruct (Nat.eqb j i); [injection A as <-; destruct I1|]. destruct (Nat.eqb k i); [injection B as <-; destruct I2|]. exact (v_unique m V j k t1 t2 s1 s2 n A B I1 I2).
    - intros j t' A. rewrite N in A. destruct (Nat.eqb j i); [injection A as <-; apply TI_stop|exact (v_threads m V j t' A)].
  Qed.
  Lemma next_inv m : Inv m -> Inv (next_update m).
  Proof using.
    intros V. constructor; try (cbn; intros; contradiction); try exact (v_saved m V); try exact (v_world m V); try exact (v_recs m V).
    - intros id u I. destruct (v_saved m V id u I) as [(r & R & E)|(r & R & E)].
      + left. apply (In_nth _ _ (mkRec "" false None false)) in R as (q & L & Eq). exists q. cbn. split; [right; split; [apply in_seq; lia|tauto]|]. now rewrite Eq.
      + right; right. exists r. split; [|exact E]. cbn. apply in_map_iff. exists (Creating, r). split; [reflexivity|]. apply filter_In. auto.
    - intros q id E. cbn in E |- *. destruct (Nat.lt_ge_cases q (List.length (fst (m_saved m)))) as [L|L]; [|rewrite nth_overflow in E by exact L; discriminate]. eapply v_recs; [exact V|apply nth_In; exact L|exact E].
    - intros q I. cbn in *. apply in_seq in I. lia.
    - intros [|?] ? ? ? ? ? ? E; discriminate.
    - intros [|?] ? E; discriminate.
  Qed.
  Lemma react_inv m e : Inv m -> orderly m e -> Inv (react m e).
  Proof using.
    intros V O. destruct e as [d|i r|i a|i r|i|r|r|].
    - now apply plan_inv.
    - now apply begin_inv.
    - now apply apply_inv.
    - now apply end_inv.
    - now apply stop_inv.
    - now apply save_inv.
    - cbn [react]. destruct (m_elided m); [now apply save_inv|exact V].
    - now apply next_inv.
  Qed.
  Lemma run_inv es : forall m, Inv m -> all_orderly m es -> Inv (run m es).
  Proof using. induction es as [|e es IH]; intros m V O; [exact V|]. destruct O as [O Os]. cbn [run fold_left]. apply IH; [now apply react_inv|exact Os]. Qed.
  Lemma empty_inv : Inv empty.
  Proof using.
    unfold empty. constructor; cbn; try (intros; contradiction); try (intros [|?] ? E; discriminate). intros ? ? [].
  Qed.
End Inv.

(** Deciding [orderly], for examples. *)
Definition goneb (m : machine) (p : nat) : bool := match r_id (m_heap m p) with Some id => negb (existsb (fun x => Nat.eqb (fst x) id) (m_world m)) | None => true end.
Lemma goneb_spec m p : goneb m p = true -> gone m p.
Proof.
  unfold goneb. intros E id A (u & I). rewrite A in E. rewrite Bool.negb_true_iff in E. assert (X : existsb (fun x => Nat.eqb (fst x) id) (m_world m) = true) by (apply existsb_exists; exists (id, u); split; [exact I|apply Nat.eqb_refl]). congruence.
Qed.
Definition orderlyb (m : machine) (e : event) : bool :=
  match e with
  | Apply _ a => match a with Lost => false | _ => true end
  | Plan (D_drop p) | Plan (D_recreate p _) => goneb m p
  | Plan (D_replace_after p _) => if r_marked (m_heap m p) then goneb m p else true
  | _ => true
  end.
Fixpoint all_orderlyb (m : machine) (es : list event) : bool := match es with [] => true | e :: es' => orderlyb m e && all_orderlyb (react m e) es' end.
Lemma all_orderlyb_spec es : forall m, all_orderlyb m es = true -> all_orderly m es.
Proof.
  induction es as [|e es IH]; intros m E; [exact I|]. cbn [all_orderlyb all_orderly] in *. apply andb_prop in E as [A B]. split; [|now apply IH]. clear - A.
  destruct e as [[]| |? a| | | | |]; cbn in *; try exact I; try now apply goneb_spec.
  - intros M. rewrite M in A. now apply goneb_spec.
  - intros ->. discriminate.
Qed.
