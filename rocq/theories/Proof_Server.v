From Verif Require Import Base PyVal Model_Settings Model_Config Spec_Settings Proof_Settings Proof_Config Model_Server Spec_Server.
Open Scope string_scope.

Lemma nth_error_upd {A} (l : list A) i x j : i < length l -> nth_error (upd l i x) j = if Nat.eqb j i then Some x else nth_error l j.
Proof.
  revert i j. induction l as [|y l IH]; intros [|i] [|j]; simpl; intros H; try lia; auto. apply IH. lia.
Qed.
Lemma nth_set_handler l i st j :
  nth_error (set_handler l i st) j =
  if Nat.eqb j i then option_map (fun h => mkHandler (h_req h) (h_ctx h) st) (nth_error l i) else nth_error l j.
Proof.
  unfold set_handler. destruct (nth_error l i) as [h|] eqn:E.
  - rewrite nth_error_upd by (apply nth_error_Some; congruence). reflexivity.
  - destruct (Nat.eqb_spec j i) as [->|]; auto.
Qed.
Lemma set_handler_ctxs l i st : map h_ctx (set_handler l i st) = map h_ctx l.
Proof.
  unfold set_handler. destruct (nth_error l i) as [h|] eqn:E; auto.
  revert i E. induction l as [|y l IH]; intros [|i]; simpl; try discriminate.
  - intros [= ->]. reflexivity.
  - intros E. f_equal. auto.
Qed.

(* ------------------------------------------------------------------ *)
(** The lock. *)
Definition quiet (w : wst) : Prop := w = WPending \/ w = WCancelled.
Record lock_ok (s : server) : Prop := mkLO {
  lo_locked : forall i, executing s i -> v_locked s = true;
  lo_one : forall i j, executing s i -> executing s j -> i = j;
  lo_held : v_locked s = true -> exists i, executing s i;
  lo_quiet : v_locked s = true -> forall i w, In (i, w) (v_waiters s) -> quiet w;
  lo_tail : forall x ws, v_waiters s = x :: ws -> forall i w, In (i, w) ws -> quiet w;
  lo_nodup : NoDup (map fst (v_waiters s));
  lo_queued : forall i w, In (i, w) (v_waiters s) -> waiting s i;
  lo_waiting : forall i, waiting s i -> exists w, In (i, w) (v_waiters s);
  lo_awake : v_locked s = false -> forall i w ws, v_waiters s = (i, w) :: ws -> w <> WPending }.

Lemma unqueue_In i ws j w : In (j, w) (unqueue i ws) <-> In (j, w) ws /\ j <> i.
Proof. unfold unqueue. rewrite filter_In. simpl. rewrite negb_true_iff, Nat.eqb_neq. reflexivity. Qed.
Lemma unqueue_nodup i ws : NoDup (map fst ws) -> NoDup (map fst (unqueue i ws)).
Proof.
  induction ws as [|[j w] ws IH]; simpl; auto. intros H. inversion H as [|? ? Hn Hw]. subst.
  destruct (negb (Nat.eqb j i)); simpl; auto. constructor; auto. intros K. apply Hn.
  apply in_map_iff in K as ([j' w'] & <- & K). apply unqueue_In in K as [K _]. apply in_map_iff. exists (j', w'). auto.
Qed.
Lemma wake_In ws j w : In (j, w) (wake_first ws) -> exists w', In (j, w') ws /\ (w = w' \/ w' = WPending /\ w = WWoken).
Proof.
  destruct ws as [|[i [| | |]] ws]; simpl; [intros []|intros [[= <- <-]|H]..]; eauto 7.
Qed.
Lemma wake_In_rev ws j w : In (j, w) ws -> exists w', In (j, w') (wake_first ws).
Proof. destruct ws as [|[i [| | |]] ws]; simpl; [intros []|intros [[= <- <-]|H]..]; eauto 7. Qed.
Lemma wake_fst ws : map fst (wake_first ws) = map fst ws.
Proof. destruct ws as [|[i [| | |]] ws]; reflexivity. Qed.
Lemma wake_tail ws x ws' : wake_first ws = x :: ws' -> exists y, ws = y :: ws'.
Proof. destruct ws as [|[i [| | |]] ws]; simpl; try discriminate; intros [= <- <-]; eauto. Qed.
Lemma wake_head ws i w ws' : wake_first ws = (i, w) :: ws' -> w <> WPending.
Proof. destruct ws as [|[j [| | |]] ws]; simpl; try discriminate; intros [= <- <- <-]; discriminate. Qed.
Lemma unqueue_tail i ws : (forall x ws', ws = x :: ws' -> forall j w, In (j, w) ws' -> quiet w) ->
  forall x ws', unqueue i ws = x :: ws' -> forall j w, In (j, w) ws' -> quiet w.
Proof.
  intros H x ws' E j w Hin. destruct ws as [|[k v] ws]; [discriminate|].
  simpl in E. destruct (negb (Nat.eqb k i)) eqn:Ek.
  - injection E as <- <-. apply unqueue_In in Hin as [Hin _]. eapply H; [reflexivity|exact Hin].
  - assert (K : In (j, w) (unqueue i ws)) by (rewrite E; now right). apply unqueue_In in K as [K _].
    eapply H; [reflexivity|exact K].
Qed.

Lemma executing_set ls ws hs ts ss cs u sn fl rt i st j :
  executing (mkServer ls ws (set_handler hs i st) ts ss cs u sn fl rt) j <->
  (if Nat.eqb j i then st = HRunning /\ nth_error hs i <> None else exists h, nth_error hs j = Some h /\ h_st h = HRunning).
Proof.
  unfold executing. cbn [v_handlers]. rewrite nth_set_handler. destruct (Nat.eqb j i); [|reflexivity].
  destruct (nth_error hs i) as [h|]; simpl.
  - split; [intros (h' & [= <-] & H); simpl in H; split; congruence|intros [-> _]; eexists; split; reflexivity].
  - split; [intros (h' & H & _); discriminate|intros [_ H]; congruence].
Qed.
Lemma waiting_set ls ws hs ts ss cs u sn fl rt i st j :
  waiting (mkServer ls ws (set_handler hs i st) ts ss cs u sn fl rt) j <->
  (if Nat.eqb j i then st = HWaiting /\ nth_error hs i <> None else exists h, nth_error hs j = Some h /\ h_st h = HWaiting).
Proof.
  unfold waiting. cbn [v_handlers]. rewrite nth_set_handler. destruct (Nat.eqb j i); [|reflexivity].
  destruct (nth_error hs i) as [h|]; simpl.
  - split; [intros (h' & [= <-] & H); simpl in H; split; congruence|intros [-> _]; eexists; split; reflexivity].
  - split; [intros (h' & H & _); discriminate|intros [_ H]; congruence].
Qed.

Lemma handler_some s i h st : handler_at s i h st -> nth_error (v_handlers s) i <> None.
Proof. intros [H _]. congruence. Qed.
Lemma not_both s i h st : handler_at s i h st -> (executing s i -> st = HRunning) /\ (waiting s i -> st = HWaiting).
Proof. intros [H <-]. split; intros (h' & H' & <-); congruence. Qed.

Lemma NoDup_app_snoc_compat {A} (l : list A) x : NoDup l -> ~ In x l -> NoDup (l ++ [x])%list.
Proof.
  induction l as [|y l IH]; simpl; intros H Hx; [constructor; auto; constructor|].
  inversion H as [|? ? Hy Hl]. subst. constructor; [|apply IH; tauto].
  intros K. apply in_app_iff in K as [K|[K|[]]]; [auto|]. apply Hx. auto.
Qed.

Section Run.
  Variable engine : string.
  Variable legacy_env : bool.
  Let step := server_step engine legacy_env.

  Lemma lock_start : lock_ok (server_start legacy_env).
  Proof.
    constructor; simpl; try discriminate; try easy.
    - intros i (h & H & _). destruct i; discriminate.
    - intros i j (h & H & _). destruct i; discriminate.
    - constructor.
    - intros i (h & H & _). destruct i; discriminate.
  Qed.

  Lemma lock_enter s i h ws st : lock_ok s -> handler_at s i h st -> v_locked s = false ->
    (forall j w, In (j, w) ws -> quiet w) -> NoDup (map fst ws) ->
    (forall j w, In (j, w) ws -> waiting s j /\ j <> i) ->
    (forall j, waiting s j -> j <> i -> exists w, In (j, w) ws) ->
    lock_ok (enter engine legacy_env s i h ws).
  Proof.
    intros L Hh Hl Hq Hn Hw Hw'. pose proof (handler_some _ _ _ _ Hh) as Hs.
    assert (Hno : forall j, ~ executing s j) by (intros j K; apply (lo_locked _ L) in K; congruence).
    constructor; cbn [v_locked v_waiters enter]; try discriminate; auto.
    - intros a b. unfold enter. rewrite !executing_set.
      destruct (Nat.eqb_spec a i) as [->|Ha]; [|intros K; now apply Hno in K].
      destruct (Nat.eqb_spec b i) as [->|Hb]; [auto|intros _ K; now apply Hno in K].
    - intros _. exists i. unfold enter. rewrite executing_set, Nat.eqb_refl. auto.
    - intros x ws' -> j w K. apply (Hq j). now right.
    - intros j w K. apply Hw in K as [K Hne]. unfold enter. rewrite waiting_set.
      apply Nat.eqb_neq in Hne. rewrite Hne. exact K.
    - intros j. unfold enter. rewrite waiting_set. destruct (Nat.eqb_spec j i) as [->|Hne]; [intros [K _]; discriminate|].
      intros K. now apply Hw'.
  Qed.

  Lemma lock_leave s i h r rt : lock_ok s -> handler_at s i h HRunning -> lock_ok (leave s i r rt).
  Proof.
    intros L Hh. assert (He : executing s i) by (exists h; exact Hh).
    pose proof (lo_locked _ L _ He) as Hl. pose proof (lo_quiet _ L Hl) as Hq.
    assert (Hno : forall j, ~ executing (leave s i r rt) j).
    { intros j. unfold leave. rewrite executing_set. destruct (Nat.eqb_spec j i) as [->|Hne]; [intros [K _]; discriminate|].
      intros K. apply Hne. exact (lo_one _ L _ _ K He). }
    constructor; try (intros * K; now apply Hno in K); cbn [v_locked v_waiters leave]; try discriminate; auto.
    - intros x ws' E j w K. apply wake_tail in E as (y & E). apply (Hq j). rewrite E. now right.
    - rewrite wake_fst. apply L.
    - intros j w K. apply wake_In in K as (w' & K & _). apply (lo_queued _ L) in K. unfold leave. rewrite waiting_set.
      destruct (Nat.eqb_spec j i) as [->|Hne]; [|exact K]. apply (not_both _ _ _ _ Hh) in K. discriminate.
    - intros j. unfold leave. rewrite waiting_set. destruct (Nat.eqb_spec j i) as [->|Hne]; [intros [K _]; discriminate|].
      intros K. destruct (lo_waiting _ L _ K) as (w & Hw). apply wake_In_rev in Hw. exact Hw.
    - intros _ j w ws E. now apply wake_head in E.
  Qed.

  Lemma lock_same s s' : lock_ok s -> v_locked s' = v_locked s -> v_waiters s' = v_waiters s ->
    (forall i, executing s' i <-> executing s i) -> (forall i, waiting s' i <-> waiting s i) -> lock_ok s'.
  Proof.
    intros L El Ew He Hw. constructor; rewrite ?El, ?Ew; try setoid_rewrite He; try setoid_rewrite Hw; apply L.
  Qed.

  Lemma cancel_In i ws j w : In (j, w) (cancel_waiter i ws) ->
    exists w', In (j, w') ws /\ (quiet w' -> quiet w) /\ (w = WPending -> w' = WPending).
  Proof.
    unfold cancel_waiter. rewrite in_map_iff. intros ([k v] & E & H). simpl in E.
    destruct (Nat.eqb k i); injection E as <- <-; exists v; repeat split; auto.
    - destruct v; unfold quiet; auto; intros [K|K]; discriminate.
    - destruct v; congruence.
  Qed.
  Lemma cancel_In_rev i ws j w : In (j, w) ws -> exists w', In (j, w') (cancel_waiter i ws).
  Proof.
    intros H. unfold cancel_waiter. apply (in_map (fun w => if Nat.eqb (fst w) i then (fst w, match snd w with WPending => WCancelled | WWoken => WWokenCancelled | x => x end) else w)) in H.
    simpl in H. destruct (Nat.eqb j i); eauto.
  Qed.
  Lemma cancel_fst i ws : map fst (cancel_waiter i ws) = map fst ws.
  Proof. unfold cancel_waiter. rewrite map_map. apply map_ext. intros [k v]. simpl. now destruct (Nat.eqb k i). Qed.

  Lemma lock_step s s' : lock_ok s -> step s s' -> lock_ok s'.
  Proof.
    intros L H. destruct H as [r Hr|i h Hh Hl Hc|i h Hh Hc|i h Hh Hi|i h w Hh Hi Hw|i h Hh|i h Hh|i c Hc|i c Hc|i c e Hc|i h e Hh|i h Hh].
    - assert (E : forall j st, (exists h, nth_error (v_handlers s ++ [mkHandler r (length (s_ctxs (v_conf s))) HNew])%list j = Some h /\ h_st h = st) -> st <> HNew ->
        exists h, nth_error (v_handlers s) j = Some h /\ h_st h = st).
      { intros j st (h & E & <-) Hst. destruct (Nat.ltb_spec j (length (v_handlers s))) as [Hj|Hj].
        - rewrite nth_error_app1 in E by assumption. eauto.
        - rewrite nth_error_app2 in E by assumption. destruct (j - length (v_handlers s)) as [|[|n]]; simpl in E; try discriminate.
          injection E as <-. now elim Hst. }
      assert (E' : forall j st, (exists h, nth_error (v_handlers s) j = Some h /\ h_st h = st) ->
        exists h, nth_error (v_handlers s ++ [mkHandler r (length (s_ctxs (v_conf s))) HNew])%list j = Some h /\ h_st h = st).
      { intros j st (h & K & Hst). exists h. split; auto. rewrite nth_error_app1; auto. apply nth_error_Some. congruence. }
      eapply lock_same; [exact L|reflexivity|reflexivity|..]; intros j; split; intros K.
      + now apply E in K.
      + now apply E'.
      + now apply E in K.
      + now apply E'.
    - eapply lock_enter; eauto.
      + intros j w K. right. unfold all_cancelled in Hc. rewrite forallb_forall in Hc. apply Hc in K. simpl in K. destruct w; congruence.
      + apply L.
      + intros j w K. apply (lo_queued _ L) in K. split; auto. intros ->. apply (not_both _ _ _ _ Hh) in K. discriminate.
      + intros j K _. exact (lo_waiting _ L _ K).
    - pose proof (handler_some _ _ _ _ Hh) as Hs.
      assert (Hni : ~ In i (map fst (v_waiters s))).
      { intros K. apply in_map_iff in K as ([j w] & <- & K). apply (lo_queued _ L) in K. apply (not_both _ _ _ _ Hh) in K. discriminate. }
      assert (He : forall j, executing (with_waiters s (v_waiters s ++ [(i, WPending)])%list (set_handler (v_handlers s) i HWaiting)) j <-> executing s j).
      { intros j. unfold with_waiters. rewrite executing_set. destruct (Nat.eqb_spec j i) as [->|]; [|reflexivity].
        split; [intros [K _]; discriminate|]. intros K. apply (not_both _ _ _ _ Hh) in K. discriminate. }
      constructor; try setoid_rewrite He; cbn [v_locked v_waiters with_waiters]; try apply L.
      + intros Hl j w K. apply in_app_iff in K as [K|[[= <- <-]|[]]]; [|now left]. exact (lo_quiet _ L Hl _ _ K).
      + intros x ws E j w K. destruct (v_waiters s) as [|y ws0] eqn:Ew; simpl in E; injection E as <- <-; [destruct K|].
        apply in_app_iff in K as [K|[[= <- <-]|[]]]; [|now left]. exact (lo_tail _ L _ _ Ew _ _ K).
      + rewrite map_app. simpl. apply NoDup_app_snoc_compat; [apply L|exact Hni].
      + intros j w K. unfold with_waiters. rewrite waiting_set. apply in_app_iff in K as [K|[[= <- <-]|[]]].
        * destruct (Nat.eqb j i); [auto|]. exact (lo_queued _ L _ _ K).
        * rewrite Nat.eqb_refl. auto.
      + intros j. unfold with_waiters. rewrite waiting_set. destruct (Nat.eqb_spec j i) as [->|].
        * intros _. exists WPending. apply in_app_iff. right. now left.
        * intros K. destruct (lo_waiting _ L _ K) as (w & Kw). exists w. apply in_app_iff. now left.
      + intros Hl j w ws E. rewrite Hl in Hc. simpl in Hc. destruct (v_waiters s) as [|y ws0] eqn:Ew; [discriminate|].
        simpl in E. injection E as -> _. exact (lo_awake _ L Hl _ _ _ Ew).
    - assert (Hl : v_locked s = false).
      { destruct (v_locked s) eqn:E; auto. destruct (lo_quiet _ L E _ _ Hi); discriminate. }
      eapply lock_enter; eauto.
      + intros j w K. apply unqueue_In in K as [K Hne]. destruct (v_waiters s) as [|[k v] ws] eqn:Ew; [destruct K|].
        destruct Hi as [[= -> ->]|Hi]; [|destruct (lo_tail _ L _ _ Ew _ _ Hi); discriminate].
        destruct K as [[= -> _]|K]; [congruence|]. exact (lo_tail _ L _ _ Ew _ _ K).
      + apply unqueue_nodup, L.
      + intros j w K. apply unqueue_In in K as [K Hne]. split; auto. exact (lo_queued _ L _ _ K).
      + intros j K Hne. destruct (lo_waiting _ L _ K) as (w & Kw). exists w. apply unqueue_In. auto.
    - pose proof (handler_some _ _ _ _ Hh) as Hs.
      set (ws := if v_locked s then unqueue i (v_waiters s) else wake_first (unqueue i (v_waiters s))).
      assert (He : forall j, executing (with_waiters s ws (set_handler (v_handlers s) i (HEnded (Err (Exn "CancelledError" ""))))) j <-> executing s j).
      { intros j. unfold with_waiters. rewrite executing_set. destruct (Nat.eqb_spec j i) as [->|]; [|reflexivity].
        split; [intros [K _]; discriminate|]. intros K. apply (not_both _ _ _ _ Hh) in K. discriminate. }
      assert (Hin : forall j v, In (j, v) ws -> exists v', In (j, v') (v_waiters s) /\ j <> i).
      { intros j v K. unfold ws in K. destruct (v_locked s).
        - apply unqueue_In in K. eauto.
        - apply wake_In in K as (v' & K & _). apply unqueue_In in K. eauto. }
      constructor; try setoid_rewrite He; cbn [v_locked v_waiters with_waiters]; try apply L.
      + intros Hl j v K. unfold ws in K. rewrite Hl in K. apply unqueue_In in K as [K _]. exact (lo_quiet _ L Hl _ _ K).
      + intros x ws' E j v K. unfold ws in E. destruct (v_locked s).
        * eapply unqueue_tail; [apply (lo_tail _ L)|exact E|exact K].
        * apply wake_tail in E as (y & E). eapply unqueue_tail; [apply (lo_tail _ L)|exact E|exact K].
      + unfold ws. destruct (v_locked s); rewrite ?wake_fst; apply unqueue_nodup, L.
      + intros j v K. apply Hin in K as (v' & K & Hne). unfold with_waiters. rewrite waiting_set. apply Nat.eqb_neq in Hne. rewrite Hne.
        exact (lo_queued _ L _ _ K).
      + intros j. unfold with_waiters. rewrite waiting_set. destruct (Nat.eqb_spec j i) as [->|Hne]; [intros [K _]; discriminate|].
        intros K. destruct (lo_waiting _ L _ K) as (v & Kv). assert (Ku : In (j, v) (unqueue i (v_waiters s))) by (apply unqueue_In; auto).
        unfold ws. destruct (v_locked s); [eauto|]. now apply wake_In_rev in Ku.
      + intros Hl j v ws' E. unfold ws in E. rewrite Hl in E. now apply wake_head in E.
    - eapply lock_same; [exact L|reflexivity|reflexivity|..]; intros j; unfold with_waiters; rewrite ?executing_set, ?waiting_set;
        (destruct (Nat.eqb_spec j i) as [->|]; [|reflexivity]); (split; [intros [K _]; discriminate|]);
        intros K; apply (not_both _ _ _ _ Hh) in K; discriminate.
    - constructor; cbn [v_locked v_waiters with_waiters]; try apply L.
      + intros Hl j w K. apply cancel_In in K as (w' & K & Kq & _). apply Kq. exact (lo_quiet _ L Hl _ _ K).
      + intros x ws' E j w K. destruct (v_waiters s) as [|y ws] eqn:Ew; [discriminate|]. simpl in E. injection E as _ <-.
        apply cancel_In in K as (w' & K & Kq & _). apply Kq. exact (lo_tail _ L _ _ Ew _ _ K).
      + rewrite cancel_fst. apply L.
      + intros j w K. apply cancel_In in K as (w' & K & _). exact (lo_queued _ L _ _ K).
      + intros j K. destruct (lo_waiting _ L _ K) as (w & Kw). now apply (cancel_In_rev i) in Kw.
      + intros Hl j w ws' E Ep. destruct (v_waiters s) as [|[k v] ws] eqn:Ew; [discriminate|]. simpl in E.
        pose proof (lo_awake _ L Hl _ _ _ Ew) as Hv. destruct (Nat.eqb k i); destruct v; congruence.
    - eapply lock_same; [exact L|reflexivity|reflexivity|reflexivity|reflexivity].
    - eapply lock_same; [exact L|reflexivity|reflexivity|reflexivity|reflexivity].
    - eapply lock_same; [exact L|reflexivity|reflexivity|reflexivity|reflexivity].
    - eapply lock_leave; eauto.
    - eapply lock_leave; eauto.
  Qed.

  (* ---------------------------------------------------------------- *)
  (** Contexts. *)
  Definition good (ss : sstate) (cs : cstate) (c : nat) (r : request) : Prop :=
    (forall k, vals_at ss c k = Some (configured legacy_env (request_args engine r) k)) /\
    (forall k, dget (dict_at cs (c_loc (ctx_at cs c))) k = option_map VStr (dget (rq_config r) k)) /\
    c_secrets (ctx_at cs c) = rq_secret_keys r.
  Definition idents (s : server) : list (request * nat) := map (fun h => (h_req h, h_ctx h)) (v_handlers s).
  Record ctx_ok (s : server) : Prop := mkCO {
    co_length : length (g_ctxs (v_settings s)) = length (s_ctxs (v_conf s));
    co_alloc : allocated (v_conf s);
    co_below : forall c, In c (map snd (idents s) ++ map snd (v_tasks s))%list -> c < length (s_ctxs (v_conf s));
    co_apart : NoDup (map snd (idents s) ++ map snd (v_tasks s))%list;
    co_wf : forall r c, In (r, c) (idents s) -> wf_dict (rq_config r);
    co_run : forall i h, handler_at s i h HRunning -> good (v_settings s) (v_conf s) (h_ctx h) (h_req h);
    co_task : forall i c, In (i, c) (v_tasks s) ->
      exists r c', nth_error (idents s) i = Some (r, c') /\ good (v_settings s) (v_conf s) c r;
    co_seen : forall i v, In (i, v) (v_seen s) -> exists r c, nth_error (idents s) i = Some (r, c) /\ shows engine r v }.

  Lemma good_shows ss cs c r : good ss cs c r -> shows engine r (read_view ss cs c).
  Proof.
    intros (Hs & Hc & Hk). unfold shows, read_view, sget. cbn [vw_setting vw_config vw_secrets]. rewrite !Hs. repeat split; auto.
  Qed.
  Lemma good_enter ss cs c r c' r' : good ss cs c r -> c < length (s_ctxs cs) -> allocated cs ->
    c' < length (s_ctxs cs) -> length (g_ctxs ss) = length (s_ctxs cs) -> c <> c' ->
    good (settings_init legacy_env ss c' (request_args engine r')) (set_all_config cs c' (rq_config r') (Some (rq_secret_keys r'))) c r.
  Proof.
    intros (Hs & Hc & Hk) Hlt Ha Hlt' Hlen Hne. apply Nat.eqb_neq in Hne. unfold good, set_all_config.
    rewrite !ctx_at_upd by assumption. rewrite Hne. split; [|split].
    - intros k. rewrite vals_init by lia. rewrite Hne. apply Hs.
    - intros k. unfold dict_at. cbn [s_heap]. rewrite app_nth1 by apply Ha. apply Hc.
    - apply Hk.
  Qed.
  Lemma good_own ss cs c r : c < length (s_ctxs cs) -> allocated cs -> length (g_ctxs ss) = length (s_ctxs cs) -> wf_dict (rq_config r) ->
    good (settings_init legacy_env ss c (request_args engine r)) (set_all_config cs c (rq_config r) (Some (rq_secret_keys r))) c r.
  Proof.
    intros Hlt Ha Hlen Hw. unfold good, set_all_config.
    rewrite !ctx_at_upd by assumption. rewrite Nat.eqb_refl. cbn [c_loc c_secrets]. split; [|split]; [| |reflexivity].
    - intros k. rewrite vals_init by lia. now rewrite Nat.eqb_refl.
    - intros k. unfold dict_at. cbn [s_heap]. rewrite app_nth2, Nat.sub_diag by lia. cbn [nth].
      rewrite copy_values, dget_dupdate by (unfold wf_dict; rewrite as_values_keys; exact Hw). simpl. clear.
      induction (rq_config r) as [|[k' v] m IH]; simpl; auto. destruct (String.eqb k k'); auto.
  Qed.
  Lemma good_copy ss cs c r c' : good ss cs c r -> c < length (s_ctxs cs) -> length (g_ctxs ss) = length (s_ctxs cs) ->
    good (sstep legacy_env ss (STask c')) (copy_ctx cs c') c r.
  Proof.
    intros (Hs & Hc & Hk) Hlt Hlen. unfold good, copy_ctx. rewrite !ctx_at_app. apply Nat.ltb_lt in Hlt as Hlt'. rewrite Hlt'.
    split; [|split]; auto. intros k. simpl. unfold vals_at. cbn [g_ctxs]. rewrite app_nth1 by lia. apply Hs.
  Qed.
  Lemma good_new ss cs c r : good ss cs c r -> length (g_ctxs ss) = length (s_ctxs cs) ->
    good (sstep legacy_env ss (STask c)) (copy_ctx cs c) (length (s_ctxs cs)) r.
  Proof.
    intros (Hs & Hc & Hk) Hlen. unfold good, copy_ctx. rewrite !ctx_at_app, Nat.ltb_irrefl, Nat.eqb_refl.
    split; [|split]; auto. intros k. simpl. unfold vals_at at 1. cbn [g_ctxs]. rewrite app_nth2 by lia.
    rewrite Hlen, Nat.sub_diag. apply Hs.
  Qed.

  Lemma idents_set l i st : map (fun h => (h_req h, h_ctx h)) (set_handler l i st) = map (fun h => (h_req h, h_ctx h)) l.
  Proof.
    unfold set_handler. destruct (nth_error l i) as [h|] eqn:E; auto.
    revert i E. induction l as [|y l IH]; intros [|i]; simpl; try discriminate.
    - intros [= ->]. reflexivity.
    - intros E. f_equal. auto.
  Qed.
  Lemma ident_at s i h st : handler_at s i h st -> nth_error (idents s) i = Some (h_req h, h_ctx h).
  Proof. intros [H _]. unfold idents. now rewrite nth_error_map, H. Qed.

  Lemma runs_good s i c : ctx_ok s -> runs_in s i c ->
    exists r c', nth_error (idents s) i = Some (r, c') /\ good (v_settings s) (v_conf s) c r /\ c < length (s_ctxs (v_conf s)).
  Proof.
    intros K [(h & Hh & ->)|Hin].
    - exists (h_req h), (h_ctx h). pose proof (ident_at _ _ _ _ Hh) as E. repeat split; auto; try apply (co_run _ K _ _ Hh).
      apply (co_below _ K). apply in_app_iff. left. apply nth_error_In in E. apply (in_map snd) in E. exact E.
    - destruct (co_task _ K _ _ Hin) as (r & c' & E & G). exists r, c'. repeat split; auto; try apply G.
      apply (co_below _ K). apply in_app_iff. right. now apply (in_map snd) in Hin.
  Qed.

  Lemma ctx_start : ctx_ok (server_start legacy_env).
  Proof.
    constructor; simpl; try easy.
    - split; simpl; [lia|]. intros c. unfold ctx_at. simpl. destruct c as [|[|c]]; simpl; lia.
    - constructor.
    - intros i h [H _]. simpl in H. destruct i; discriminate.
  Qed.

  (** Nothing that matters to contexts changes. *)
  Lemma ctx_same s s' : ctx_ok s -> v_settings s' = v_settings s -> v_conf s' = v_conf s -> v_tasks s' = v_tasks s ->
    idents s' = idents s -> v_seen s' = v_seen s -> (forall i h, handler_at s' i h HRunning -> exists h', handler_at s i h' HRunning /\ h_ctx h' = h_ctx h /\ h_req h' = h_req h) -> ctx_ok s'.
  Proof.
    intros K E1 E2 E3 E4 E5 Hr. constructor; rewrite ?E1, ?E2, ?E3, ?E4, ?E5; try apply K.
    intros i h Hh. apply Hr in Hh as (h' & Hh & <- & <-). exact (co_run _ K _ _ Hh).
  Qed.
  Lemma set_not_running s hs i st j h : v_handlers s = set_handler hs i st -> st <> HRunning ->
    handler_at s j h HRunning -> nth_error hs j = Some h /\ h_st h = HRunning.
  Proof.
    intros E Hst [H Hr]. rewrite E, nth_set_handler in H. destruct (Nat.eqb j i); auto.
    destruct (nth_error hs i); simpl in H; [|discriminate]. injection H as <-. simpl in Hr. congruence.
  Qed.

  Lemma ctx_enter s i h ws st : ctx_ok s -> handler_at s i h st -> (forall j, ~ executing s j) -> ctx_ok (enter engine legacy_env s i h ws).
  Proof.
    intros K Hh Hno. pose proof (ident_at _ _ _ _ Hh) as Ei.
    assert (Hid : idents (enter engine legacy_env s i h ws) = idents s) by (unfold idents, enter; cbn [v_handlers]; apply idents_set).
    assert (Hb : h_ctx h < length (s_ctxs (v_conf s))).
    { apply (co_below _ K). apply in_app_iff. left. apply nth_error_In in Ei. apply (in_map snd) in Ei. exact Ei. }
    constructor; rewrite ?Hid; cbn [v_settings v_conf v_tasks v_seen enter].
    - rewrite init_length. unfold set_all_config. cbn [s_ctxs]. rewrite upd_length. apply K.
    - destruct (co_alloc _ K) as [A1 A2]. unfold allocated, set_all_config. cbn [s_heap]. rewrite app_length. simpl. split; [lia|].
      intros c. rewrite ctx_at_upd by assumption. destruct (Nat.eqb c (h_ctx h)); cbn [c_loc]; [lia|]. specialize (A2 c). lia.
    - unfold set_all_config. cbn [s_ctxs]. rewrite upd_length. apply K.
    - apply K.
    - apply K.
    - intros j h' Hh'. unfold enter in Hh'. destruct Hh' as [H1 H2]. cbn [v_handlers] in H1. rewrite nth_set_handler in H1.
      destruct (Nat.eqb_spec j i) as [->|Hne].
      + destruct Hh as [Hh _]. rewrite Hh in H1. injection H1 as <-. cbn [h_ctx h_req]. apply good_own; auto; try apply K.
        apply nth_error_In in Ei. exact (co_wf _ K _ _ Ei).
      + exfalso. apply (Hno j). now exists h'.
    - intros j c Hin. destruct (co_task _ K _ _ Hin) as (r & c' & E & G). exists r, c'. split; auto.
      assert (Hc : In c (map snd (v_tasks s))) by (apply (in_map snd) in Hin; exact Hin).
      apply good_enter; auto; try apply K.
      + apply in_app_iff. now right.
      + intros ->. pose proof (co_apart _ K) as N. apply nth_error_In in Ei. apply (in_map snd) in Ei. simpl in Ei.
        clear - N Ei Hc. induction (map snd (idents s)) as [|x l IH]; [destruct Ei|]. simpl in N. inversion N as [|? ? Nx Nl]. subst.
        destruct Ei as [->|Ei]; [|auto]. apply Nx. apply in_app_iff. now right.
    - apply K.
  Qed.

  Lemma ctx_step s s' : lock_ok s -> ctx_ok s -> step s s' -> ctx_ok s'.
  Proof.
    intros L K H. destruct H as [r Hr|i h Hh Hl Hc|i h Hh Hc|i h Hh Hi|i h w Hh Hi Hw|i h Hh|i h Hh|i c Hc|i c Hc|i c e Hc|i h e Hh|i h Hh].
    - set (n := length (s_ctxs (v_conf s))).
      match goal with |- ctx_ok ?x => set (s' := x) end.
      assert (Hid : idents s' = (idents s ++ [(r, n)])%list) by (unfold idents, s'; cbn [v_handlers]; now rewrite map_app).
      assert (Hsub : forall j x, nth_error (idents s) j = Some x -> nth_error (idents s ++ [(r, n)])%list j = Some x).
      { intros j x E. rewrite nth_error_app1; auto. apply nth_error_Some. congruence. }
      constructor; rewrite ?Hid; unfold s'; cbn [v_settings v_conf v_tasks v_seen].
      + simpl. rewrite !app_length. simpl. rewrite (co_length _ K). reflexivity.
      + split; [apply K|]. intros c. change (s_heap (copy_ctx (v_conf s) 0)) with (s_heap (v_conf s)).
        unfold copy_ctx. rewrite ctx_at_app. destruct (Nat.ltb c _); [apply K|].
        destruct (Nat.eqb c _); [apply K|]. cbn [c_loc default_ctx s_heap]. apply K.
      + intros c Hin. unfold copy_ctx. cbn [s_ctxs]. rewrite app_length. simpl.
        rewrite map_app in Hin. simpl in Hin. rewrite !in_app_iff in Hin. destruct Hin as [[Hin|[<-|[]]]|Hin]; [| |].
        * enough (c < n) by (unfold n in *; lia). apply (co_below _ K), in_app_iff. auto.
        * unfold n. lia.
        * enough (c < n) by (unfold n in *; lia). apply (co_below _ K), in_app_iff. auto.
      + rewrite map_app. simpl. rewrite <- app_assoc. simpl. apply NoDup_Add with (a := n) (l := (map snd (idents s) ++ map snd (v_tasks s))%list).
        * apply Add_app.
        * split; [apply K|]. intros Hin. apply (co_below _ K) in Hin. unfold n in Hin. lia.
      + intros r' c Hin. apply in_app_iff in Hin as [Hin|[[= <- <-]|[]]]; [exact (co_wf _ K _ _ Hin)|exact Hr].
      + intros j h [E1 E2]. unfold s' in E1. cbn [v_handlers] in E1. destruct (Nat.ltb_spec j (length (v_handlers s))) as [Hj|Hj].
        * rewrite nth_error_app1 in E1 by assumption. assert (Hh : handler_at s j h HRunning) by (split; assumption).
          apply good_copy; [exact (co_run _ K _ _ Hh)| |apply K]. apply (co_below _ K). apply in_app_iff. left.
          apply ident_at in Hh. apply nth_error_In in Hh. apply (in_map snd) in Hh. exact Hh.
        * rewrite nth_error_app2 in E1 by assumption. destruct (j - length (v_handlers s)) as [|[|m]]; simpl in E1; try discriminate.
          injection E1 as <-. discriminate.
      + intros j c Hin. destruct (co_task _ K _ _ Hin) as (r' & c' & E & G). exists r', c'. split; [auto|].
        apply good_copy; auto; try apply K. apply in_app_iff. right. now apply (in_map snd) in Hin.
      + intros j v Hin. destruct (co_seen _ K _ _ Hin) as (r' & c' & E & G). exists r', c'. auto.
    - eapply ctx_enter; eauto. intros j Hj. apply (lo_locked _ L) in Hj. congruence.
    - eapply ctx_same; [exact K|reflexivity..| | |].
      + apply idents_set.
      + reflexivity.
      + intros j h' Hh'. exists h'. repeat split; eapply set_not_running in Hh'; try reflexivity; try discriminate; apply Hh'.
    - eapply ctx_enter; eauto. intros j Hj. apply (lo_locked _ L) in Hj. destruct (lo_quiet _ L Hj _ _ Hi); discriminate.
    - eapply ctx_same; [exact K|reflexivity..| | |].
      + apply idents_set.
      + reflexivity.
      + intros j h' Hh'. exists h'. repeat split; eapply set_not_running in Hh'; try reflexivity; try discriminate; apply Hh'.
    - eapply ctx_same; [exact K|reflexivity..| | |].
      + apply idents_set.
      + reflexivity.
      + intros j h' Hh'. exists h'. repeat split; eapply set_not_running in Hh'; try reflexivity; try discriminate; apply Hh'.
    - eapply ctx_same; [exact K|reflexivity..|]. intros j h' Hh'. exists h'. auto.
    - constructor; try apply K. cbn [v_seen]. intros j v Hin. apply in_app_iff in Hin as [Hin|[[= <- <-]|[]]].
      + exact (co_seen _ K _ _ Hin).
      + destruct (runs_good _ _ _ K Hc) as (r & c' & E & G & _). exists r, c'. split; [exact E|now apply good_shows].
    - destruct (runs_good _ _ _ K Hc) as (r & cc & Er & G & Hlt). set (n := length (s_ctxs (v_conf s))).
      match goal with |- ctx_ok ?x => set (s' := x) end.
      assert (Hid : idents s' = idents s) by reflexivity.
      constructor; rewrite ?Hid; unfold s'; cbn [v_settings v_conf v_tasks v_seen].
      + simpl. rewrite !app_length. simpl. rewrite (co_length _ K). reflexivity.
      + split; [apply K|]. intros c0. change (s_heap (copy_ctx (v_conf s) c)) with (s_heap (v_conf s)).
        unfold copy_ctx. rewrite ctx_at_app. destruct (Nat.ltb c0 _); [apply K|].
        destruct (Nat.eqb c0 _); [apply K|]. cbn [c_loc default_ctx s_heap]. apply K.
      + intros c0 Hin. unfold copy_ctx. cbn [s_ctxs]. rewrite app_length. simpl.
        rewrite map_app in Hin. simpl in Hin. rewrite !in_app_iff in Hin. destruct Hin as [Hin|[Hin|[<-|[]]]].
        * enough (c0 < n) by (unfold n in *; lia). apply (co_below _ K), in_app_iff. auto.
        * enough (c0 < n) by (unfold n in *; lia). apply (co_below _ K), in_app_iff. auto.
        * unfold n. lia.
      + rewrite map_app. simpl. rewrite app_assoc. apply NoDup_app_snoc_compat; [apply K|].
        intros Hin. apply (co_below _ K) in Hin. unfold n in Hin. lia.
      + apply K.
      + intros j h [E1 E2]. assert (Hh : handler_at s j h HRunning) by (split; assumption).
        apply good_copy; [exact (co_run _ K _ _ Hh)| |apply K]. apply (co_below _ K). apply in_app_iff. left.
        apply ident_at in Hh. apply nth_error_In in Hh. apply (in_map snd) in Hh. exact Hh.
      + intros j c0 Hin. apply in_app_iff in Hin as [Hin|[[= <- <-]|[]]].
        * destruct (co_task _ K _ _ Hin) as (r' & c' & E & G'). exists r', c'. split; [auto|].
          apply good_copy; auto; try apply K. apply in_app_iff. right. now apply (in_map snd) in Hin.
        * exists r, cc. split; [exact Er|]. apply good_new; [exact G|apply K].
      + apply K.
    - eapply ctx_same; [exact K|reflexivity..|]. intros j h' Hh'. exists h'. auto.
    - eapply ctx_same; [exact K|reflexivity..| | |].
      + apply idents_set.
      + reflexivity.
      + intros j h' Hh'. exists h'. repeat split; eapply set_not_running in Hh'; try reflexivity; try discriminate; apply Hh'.
    - eapply ctx_same; [exact K|reflexivity..| | |].
      + apply idents_set.
      + reflexivity.
      + intros j h' Hh'. exists h'. repeat split; eapply set_not_running in Hh'; try reflexivity; try discriminate; apply Hh'.
  Qed.

  Lemma run_ok s : server_run engine legacy_env s -> lock_ok s /\ ctx_ok s.
  Proof.
    induction 1 as [|s s' _ [L K] H].
    - split; [apply lock_start|apply ctx_start].
    - split; [eapply lock_step; eauto|eapply ctx_step; eauto].
  Qed.

  Lemma isolation s i v : server_run engine legacy_env s -> In (i, v) (v_seen s) -> exists r, request_is s i r /\ shows engine r v.
  Proof.
    intros H Hin. destruct (run_ok _ H) as [_ K]. destruct (co_seen _ K _ _ Hin) as (r & c & E & S). exists r. split; auto.
    unfold idents in E. rewrite nth_error_map in E. destruct (nth_error (v_handlers s) i) as [h|] eqn:Eh; [|discriminate].
    injection E as <- _. now exists h.
  Qed.
  Lemma can_show s i c : server_run engine legacy_env s -> runs_in s i c ->
    exists r, request_is s i r /\ shows engine r (read_view (v_settings s) (v_conf s) c).
  Proof.
    intros H Hr. destruct (run_ok _ H) as [_ K]. destruct (runs_good _ _ _ K Hr) as (r & c' & E & G & _). exists r. split; [|now apply good_shows].
    unfold idents in E. rewrite nth_error_map in E. destruct (nth_error (v_handlers s) i) as [h|] eqn:Eh; [|discriminate].
    injection E as <- _. now exists h.
  Qed.

  Lemma enter_executing s i h ws st : handler_at s i h st -> executing (enter engine legacy_env s i h ws) i.
  Proof. intros Hh. unfold enter. rewrite executing_set, Nat.eqb_refl. split; auto. eapply handler_some; eauto. Qed.

  Lemma progress_waiting s i : lock_ok s -> (forall j, ~ executing s j) -> waiting s i ->
    exists j s', pending s j /\ step s s' /\ (executing s' j \/ ended s' j (Err (Exn "CancelledError" ""))).
  Proof.
    intros L Hno Hw. assert (Hl : v_locked s = false).
    { destruct (v_locked s) eqn:E; auto. destruct (lo_held _ L E) as (j & Hj). now apply Hno in Hj. }
    destruct (lo_waiting _ L _ Hw) as (w & Hin). destruct (v_waiters s) as [|[j v] ws] eqn:Ew; [destruct Hin|].
    pose proof (lo_awake _ L Hl _ _ _ Ew) as Hv.
    assert (Hj : In (j, v) (v_waiters s)) by (rewrite Ew; now left).
    destruct (lo_queued _ L _ _ Hj) as (h & Hh). exists j.
    assert (Hp : pending s j) by (exists h; split; [apply Hh|right; apply Hh]).
    destruct (match v with WWoken => true | _ => false end) eqn:Ev.
    - assert (v = WWoken) by (destruct v; congruence). subst v.
      eexists. split; [exact Hp|]. split; [eapply v_woken; [exact Hh|exact Hj]|]. left. eapply enter_executing; eauto.
    - assert (Hc : v = WCancelled \/ v = WWokenCancelled) by (destruct v; auto; congruence).
      eexists. split; [exact Hp|]. split; [eapply v_cancelled; [exact Hh|exact Hj|exact Hc]|]. right.
      destruct Hh as [Hh _]. unfold ended, with_waiters. cbn [v_handlers]. rewrite nth_set_handler, Nat.eqb_refl, Hh. eexists. split; reflexivity.
  Qed.
  Lemma progress s i : server_run engine legacy_env s -> (forall j, ~ executing s j) -> pending s i ->
    exists j s', pending s j /\ step s s' /\ (executing s' j \/ ended s' j (Err (Exn "CancelledError" ""))).
  Proof.
    intros H Hno (h & Hh & Hst). destruct (run_ok _ H) as [L _].
    destruct Hst as [Hst|Hst]; [|apply (progress_waiting s i L Hno); now exists h].
    destruct (all_cancelled (v_waiters s)) eqn:Ea.
    - assert (Hl : v_locked s = false).
      { destruct (v_locked s) eqn:E; auto. destruct (lo_held _ L E) as (j & Hj). now apply Hno in Hj. }
      assert (Ha : handler_at s i h HNew) by (split; assumption).
      exists i. eexists. split; [exists h; auto|]. split; [eapply v_acquire; eauto|]. left. eapply enter_executing; eauto.
    - destruct (v_waiters s) as [|[j v] ws] eqn:Ew; [discriminate|].
      apply (progress_waiting s j L Hno). apply (lo_queued _ L j v). rewrite Ew. now left.
  Qed.

  Record outcome_ok (s : server) : Prop := mkOO {
    oo_unhandled : match v_unhandled s with Some e => exists j, In (j, e) (v_failed s) | None => v_failed s = [] end;
    oo_returned : forall i, In i (v_returned s) ->
      ended s i (Ok tt) \/ exists e j, ended s i (Err e) /\ In (j, e) (v_failed s) }.
  Lemma ended_set hs i st h j r : nth_error hs i = Some h -> h_st h <> HEnded r ->
    (exists x, nth_error hs j = Some x /\ h_st x = HEnded r) -> exists x, nth_error (set_handler hs i st) j = Some x /\ h_st x = HEnded r.
  Proof.
    intros Hi Hn (x & Hx & Hs). rewrite nth_set_handler. destruct (Nat.eqb_spec j i) as [->|]; [|eauto]. congruence.
  Qed.
  Lemma outcome_keep s s' : outcome_ok s -> v_unhandled s' = v_unhandled s -> v_failed s' = v_failed s -> v_returned s' = v_returned s ->
    (forall i r, ended s i r -> ended s' i r) -> outcome_ok s'.
  Proof.
    intros O E1 E2 E3 He. constructor; rewrite ?E1, ?E2, ?E3; [apply O|]. intros i Hi.
    destruct (oo_returned _ O _ Hi) as [K|(e & j & K & Kj)]; [left|right; exists e, j]; auto.
  Qed.
  Lemma outcome_step s s' : outcome_ok s -> step s s' -> outcome_ok s'.
  Proof.
    intros O H. destruct H as [r Hr|i h Hh Hl Hc|i h Hh Hc|i h Hh Hi|i h w Hh Hi Hw|i h Hh|i h Hh|i c Hc|i c Hc|i c e Hc|i h e Hh|i h Hh].
    - eapply outcome_keep; [exact O|reflexivity..|]. intros j r' (x & Hx & Hs). exists x. split; auto. cbn [v_handlers].
      rewrite nth_error_app1; auto. apply nth_error_Some. congruence.
    - eapply outcome_keep; [exact O|reflexivity..|]. intros j r'. destruct Hh as [H1 H2]. eapply ended_set; [exact H1|congruence].
    - eapply outcome_keep; [exact O|reflexivity..|]. intros j r'. destruct Hh as [H1 H2]. eapply ended_set; [exact H1|congruence].
    - eapply outcome_keep; [exact O|reflexivity..|]. intros j r'. destruct Hh as [H1 H2]. eapply ended_set; [exact H1|congruence].
    - eapply outcome_keep; [exact O|reflexivity..|]. intros j r'. destruct Hh as [H1 H2]. eapply ended_set; [exact H1|congruence].
    - eapply outcome_keep; [exact O|reflexivity..|]. intros j r'. destruct Hh as [H1 H2]. eapply ended_set; [exact H1|congruence].
    - eapply outcome_keep; [exact O|reflexivity..|auto].
    - eapply outcome_keep; [exact O|reflexivity..|auto].
    - eapply outcome_keep; [exact O|reflexivity..|auto].
    - constructor; cbn [v_unhandled v_failed v_returned].
      + pose proof (oo_unhandled _ O) as U. destruct (v_unhandled s) as [e'|].
        * destruct U as (j & Hj). exists j. apply in_app_iff. now left.
        * exists i. apply in_app_iff. right. now left.
      + intros j Hj. destruct (oo_returned _ O _ Hj) as [K|(e' & j' & K & Kj)]; [now left|right; exists e', j'].
        split; [exact K|]. apply in_app_iff. now left.
    - eapply outcome_keep; [exact O|reflexivity..|]. intros j r'. destruct Hh as [H1 H2]. eapply ended_set; [exact H1|congruence].
    - constructor; cbn [v_unhandled v_failed v_returned leave]; [apply O|]. intros j Hj. apply in_app_iff in Hj as [Hj|[<-|[]]].
      + assert (E : forall r0 r', ended s j r' -> ended (leave s i r0 (v_returned s ++ [i])%list) j r').
        { intros r0 r'. destruct Hh as [H1 H2]. eapply ended_set; [exact H1|congruence]. }
        destruct (oo_returned _ O _ Hj) as [K|(e' & j' & K & Kj)]; [left|right; exists e', j']; auto.
      + destruct Hh as [H1 H2]. pose proof (oo_unhandled _ O) as U.
        assert (E : forall r, ended (leave s i r (v_returned s ++ [i])%list) i r).
        { intros r. unfold ended, leave. cbn [v_handlers]. rewrite nth_set_handler, Nat.eqb_refl, H1. eexists. split; reflexivity. }
        destruct (v_unhandled s) as [e|]; [right|left; auto]. destruct U as (j & U). exists e, j. auto.
  Qed.
  Lemma run_outcome s : server_run engine legacy_env s -> outcome_ok s.
  Proof.
    induction 1 as [|s s' _ O H]; [|eapply outcome_step; eauto]. constructor; simpl; auto. intros i [].
  Qed.
End Run.
