From Verif Require Import Base PyVal Model_Settings Spec_Settings Proof_Settings Model_Config Spec_Config Proof_Config Model_Inline Spec_Inline.
Open Scope string_scope.

Section Proofs.
Context (legacy_env : bool) (unavailable : exn -> bool).
Notation istep := (istep legacy_env unavailable).

Definition members (a : active) : list nat := a_thread a :: a_tasks a.
Definition nonempty {A} (l : list A) : bool := match l with [] => false | _ => true end.

Record act_ok (ss : sstate) (cs : cstate) (roots : list (option nat)) (rpcs : list nat) (un : option exn) (used : list nat) (a : active) : Prop := mkAO {
  ao_lt : forall c, In c (members a) -> c < length (s_ctxs cs);
  ao_used : In (a_thread a) used;
  ao_pos : ~ In 0 (members a);
  ao_set : forall c, In c (members a) -> forall k, vals_at ss c k = Some (configured legacy_env (run_settings (a_req a)) k);
  ao_loc : exists l, (forall c, In c (members a) -> c_loc (ctx_at cs c) = l) /\
    (u_config (a_req a) <> [] -> 0 < l /\ (forall c, ~ In c (members a) -> c_loc (ctx_at cs c) <> l) /\
       forall k, dget (dict_at cs l) k = match dget (a_sets a) k with Some v => Some v | None => option_map VStr (dget (u_config (a_req a)) k) end) /\
    (u_config (a_req a) = [] -> a_first a = true -> l = 0);
  ao_sec : forall c, In c (members a) ->
    (u_config (a_req a) <> [] -> u_secret_keys (a_req a) <> [] -> c_secrets (ctx_at cs c) = u_secret_keys (a_req a)) /\
    (a_first a = true -> u_config (a_req a) = [] \/ u_secret_keys (a_req a) = [] -> c_secrets (ctx_at cs c) = []);
  ao_root : forall c, In c (members a) -> nth c roots None = None \/ nth c roots None = Some (a_id a);
  ao_rpcs : forall i, In i rpcs -> i = a_id a;
  ao_un : un = hd_error (a_fails a) }.

Record pinv (s : process) : Prop := mkPI {
  pi_len : length (g_ctxs (n_settings s)) = length (s_ctxs (n_conf s));
  pi_roots : length (n_roots s) = length (s_ctxs (n_conf s));
  pi_pos : 0 < length (s_ctxs (n_conf s));
  pi_alloc : allocated (n_conf s);
  pi_threads : forall c, In c (n_threads s) -> 0 < c < length (s_ctxs (n_conf s));
  pi_fresh : forall c, In c (n_threads s) -> ~ In c (n_used s) -> ctx_at (n_conf s) c = default_ctx;
  pi_direct : n_direct s = false -> dict_at (n_conf s) 0 = [] /\ forall a, n_active s = Some a -> a_sets a = [];
  pi_tasks : forall a, n_active s = Some a -> forall c, In c (a_tasks a) -> ~ In c (n_threads s);
  pi_quiet : n_active s = None -> n_rpcs s = [] /\ n_unhandled s = None;
  pi_act : forall a, n_active s = Some a -> act_ok (n_settings s) (n_conf s) (n_roots s) (n_rpcs s) (n_unhandled s) (n_used s) a;
  pi_ended : forall i fs o r, In (i, fs, o, r) (n_ended s) -> r = respond unavailable (match fs with e :: _ => Err e | [] => o end) }.

Lemma pinv_start : pinv (process_start legacy_env).
Proof.
  constructor; cbn [process_start n_settings n_conf n_roots n_rpcs n_unhandled n_active n_next n_threads n_used n_direct n_ended]; try discriminate; try easy.
  - simpl. lia.
  - exact init_allocated.
Qed.

(* new contexts *)
Lemma ctx_new cs c x : c < length (s_ctxs cs) -> ctx_at (mkCS (s_heap cs) (s_ctxs cs ++ [x])%list) c = ctx_at cs c.
Proof. intros H. rewrite ctx_at_app. apply Nat.ltb_lt in H. now rewrite H. Qed.
Lemma ctx_last cs x : ctx_at (mkCS (s_heap cs) (s_ctxs cs ++ [x])%list) (length (s_ctxs cs)) = x.
Proof. now rewrite ctx_at_app, Nat.ltb_irrefl, Nat.eqb_refl. Qed.
Lemma ctx_high cs c : length (s_ctxs cs) <= c -> ctx_at cs c = default_ctx.
Proof. intros H. unfold ctx_at. now apply nth_overflow. Qed.
Lemma vals_new ss x c k : c < length (g_ctxs ss) -> vals_at (mkSS (g_default ss) (g_ctxs ss ++ [x])%list) c k = vals_at ss c k.
Proof. intros H. unfold vals_at. cbn [g_ctxs]. now rewrite app_nth1. Qed.
Lemma vals_last ss x k : vals_at (mkSS (g_default ss) (g_ctxs ss ++ [x])%list) (length (g_ctxs ss)) k = x k.
Proof. unfold vals_at. cbn [g_ctxs]. now rewrite app_nth2, Nat.sub_diag by lia. Qed.
Lemma nth_new {A} (l : list A) x c d : c < length l -> nth c (l ++ [x])%list d = nth c l d.
Proof. intros. now apply app_nth1. Qed.
Lemma nth_last {A} (l : list A) x d : nth (length l) (l ++ [x])%list d = x.
Proof. now rewrite app_nth2, Nat.sub_diag by lia. Qed.
Lemma alloc_new cs x : allocated cs -> c_loc x < length (s_heap cs) -> allocated (mkCS (s_heap cs) (s_ctxs cs ++ [x])%list).
Proof.
  intros [P A] H. split; [exact P|]. intros c. rewrite ctx_at_app. cbn [s_heap]. destruct (Nat.ltb c _); auto. destruct (Nat.eqb c _); simpl; auto.
Qed.
Lemma nth_upd_eq {A} (l : list A) n x m d : n < length l -> nth m (upd l n x) d = if Nat.eqb m n then x else nth m l d.
Proof. intros H. destruct (Nat.eqb_spec m n) as [->|]; [now apply nth_upd_same|apply nth_upd_other; auto]. Qed.

(** A context that does not belong to the run is added. *)
Lemma act_new_other ss cs roots rpcs un used a x y z :
  length (g_ctxs ss) = length (s_ctxs cs) -> length roots = length (s_ctxs cs) ->
  c_loc y = 0 -> act_ok ss cs roots rpcs un used a ->
  act_ok (mkSS (g_default ss) (g_ctxs ss ++ [x])%list) (mkCS (s_heap cs) (s_ctxs cs ++ [y])%list) (roots ++ [z])%list rpcs un used a.
Proof.
  intros L1 L2 Hy [A1 A2 A3 A4 (l & B1 & B2 & B3) A6 A7 A8 A9]. constructor; auto.
  - intros c Hc. cbn [s_ctxs]. rewrite app_length. specialize (A1 c Hc). lia.
  - intros c Hc k. rewrite vals_new; [auto|]. rewrite L1. auto.
  - exists l. split; [|split; [|exact B3]].
    + intros c Hc. rewrite ctx_new by auto. auto.
    + intros N. destruct (B2 N) as (P & B4 & B5). split; [exact P|]. split; [|exact B5].
      intros c Hc. rewrite ctx_at_app. destruct (Nat.ltb c _); [auto|]. destruct (Nat.eqb c _); [lia|]. simpl. lia.
  - intros c Hc. rewrite ctx_new by auto. auto.
  - intros c Hc. rewrite nth_new by (rewrite L2; auto). auto.
Qed.
(** A copy of one of the run's contexts is added to it. *)
Lemma act_new_own ss cs roots rpcs un used a c0 :
  length (g_ctxs ss) = length (s_ctxs cs) -> length roots = length (s_ctxs cs) -> 0 < length (s_ctxs cs) ->
  In c0 (members a) -> act_ok ss cs roots rpcs un used a ->
  act_ok (mkSS (g_default ss) (g_ctxs ss ++ [vals_at ss c0])%list) (mkCS (s_heap cs) (s_ctxs cs ++ [ctx_at cs c0])%list) (roots ++ [nth c0 roots None])%list rpcs un used
    (mkActive (a_id a) (a_req a) (a_thread a) (a_tasks a ++ [length (s_ctxs cs)])%list (a_first a) (a_sets a) (a_fails a)).
Proof.
  intros L1 L2 L0 H0 [A1 A2 A3 A4 (l & B1 & B2 & B3) A6 A7 A8 A9].
  assert (M : forall c, In c (members (mkActive (a_id a) (a_req a) (a_thread a) (a_tasks a ++ [length (s_ctxs cs)])%list (a_first a) (a_sets a) (a_fails a))) ->
    In c (members a) \/ c = length (s_ctxs cs)).
  { unfold members. cbn [a_thread a_tasks]. intros c. simpl. rewrite in_app_iff. simpl. intuition. }
  assert (M' : forall c, In c (members a) -> In c (members (mkActive (a_id a) (a_req a) (a_thread a) (a_tasks a ++ [length (s_ctxs cs)])%list (a_first a) (a_sets a) (a_fails a)))).
  { unfold members. cbn [a_thread a_tasks]. intros c. simpl. rewrite in_app_iff. simpl. intuition. }
  constructor; cbn [a_id a_req a_thread a_first a_sets a_fails]; auto.
  - intros c Hc. cbn [s_ctxs]. rewrite app_length. simpl. apply M in Hc as [Hc| ->]; [specialize (A1 c Hc)|]; lia.
  - intros K. apply M in K as [K|K]; [auto|]. lia.
  - intros c Hc k. apply M in Hc as [Hc| ->]; [rewrite vals_new; [auto|]; rewrite L1; auto|]. rewrite <- L1, vals_last. auto.
  - exists l. split; [|split; [|exact B3]].
    + intros c Hc. apply M in Hc as [Hc| ->]; [rewrite ctx_new by auto; auto|]. rewrite ctx_last. auto.
    + intros N. destruct (B2 N) as (P & B4 & B5). split; [exact P|]. split; [|exact B5].
      intros c Hc. rewrite ctx_at_app. destruct (Nat.ltb c _) eqn:E1; [apply B4; auto|]. destruct (Nat.eqb_spec c (length (s_ctxs cs))) as [->|]; [|simpl; lia].
      exfalso. apply Hc. unfold members. cbn [a_thread a_tasks]. right. apply in_app_iff. right. now left.
  - intros c Hc. apply M in Hc as [Hc| ->]; [rewrite ctx_new by auto; auto|]. rewrite ctx_last. auto.
  - intros c Hc. apply M in Hc as [Hc| ->]; [rewrite nth_new by (rewrite L2; auto); auto|]. rewrite <- L2, nth_last. auto.
Qed.

Lemma start_act s c r : pinv s -> n_active s = None -> In c (n_threads s) -> wf_dict (u_config r) ->
  act_ok (settings_init legacy_env (n_settings s) c (run_settings r)) (run_config (n_conf s) c r) (upd (n_roots s) c None) (n_rpcs s) (n_unhandled s) (c :: n_used s)
    (mkActive (n_next s) r c [] (negb (nmem c (n_used s))) [] []).
Proof.
  intros P Ha Hc Hw. destruct (pi_threads _ P c Hc) as [Hp Hl]. destruct (pi_quiet _ P Ha) as [Hq1 Hq2].
  assert (Ls : length (s_ctxs (run_config (n_conf s) c r)) = length (s_ctxs (n_conf s))).
  { unfold run_config, set_all_config. destruct (u_config r); [reflexivity|]. cbn [s_ctxs]. apply upd_length. }
  constructor; unfold members; cbn [a_id a_req a_thread a_tasks a_first a_sets a_fails].
  - intros x [<-|[]]. now rewrite Ls.
  - now left.
  - intros [K|[]]. lia.
  - intros x [<-|[]] k. rewrite vals_init by (rewrite (pi_len _ P); exact Hl). now rewrite Nat.eqb_refl.
  - unfold run_config. destruct (u_config r) as [|kv m] eqn:E.
    + exists (c_loc (ctx_at (n_conf s) c)). split; [intros x [<-|[]]; reflexivity|]. split; [congruence|].
      intros _ Hf. apply negb_true_iff in Hf. apply nmem_notIn in Hf. now rewrite (pi_fresh _ P c Hc Hf).
    + exists (length (s_heap (n_conf s))). unfold set_all_config. rewrite <- E in *.
      split; [|split; [intros _; split; [|split]|congruence]].
      * intros x [<-|[]]. rewrite ctx_at_upd by exact Hl. now rewrite Nat.eqb_refl.
      * apply (pi_alloc _ P).
      * intros x Hx. rewrite ctx_at_upd by exact Hl. destruct (Nat.eqb_spec x c) as [->|]; [exfalso; apply Hx; now left|].
        pose proof (proj2 (pi_alloc _ P) x). lia.
      * intros k. unfold dict_at. cbn [s_heap dget]. rewrite app_nth2, Nat.sub_diag by lia. cbn [nth].
        rewrite copy_values, dget_dupdate by (unfold wf_dict; rewrite as_values_keys; exact Hw). simpl. clear.
        induction (u_config r) as [|[k' v] m IH]; simpl; auto. destruct (String.eqb k k'); auto.
  - intros x [<-|[]]. unfold run_config. split.
    + intros N1 N2. destruct (u_config r) as [|kv m] eqn:E; [congruence|]. rewrite <- E in *. unfold set_all_config.
      rewrite ctx_at_upd by exact Hl. rewrite Nat.eqb_refl. cbn [c_secrets]. now destruct (u_secret_keys r).
    + intros Hf Hd. apply negb_true_iff in Hf. apply nmem_notIn in Hf. pose proof (pi_fresh _ P c Hc Hf) as F.
      destruct (u_config r) as [|kv m] eqn:E; [now rewrite F|]. destruct Hd as [Hd|Hd]; [discriminate|].
      rewrite Hd. unfold set_all_config. rewrite ctx_at_upd by exact Hl. rewrite Nat.eqb_refl. cbn [c_secrets]. now rewrite F.
  - intros x [<-|[]]. left. apply nth_upd_same. now rewrite (pi_roots _ P).
  - rewrite Hq1. intros i [].
  - now rewrite Hq2.
Qed.

Lemma run_config_alloc s c r : allocated s -> c < length (s_ctxs s) -> allocated (run_config s c r).
Proof.
  intros A L. unfold run_config. destruct (u_config r) as [|kv m] eqn:E; [exact A|]. rewrite <- E.
  apply (ow_alloc _ _ _ _ _ (set_all_owns s c (u_config r) (match u_secret_keys r with [] => None | l => Some l end) A L)).
Qed.
Lemma run_config_other s c r c' : c < length (s_ctxs s) -> c' <> c -> ctx_at (run_config s c r) c' = ctx_at s c'.
Proof.
  intros L N. unfold run_config. destruct (u_config r); [reflexivity|]. unfold set_all_config. rewrite ctx_at_upd by exact L.
  apply Nat.eqb_neq in N. now rewrite N.
Qed.
Lemma run_config_len s c r : length (s_ctxs (run_config s c r)) = length (s_ctxs s).
Proof. unfold run_config. destruct (u_config r); [reflexivity|]. unfold set_all_config. cbn [s_ctxs]. apply upd_length. Qed.
Lemma dict_at_all s c m l x : x < length (s_heap s) -> dict_at (set_all_config s c m l) x = dict_at s x.
Proof. intros H. unfold dict_at, set_all_config. cbn [s_heap]. now rewrite app_nth1. Qed.
Lemma run_config_dict s c r x : x < length (s_heap s) -> dict_at (run_config s c r) x = dict_at s x.
Proof. intros H. unfold run_config. destruct (u_config r); [reflexivity|]. now apply dict_at_all. Qed.
Lemma dict_at_set s c k v x : allocated s -> dict_at (set_config s c k v) x = if Nat.eqb x (c_loc (ctx_at s c)) then dset (dict_at s x) k v else dict_at s x.
Proof.
  intros A. unfold dict_at, set_config. cbn [s_heap]. rewrite nth_upd_eq by apply A. destruct (Nat.eqb_spec x (c_loc (ctx_at s c))) as [->|]; reflexivity.
Qed.
Lemma alloc_set s c k v : allocated s -> allocated (set_config s c k v).
Proof. intros [P A]. split; unfold set_config; cbn [s_heap]; rewrite upd_length; [exact P|exact A]. Qed.
Lemma ctx_at_set s c k v x : ctx_at (set_config s c k v) x = ctx_at s x.
Proof. reflexivity. Qed.

Ltac same P := first [exact (pi_len _ P)|exact (pi_roots _ P)|exact (pi_pos _ P)|exact (pi_alloc _ P)|exact (pi_threads _ P)|exact (pi_fresh _ P)
  |exact (pi_direct _ P)|exact (pi_tasks _ P)|exact (pi_quiet _ P)|exact (pi_act _ P)|exact (pi_ended _ P)].
Lemma pinv_step s s' : istep s s' -> pinv s -> pinv s'.
Proof.
  intros H P. destruct H as [|c r Ha Hc Hw|a c Ha Hc|a c Ha Hc|a c k v Ha Hc|a Ha|a l Ha Hl|a e Ha|a o Ha| |k v|m l];
    try (pose proof (pi_act _ P a Ha) as A).
  - constructor; cbn [n_settings n_conf n_roots n_rpcs n_unhandled n_active n_next n_threads n_used n_direct n_ended sstep new_ctx g_ctxs s_ctxs]; try same P.
    + rewrite !app_length. rewrite (pi_len _ P). reflexivity.
    + rewrite !app_length. rewrite (pi_roots _ P). reflexivity.
    + rewrite app_length. pose proof (pi_pos _ P). lia.
    + apply alloc_new; [apply P|]. apply (pi_alloc _ P).
    + intros x [<-|Hx]; rewrite app_length; simpl; [pose proof (pi_pos _ P); lia|]. pose proof (pi_threads _ P x Hx). lia.
    + intros x [<-|Hx] N; [apply ctx_last|]. unfold new_ctx. rewrite ctx_new by apply (pi_threads _ P x Hx). now apply P.
    + intros a Ha x Hx [K|K]; [|exact (pi_tasks _ P a Ha x Hx K)]. pose proof (ao_lt _ _ _ _ _ _ _ (pi_act _ P a Ha) x (or_intror Hx)). lia.
    + intros a Ha. apply act_new_other; try same P; [reflexivity|]. now apply (pi_act _ P).
  - destruct (pi_threads _ P c Hc) as [Hp Hlt].
    pose proof (start_act s c r P Ha Hc Hw) as A0. unfold start_run.
    constructor; cbn [n_settings n_conf n_roots n_rpcs n_unhandled n_active n_next n_threads n_used n_direct n_ended sstep copy_ctx g_ctxs s_ctxs]; try same P.
    + rewrite !app_length, init_length, run_config_len. rewrite (pi_len _ P). reflexivity.
    + rewrite !app_length, upd_length, run_config_len. rewrite (pi_roots _ P). reflexivity.
    + rewrite app_length, run_config_len. pose proof (pi_pos _ P). lia.
    + pose proof (run_config_alloc _ _ r (pi_alloc _ P) Hlt) as RA. apply alloc_new; [exact RA|]. apply RA.
    + intros x Hx. rewrite app_length, run_config_len. pose proof (pi_threads _ P x Hx). lia.
    + intros x Hx N. unfold copy_ctx. rewrite ctx_new by (rewrite run_config_len; apply (pi_threads _ P x Hx)).
      rewrite run_config_other; [apply (pi_fresh _ P x Hx); intros K; apply N; now right|exact Hlt|intros ->; apply N; now left].
    + intros D. destruct (pi_direct _ P D) as [D1 _]. split; [|intros a [= <-]; reflexivity]. unfold dict_at, copy_ctx. cbn [s_heap].
      fold (dict_at (run_config (n_conf s) c r) 0). rewrite run_config_dict by apply (pi_alloc _ P). exact D1.
    + intros a [= <-] x [<-|[]] K. rewrite run_config_len in K. apply (pi_threads _ P) in K. lia.
    + discriminate.
    + intros a [= <-]. apply (act_new_own _ _ _ _ _ _ _ c) in A0; [exact A0|..].
      * rewrite init_length, run_config_len. same P.
      * rewrite upd_length, run_config_len. same P.
      * rewrite run_config_len. same P.
      * now left.
  - constructor; cbn [n_settings n_conf n_roots n_rpcs n_unhandled n_active n_next n_threads n_used n_direct n_ended sstep copy_ctx g_ctxs s_ctxs]; try same P.
    + rewrite !app_length. rewrite (pi_len _ P). reflexivity.
    + rewrite !app_length. rewrite (pi_roots _ P). reflexivity.
    + rewrite app_length. pose proof (pi_pos _ P). lia.
    + apply alloc_new; [apply P|]. apply (pi_alloc _ P).
    + intros x Hx. rewrite app_length. pose proof (pi_threads _ P x Hx). lia.
    + intros x Hx N. unfold copy_ctx. rewrite ctx_new by apply (pi_threads _ P x Hx). now apply P.
    + intros D. destruct (pi_direct _ P D) as [D1 D2]. split; [exact D1|]. intros b [= <-]. cbn [a_sets]. auto.
    + intros b [= <-] x. cbn [a_tasks]. intros Hx K. apply in_app_iff in Hx as [Hx|[<-|[]]]; [exact (pi_tasks _ P a Ha x Hx K)|]. apply (pi_threads _ P) in K. lia.
    + discriminate.
    + intros b [= <-]. apply act_new_own; try same P; [now right|exact A].
  - constructor; cbn [n_settings n_conf n_roots n_rpcs n_unhandled n_active n_next n_threads n_used n_direct n_ended]; try same P.
    + rewrite upd_length. same P.
    + intros b Hb. assert (b = a) as -> by congruence. destruct A as [A1 A2 A3 A4 A5 A6 A7 A8 A9]. constructor; auto.
      intros x Hx. rewrite nth_upd_eq by (rewrite (pi_roots _ P); apply A1; now right). destruct (Nat.eqb x c); auto.
  - constructor; cbn [n_settings n_conf n_roots n_rpcs n_unhandled n_active n_next n_threads n_used n_direct n_ended]; try same P; try discriminate.
    + apply alloc_set, P.
    + intros b [= <-]. cbn [a_tasks]. now apply P.
    + intros b [= <-]. destruct A as [A1 A2 A3 A4 (l & B1 & B2 & B3) A6 A7 A8 A9]. constructor; auto; cbn [a_id a_req a_thread a_tasks a_first a_sets a_fails].
      exists l. split; [exact B1|]. split; [|exact B3]. intros N. destruct (B2 N) as (P1 & B4 & B5). split; [exact P1|]. split; [exact B4|].
      intros x. rewrite dict_at_set by apply P. rewrite (B1 c) by now right. rewrite Nat.eqb_refl, !dget_dset. destruct (String.eqb x k); auto.
  - constructor; cbn [n_settings n_conf n_roots n_rpcs n_unhandled n_active n_next n_threads n_used n_direct n_ended]; try same P.
    + congruence.
    + intros b Hb. assert (b = a) as -> by congruence. destruct A as [A1 A2 A3 A4 A5 A6 A7 A8 A9]. constructor; auto.
      intros i Hi. apply in_app_iff in Hi as [Hi|[<-|[]]]; auto.
  - destruct Hl as (i0 & El). constructor; cbn [n_settings n_conf n_roots n_rpcs n_unhandled n_active n_next n_threads n_used n_direct n_ended]; try same P.
    + congruence.
    + intros b Hb. assert (b = a) as -> by congruence. destruct A as [A1 A2 A3 A4 A5 A6 A7 A8 A9]. constructor; auto.
      intros i Hi. apply A8. rewrite El. apply in_app_iff. now left.
  - constructor; cbn [n_settings n_conf n_roots n_rpcs n_unhandled n_active n_next n_threads n_used n_direct n_ended]; try same P; try discriminate.
    + intros D. destruct (pi_direct _ P D) as [D1 D2]. split; [exact D1|]. intros b [= <-]. cbn [a_sets]. auto.
    + intros b [= <-]. cbn [a_tasks]. now apply P.
    + intros b [= <-]. destruct A as [A1 A2 A3 A4 A5 A6 A7 A8 A9]. constructor; auto; cbn [a_id a_req a_thread a_tasks a_first a_sets a_fails].
      rewrite A9. destruct (a_fails a); reflexivity.
  - unfold end_run. constructor; cbn [n_settings n_conf n_roots n_rpcs n_unhandled n_active n_next n_threads n_used n_direct n_ended]; try same P; try discriminate.
    + intros D. destruct (pi_direct _ P D) as [D1 D2]. split; [exact D1|discriminate].
    + auto.
    + intros i fs o' r Hi. apply in_app_iff in Hi as [Hi|[[= <- <- <- <-]|[]]]; [exact (pi_ended _ P _ _ _ _ Hi)|].
      rewrite (ao_un _ _ _ _ _ _ _ A). destruct (a_fails a); reflexivity.
  - constructor; cbn [n_settings n_conf n_roots n_rpcs n_unhandled n_active n_next n_threads n_used n_direct n_ended]; try same P.
    + rewrite init_length. same P.
    + rewrite upd_length. same P.
    + intros b Hb. destruct (pi_act _ P b Hb) as [A1 A2 A3 A4 A5 A6 A7 A8 A9]. constructor; auto.
      * intros x Hx k. rewrite vals_init by (rewrite (pi_len _ P); same P). destruct (Nat.eqb_spec x 0) as [->|]; [contradiction|auto].
      * intros x Hx. rewrite nth_upd_eq by (rewrite (pi_roots _ P); same P). destruct (Nat.eqb x 0); auto.
  - constructor; cbn [n_settings n_conf n_roots n_rpcs n_unhandled n_active n_next n_threads n_used n_direct n_ended]; try same P; try discriminate.
    + apply alloc_set, P.
    + intros b Hb. destruct (pi_act _ P b Hb) as [A1 A2 A3 A4 (l & B1 & B2 & B3) A6 A7 A8 A9]. constructor; auto.
      exists l. split; [exact B1|]. split; [|exact B3]. intros N. destruct (B2 N) as (P1 & B4 & B5). split; [exact P1|]. split; [exact B4|].
      intros x. rewrite dict_at_set by apply P. destruct (Nat.eqb_spec l (c_loc (ctx_at (n_conf s) 0))) as [E|]; [|auto]. exfalso. symmetry in E. now apply B4 in E.
  - pose proof (pi_pos _ P) as L0. pose proof (set_all_owns (n_conf s) 0 m l (pi_alloc _ P) L0) as O.
    constructor; cbn [n_settings n_conf n_roots n_rpcs n_unhandled n_active n_next n_threads n_used n_direct n_ended]; try same P.
    + unfold set_all_config. cbn [s_ctxs]. rewrite upd_length. same P.
    + unfold set_all_config. cbn [s_ctxs]. rewrite upd_length. same P.
    + unfold set_all_config. cbn [s_ctxs]. rewrite upd_length. same P.
    + apply O.
    + unfold set_all_config. cbn [s_ctxs]. rewrite upd_length. same P.
    + intros x Hx N. unfold set_all_config. rewrite ctx_at_upd by exact L0. pose proof (pi_threads _ P x Hx) as K. destruct (Nat.eqb_spec x 0); [lia|]. now apply P.
    + intros D. destruct (pi_direct _ P D) as [D1 D2]. split; [|exact D2]. rewrite dict_at_all by apply (pi_alloc _ P). exact D1.
    + intros b Hb. destruct (pi_act _ P b Hb) as [A1 A2 A3 A4 (l' & B1 & B2 & B3) A6 A7 A8 A9].
      assert (X : forall x, In x (members b) -> ctx_at (set_all_config (n_conf s) 0 m l) x = ctx_at (n_conf s) x).
      { intros x Hx. unfold set_all_config. rewrite ctx_at_upd by exact L0. destruct (Nat.eqb_spec x 0) as [->|]; [contradiction|reflexivity]. }
      constructor; auto.
      * intros x Hx. unfold set_all_config. cbn [s_ctxs]. rewrite upd_length. auto.
      * exists l'. split; [intros x Hx; rewrite X by exact Hx; auto|]. split; [|exact B3]. intros N. destruct (B2 N) as (P1 & B4 & B5). split; [exact P1|].
        assert (Hl' : l' < length (s_heap (n_conf s))) by (rewrite <- (B1 (a_thread b) (or_introl eq_refl)); apply (pi_alloc _ P)).
        split; [|intros x; rewrite dict_at_all by exact Hl'; auto]. intros x Hx. unfold set_all_config. rewrite ctx_at_upd by exact L0.
        destruct (Nat.eqb x 0); [simpl; lia|auto].
      * intros x Hx. rewrite X by exact Hx. auto.
Qed.
Lemma pinv_reach s : ireach legacy_env unavailable s -> pinv s.
Proof. induction 1; [apply pinv_start|eauto using pinv_step]. Qed.
End Proofs.
