From Verif Require Import Base Model_RpcManager Spec_RpcManager.

Lemma sset_same l : forall i r, i < length l -> nth_error (sset l i r) i = Some (Some r).
Proof. induction l as [|x l IH]; intros [|i] r H; simpl in *; try lia; [reflexivity|apply IH; lia]. Qed.
Lemma sset_other l : forall i j r, i <> j -> nth_error (sset l i r) j = nth_error l j.
Proof. induction l as [|x l IH]; intros [|i] [|j] r H; simpl; try reflexivity; try congruence. apply IH. congruence. Qed.
Lemma sset_length l : forall i r, length (sset l i r) = length l.
Proof. induction l as [|x l IH]; intros [|i] r; simpl; auto. Qed.

Definition awaiting (p : phase) (i : nat) : Prop := match p with PAwait j => i = j | _ => False end.
Definition live (p : phase) : Prop := match p with PRaised _ | PTaskRaised _ => False | _ => True end.
(** What holds of every reachable state. *)
Record minv (s : mstate) : Prop := {
  i_cover : live (m_phase s) -> forall i, started s i -> In i (m_rpcs s) \/ awaiting (m_phase s) i \/ succeeded s i;
  i_order : forall i, In i (m_order s) <-> exists r, ended s i r;
  i_split : exists done, m_order s = done ++ m_wake s /\ map fst (m_wrapped s) = done /\
     match m_unhandled s with
     | None => forall j, In j done -> succeeded s j
     | Some e => exists l1 i l2, done = l1 ++ i :: l2 /\ failed s i e /\ forall j, In j l1 -> succeeded s j
     end;
  i_wrapped : forall i r, In (i, r) (m_wrapped s) -> (exists v, ended s i (Ok v) /\ r = (Some v, None)) \/ (exists e, ended s i (Err e) /\ r = (None, Some e));
  i_raised : forall e, m_phase s = PRaised e -> exists i, failed s i e;
  i_once : NoDup (m_order s)
}.
Lemma start_inv : minv start_state.
Proof.
  constructor; simpl.
  - unfold started. simpl. intros _ i H. lia.
  - intros i. split; [contradiction|]. intros [r H]. unfold ended in H. simpl in H. destruct i; discriminate.
  - exists []. repeat split; auto. intros j [].
  - contradiction.
  - discriminate.
  - constructor.
Qed.

Lemma ended_more s s' i r : (forall k x, nth_error (m_status s) k = Some (Some x) -> nth_error (m_status s') k = Some (Some x)) -> ended s i r -> ended s' i r.
Proof. intros H K. apply H. exact K. Qed.

Lemma same_inv s p : minv s -> (live p -> forall i, started s i -> In i (m_rpcs s) \/ awaiting p i \/ succeeded s i) ->
  (forall e, p = PRaised e -> exists i, failed s i e) -> minv (with_phase s p).
Proof. intros [A B C D E F] H1 H2. constructor; auto. Qed.

Lemma tops s : (m_phase s = PIdle \/ m_phase s = PTasks \/ exists i, m_phase s = PAwait i /\ succeeded s i) -> minv s ->
  forall p, minv s -> live p -> (forall i, ~ awaiting p i) -> forall i, started s i -> In i (m_rpcs s) \/ awaiting p i \/ succeeded s i.
Proof.
  intros Hp I p _ L Na i Hi. destruct (i_cover s I) with (i := i) as [H|[H|H]]; auto.
  - destruct Hp as [->|[->|(j & -> & _)]]; exact Logic.I.
  - destruct Hp as [E|[E|(j & E & S)]]; rewrite E in H; simpl in H; try contradiction. subst i. auto.
Qed.
Lemma after_inv s : (m_phase s = PIdle \/ m_phase s = PTasks \/ exists i, m_phase s = PAwait i /\ succeeded s i) -> minv s -> minv (after_tasks s).
Proof.
  intros Hp I. unfold after_tasks. destruct (m_rpcs s); apply same_inv; auto; try discriminate; intros L; apply (tops s Hp I); auto.
Qed.
Lemma loop_inv all s : (m_phase s = PIdle \/ m_phase s = PTasks \/ exists i, m_phase s = PAwait i /\ succeeded s i) -> minv s -> minv (loop_top all s).
Proof.
  intros Hp I. unfold loop_top. destruct (m_rpcs s) as [|x l] eqn:E.
  - destruct (m_unhandled s) as [e|] eqn:U.
    + apply same_inv; [exact I|intros []|]. intros e' [= <-]. destruct (i_split s I) as (done & _ & _ & K). rewrite U in K. destruct K as (l1 & i & l2 & _ & F & _). eauto.
    + destruct all; [|apply after_inv; assumption]. apply same_inv; auto; try discriminate. intros L. apply (tops s Hp I); auto.
  - apply same_inv; auto; try discriminate. intros L. apply (tops s Hp I); auto.
Qed.

Lemma step_inv all s s' : minv s -> mstep all s s' -> minv s'.
Proof.
  intros I H. destruct H as [s|s i r Hi|s i wake r Hw Hr|s Hp|s l i Hp Hl|s i v Hp Hv|s i e Hp He|s Hp|s e Hp].
  - assert (M : forall k x, nth_error (m_status s) k = Some (Some x) -> nth_error (m_status s ++ [None]) k = Some (Some x)).
    { intros k x Hk. rewrite nth_error_app1; [exact Hk|]. apply nth_error_Some. congruence. }
    assert (M' : forall k x, nth_error (m_status s ++ [None]) k = Some (Some x) -> nth_error (m_status s) k = Some (Some x)).
    { intros k x Hk. destruct (lt_dec k (length (m_status s))) as [L|L]; [rewrite nth_error_app1 in Hk by exact L; exact Hk|].
      rewrite nth_error_app2 in Hk by lia. destruct (k - length (m_status s)) as [|[|?]]; discriminate. }
    destruct I as [A B C D E F]. constructor; cbn [m_rpcs m_phase m_order m_wake m_unhandled m_wrapped]; unfold started, succeeded, failed, ended in *; cbn [m_status] in *.
    + intros L i Hi. rewrite app_length in Hi. simpl in Hi. destruct (Nat.eq_dec i (length (m_status s))) as [->|N].
      * left. apply in_or_app. right. left. reflexivity.
      * destruct (A L i ltac:(lia)) as [H|[H|[v H]]]; [left; apply in_or_app; left; exact H|auto|right; right; eauto].
    + intros i. rewrite B. split; intros [r Hr]; exists r; auto.
    + destruct C as (done & C1 & C2 & C3). exists done. split; [exact C1|]. split; [exact C2|]. destruct (m_unhandled s).
      * destruct C3 as (l1 & i & l2 & C3 & C4 & C5). exists l1, i, l2. split; [exact C3|]. split; [auto|]. intros j Hj. destruct (C5 j Hj) as [v Hv]. eauto.
      * intros j Hj. destruct (C3 j Hj) as [v Hv]. eauto.
    + intros i r Hr. destruct (D i r Hr) as [(v & H1 & H2)|(e & H1 & H2)]; eauto.
    + intros e He. destruct (E e He) as [i Hi]. eauto.
    + exact F.
  - assert (Li : i < length (m_status s)) by (apply nth_error_Some; congruence).
    assert (M : forall k x, nth_error (m_status s) k = Some (Some x) -> nth_error (sset (m_status s) i r) k = Some (Some x)).
    { intros k x Hk. rewrite sset_other; [exact Hk|]. congruence. }
    destruct I as [A B C D E F]. constructor; cbn [m_rpcs m_phase m_order m_wake m_unhandled m_wrapped]; unfold started, succeeded, failed, ended in *; cbn [m_status] in *.
    + intros L k Hk. rewrite sset_length in Hk. destruct (A L k Hk) as [H|[H|[v H]]]; eauto.
    + intros k. rewrite in_app_iff, B. simpl. split.
      * intros [[x Hx]|[<-|[]]]; [eauto|]. exists r. apply sset_same. exact Li.
      * intros [x Hx]. destruct (Nat.eq_dec i k) as [->|N]; [auto|]. rewrite sset_other in Hx by exact N. eauto.
    + destruct C as (done & C1 & C2 & C3). exists done. split; [rewrite C1, <- app_assoc; reflexivity|]. split; [exact C2|]. destruct (m_unhandled s).
      * destruct C3 as (l1 & j & l2 & C3 & C4 & C5). exists l1, j, l2. split; [exact C3|]. split; [auto|]. intros k Hk. destruct (C5 k Hk) as [v Hv]. eauto.
      * intros j Hj. destruct (C3 j Hj) as [v Hv]. eauto.
    + intros j x Hx. destruct (D j x Hx) as [(v & H1 & H2)|(e & H1 & H2)]; eauto.
    + intros e He. destruct (E e He) as [j Hj]. eauto.
    + rewrite <- (rev_involutive (m_order s ++ [i])). apply NoDup_rev. rewrite rev_app_distr. simpl. constructor; [|apply NoDup_rev; exact F].
      rewrite <- in_rev, B. intros [x Hx]. congruence.
  - assert (P : m_rpcs (wrap s i wake r) = m_rpcs s /\ m_status (wrap s i wake r) = m_status s /\ m_order (wrap s i wake r) = m_order s /\ m_phase (wrap s i wake r) = m_phase s /\ m_wake (wrap s i wake r) = wake)
      by (destruct r; repeat split). destruct P as (P1 & P2 & P3 & P4 & P5).
    destruct I as [A B C D E F]. unfold started, succeeded, failed, ended in *. constructor; unfold started, succeeded, failed, ended in *; rewrite ?P1, ?P2, ?P3, ?P4, ?P5; auto.
    + destruct C as (done & C1 & C2 & C3). exists (done ++ [i]). split; [rewrite C1, Hw, <- app_assoc; reflexivity|].
      split; [destruct r; cbn [wrap m_wrapped]; rewrite map_app, C2; reflexivity|].
      destruct r as [v|e]; cbn [wrap m_unhandled]; destruct (m_unhandled s) as [u|].
      * destruct C3 as (l1 & j & l2 & C3 & C4 & C5). exists l1, j, (l2 ++ [i]). split; [rewrite C3, <- app_assoc; reflexivity|auto].
      * intros j Hj. apply in_app_or in Hj as [Hj|[<-|[]]]; [auto|eauto].
      * destruct C3 as (l1 & j & l2 & C3 & C4 & C5). exists l1, j, (l2 ++ [i]). split; [rewrite C3, <- app_assoc; reflexivity|auto].
      * exists done, i, []. split; [reflexivity|]. split; [exact Hr|exact C3].
    + intros j x Hx. destruct r as [v|e]; cbn [wrap m_wrapped] in Hx; apply in_app_or in Hx as [Hx|[Hx|[]]]; auto; injection Hx as <- <-; eauto.
  - apply loop_inv; auto.
  - destruct I as [A B C D E F]. constructor; auto; [|discriminate]. intros _ k Hk. destruct (A ltac:(rewrite Hp; exact Logic.I) k Hk) as [H|[H|H]]; auto.
    + rewrite Hl in H. apply in_app_or in H as [H|[<-|[]]]; [left; exact H|right; left; reflexivity].
    + rewrite Hp in H. destruct H.
  - apply loop_inv; auto. right. right. exists i. split; [exact Hp|exists v; exact Hv].
  - apply same_inv; [exact I|intros []|]. intros e' [= <-]. exists i. exact He.
  - apply after_inv; auto.
  - apply same_inv; [exact I|intros []|discriminate].
Qed.
Lemma reachable_inv all s : reachable all s -> minv s.
Proof.
  unfold reachable. intros R. assert (G : minv start_state -> minv s); [|apply G; exact start_inv].
  induction R as [|x y z H R IH]; intros I; [exact I|]. apply IH. eapply step_inv; eauto.
Qed.

Lemma returns_empty all s s' : mstep all s s' -> m_phase s <> PReturned -> m_phase s' = PReturned -> m_rpcs s' = [].
Proof.
  intros H N E. destruct H as [s|s i r Hi|s i wake r Hw Hr|s Hp|s l i Hp Hl|s i v Hp Hv|s i e Hp He|s Hp|s e Hp];
    try (cbn in E; congruence); try (destruct r; cbn in E; congruence).
  all: unfold loop_top, after_tasks in *; destruct (m_rpcs s) eqn:Er; cbn in E; try discriminate; try exact Er.
  all: destruct (m_unhandled s); cbn in E; try discriminate; destruct all; cbn in E; try discriminate; exact Er.
Qed.
Lemma wait_ok all s s' : reachable all s -> mstep all s s' -> m_phase s <> PReturned -> m_phase s' = PReturned ->
  forall i, started s' i -> succeeded s' i.
Proof.
  intros R H N E i Hi. pose proof (step_inv all s s' (reachable_inv all s R) H) as I.
  destruct (i_cover s' I) with (i := i) as [K|[K|K]]; auto; [rewrite E; exact Logic.I| |].
  - rewrite (returns_empty all s s' H N E) in K. contradiction.
  - rewrite E in K. destruct K.
Qed.
Lemma raised_ok all s e : reachable all s -> m_phase s = PRaised e -> exists i, failed s i e.
Proof. intros R. apply i_raised. eapply reachable_inv; eauto. Qed.
Lemma unhandled_ok all s : reachable all s ->
  (forall e, m_unhandled s = Some e -> exists i, first_failure s i e) /\
  (m_unhandled s = None -> m_wake s = [] -> forall i e, ~ failed s i e).
Proof.
  intros R. destruct (reachable_inv all s R) as [A B C D E F]. destruct C as (done & C1 & C2 & C3). split.
  - intros e U. rewrite U in C3. destruct C3 as (l1 & i & l2 & -> & C4 & C5). exists i. split; [exact C4|]. exists l1, (l2 ++ m_wake s). split; [rewrite C1, <- app_assoc; reflexivity|exact C5].
  - intros U W i e H. rewrite U in C3. rewrite W, app_nil_r in C1. destruct (C3 i) as [v Hv]; [rewrite <- C1; apply B; eauto|]. unfold failed, ended in *. congruence.
Qed.
Lemma unhandled_stays all s s' e : mstep all s s' -> m_unhandled s = Some e -> m_unhandled s' = Some e.
Proof.
  intros H U. destruct H as [s|s i r Hi|s i wake r Hw Hr|s Hp|s l i Hp Hl|s i v Hp Hv|s i e0 Hp He|s Hp|s e0 Hp]; try exact U.
  - destruct r; simpl; rewrite U; reflexivity.
  - unfold loop_top, after_tasks. destruct (m_rpcs s); cbn; [|exact U]. rewrite U. cbn. exact U.
  - unfold loop_top, after_tasks. destruct (m_rpcs s); cbn; [|exact U]. rewrite U. cbn. exact U.
  - unfold after_tasks. destruct (m_rpcs s); exact U.
Qed.
Lemma wrapped_ok all s i r : reachable all s -> In (i, r) (m_wrapped s) ->
  (exists v, ended s i (Ok v) /\ r = (Some v, None)) \/ (exists e, ended s i (Err e) /\ r = (None, Some e)).
Proof. intros R. apply i_wrapped. eapply reachable_inv; eauto. Qed.
