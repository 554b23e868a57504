(** Proofs about commands that work on one stack at the same time. *)
From Verif Require Import Base Model_Lock Spec_Lock.
From Verif Require Spec_Cmd.
From Coq Require Import Lia.
Open Scope list_scope.
Ltac inv H := inversion H; subst; clear H.

Section Proofs.
  Context {D : Type} (run : nat -> D -> list D).

  Lemma at_move (w : world D) i p j : w_at (move w i p) j = if Nat.eqb j i then p else w_at w j.
  Proof using. reflexivity. Qed.
  Lemma at_moved (w : world D) i p : w_at (move w i p) i = p.
  Proof using. rewrite at_move. now rewrite Nat.eqb_refl. Qed.
  Lemma at_other (w : world D) i p j : j <> i -> w_at (move w i p) j = w_at w j.
  Proof using. intros N. rewrite at_move. now destruct (Nat.eqb_spec j i). Qed.
  Lemma others_false (w : world D) i j : others w i = false -> In j (w_locks w) -> j = i.
  Proof using.
    unfold others. intros H I. destruct (Nat.eqb_spec j i) as [|N]; [assumption|exfalso].
    assert (existsb (fun j => negb (Nat.eqb j i)) (w_locks w) = true); [|congruence]. apply existsb_exists. exists j. split; [exact I|].
    now destruct (Nat.eqb_spec j i).
  Qed.

  (** Has a lock file. *)
  Definition marked (p : place D) : Prop := match p with Marked | Backing _ | Holding | Working _ _ _ | Leaving _ => True | _ => False end.
  Record safe (w : world D) : Prop := {
    sf_marked : forall i, marked (w_at w i) -> In i (w_locks w);
    sf_alone : forall i j, at_work (w_at w i) -> at_work (w_at w j) -> i = j
  }.
  Lemma work_marked (p : place D) : at_work p -> marked p.
  Proof using. destruct p; cbn; auto. Qed.

  (** A step of [i] changes its place, and maybe its lock and the state. *)
  Lemma safe_move (w w' : world D) i p : safe w -> (forall j, j <> i -> In j (w_locks w) -> In j (w_locks w')) -> (forall j, w_at w' j = w_at w j) ->
    (marked p -> In i (w_locks w')) -> (at_work p -> at_work (w_at w i) \/ forall j, j <> i -> ~ In j (w_locks w)) -> safe (move w' i p).
  Proof using.
    intros [M A] L E P W. split.
    - intros j. rewrite at_move. destruct (Nat.eqb_spec j i) as [->|N]; [exact P|]. rewrite E. intros H. apply L; auto.
    - assert (K : forall j, j <> i -> at_work p -> ~ at_work (w_at w j)).
      { intros j N Hp Hj. destruct (W Hp) as [Hi|Hn]; [now apply N, A|]. apply (Hn j N). apply M. now apply work_marked. }
      intros j k. rewrite !at_move, !E. destruct (Nat.eqb_spec j i) as [->|Nj], (Nat.eqb_spec k i) as [->|Nk]; auto.
      + intros H1 H2. exfalso. eapply K; eauto.
      + intros H1 H2. exfalso. eapply K; eauto.
  Qed.
  Lemma keep_others (w : world D) i j : j <> i -> In j (w_locks w) -> In j (w_locks (delete_lock w i)).
  Proof using. intros N I. cbn. apply filter_In. split; [exact I|]. now destruct (Nat.eqb_spec j i). Qed.
  Lemma safe_go w i r : safe w -> safe (go run w i r).
  Proof using.
    intros S. pose proof S as [M A]. unfold go. specialize (M i). destruct (w_at w i) eqn:E; cbn in M.
    - destruct r; [destruct (others w i)|]; apply (safe_move w); cbn; auto; contradiction.
    - destruct r as [|[]]; apply (safe_move w); cbn; auto; contradiction.
    - destruct r; [destruct (others w i) eqn:O|]; apply (safe_move w); cbn; auto; try contradiction.
      intros _. right. intros j N I. apply N. eapply others_false; eauto.
    - destruct (performed r); apply (safe_move w); cbn; auto; try contradiction. intros j N I. now apply keep_others.
    - destruct r; apply (safe_move w); cbn; auto; intros _; left; rewrite E; exact I.
    - destruct rest as [|d rest]; [|destruct r as [|[]]]; apply (safe_move w); cbn; auto; intros _; left; rewrite E; exact I.
    - destruct (performed r); apply (safe_move w); cbn; auto; try contradiction. intros j N I. now apply keep_others.
    - exact S.
    - exact S.
  Qed.
  Lemma safe_step w e : (forall i, e <> Cancel i) -> safe w -> safe (step run w e).
  Proof using.
    intros C S. destruct e as [i r|i|i|i]; cbn [step]; [now apply safe_go| | |now destruct (C i)].
    - destruct (w_at w i) eqn:E; try exact S. apply (safe_move w); cbn; auto.
      + intros _. apply (sf_marked _ S). rewrite E. exact I.
      + intros _. left. rewrite E. exact I.
    - destruct (w_at w i) eqn:E; try exact S; apply (safe_move w); cbn; auto; contradiction.
  Qed.
  Lemma safe_start d : safe (before_all d).
  Proof using. split; cbn; contradiction. Qed.
  Lemma no_cancel_cons e es : no_cancel (e :: es) -> (forall i, e <> Cancel i) /\ no_cancel es.
  Proof using. intros H. split; [intros i ->; apply (H i); now left|intros i I; apply (H i); now right]. Qed.
  Lemma safe_execute es : forall w, no_cancel es -> safe w -> safe (execute run w es).
  Proof using.
    induction es as [|e es IH]; cbn; intros w C S; [exact S|]. apply no_cancel_cons in C as [C1 C2]. apply IH; [exact C2|]. now apply safe_step.
  Qed.

  (** One after another. *)
  Lemma prefix_refl (l : list D) : prefix_of l l.
  Proof using. induction l; constructor; auto. Qed.
  Lemma prefix_app (l m : list D) : prefix_of l (l ++ m).
  Proof using. induction l; cbn; constructor; auto. Qed.
  Lemma last_snoc (l : list D) x d : List.last (l ++ [x]) d = x.
  Proof using. induction l as [|a l IH]; [reflexivity|]. cbn. rewrite IH. destruct (l ++ [x]) eqn:E; [destruct l; discriminate|reflexivity]. Qed.

  Record tells (d0 : D) (w : world D) (h : list (command D)) : Prop := {
    te_state : exists d, serial run d0 h d /\
      ((w_state w = d /\ forall i read saved rest, w_at w i <> Working read saved rest) \/
       (exists i saved rest, w_at w i = Working d saved rest /\ w_state w = List.last saved d /\ saved ++ rest = run i d /\
          forall j read s r, w_at w j = Working read s r -> j = i));
    te_once : NoDup (map number h);
    te_over : forall i, In i (map number h) -> match w_at w i with Leaving o | Ended o => o <> LockedOut | Crashed => True | _ => False end;
    te_completed : forall i, w_at w i = Ended Completed \/ w_at w i = Leaving Completed -> exists d, In (i, d, run i d) h;
    te_locked_out : forall i o, w_at w i = Leaving o -> o <> LockedOut;
    te_backing : forall i o, w_at w i = Backing o -> o <> Completed
  }.
  Lemma tells_explains d0 w h : tells d0 w h -> explains run d0 w h.
  Proof using.
    intros [S N O C L B]. split; auto. intros i E I. apply O in I. rewrite E in I. now apply I.
  Qed.
  (** Moves that leave the state alone, of those not working, to places without work. *)
  Definition idle (p : place D) : Prop := match p with Working _ _ _ => False | _ => True end.
  Lemma tells_move d0 w w' h i p : tells d0 w h -> w_state w' = w_state w -> (forall j, w_at w' j = w_at w j) -> idle (w_at w i) -> idle p ->
    (In i (map number h) -> match p with Leaving o | Ended o => o <> LockedOut | Crashed => True | _ => False end) ->
    (p = Ended Completed \/ p = Leaving Completed -> w_at w i = Ended Completed \/ w_at w i = Leaving Completed) ->
    (forall o, p = Leaving o -> o <> LockedOut) -> (forall o, p = Backing o -> o <> Completed) -> tells d0 (move w' i p) h.
  Proof using.
    intros [S N O C L B] Es Ea Ii Ip Po Pc Pl Pb.
    assert (K : forall j read s r, w_at (move w' i p) j = Working read s r -> w_at w j = Working read s r).
    { intros j read s r. rewrite at_move, Ea. destruct (Nat.eqb_spec j i) as [->|]; [|auto]. intros ->. contradiction. }
    split.
    - destruct S as (d & Sd & S). exists d. split; [exact Sd|]. destruct S as [[E1 E2]|(k & saved & rest & E1 & E2 & E3 & E4)].
      + left. split; [cbn; congruence|]. intros j read s r Ej. eapply E2. eapply K. exact Ej.
      + right. exists k, saved, rest. split; [|split; [cbn; congruence|split; [exact E3|intros j read s r Ej; eapply E4; eapply K; exact Ej]]].
        rewrite at_move, Ea. destruct (Nat.eqb_spec k i) as [->|]; [rewrite E1 in Ii; contradiction|exact E1].
    - exact N.
    - intros j I. rewrite at_move, Ea. destruct (Nat.eqb_spec j i) as [->|]; [exact (Po I)|exact (O j I)].
    - intros j. rewrite at_move, Ea. destruct (Nat.eqb_spec j i) as [->|]; auto.
    - intros j o. rewrite at_move, Ea. destruct (Nat.eqb_spec j i) as [->|]; auto. apply L.
    - intros j o. rewrite at_move, Ea. destruct (Nat.eqb_spec j i) as [->|]; auto. apply B.
  Qed.
  (** A command stops working. *)
  Lemma tells_stop d0 w w' h i d saved rest more p : safe w -> tells d0 w h -> w_at w i = Working d saved rest -> prefix_of more rest ->
    w_state w' = List.last (saved ++ more) d -> (forall j, w_at w' j = w_at w j) ->
    match p with Leaving Completed => more = rest | Leaving Failed | Crashed => True | _ => False end ->
    exists h', tells d0 (move w' i p) (h ++ h').
  Proof using.
    intros Sf [S N O C L B] Ei Pr Es Ea Pp. destruct S as (d1 & Sd & S). destruct S as [[_ S]|(k & saved1 & rest1 & E1 & E2 & E3 & E4)]; [now destruct (S i d saved rest)|].
    assert (k = i) by (symmetry; eapply E4; eauto). subst k. rewrite Ei in E1. injection E1 as <- <- <-. exists [(i, d, saved ++ more)].
    assert (Ni : ~ In i (map number h)). { intros I. apply O in I. now rewrite Ei in I. }
    assert (Ip : idle p) by (destruct p; cbn; auto; contradiction).
    split.
    - exists (List.last (saved ++ more) d). split.
      + constructor; [exact Sd|]. rewrite <- E3. clear -Pr. induction saved; cbn; [exact Pr|now constructor].
      + left. split; [exact Es|]. intros j read s r. rewrite at_move, Ea. destruct (Nat.eqb_spec j i) as [->|Nj]; [intros ->; contradiction|].
        intros Ej. apply Nj. eapply E4. eauto.
    - rewrite map_app. change (map number [(i, d, saved ++ more)]) with [i]. clear -N Ni. induction (map number h) as [|x l IH]; cbn; [constructor; [intros []|constructor]|].
      inv N. constructor; [|apply IH; [assumption|intros I; apply Ni; now right]]. intros I. apply in_app_or in I as [I|[<-|[]]]; [contradiction|]. apply Ni. now left.
    - intros j I. rewrite map_app in I. rewrite at_move, Ea. apply in_app_or in I. destruct (Nat.eqb_spec j i) as [->|Nj].
      + destruct p as [| | |o| | |[]|o|]; try contradiction; try discriminate; exact Logic.I.
      + destruct I as [I|[I|[]]]; [now apply O|]. unfold number in I. cbn in I. congruence.
    - intros j. rewrite at_move, Ea. destruct (Nat.eqb_spec j i) as [->|Nj].
      + intros H. exists d. apply in_or_app. right. left. destruct p as [| | |o| | |[]|o|]; try contradiction; destruct H; try discriminate. subst more. now rewrite E3.
      + intros H. destruct (C j H) as [d' I]. exists d'. apply in_or_app. now left.
    - intros j o. rewrite at_move, Ea. destruct (Nat.eqb_spec j i) as [->|Nj]; [|apply L]. intros ->. destruct o; [discriminate|discriminate|contradiction].
    - intros j o. rewrite at_move, Ea. destruct (Nat.eqb_spec j i) as [->|Nj]; [|apply B]. intros ->. contradiction.
  Qed.
  Lemma not_over d0 w h i : tells d0 w h -> match w_at w i with Leaving o | Ended o => False | Crashed => False | _ => True end -> ~ In i (map number h).
  Proof using. intros T E I. apply (te_over _ _ _ T) in I. destruct (w_at w i); contradiction. Qed.
  Lemma tells_go d0 w h i r : safe w -> tells d0 w h -> exists h', tells d0 (go run w i r) (h ++ h').
  Proof using.
    intros Sf T. pose proof (not_over d0 w h i T) as No. unfold go. destruct (w_at w i) eqn:E; cbn in No.
    - exists []. rewrite app_nil_r. destruct r; [destruct (others w i)|]; apply (tells_move d0 w); cbn; rewrite ?E; cbn; auto;
        try (intros I; now destruct (No Logic.I I)); try discriminate; intros [H|H]; discriminate.
    - exists []. rewrite app_nil_r. destruct r as [|[]]; apply (tells_move d0 w); cbn; rewrite ?E; cbn; auto;
        try (intros I; now destruct (No Logic.I I)); try discriminate; intros [H|H]; discriminate.
    - exists []. rewrite app_nil_r. destruct r; [destruct (others w i)|]; apply (tells_move d0 w); cbn; rewrite ?E; cbn; auto;
        try (intros I; now destruct (No Logic.I I)); try discriminate; try (intros [H|H]; discriminate); intros o [= <-]; discriminate.
    - exists []. rewrite app_nil_r. pose proof (te_backing _ _ _ T i _ E) as Bo. destruct (performed r); apply (tells_move d0 w); cbn; rewrite ?E; cbn; auto;
        try (intros I; now destruct (No Logic.I I)); try discriminate; (intros [H|H]; [injection H as ->; contradiction|discriminate]).
    - exists []. rewrite app_nil_r. destruct r as [|b].
      + (* reads the state *)
        destruct T as [S N O C L B]. split.
        * destruct S as (d & Sd & S). destruct S as [[E1 E2]|(k & saved & rest & E1 & E2 & E3 & E4)].
          -- exists d. split; [exact Sd|]. right. exists i, [], (run i d). rewrite at_moved. cbn. rewrite E1. repeat split; auto.
             intros j read s r. destruct (Nat.eqb_spec j i) as [->|Nj]; [auto|]. intros Ej. now destruct (E2 j read s r).
          -- exfalso. assert (k = i); [|congruence]. apply (sf_alone _ Sf); [rewrite E1|rewrite E]; exact I.
        * exact N.
        * intros j I. rewrite at_move. destruct (Nat.eqb_spec j i) as [->|]; [now destruct (No Logic.I I)|now apply O].
        * intros j. rewrite at_move. destruct (Nat.eqb_spec j i) as [->|]; [intros [H|H]; discriminate|apply C].
        * intros j o. rewrite at_move. destruct (Nat.eqb_spec j i) as [->|]; [discriminate|apply L].
        * intros j o. rewrite at_move. destruct (Nat.eqb_spec j i) as [->|]; [discriminate|apply B].
      + apply (tells_move d0 w); cbn; rewrite ?E; cbn; auto; try (intros I; now destruct (No Logic.I I)); try discriminate; [intros [H|H]; discriminate|intros o [= <-]; discriminate].
    - assert (Ew : w_state w = List.last saved read /\ saved ++ rest = run i read).
      { destruct (te_state _ _ _ T) as (d & _ & [[_ H]|(k & s & r' & E1 & E2 & E3 & E4)]); [now destruct (H i read saved rest)|].
        assert (i = k) by (eapply E4; eauto). subst k. rewrite E in E1. injection E1 as -> -> ->. auto. }
      destruct Ew as [Ew Er]. destruct rest as [|d rest].
      + apply (tells_stop d0 w w h i read saved [] [] (Leaving Completed)); auto; [constructor|now rewrite app_nil_r].
      + destruct r as [|[]].
        * exists []. rewrite app_nil_r. destruct T as [S N O C L B]. split.
          -- destruct S as (d1 & Sd & [[_ H]|(k & s & r' & E1 & E2 & E3 & E4)]); [now destruct (H i read saved (d :: rest))|].
             assert (i = k) by (eapply E4; eauto). subst k. rewrite E in E1. injection E1 as <- <- <-. exists read. split; [exact Sd|]. right.
             exists i, (saved ++ [d]), rest. rewrite at_moved. split; [reflexivity|]. split; [cbn; now rewrite last_snoc|]. split; [now rewrite <- app_assoc|].
             intros j read' s r. rewrite at_move. destruct (Nat.eqb_spec j i) as [->|]; [auto|]. intros Ej. eapply E4. exact Ej.
          -- exact N.
          -- intros j I. rewrite at_move. destruct (Nat.eqb_spec j i) as [->|]; [apply O in I; now rewrite E in I|now apply O].
          -- intros j. rewrite at_move. destruct (Nat.eqb_spec j i) as [->|]; [intros [H|H]; discriminate|apply C].
          -- intros j o. rewrite at_move. destruct (Nat.eqb_spec j i) as [->|]; [discriminate|apply L].
          -- intros j o. rewrite at_move. destruct (Nat.eqb_spec j i) as [->|]; [discriminate|apply B].
        * apply (tells_stop d0 w (with_state w d) h i read saved (d :: rest) [d] (Leaving Failed)); auto; [repeat constructor|cbn; now rewrite last_snoc].
        * apply (tells_stop d0 w w h i read saved (d :: rest) [] (Leaving Failed)); auto; [constructor|now rewrite app_nil_r].
    - exists []. rewrite app_nil_r. pose proof (te_locked_out _ _ _ T i _ E) as Lo. destruct (performed r); apply (tells_move d0 w); cbn; rewrite ?E; cbn; auto; try discriminate;
        (intros [H|H]; [injection H as ->; auto|discriminate]).
    - exists []. now rewrite app_nil_r.
    - exists []. now rewrite app_nil_r.
  Qed.
  Lemma tells_step d0 w h e : (forall i, e <> Cancel i) -> safe w -> tells d0 w h -> exists h', tells d0 (step run w e) (h ++ h').
  Proof using.
    intros Ce Sf T. destruct e as [i r|i|i|i]; cbn [step]; [now apply tells_go| | |now destruct (Ce i)].
    - pose proof (not_over d0 w h i T) as No. destruct (w_at w i) eqn:E; try (exists []; rewrite app_nil_r; exact T).
      assert (Ew : w_state w = List.last saved read).
      { destruct (te_state _ _ _ T) as (d & _ & [[_ H]|(k & s & r' & E1 & E2 & E3 & E4)]); [now destruct (H i read saved rest)|].
        assert (i = k) by (eapply E4; eauto). subst k. rewrite E in E1. injection E1 as -> -> ->. auto. }
      apply (tells_stop d0 w w h i read saved rest [] (Leaving Failed)); auto; [constructor|now rewrite app_nil_r].
    - destruct (w_at w i) eqn:E.
      6:{ assert (Ew : w_state w = List.last saved read).
          { destruct (te_state _ _ _ T) as (d & _ & [[_ H]|(k & s & r' & E1 & E2 & E3 & E4)]); [now destruct (H i read saved rest)|].
            assert (i = k) by (eapply E4; eauto). subst k. rewrite E in E1. injection E1 as -> -> ->. auto. }
          apply (tells_stop d0 w w h i read saved rest [] Crashed); auto; [constructor|now rewrite app_nil_r]. }
      7:{ exists []. now rewrite app_nil_r. }
      all: exists []; rewrite app_nil_r; apply (tells_move d0 w); cbn; rewrite ?E; cbn; auto; try discriminate; intros [H|H]; discriminate.
  Qed.
  Lemma tells_execute d0 es : forall w h, no_cancel es -> safe w -> tells d0 w h -> exists h', tells d0 (execute run w es) (h ++ h').
  Proof using.
    induction es as [|e es IH]; cbn; intros w h C S T; [exists []; now rewrite app_nil_r|]. apply no_cancel_cons in C as [C1 C2].
    destruct (tells_step d0 w h e C1 S T) as [h1 T1]. destruct (IH _ _ C2 (safe_step _ _ C1 S) T1) as [h2 T2]. exists (h1 ++ h2). now rewrite app_assoc.
  Qed.
  Lemma tells_start d0 : tells d0 (before_all d0) [].
  Proof using.
    split; cbn; try contradiction; try discriminate; [|constructor|intros i [H|H]; discriminate]. exists d0. split; [constructor|]. left. split; [reflexivity|discriminate].
  Qed.
  Lemma execute_app es1 : forall w es2, execute run w (es1 ++ es2) = execute run (execute run w es1) es2.
  Proof using. induction es1; cbn; auto. Qed.

  (** Who worked is not locked out. *)
  Definition committed (p : place D) : Prop :=
    match p with Working _ _ _ | Crashed => True | Leaving o | Ended o => o <> LockedOut | _ => False end.
  Lemma committed_step w e i : committed (w_at w i) -> committed (w_at (step run w e) i).
  Proof using.
    intros H. destruct e as [j r|j|j|j]; cbn [step].
    - unfold go. destruct (Nat.eq_dec i j) as [<-|N].
      + destruct (w_at w i) eqn:E; cbn in H; try contradiction.
        * destruct rest as [|d rest]; [|destruct r as [|[]]]; rewrite at_moved; cbn; auto; discriminate.
        * destruct (performed r); rewrite at_moved; exact H.
        * rewrite E. exact H.
        * rewrite E. exact H.
      + assert (K : w_at (go run w j r) i = w_at w i); [|unfold go in K; rewrite K; exact H].
        unfold go. destruct (w_at w j) as [| | |o| |a b [|d l]|o|o|]; try reflexivity; destruct r as [|[]]; cbn [performed]; try reflexivity; now rewrite at_other.
    - destruct (w_at w j) eqn:E; auto. rewrite at_move. destruct (Nat.eqb i j); cbn; [discriminate|exact H].
    - destruct (w_at w j) eqn:E; auto; rewrite at_move; destruct (Nat.eqb i j); cbn; auto.
    - exact H.
  Qed.
  Lemma committed_execute es : forall w i, committed (w_at w i) -> committed (w_at (execute run w es) i).
  Proof using. induction es; cbn; auto using committed_step. Qed.
  Lemma go_state w i r : w_state (go run w i r) = w_state w \/ committed (w_at (go run w i r) i).
  Proof using.
    unfold go. destruct (w_at w i) as [| | |o| |a b [|d l]|o|o|]; destruct r as [|[]]; cbn [performed]; try (left; reflexivity);
      right; rewrite at_moved; cbn; auto; discriminate.
  Qed.

  (** Without failures nothing is left. *)
  Definition smooth (e : event) : Prop := match e with Go _ Fine | Quit _ => True | _ => False end.
  Lemma clean_step w e : smooth e -> (forall i, In i (w_locks w) -> marked (w_at w i)) -> forall i, In i (w_locks (step run w e)) -> marked (w_at (step run w e) i).
  Proof using.
    intros S H i. destruct e as [j [|]|j|j|j]; cbn in S; try contradiction; cbn [step].
    - unfold go. pose proof (H j) as Hj. destruct (w_at w j) as [| | |o| |a b [|d l]|o|o|] eqn:E; cbn [performed];
        try (rewrite E in *); rewrite ?at_move; cbn [move write_lock delete_lock with_locks with_state w_locks w_at];
        try (destruct (others w j)); destruct (Nat.eqb_spec i j) as [->|N]; cbn; auto; rewrite ?E; auto;
        try (intros [->|I]; [contradiction|auto]); try (rewrite filter_In; intros [I F]; auto; rewrite Nat.eqb_refl in F; discriminate);
        intros I; apply H in I; rewrite ?E in I; exact I.
    - pose proof (H j) as Hj. destruct (w_at w j) eqn:E; auto. rewrite at_move. cbn. destruct (Nat.eqb_spec i j) as [->|N]; cbn; auto.
  Qed.
  Lemma clean_execute es : forall w, Forall smooth es -> (forall i, In i (w_locks w) -> marked (w_at w i)) -> forall i, In i (w_locks (execute run w es)) -> marked (w_at (execute run w es) i).
  Proof using. induction es; cbn; intros w F H; [exact H|]. inv F. apply IHes; [assumption|]. now apply clean_step. Qed.

  (** Alone. *)
  Lemma execute_work i rest : forall w read saved, w_at w i = Working read saved rest -> List.last saved read = w_state w -> w_locks w = [i] ->
    let w' := execute run w (repeat (Go i Fine) (List.length rest + 2)) in
    w_at w' i = Ended Completed /\ w_state w' = List.last (saved ++ rest) read /\ w_locks w' = [] /\ forall j, j <> i -> w_at w' j = w_at w j.
  Proof using.
    induction rest as [|d rest IH]; intros w read saved E L K.
    - cbn [List.length plus repeat execute step].
      assert (S1 : go run w i Fine = move w i (Leaving Completed)) by (unfold go; now rewrite E).
      assert (S2 : go run (move w i (Leaving Completed)) i Fine = move (delete_lock (move w i (Leaving Completed)) i) i (Ended Completed)) by (unfold go; now rewrite at_moved).
      rewrite S1, S2. rewrite at_moved, app_nil_r. split; [reflexivity|]. split; [cbn; now rewrite L|]. split; [cbn; now rewrite K; cbn; rewrite Nat.eqb_refl|].
      intros j N. rewrite at_other by exact N. cbn. now destruct (Nat.eqb_spec j i).
    - cbn [List.length plus repeat execute step]. unfold go. rewrite E.
      specialize (IH (move (with_state w d) i (Working read (saved ++ [d]) rest)) read (saved ++ [d])). rewrite at_moved in IH.
      destruct (IH eq_refl) as (A & B & C & F); [now rewrite last_snoc|exact K|]. cbn zeta. split; [exact A|]. split; [rewrite B; now rewrite <- app_assoc|]. split; [exact C|].
      intros j N. rewrite (F j N). now rewrite at_other.
  Qed.
  Lemma execute_alone w i : w_locks w = [] -> w_at w i = Start ->
    let w' := execute run w (repeat (Go i Fine) (List.length (run i (w_state w)) + 6)) in
    w_at w' i = Ended Completed /\ w_state w' = List.last (run i (w_state w)) (w_state w) /\ w_locks w' = [] /\ forall j, j <> i -> w_at w' j = w_at w j.
  Proof using.
    intros K E. replace (List.length (run i (w_state w)) + 6) with (4 + (List.length (run i (w_state w)) + 2)) by lia. rewrite repeat_app, execute_app. cbn zeta.
    set (w4 := execute run w (repeat (Go i Fine) 4)).
    assert (E4 : w_at w4 i = Working (w_state w) [] (run i (w_state w)) /\ w_state w4 = w_state w /\ w_locks w4 = [i] /\ forall j, j <> i -> w_at w4 j = w_at w j).
    { assert (O : others w i = false) by (unfold others; now rewrite K).
      assert (S1 : go run w i Fine = move w i Checked) by (unfold go; now rewrite E, O).
      assert (S2 : go run (move w i Checked) i Fine = move (write_lock (move w i Checked) i) i Marked) by (unfold go; now rewrite at_moved).
      set (w2 := move (write_lock (move w i Checked) i) i Marked) in *.
      assert (S3 : go run w2 i Fine = move w2 i Holding).
      { unfold go. unfold w2 at 1. rewrite at_moved. assert (others w2 i = false) as -> by (unfold others, w2; cbn; now rewrite K, Nat.eqb_refl). reflexivity. }
      assert (S4 : go run (move w2 i Holding) i Fine = move (move w2 i Holding) i (Working (w_state w) [] (run i (w_state w)))) by (unfold go; now rewrite at_moved).
      subst w4. cbn [repeat execute step]. rewrite S1, S2, S3, S4. rewrite at_moved. split; [reflexivity|]. split; [reflexivity|]. split; [cbn; now rewrite K|].
      intros j N. rewrite !at_other by exact N. unfold w2. rewrite at_other by exact N. cbn. now destruct (Nat.eqb_spec j i). }
    destruct E4 as (A & B & C & F). destruct (execute_work i (run i (w_state w)) w4 (w_state w) [] A) as (A' & B' & C' & F'); [now rewrite B|exact C|].
    split; [exact A'|]. split; [exact B'|]. split; [exact C'|]. intros j N. rewrite (F' j N). auto.
  Qed.
End Proofs.

(** The message. *)
Lemma has_char_app c a b : Spec_Cmd.has_char c (a ++ b)%string <-> Spec_Cmd.has_char c a \/ Spec_Cmd.has_char c b.
Proof. induction a as [|x a IH]; cbn; [tauto|]. rewrite IH. tauto. Qed.
Lemma usual_app a b : usual a -> usual b -> usual (a ++ b)%string.
Proof. unfold usual. rewrite has_char_app. tauto. Qed.
Lemma usual_conflict s : usual s -> ~ Spec_Cmd.says_conflict s.
Proof. intros U (a & b & ->). apply U. rewrite !has_char_app. right. left. now left. Qed.
Ltac usually := repeat apply usual_app; auto; try (let X := fresh in intros X; vm_compute in X; repeat (destruct X as [X|X]; [discriminate|]); contradiction).
Lemma usual_error number url locks : usual number -> usual url -> Forall usual_lock locks -> usual (lock_error number url locks).
Proof.
  intros Un Uu Ul. assert (L : usual (String.concat "" (map (lock_line url) locks))).
  { induction Ul as [|k locks (K1 & K2 & K3 & K4 & K5) Ul IH]; [intros []|]. cbn [map String.concat].
    assert (usual (lock_line url k)) by (unfold lock_line; usually). destruct (map (lock_line url) locks); [assumption|]. usually. }
  unfold lock_error, lock_message. usually.
Qed.
