(** Proofs about saving states. *)
From Verif Require Import Base Model_Lock Model_Save Spec_Save.
From Coq Require Import Lia.
Open Scope string_scope.
Open Scope list_scope.

Lemma sapp_nil_r (s : string) : (s ++ "")%string = s.
Proof. induction s; cbn; congruence. Qed.
Lemma sapp_inj (s a b : string) : (s ++ a)%string = (s ++ b)%string -> a = b.
Proof. induction s; cbn; [auto|]. intros [= H]. auto. Qed.
Lemma sapp_assoc (a b c : string) : ((a ++ b) ++ c = a ++ (b ++ c))%string.
Proof. induction a; cbn; [reflexivity|]. now f_equal. Qed.
Lemma sapp_ne (s a : string) : a <> "" -> (s ++ a)%string <> s.
Proof. intros N H. apply N. apply (sapp_inj s). now rewrite sapp_nil_r. Qed.

Section Save.
  Context {D : Type} (path : string).
  Notation gz := (path ++ ".gz")%string.
  Definition target (gzip : bool) : string := if gzip then gz else path.
  Definition other (gzip : bool) : string := if gzip then path else gz.
  Definition bak (key : string) : Prop := key = (path ++ ".bak")%string \/ key = (gz ++ ".bak")%string.
  Lemma target_other gzip : target gzip <> other gzip.
  Proof using. destruct gzip; cbn; [|intros E; symmetry in E; revert E]; now apply sapp_ne. Qed.
  Lemma bak_not key gzip : bak key -> key <> target gzip /\ key <> other gzip.
  Proof using.
    assert (A : (path ++ ".bak")%string <> path) by now apply sapp_ne.
    assert (B : (path ++ ".bak")%string <> gz) by (intros E; apply sapp_inj in E; discriminate).
    assert (C : (gz ++ ".bak")%string <> path) by (rewrite sapp_assoc; now apply sapp_ne).
    assert (E : (gz ++ ".bak")%string <> gz) by now apply sapp_ne.
    intros [-> | ->]; destruct gzip; cbn; auto.
  Qed.
  (** What saving does. *)
  Definition mild (gzip : bool) (d : D) (o : op D) : Prop :=
    match o with Copy dst _ => bak dst | Delete key => key = other gzip | Write key d' => key = target gzip /\ d' = d end.
  Lemma save_mild r clock gzip (d : D) : Forall (fun x => mild gzip d (fst (fst x)) /\ exists i, snd x = clock i) (save_stack path r clock gzip d).
  Proof using.
    unfold save_stack, backup_target, at_step. apply Forall_app. split; [|apply Forall_app; split].
    - constructor; [split; [right; reflexivity|cbn; eauto]|]. destruct gzip; [constructor|]. constructor; [|constructor]. split; [reflexivity|cbn; eauto].
    - constructor; [split; [left; reflexivity|cbn; eauto]|]. destruct gzip; [|constructor]. constructor; [|constructor]. split; [reflexivity|cbn; eauto].
    - cut (forall n i, Forall (fun x => mild gzip d (fst (fst x)) /\ exists i, snd x = clock i) (attempts r clock i (Write (if gzip then gzip_path path else path) d) n)); [intros H; apply H|].
      intros n. induction n as [|n IH]; intros i; cbn [attempts]; [constructor|]. constructor.
      + unfold at_step. split; [destruct gzip; now split|cbn; eauto].
      + destruct (r i); [constructor|exact (IH (S i))].
  Qed.
  Definition along (gzip : bool) (d : D) (b b' : bucket D) : Prop :=
    (dget b' (target gzip) = dget b (target gzip) \/ exists t, dget b' (target gzip) = Some (d, t) /\ (forall k x u, dget b k = Some (x, u) -> u < t)) /\
    (dget b' (other gzip) = dget b (other gzip) \/ dget b' (other gzip) = None).
  Lemma along_effect gzip (d : D) (b b' : bucket D) o clock i : later clock b -> mild gzip d o -> along gzip d b b' -> along gzip d b (effect b' o (clock i)).
  Proof using.
    intros L M A. destruct o as [dst src|key|key x]; cbn [effect mild] in *.
    - destruct (bak_not _ gzip M) as [N1 N2]. destruct (dget b' src) as [[x t]|]; [|exact A]. unfold along. rewrite !dget_dset.
      destruct (String.eqb_spec (target gzip) dst); [congruence|]. destruct (String.eqb_spec (other gzip) dst); [congruence|exact A].
    - subst key. destruct A as [A1 A2]. unfold along. rewrite !dget_ddel, String.eqb_refl. destruct (String.eqb_spec (target gzip) (other gzip)) as [E|]; [now apply target_other in E|]. auto.
    - destruct M as [-> ->]. destruct A as [A1 A2]. unfold along. rewrite !dget_dset, String.eqb_refl.
      destruct (String.eqb_spec (other gzip) (target gzip)) as [E|]; [symmetry in E; now apply target_other in E|]. split; [|exact A2]. right. exists (clock i). split; [reflexivity|]. intros k y u E. eapply L; eauto.
  Qed.
  Lemma along_all gzip (d : D) (b : bucket D) clock xs : later clock b -> Forall (fun x => mild gzip d (fst (fst x)) /\ exists i, snd x = clock i) xs ->
    forall b', along gzip d b b' -> along gzip d b (perform_all b' xs).
  Proof using.
    intros L F. induction F as [|[[o io] t] xs [M [i E]] F IH]; intros b' A; [exact A|]. cbn [perform_all fold_left]. apply IH. unfold perform. destruct (performed io); [|exact A].
    cbn in M, E. subst t. now apply along_effect.
  Qed.
  Lemma along_refl gzip (d : D) (b : bucket D) : along gzip d b b.
  Proof using. split; auto. Qed.
  Lemma current_eq (b : bucket D) : current path b =
    match dget b gz with
    | Some (g, t) => match dget b path with Some (p, u) => if Nat.ltb t u then Some p else Some g | None => Some g end
    | None => match dget b path with Some (p, _) => Some p | None => None end
    end.
  Proof using.
    unfold current, stack_path. fold (gzip_path path). change (gzip_path path) with gz. destruct (dget b gz) as [[g t]|] eqn:G.
    - destruct (dget b path) as [[p u]|] eqn:P; [|now rewrite G]. destruct (Nat.ltb t u); [now rewrite P|now rewrite G].
    - destruct (dget b path) as [[p u]|]; reflexivity.
  Qed.
  Lemma along_current gzip (d : D) (b b' : bucket D) : kept_as gzip path b -> along gzip d b b' -> current path b' = current path b \/ current path b' = Some d.
  Proof using.
    intros K [A B]. rewrite !current_eq. destruct gzip; cbn [target other] in *.
    - destruct K as [[K1 K2]|(g & t & K1 & K2)].
      + rewrite K1, K2 in *. destruct A as [->|(t & -> & _)]; [left; destruct B as [-> | ->]; reflexivity|right]. destruct B as [-> | ->]; reflexivity.
      + rewrite K1 in *. destruct (dget b path) as [[p u]|] eqn:P.
        * specialize (K2 _ _ eq_refl). assert (Nat.ltb t u = false) as -> by (apply Nat.ltb_ge; lia).
          destruct A as [->|(t' & -> & L)]; destruct B as [-> | ->]; auto; [left; now rewrite (proj2 (Nat.ltb_ge t u))|right].
          assert (u < t') by eauto. now rewrite (proj2 (Nat.ltb_ge t' u)) by lia.
        * destruct A as [->|(t' & -> & L)]; destruct B as [-> | ->]; auto.
    - destruct K as [[K1 K2]|(p & u & K1 & K2)].
      + rewrite K1, K2 in *. destruct A as [->|(t & -> & _)]; [left; destruct B as [-> | ->]; reflexivity|right]. destruct B as [-> | ->]; reflexivity.
      + rewrite K1 in *. destruct (dget b gz) as [[g t]|] eqn:G.
        * specialize (K2 _ _ eq_refl). assert (Nat.ltb t u = true) as -> by (apply Nat.ltb_lt; lia).
          destruct A as [->|(t' & -> & L)]; destruct B as [-> | ->]; auto; [left; now rewrite (proj2 (Nat.ltb_lt t u))|right].
          assert (t < t') by eauto. now rewrite (proj2 (Nat.ltb_lt t t')).
        * destruct A as [->|(t' & -> & L)]; destruct B as [-> | ->]; auto.
  Qed.
  Lemma new_current gzip (d : D) (b b' : bucket D) t : dget b' (target gzip) = Some (d, t) -> (forall k x u, dget b k = Some (x, u) -> u < t) ->
    (dget b' (other gzip) = dget b (other gzip) \/ dget b' (other gzip) = None) -> current path b' = Some d.
  Proof using.
    intros E L B. rewrite current_eq. destruct gzip; cbn [target other] in *; rewrite E.
    - destruct B as [-> | ->]; [|reflexivity]. destruct (dget b path) as [[p u]|] eqn:P; [|reflexivity]. assert (u < t) by eauto. now rewrite (proj2 (Nat.ltb_ge t u)) by lia.
    - destruct B as [-> | ->]; [|reflexivity]. destruct (dget b gz) as [[g u]|] eqn:G; [|reflexivity]. assert (u < t) by eauto. now rewrite (proj2 (Nat.ltb_lt u t)).
  Qed.
  Lemma perform_app (b : bucket D) xs ys : perform_all b (xs ++ ys) = perform_all (perform_all b xs) ys.
  Proof using. apply fold_left_app. Qed.
  Lemma saved_current r clock gzip (d : D) (b : bucket D) : later clock b -> succeeded (save_stack path r clock gzip d) = true ->
    current path (perform_all b (save_stack path r clock gzip d)) = Some d.
  Proof using.
    intros L S. pose proof (save_mild r clock gzip d) as F. unfold succeeded in S.
    destruct (exists_last (l := save_stack path r clock gzip d) ltac:(discriminate)) as (xs & [[o io] t] & E). rewrite E in *. rewrite last_last in S.
    destruct o as [| |key x]; try discriminate. destruct io; [|discriminate]. apply Forall_app in F as [F1 F2]. apply Forall_inv in F2 as [[K1 K2] [i K3]]. cbn in K3. subst.
    pose proof (along_all gzip d b clock xs L F1 b (along_refl gzip d b)) as [_ B]. rewrite perform_app. set (b1 := perform_all b xs) in *.
    cbn [perform_all fold_left perform performed effect].
    apply (new_current gzip d b (dset b1 (target gzip) (d, clock i)) (clock i)); rewrite ?dget_dset, ?String.eqb_refl; auto; [intros k y u H; eapply L; eauto|].
    destruct (String.eqb_spec (other gzip) (target gzip)) as [E'|]; [symmetry in E'; now apply target_other in E'|exact B].
  Qed.
  Lemma others_kept r clock gzip (d : D) (b : bucket D) n key : key <> path -> key <> gz -> key <> (path ++ ".bak")%string -> key <> (gz ++ ".bak")%string ->
    dget (perform_all b (firstn n (save_stack path r clock gzip d))) key = dget b key.
  Proof using.
    intros N1 N2 N3 N4. pose proof (save_mild r clock gzip d) as F. assert (F' : Forall (fun x => mild gzip d (fst (fst x)) /\ exists i, snd x = clock i) (firstn n (save_stack path r clock gzip d))).
    { apply Forall_forall. intros x I. rewrite Forall_forall in F. apply F. rewrite <- (firstn_skipn n). apply in_or_app. now left. }
    clear F. revert b. induction F' as [|[[o io] t] xs [M _] F IH]; intros b; [reflexivity|]. cbn [perform_all fold_left]. change (dget (perform_all (perform b (o, io, t)) xs) key = dget b key).
    rewrite IH. unfold perform. destruct (performed io); [|reflexivity]. cbn in M. destruct o as [dst src|k|k x]; cbn [effect].
    - destruct (dget b src) as [[y u]|]; [|reflexivity]. rewrite dget_dset. destruct (String.eqb_spec key dst) as [->|]; [destruct M; congruence|reflexivity].
    - rewrite dget_ddel. destruct (String.eqb_spec key k) as [->|]; [destruct gzip; cbn in M; congruence|reflexivity].
    - rewrite dget_dset. destruct (String.eqb_spec key k) as [->|]; [destruct gzip, M; cbn in *; congruence|reflexivity].
  Qed.
  Lemma crash_current r clock gzip (d : D) (b : bucket D) n : later clock b -> kept_as gzip path b ->
    let b' := perform_all b (firstn n (save_stack path r clock gzip d)) in current path b' = current path b \/ current path b' = Some d.
  Proof using.
    intros L K. cbn zeta. apply (along_current gzip); [exact K|]. apply (along_all gzip d b clock); [exact L| |apply along_refl].
    apply Forall_forall. intros x I. pose proof (save_mild r clock gzip d) as F. rewrite Forall_forall in F. apply F. rewrite <- (firstn_skipn n). apply in_or_app. now left.
  Qed.
  (** Copies elsewhere keep a file. *)
  Definition keeps (key : string) (x : op D * io * nat) : Prop :=
    match fst (fst x) with Copy dst _ => dst <> key | Delete k => k <> key | Write k _ => k <> key end.
  Lemma keeps_all key (xs : list (op D * io * nat)) : Forall (keeps key) xs -> forall n (b : bucket D), dget (perform_all b (firstn n xs)) key = dget b key.
  Proof using.
    intros F. induction F as [|[[o io] t] xs K F IH]; intros [|n] b; [reflexivity|reflexivity|reflexivity|]. cbn [firstn]. change (dget (perform_all (perform b (o, io, t)) (firstn n xs)) key = dget b key).
    rewrite IH. unfold perform. destruct (performed io); [|reflexivity]. unfold keeps in K. cbn in K. destruct o as [dst src|k|k x]; cbn [effect].
    - destruct (dget b src) as [[y u]|]; [|reflexivity]. rewrite dget_dset. destruct (String.eqb_spec key dst) as [->|]; [now destruct K|reflexivity].
    - rewrite dget_ddel. destruct (String.eqb_spec key k) as [->|]; [now destruct K|reflexivity].
    - rewrite dget_dset. destruct (String.eqb_spec key k) as [->|]; [now destruct K|reflexivity].
  Qed.
  Lemma attempts_keep key r clock k d n : k <> key -> forall i, Forall (keeps key) (attempts r clock i (Write k d) n).
  Proof using.
    intros N. induction n as [|n IH]; intros i; cbn [attempts]; [constructor|]. constructor; [exact N|]. destruct (r i); [constructor|apply IH].
  Qed.
  Lemma not_lost r clock gzip (d : D) (b : bucket D) n x : later clock b -> r 0 = Fine -> r 2 = Fine -> current path b = Some x ->
    let b' := perform_all b (firstn n (save_stack path r clock gzip d)) in
    current path b' = Some x \/ current path b' = Some d \/ exists key t, (key = (path ++ ".bak")%string \/ key = (gz ++ ".bak")%string) /\ dget b' key = Some (x, t).
  Proof using.
    intros L R0 R2 C. cbn zeta.
    assert (N1 : (path ++ ".bak")%string <> path) by now apply sapp_ne.
    assert (N2 : (path ++ ".bak")%string <> gz) by (intros E; apply sapp_inj in E; discriminate).
    assert (N3 : (gz ++ ".bak")%string <> path) by (rewrite sapp_assoc; now apply sapp_ne).
    assert (N4 : (gz ++ ".bak")%string <> gz) by now apply sapp_ne.
    assert (N5 : (gz ++ ".bak")%string <> (path ++ ".bak")%string) by (rewrite sapp_assoc; intros E; apply sapp_inj in E; discriminate).
    assert (N6 : gz <> path) by now apply sapp_ne.
    assert (K : kept_as gzip path b \/ exists t, dget b (other gzip) = Some (x, t)).
    { rewrite current_eq in C. unfold kept_as. destruct gzip; cbn [other].
      - destruct (dget b gz) as [[g t]|]; [|destruct (dget b path) as [[p u]|]; [|discriminate]; injection C as ->; right; eauto].
        destruct (dget b path) as [[p u]|]; [|left; right; exists g, t; split; [reflexivity|discriminate]].
        destruct (Nat.ltb_spec t u); [injection C as ->; right; eauto|]. left; right. exists g, t. split; [reflexivity|]. now intros ? ? [= _ <-].
      - destruct (dget b path) as [[p u]|]; [|destruct (dget b gz) as [[g t]|]; [|discriminate]; injection C as ->; right; eauto].
        destruct (dget b gz) as [[g t]|]; [|left; right; exists p, u; split; [reflexivity|discriminate]].
        destruct (Nat.ltb_spec t u); [|injection C as ->; right; eauto]. left; right. exists p, u. split; [reflexivity|]. now intros ? ? [= _ <-]. }
    destruct K as [K|[t K]].
    { destruct (crash_current r clock gzip d b n L K) as [-> | ->]; auto. }
    unfold save_stack, backup_target, at_step. change (gzip_path path) with gz. destruct gzip; cbn [other negb app] in *.
    - destruct n as [|[|n]]; [left; exact C| |].
      + left. cbn [firstn perform_all fold_left perform]. rewrite R0. cbn [performed effect]. destruct (dget b gz) as [[g u]|] eqn:G; [|exact C]. rewrite current_eq in *. rewrite !dget_dset.
        destruct (String.eqb_spec gz (gz ++ ".bak")%string) as [E|]; [now symmetry in E|]. destruct (String.eqb_spec path (gz ++ ".bak")%string) as [E|]; [now symmetry in E|exact C].
      + right; right. exists (path ++ ".bak")%string, (clock 2). split; [now left|]. cbn [firstn]. unfold perform_all. cbn [fold_left]. fold (@perform_all D).
        change (dget (perform_all (perform (perform b (Copy (gz ++ ".bak")%string gz, r 0, clock 0)) (Copy (path ++ ".bak")%string path, r 2, clock 2)) (firstn n ((Delete path, r 3, clock 3) :: attempts r clock 4 (Write gz d) 13))) (path ++ ".bak")%string = Some (x, clock 2)).
        rewrite keeps_all; [|constructor; [intros E; symmetry in E; now apply N1|apply attempts_keep; intros E; symmetry in E; now apply N2]].
        set (b1 := perform b _). assert (P : dget b1 path = Some (x, t)).
        { unfold b1, perform. destruct (performed (r 0)); [|exact K]. cbn [effect]. destruct (dget b gz) as [[g u]|]; [|exact K]. rewrite dget_dset. destruct (String.eqb_spec path (gz ++ ".bak")%string) as [E|]; [now symmetry in E|exact K]. }
        unfold perform. rewrite R2. cbn [performed effect]. rewrite P, dget_dset, String.eqb_refl. reflexivity.
    - destruct n as [|n]; [left; exact C|]. right; right. exists (gz ++ ".bak")%string, (clock 0). split; [now right|].
      change (dget (perform_all (perform b (Copy (gz ++ ".bak")%string gz, r 0, clock 0)) (firstn n ((Delete gz, r 1, clock 1) :: (Copy (path ++ ".bak")%string path, r 2, clock 2) :: attempts r clock 4 (Write path d) 13))) (gz ++ ".bak")%string = Some (x, clock 0)).
      rewrite keeps_all.
      + unfold perform. rewrite R0. cbn [performed effect]. now rewrite K, dget_dset, String.eqb_refl.
      + constructor; [intros E; symmetry in E; now apply N4|]. constructor; [intros E; symmetry in E; now apply N5|]. apply attempts_keep. intros E; symmetry in E; now apply N3.
  Qed.
  Lemma succeeded_app (xs ys : list (op D * io * nat)) : ys <> [] -> succeeded (xs ++ ys) = succeeded ys.
  Proof using.
    intros N. destruct (exists_last N) as (zs & z & ->). unfold succeeded. now rewrite app_assoc, !last_last.
  Qed.
  Lemma attempts_succeed r clock k (x : D) n : forall i,
    succeeded (attempts r clock i (Write k x) (S n)) = true <-> exists j, j < S n /\ r (i + j) = Fine.
  Proof using.
    induction n as [|n IH]; intros i.
    - cbn [attempts]. unfold at_step, succeeded. destruct (r i) eqn:R; cbn [List.last].
      + split; [|reflexivity]. intros _. exists 0. split; [lia|]. now rewrite Nat.add_0_r.
      + split; [discriminate|]. intros (j & L & E). replace j with 0 in E by lia. rewrite Nat.add_0_r in E. congruence.
    - specialize (IH (S i)). change (attempts r clock i (Write k x) (S (S n))) with (at_step r clock i (Write k x) :: match r i with Fine => [] | Fault _ => attempts r clock (S i) (Write k x) (S n) end).
      unfold at_step. destruct (r i) eqn:R.
      + split; [|reflexivity]. intros _. exists 0. split; [lia|]. now rewrite Nat.add_0_r.
      + change ((Write k x, Fault performed, clock i) :: attempts r clock (S i) (Write k x) (S n)) with ([(Write k x, Fault performed, clock i)] ++ attempts r clock (S i) (Write k x) (S n)).
        rewrite succeeded_app by (cbn; discriminate). rewrite IH. split.
        * intros (j & L & E). exists (S j). split; [lia|]. rewrite <- E. f_equal. lia.
        * intros (j & L & E). destruct j as [|j]; [rewrite Nat.add_0_r in E; congruence|]. exists j. split; [lia|]. rewrite <- E. f_equal. lia.
  Qed.
  Lemma persistent r clock gzip (d : D) : succeeded (save_stack path r clock gzip d) = true <-> exists i, i < 13 /\ r (4 + i) = Fine.
  Proof using.
    unfold save_stack. rewrite app_assoc, succeeded_app by (cbn; discriminate). apply attempts_succeed.
  Qed.
  Lemma attempts_fail r clock o n (b : bucket D) : forall i, (forall j, 4 <= j -> r j = Fault false) -> 4 <= i -> perform_all b (attempts r clock i o n) = b.
  Proof using.
    induction n as [|n IH]; intros i R L; [reflexivity|]. cbn [attempts]. unfold at_step. rewrite (R i L). unfold perform_all. cbn [fold_left perform performed]. apply IH; [exact R|lia].
  Qed.
  Lemma switching (x d : D) t (gzip : bool) :
    let b := [(if gzip then path else gz, (x, t))] in
    let clock := fun i => t + 1 + i in
    current path b = Some x /\ later clock b /\
    (exists n, current path (perform_all b (firstn n (save_stack path (fun _ => Fine) clock gzip d))) = None) /\
    (exists r, (forall i, i < 4 -> r i = Fine) /\ succeeded (save_stack path r clock gzip d) = false /\ current path (perform_all b (save_stack path r clock gzip d)) = None) /\
    (exists r, r 1 = Fine /\ r 3 = Fine /\ perform_all b (save_stack path r clock gzip d) = []).
  Proof using.
    cbn zeta.
    assert (N1 : String.eqb (path ++ ".bak") path = false) by (apply String.eqb_neq; now apply sapp_ne).
    assert (N2 : String.eqb (path ++ ".bak") gz = false) by (apply String.eqb_neq; intros E; apply sapp_inj in E; discriminate).
    assert (N3 : String.eqb (gz ++ ".bak") path = false) by (apply String.eqb_neq; rewrite sapp_assoc; now apply sapp_ne).
    assert (N4 : String.eqb (gz ++ ".bak") gz = false) by (apply String.eqb_neq; now apply sapp_ne).
    assert (N6 : String.eqb gz path = false) by (apply String.eqb_neq; now apply sapp_ne).
    assert (N7 : String.eqb path gz = false) by (rewrite String.eqb_sym; exact N6).
    assert (M1 : String.eqb path (path ++ ".bak") = false) by (now rewrite String.eqb_sym).
    assert (M4 : String.eqb gz (gz ++ ".bak") = false) by (now rewrite String.eqb_sym).
    assert (M2 : String.eqb gz (path ++ ".bak") = false) by (now rewrite String.eqb_sym).
    assert (M3 : String.eqb path (gz ++ ".bak") = false) by (now rewrite String.eqb_sym).
    split; [destruct gzip; rewrite current_eq; cbn [dget]; now rewrite ?String.eqb_refl, ?N6, ?N7|]. split.
    { intros key y u i E. cbn [dget] in E. match type of E with (if ?c then _ else _) = _ => destruct c; [|discriminate] end. injection E as _ <-. lia. }
    set (clock := fun i => t + 1 + i).
    assert (A : forall r, (forall i, i < 4 -> r i = Fine) -> exists c, perform_all [(if gzip then path else gz, (x, t))] (backup_target r clock 0 (gzip_path path) gzip ++ backup_target r clock 2 path (negb gzip)) = [((if gzip then path else gz) ++ ".bak", (x, c))%string]).
    { intros r R. unfold backup_target, at_step. rewrite (R 0), (R 1), (R 2), (R 3) by lia. change (gzip_path path) with gz.
      destruct gzip; eexists; cbn [app negb]; unfold perform_all; cbn [fold_left perform performed effect dget dset ddel]; repeat (rewrite ?String.eqb_refl, ?N1, ?N2, ?N3, ?N4, ?N6, ?N7, ?M1, ?M2, ?M3, ?M4; cbn [fold_left perform performed effect dget dset ddel]); reflexivity. }
    split; [|split].
    - exists 3. destruct (A (fun _ => Fine) ltac:(reflexivity)) as [c E].
      assert (F : firstn 3 (save_stack path (fun _ => Fine) clock gzip d) = backup_target (fun _ => Fine) clock 0 (gzip_path path) gzip ++ backup_target (fun _ => Fine) clock 2 path (negb gzip)) by (destruct gzip; reflexivity).
      rewrite F, E. rewrite current_eq. destruct gzip; cbn [dget]; now rewrite ?M1, ?M2, ?M3, ?M4.
    - exists (fun i => if Nat.ltb i 4 then Fine else Fault false). split; [intros i L; now rewrite (proj2 (Nat.ltb_lt i 4))|]. split.
      + destruct (succeeded _) eqn:S; [|reflexivity]. apply persistent in S as (i & _ & E). discriminate.
      + unfold save_stack. rewrite app_assoc, perform_app. rewrite attempts_fail; [|intros j L; now rewrite (proj2 (Nat.ltb_ge j 4))|lia].
        destruct (A (fun i => if Nat.ltb i 4 then Fine else Fault false)) as [c E]; [intros i L; now rewrite (proj2 (Nat.ltb_lt i 4))|]. rewrite E.
        rewrite current_eq. destruct gzip; cbn [dget]; now rewrite ?M1, ?M2, ?M3, ?M4.
    - exists (fun i => match i with 1 | 3 => Fine | _ => Fault false end). split; [reflexivity|]. split; [reflexivity|].
      unfold save_stack. rewrite app_assoc, perform_app. rewrite attempts_fail; [|intros [|[|[|[|j]]]] L; try lia; reflexivity|lia].
      unfold backup_target, at_step. change (gzip_path path) with gz.
      destruct gzip; cbn [app negb]; unfold perform_all; cbn [fold_left perform performed effect ddel]; now rewrite ?String.eqb_refl.
  Qed.
End Save.
