(** Proofs about timeouts. *)
From Coq Require Import List Bool Ascii String NArith Lia.
From Verif Require Import Model_Timeouts Spec_Timeouts.
Import ListNotations.
Open Scope N_scope.

Lemma parse_one_time t n : parse_one t = Some n -> time_of t n.
Proof.
  unfold parse_one, time_of. destruct t as [|c t].
  - intros E; inversion E; auto.
  - right; split; [discriminate|auto].
Qed.

Lemma parse_given_times g t :
  parse_given g = Some t ->
  time_of (g_create g) (t_create t) /\ time_of (g_update g) (t_update t) /\ time_of (g_delete g) (t_delete t).
Proof.
  unfold parse_given. intros E.
  destruct (parse_one (g_create g)) eqn:C; [|discriminate].
  destruct (parse_one (g_delete g)) eqn:D; [|discriminate].
  destruct (parse_one (g_update g)) eqn:U; [|discriminate].
  inversion E; subst; cbn. auto using parse_one_time.
Qed.

(** Durations. *)
Lemma digit_spec c : digit c = true <-> 48 <= N_of_ascii c <= 57.
Proof. unfold digit. rewrite andb_true_iff, !N.leb_le. tauto. Qed.

Lemma take_digits_app d r acc :
  (forall c, In c d -> 48 <= N_of_ascii c <= 57) ->
  (forall c t, r = c :: t -> digit c = false) ->
  take_digits (d ++ r) acc = (fold_left (fun n c => 10 * n + (N_of_ascii c - 48)) d acc, r).
Proof.
  revert acc; induction d as [|c d IH]; intros acc D R.
  - cbn [app fold_left]. destruct r as [|c r]; [reflexivity|]. cbn [take_digits].
    rewrite (R _ _ eq_refl). reflexivity.
  - cbn [app take_digits fold_left].
    assert (X : digit c = true) by (apply digit_spec, D; left; auto). rewrite X.
    apply IH; auto. intros x I; apply D; right; auto.
Qed.

Lemma take_unit_app u r :
  (forall c t, r = c :: t -> digit c = true) -> take_unit (unit_text u ++ r) = (unit_text u, r).
Proof.
  intros R.
  assert (Z : take_unit r = ([], r)).
  { destruct r as [|c r]; auto. cbn. rewrite (R _ _ eq_refl). reflexivity. }
  destruct u; cbn [unit_text lit list_ascii_of_string app take_unit];
    cbn [digit orb]; rewrite Z; reflexivity.
Qed.

Lemma written_head l : Forall (fun p => number (fst p)) l -> forall c t, written l = c :: t -> digit c = true.
Proof.
  intros F c t E. destruct F as [|[d u] l [N D] F]; [discriminate E|].
  cbn [written flat_map fst snd] in E. destruct d as [|x d]; [cbn in N; congruence|].
  inversion E; subst. apply digit_spec, D; left; auto.
Qed.

Lemma find_unit_text u : find_unit (unit_text u) units = Some (unit_time u).
Proof. destruct u; vm_compute; reflexivity. Qed.

Lemma parse_parts_written l : forall fuel sum,
  Forall (fun p => number (fst p)) l -> (List.length l < fuel)%nat -> sum + total l <= max_duration ->
  parse_parts fuel (written l) sum = Some (sum + total l).
Proof.
  induction l as [|[d u] l IH]; intros fuel sum F L M.
  - destruct fuel; [inversion L|]. cbn. rewrite N.add_0_r. reflexivity.
  - destruct fuel as [|fuel]; [inversion L|].
    inversion F as [|? ? [N D] F']; subst. cbn [fst] in *.
    assert (H : exists c w, written ((d, u) :: l) = c :: w /\ digit c = true).
    { destruct d as [|c d]; [congruence|]. exists c. cbn [written flat_map fst snd app].
      eexists; split; [reflexivity|]. apply digit_spec, D; left; auto. }
    destruct H as (c & w & E & Dc).
    cbn [parse_parts]. rewrite E, Dc. rewrite <- E.
    cbn [written flat_map fst snd]. fold (written l). rewrite <- app_assoc.
    rewrite take_digits_app; [|auto|].
    2:{ intros x t Ex. destruct u; inversion Ex; subst; reflexivity. }
    rewrite take_unit_app by (apply written_head; auto).
    rewrite find_unit_text. cbn [total fold_right fst snd] in M. fold (total l) in M.
    fold (value d).
    destruct (max_duration <? sum + value d * unit_time u) eqn:X.
    { apply N.ltb_lt in X. lia. }
    rewrite IH; auto.
    + cbn [total fold_right fst snd]. fold (total l). f_equal. lia.
    + cbn in L. lia.
    + lia.
Qed.

Lemma written_length l : Forall (fun p => number (fst p)) l -> (List.length l <= List.length (written l))%nat.
Proof.
  induction 1 as [|[d u] l [N _] F IH]; auto.
  cbn [written flat_map fst snd]. fold (written l). rewrite !app_length.
  destruct u; cbn [unit_text lit list_ascii_of_string List.length]; cbn [List.length] in *; lia.
Qed.

Lemma written_not_zero l : Forall (fun p => number (fst p)) l -> written l <> lit "0".
Proof.
  intros F. destruct F as [|[d u] l [N _] F]; [discriminate|]. cbn [written flat_map fst snd] in *.
  intros E. apply (f_equal (@List.length ascii)) in E. rewrite !app_length in E.
  destruct d as [|c d]; [congruence|].
  destruct u; cbn [unit_text lit list_ascii_of_string List.length] in E; lia.
Qed.

Lemma parse_written l :
  l <> [] -> Forall (fun p => number (fst p)) l -> total l <= max_duration ->
  parse_duration (written l) = Some (total l).
Proof.
  intros N F M. unfold parse_duration.
  destruct (text_eqb (written l) (lit "0")) eqn:Z.
  { exfalso. unfold text_eqb in Z. destruct (list_eq_dec _ _ _) as [E|]; [|discriminate].
    exact (written_not_zero _ F E). }
  assert (LE := written_length _ F).
  destruct (written l) as [|c w] eqn:W.
  { destruct l; [congruence|cbn in LE; lia]. }
  rewrite <- W in *. rewrite parse_parts_written; auto; try lia. 
Qed.

(** Histories. *)
Lemma touched_dec x ev : {touched x ev} + {~ touched x ev}.
Proof.
  assert (D : forall e, {e_thing e = x /\ e_done e = true /\ (e_kind e = Create \/ e_kind e = Update \/ e_kind e = Kept)}
     + {~ (e_thing e = x /\ e_done e = true /\ (e_kind e = Create \/ e_kind e = Update \/ e_kind e = Kept))}).
  { intros e. destruct (PeanoNat.Nat.eq_dec (e_thing e) x); [|right; tauto].
    destruct (e_done e); [|right; intuition discriminate].
    destruct (e_kind e); try (left; tauto). right; intuition discriminate. }
  destruct (Exists_dec _ ev D) as [E|E].
  - left. apply Exists_exists in E. destruct E as (e & I & H). exists e; tauto.
  - right. intros (e & I & H). apply E, Exists_exists. exists e; tauto.
Qed.

Definition good (h : list (run * list event)) (x : nat) (t : timeouts) : Prop :=
  exists g, last_given h x g /\ parse_given g = Some t.

Lemma good_extend h r ev x t : good h x t -> ~ touched x ev -> good (h ++ [(r, ev)]) x t.
Proof.
  intros (g & (h1 & r1 & ev1 & h2 & -> & O & T & N) & P) NT.
  exists g. split; auto. exists h1, r1, ev1, (h2 ++ [(r, ev)]).
  rewrite <- app_assoc; cbn [app]. split; [auto|split; [auto|split; [auto|]]].
  intros r' ev' I. apply in_app_or in I. destruct I as [I|[I|[]]]; eauto.
  inversion I; subst; auto.
Qed.

Lemma good_now h r ev x t g : options r g -> parse_given g = Some t -> touched x ev -> good (h ++ [(r, ev)]) x t.
Proof.
  intros O P T. exists g. split; auto. exists h, r, ev, []. split; [auto|split; [auto|split; [auto|]]].
  intros r' ev' [].
Qed.

Record inv (h : list (run * list event)) (st : state) : Prop := {
  i_cur : forall x t, s_cur st = Some (x, t) -> good h x t /\ (x < s_next st)%nat;
  i_old : forall x t, In (x, t) (s_old st) ->
          good h x t /\ (x < s_next st)%nat /\ (forall y o, s_cur st = Some (y, o) -> x <> y) }.

Definition event_ok (h : list (run * list event)) (r : run) (e : event) : Prop :=
  match e_kind e with
  | Create => exists g, options r g /\ time_of (g_create g) (e_time e)
  | Update => exists g, options r g /\ time_of (g_update g) (e_time e)
  | Delete => exists g, last_given h (e_thing e) g /\ time_of (g_delete g) (e_time e)
  | Kept => True
  end.

Definition deletes_of (l : list (nat * timeouts)) (ev : list event) : Prop :=
  forall e, In e ev -> exists x t ok, In (x, t) l /\ e = delete_event x t ok.

Lemma delete_all_spec oks l : forall n l' ev,
  delete_all oks n l = (l', ev) -> incl l' l /\ deletes_of l ev.
Proof.
  induction l as [|[x t] l IH]; intros n l' ev E; cbn in E.
  - inversion E; subst. split; [apply incl_refl|intros e []].
  - destruct (delete_all oks (S n) l) as [r' ev'] eqn:D. destruct (IH _ _ _ D) as [I H].
    inversion E; subst; clear E. split.
    + destruct (oks n); [apply incl_tl; auto|].
      intros z [<-|Z]; [left; auto|right; auto].
    + intros e [<-|Z]; [exists x, t, (oks n); split; [left|]; auto|].
      destruct (H _ Z) as (x' & t' & ok & Hin & He). exists x', t', ok. split; [right|]; auto.
Qed.

Lemma finish_spec reach oks st ev st' ev' :
  finish reach oks st ev = (st', ev') ->
  s_cur st' = s_cur st /\ s_next st' = s_next st /\ incl (s_old st') (s_old st)
  /\ exists dl, ev' = ev ++ dl /\ deletes_of (s_old st) dl.
Proof.
  unfold finish. destruct reach.
  - destruct (delete_all oks 0 (s_old st)) as [l dl] eqn:D. intros E; inversion E; subst; clear E.
    destruct (delete_all_spec _ _ _ _ _ D). repeat split; auto. exists dl; auto.
  - intros E; inversion E; subst. repeat split; auto; [apply incl_refl|].
    exists []. rewrite app_nil_r. split; auto. intros e [].
Qed.

Lemma touched_deletes x ev l dl : deletes_of l dl -> touched x (ev ++ dl) -> touched x ev.
Proof.
  intros D (e & I & H). apply in_app_or in I. destruct I as [I|I]; [exists e; auto|].
  exfalso. destruct (D _ I) as (y & t & ok & _ & ->). cbn in H. intuition discriminate.
Qed.
Lemma touched_app x ev dl : touched x ev -> touched x (ev ++ dl).
Proof. intros (e & I & H). exists e. split; auto. apply in_or_app; auto. Qed.

Lemma conclude h st r st' base dl L :
  inv h st ->
  (s_next st <= s_next st')%nat ->
  (forall x, touched x base -> exists g t, options r g /\ parse_given g = Some t /\ s_cur st' = Some (x, t)) ->
  (forall x t, s_cur st' = Some (x, t) ->
     (x < s_next st')%nat /\ (touched x base \/ s_cur st = Some (x, t))) ->
  (forall x t, In (x, t) L -> (In (x, t) (s_old st) \/ s_cur st = Some (x, t))
     /\ (forall y o, s_cur st' = Some (y, o) -> x <> y)) ->
  incl (s_old st') L -> deletes_of L dl ->
  (forall e, In e base -> event_ok h r e) ->
  inv (h ++ [(r, base ++ dl)]) st' /\ (forall e, In e (base ++ dl) -> event_ok h r e).
Proof.
  intros I H1 H2 H3 H4 H5 H6 H7.
  assert (NT : forall x, ~ touched x base -> ~ touched x (base ++ dl)).
  { intros x N T; apply N. eapply touched_deletes; eauto. }
  assert (G : forall x t, In (x, t) L -> good h x t /\ (x < s_next st)%nat).
  { intros x t Hin. destruct (H4 _ _ Hin) as [[Z|Z] _].
    - destruct (i_old _ _ I _ _ Z) as (? & ? & _); auto.
    - exact (i_cur _ _ I _ _ Z). }
  split; [constructor|].
  - intros x t E. destruct (H3 _ _ E) as [LT C]. split; auto.
    destruct (touched_dec x base) as [T|N].
    + destruct (H2 _ T) as (g & t' & O & P & E'). assert (t' = t) by congruence. subst t'.
      eapply good_now; eauto. apply touched_app; auto.
    + destruct C as [C|C]; [contradiction|]. apply good_extend; auto. exact (proj1 (i_cur _ _ I _ _ C)).
  - intros x t Hin. apply H5 in Hin. destruct (G _ _ Hin) as [Gx Lx]. destruct (H4 _ _ Hin) as [_ D].
    split; [|split; [lia|auto]]. apply good_extend; auto. apply NT. intros T.
    destruct (H2 _ T) as (g & t' & _ & _ & E'). exact (D _ _ E' eq_refl).
  - intros e Hin. apply in_app_or in Hin. destruct Hin as [Hin|Hin]; auto.
    destruct (H6 _ Hin) as (x & t & ok & HL & ->). destruct (G _ _ HL) as [(g & LG & P) _].
    exists g. cbn. split; auto. apply parse_given_times in P. tauto.
Qed.

Lemma deletes_nil l : deletes_of l [].
Proof. intros e []. Qed.

Ltac no_touch := let e := fresh in let I := fresh in let K := fresh in
  intros ? (e & I & K); cbn in I; repeat (destruct I as [<-|I]; [cbn in K; try intuition discriminate|]); try contradiction.

Lemma untouched_old h st y o (t : timeouts) : inv h st -> s_cur st = Some (y, o) ->
  forall x u, In (x, u) (s_old st) -> (In (x, u) (s_old st) \/ s_cur st = Some (x, u))
    /\ (forall z w, Some (y, t) = Some (z, w) -> x <> z).
Proof.
  intros I E x u Hin. split; auto. intros z w Z; inversion Z; subst.
  destruct (i_old _ _ I _ _ Hin) as (_ & _ & D). eapply D; eauto.
Qed.

Lemma fresh_old h st (t : timeouts) : inv h st ->
  forall x u, In (x, u) (s_old st) -> (In (x, u) (s_old st) \/ s_cur st = Some (x, u))
    /\ (forall z w, Some (s_next st, t) = Some (z, w) -> x <> z).
Proof.
  intros I x u Hin. split; auto. intros z w Z; inversion Z; subst.
  destruct (i_old _ _ I _ _ Hin) as (_ & L & _). lia.
Qed.

Lemma cur_event h st r y o ok : inv h st -> s_cur st = Some (y, o) -> event_ok h r (delete_event y o ok).
Proof.
  intros I E. destruct (i_cur _ _ I _ _ E) as [(g & LG & P) _]. exists g. cbn. split; auto.
  apply parse_given_times in P. tauto.
Qed.

Lemma nothing h st r ev st' :
  inv h st -> s_cur st' = s_cur st \/ s_cur st' = None -> s_old st' = s_old st -> (s_next st <= s_next st')%nat ->
  (forall x, ~ touched x ev) -> (forall e, In e ev -> event_ok h r e) ->
  inv (h ++ [(r, ev)]) st' /\ (forall e, In e ev -> event_ok h r e).
Proof.
  intros I C O N T E.
  rewrite <- (app_nil_r ev). apply (conclude h st r st' ev [] (s_old st)); auto using deletes_nil.
  - intros x Tx. destruct (T _ Tx).
  - intros x t X. destruct C as [C|C]; [|congruence]. rewrite C in X.
    split; auto. destruct (i_cur _ _ I _ _ X). lia.
  - intros x t Hin. split; auto. intros y o X. destruct C as [C|C]; [|congruence]. rewrite C in X.
    destruct (i_old _ _ I _ _ Hin) as (_ & _ & D). eauto.
  - rewrite O. apply incl_refl.
Qed.

Lemma step_ok h st r st' ev :
  inv h st -> step st r = (st', ev) ->
  inv (h ++ [(r, ev)]) st' /\ (forall e, In e ev -> event_ok h r e).
Proof.
  intros I S. destruct r as [g d ok1 ok2 reach oks|reach oks|gone]; cbn [step] in S.
  - destruct (parse_given g) as [t|] eqn:P.
    2:{ inversion S; subst. apply (nothing h st'); auto. - intros x (e & [] & _). - intros e []. }
    set (r := Register g d ok1 ok2 reach oks) in *.
    assert (Og : options r g) by reflexivity.
    assert (Tm := parse_given_times _ _ P).
    assert (EC : forall x ok, event_ok h r (create_event x t ok)) by (intros; exists g; cbn; tauto).
    assert (EU : forall x ok, event_ok h r (update_event x t ok)) by (intros; exists g; cbn; tauto).
    assert (TC : forall x b, touched x (b ++ [create_event x t true])).
    { intros x b. exists (create_event x t true). split; [apply in_or_app; right; left; auto|cbn; auto]. }
    destruct (s_cur st) as [[y o]|] eqn:C.
    + destruct (i_cur _ _ I _ _ C) as [_ Ly].
      destruct d.
      * (* the same *)
        apply finish_spec in S. cbn [s_cur s_old s_next] in S. destruct S as (Sc & Sn & So & dl & -> & D).
        apply (conclude h st r st' _ dl (s_old st)); auto.
        -- rewrite Sn; auto.
        -- intros x (e & [<-|[]] & K). cbn in K. exists g, t. rewrite Sc. destruct K as [<- _]; auto.
        -- intros x u X. rewrite Sc in X; inversion X; subst. rewrite Sn. split; auto.
           left. exists (kept_event x). cbn; intuition auto.
        -- rewrite Sc. eapply untouched_old; eauto.
        -- intros e [<-|[]]; exact Logic.I.
      * (* updated *)
        destruct ok1.
        -- apply finish_spec in S. cbn [s_cur s_old s_next] in S. destruct S as (Sc & Sn & So & dl & -> & D).
           apply (conclude h st r st' _ dl (s_old st)); auto.
           ++ rewrite Sn; auto.
           ++ intros x (e & [<-|[]] & K). cbn in K. exists g, t. rewrite Sc. destruct K as [<- _]; auto.
           ++ intros x u X. rewrite Sc in X; inversion X; subst. rewrite Sn. split; auto.
              left. exists (update_event x u true). cbn; intuition auto.
           ++ rewrite Sc. eapply untouched_old; eauto.
           ++ intros e [<-|[]]; auto.
        -- inversion S; subst. apply (nothing h st'); auto.
           ++ intros x (e & [<-|[]] & K). cbn in K. intuition discriminate.
           ++ intros e [<-|[]]; auto.
      * (* replaced *)
        destruct ok1.
        -- apply finish_spec in S. cbn [s_cur s_old s_next] in S. destruct S as (Sc & Sn & So & dl & -> & D).
           apply (conclude h st r st' _ dl ((y, o) :: s_old st)); auto.
           ++ rewrite Sn; auto.
           ++ intros x (e & [<-|[]] & K). cbn in K. exists g, t. rewrite Sc. destruct K as [<- _]; auto.
           ++ intros x u X. rewrite Sc in X; inversion X; subst. rewrite Sn. split; auto.
              left. apply (TC (s_next st) []).
           ++ rewrite Sc. intros x u [X|X].
              ** inversion X; subst. split; auto. intros z w Z; inversion Z; subst. lia.
              ** eapply fresh_old; eauto.
           ++ intros e [<-|[]]; auto.
        -- inversion S; subst. apply (nothing h st); cbn [s_cur s_old s_next]; auto.
           ++ intros x (e & [<-|[]] & K). cbn in K. intuition discriminate.
           ++ intros e [<-|[]]; auto.
      * (* deleted and then replaced *)
        assert (ED : forall ok, event_ok h r (delete_event y o ok)) by (intros; eapply cur_event; eauto).
        destruct ok1; [destruct ok2|].
        -- apply finish_spec in S. cbn [s_cur s_old s_next] in S. destruct S as (Sc & Sn & So & dl & -> & D).
           apply (conclude h st r st' _ dl (s_old st)); auto.
           ++ rewrite Sn; auto.
           ++ intros x (e & [<-|[<-|[]]] & K); cbn in K; [intuition discriminate|].
              exists g, t. rewrite Sc. destruct K as [<- _]; auto.
           ++ intros x u X. rewrite Sc in X; inversion X; subst. rewrite Sn. split; auto.
              left. apply (TC (s_next st) [delete_event y o true]).
           ++ rewrite Sc. eapply fresh_old; eauto.
           ++ intros e [<-|[<-|[]]]; auto.
        -- inversion S; subst. apply (nothing h st); cbn [s_cur s_old s_next]; auto.
           ++ intros x (e & [<-|[<-|[]]] & K); cbn in K; intuition discriminate.
           ++ intros e [<-|[<-|[]]]; auto.
        -- inversion S; subst. apply (nothing h st'); auto.
           ++ intros x (e & [<-|[]] & K). cbn in K. intuition discriminate.
           ++ intros e [<-|[]]; auto.
    + destruct ok1.
      * apply finish_spec in S. cbn [s_cur s_old s_next] in S. destruct S as (Sc & Sn & So & dl & -> & D).
        apply (conclude h st r st' _ dl (s_old st)); auto.
        -- rewrite Sn; auto.
        -- intros x (e & [<-|[]] & K). cbn in K. exists g, t. rewrite Sc. destruct K as [<- _]; auto.
        -- intros x u X. rewrite Sc in X; inversion X; subst. rewrite Sn. split; auto.
           left. apply (TC (s_next st) []).
        -- rewrite Sc. eapply fresh_old; eauto.
        -- intros e [<-|[]]; auto.
      * inversion S; subst. apply (nothing h st); cbn [s_cur s_old s_next]; auto.
        -- intros x (e & [<-|[]] & K). cbn in K. intuition discriminate.
        -- intros e [<-|[]]; auto.
  - destruct (s_cur st) as [[y o]|] eqn:C.
    + cbn [fst snd] in S. destruct reach; [destruct (oks 0%nat)|].
      * destruct (delete_all oks 1 (s_old st)) as [l dl] eqn:D. inversion S; subst; clear S.
        destruct (delete_all_spec _ _ _ _ _ D) as [In_ De].
        apply (conclude h st _ _ [delete_event y o true] dl (s_old st)); cbn [s_cur s_old s_next]; auto.
        -- intros x (e & [<-|[]] & K). cbn in K. intuition discriminate.
        -- discriminate.
        -- intros x u Hin. split; auto. discriminate.
        -- intros e [<-|[]]. eapply cur_event; eauto.
      * inversion S; subst. apply (nothing h st'); auto.
        -- intros x (e & [<-|[]] & K). cbn in K. intuition discriminate.
        -- intros e [<-|[]]. eapply cur_event; eauto.
      * inversion S; subst. apply (nothing h st'); auto. -- intros x (e & [] & _). -- intros e [].
    + apply finish_spec in S. destruct S as (Sc & Sn & So & dl & -> & D).
      apply (conclude h st _ st' [] dl (s_old st)); auto.
      * rewrite Sn; auto.
      * intros x (e & [] & _).
      * intros x u X. congruence.
      * intros x u Hin. split; auto. intros; congruence.
      * intros e [].
  - inversion S; subst. apply (nothing h st); cbn [s_cur s_old s_next]; auto.
    + destruct gone; auto.
    + intros x (e & [] & _).
    + intros e [].
Qed.

Lemma history_ok l : forall h st, inv h st ->
  forall h1 r ev h2, history st l = h1 ++ (r, ev) :: h2 ->
  forall e, In e ev -> event_ok (h ++ h1) r e.
Proof.
  induction l as [|r0 l IH]; intros h st I h1 r ev h2 E e Hin; cbn [history] in E.
  - destruct h1; discriminate E.
  - destruct (step st r0) as [st' ev0] eqn:S. destruct (step_ok _ _ _ _ _ I S) as [I' Ok].
    destruct h1 as [|p h1]; cbn in E; inversion E; subst.
    + rewrite app_nil_r. auto.
    + change ((r0, ev0) :: h1) with ([(r0, ev0)] ++ h1). rewrite app_assoc. eapply IH; eauto.
Qed.

Lemma inv_start : inv [] start.
Proof. constructor; cbn; [discriminate|intros x t []]. Qed.
