(** Proofs about feature detection. *)
From Verif Require Import Base Model_Features Spec_Features.
Open Scope string_scope.

Lemma meaning_spec r a : meaning r a <-> a = do_rpc_call r.
Proof.
  unfold do_rpc_call, grpc_error_to_exception. split.
  - intros [b|d|d|c d N1 N2]; auto. apply String.eqb_neq in N1, N2. now rewrite N1, N2.
  - intros ->. destruct r as [b|c d]; [constructor|].
    destruct (String.eqb_spec c "UNIMPLEMENTED") as [->|N1]; simpl; [constructor|].
    destruct (String.eqb_spec c "UNAVAILABLE") as [->|N2]; constructor; auto.
Qed.

Definition obs_q (o : obs) : nat := match o with Asked q _ | Called q _ | Replied q _ | Answered q _ _ => q end.

(** The most recent answer. *)
Fixpoint last_answer (f : string) (h : history) : option bool :=
  match h with
  | [] => None
  | Answered _ f' (Ok b) :: h' => if String.eqb f f' then Some b else last_answer f h'
  | _ :: h' => last_answer f h'
  end.

Lemma last_latest f h b : last_answer f h = Some b <-> latest f b h.
Proof.
  unfold latest. split.
  - induction h as [|o h IH]; [discriminate|].
    assert (R : (last_answer f h = Some b -> exists q h2 h1, h = (h2 ++ Answered q f (Ok b) :: h1)%list /\
               (forall q' b', ~ In (Answered q' f (Ok b')) h2)) -> (forall q b', o <> Answered q f (Ok b')) ->
              last_answer f h = Some b ->
              exists q h2 h1, (o :: h)%list = (h2 ++ Answered q f (Ok b) :: h1)%list /\
               (forall q' b', ~ In (Answered q' f (Ok b')) h2)).
    { intros I N E. destruct (I E) as (q & h2 & h1 & -> & F). exists q, (o :: h2), h1. split; [reflexivity|].
      intros q' b' [X|X]; [exact (N q' b' X)|exact (F q' b' X)]. }
    destruct o as [q f'|q f'|q r|q f' [b'|e]]; cbn [last_answer]; try (apply R; [exact IH|congruence]).
    destruct (String.eqb_spec f f') as [<-|N].
    + intros [= ->]. exists q, [], h. split; [reflexivity|]. intros ? ? [].
    + apply R; [exact IH|congruence].
  - intros (q & h2 & h1 & -> & F). induction h2 as [|o h2 IH]; cbn [last_answer app].
    + now rewrite String.eqb_refl.
    + assert (E : last_answer f (h2 ++ Answered q f (Ok b) :: h1)%list = Some b).
      { apply IH. intros q' b' X. apply (F q' b'). now right. }
      destruct o as [q' f'|q' f'|q' r|q' f' [b'|e]]; auto.
      destruct (String.eqb_spec f f') as [<-|N]; auto. destruct (F q' b'). now left.
Qed.

Lemma last_none f h : last_answer f h = None <-> unanswered f h.
Proof.
  unfold unanswered. induction h as [|o h IH].
  - split; auto.
  - assert (R : (forall q b, o <> Answered q f (Ok b)) ->
      (last_answer f h = None <-> (forall q b, ~ In (Answered q f (Ok b)) (o :: h)))).
    { intros N. rewrite IH. split; intros H q b.
      - intros [X|X]; [exact (N q b X)|exact (H q b X)].
      - intros X. apply (H q b). now right. }
    destruct o as [q f'|q f'|q r|q f' [b'|e]]; cbn [last_answer]; try (apply R; congruence).
    destruct (String.eqb_spec f f') as [<-|N]; [|apply R; congruence].
    split; [discriminate|]. intros H. destruct (H q b'). now left.
Qed.

Lemma last_in f h b : last_answer f h = Some b -> exists q, In (Answered q f (Ok b)) h.
Proof. intros H. apply last_latest in H as (q & h2 & h1 & -> & _). exists q. apply in_app_iff. right. now left. Qed.

Definition opens (s : fstate) : list nat := (map fst (f_sent s) ++ map (fun x => fst (fst x)) (f_ready s))%list.

Record finv (s : fstate) : Prop := mkInv {
  iv_cache : forall f, dget (f_cache s) f = last_answer f (f_trace s);
  iv_fresh : forall o, In o (f_trace s) -> obs_q o < f_next s;
  iv_sent : forall q f, In (q, f) (f_sent s) -> In (Called q f) (f_trace s);
  iv_nodup : NoDup (opens s);
  iv_ready : forall q f r, In (q, f, r) (f_ready s) ->
    In (Called q f) (f_trace s) /\ exists rp, In (Replied q rp) (f_trace s) /\ meaning rp r;
  iv_open : forall q, In q (opens s) -> forall f a, ~ In (Answered q f a) (f_trace s);
  iv_sentr : forall q, In q (map fst (f_sent s)) -> forall r, ~ In (Replied q r) (f_trace s);
  iv_reply1 : forall q r r', In (Replied q r) (f_trace s) -> In (Replied q r') (f_trace s) -> r = r';
  iv_ans : forall q f r a, In (Called q f) (f_trace s) -> In (Replied q r) (f_trace s) ->
    In (Answered q f a) (f_trace s) -> meaning r a;
  iv_src : forall q f b, In (Answered q f (Ok b)) (f_trace s) ->
    exists q' r, In (Called q' f) (f_trace s) /\ In (Replied q' r) (f_trace s) /\ meaning r (Ok b);
  iv_asked : forall h2 q f h1, f_trace s = (h2 ++ Asked q f :: h1)%list ->
    (forall b, last_answer f h1 = Some b -> (exists h3, h2 = (h3 ++ [Answered q f (Ok b)])%list) /\
                                         forall f', ~ In (Called q f') (f_trace s)) /\
    (last_answer f h1 = None -> exists h3, h2 = (h3 ++ [Called q f])%list) }.

Lemma finit_inv : finv finit.
Proof.
  constructor; simpl; try tauto; try (constructor; fail); try (intros; contradiction).
  intros h2 q f h1 H. destruct h2; discriminate.
Qed.

Lemma open_fresh s q : finv s -> In q (opens s) -> q < f_next s.
Proof.
  intros I H. unfold opens in H. apply in_app_iff in H as [H|H]; apply in_map_iff in H as (x & <- & H).
  - destruct x as [q f]. apply (iv_fresh s I (Called q f)). now apply (iv_sent s I).
  - destruct x as [[q f] r]. apply (iv_fresh s I (Called q f)). now apply (iv_ready s I q f r).
Qed.

(** A step that adds something other than a query start keeps [iv_asked]. *)
Lemma asked_keep (o : obs) (h : history) :
  (forall q f, o <> Asked q f) -> (forall q f, o <> Called q f) ->
  (forall h2 q f h1, h = (h2 ++ Asked q f :: h1)%list ->
    (forall b, last_answer f h1 = Some b -> (exists h3, h2 = (h3 ++ [Answered q f (Ok b)])%list) /\
                                         forall f', ~ In (Called q f') h) /\
    (last_answer f h1 = None -> exists h3, h2 = (h3 ++ [Called q f])%list)) ->
  (forall h2 q f h1, (o :: h)%list = (h2 ++ Asked q f :: h1)%list ->
    (forall b, last_answer f h1 = Some b -> (exists h3, h2 = (h3 ++ [Answered q f (Ok b)])%list) /\
                                         forall f', ~ In (Called q f') (o :: h)) /\
    (last_answer f h1 = None -> exists h3, h2 = (h3 ++ [Called q f])%list)).
Proof.
  intros N1 N2 K h2 q f h1 E. destruct h2 as [|o' h2]; simpl in E.
  - injection E as E _. destruct (N1 _ _ E).
  - injection E as <- E. destruct (K h2 q f h1 E) as [A B]. split.
    + intros b L. destruct (A b L) as [[h3 ->] C]. split; [exists (o :: h3); reflexivity|].
      intros f' [X|X]; [exact (N2 _ _ X)|exact (C _ X)].
    + intros L. destruct (B L) as [h3 ->]. exists (o :: h3). reflexivity.
Qed.

Lemma asked_new (o : obs) (q : nat) (f : string) (s : fstate) : finv s -> q = f_next s ->
  (forall b, last_answer f (f_trace s) = Some b -> o = Answered q f (Ok b)) ->
  (last_answer f (f_trace s) = None -> o = Called q f) ->
  let h := o :: Asked q f :: f_trace s in
  forall h2 q f h1, h = (h2 ++ Asked q f :: h1)%list ->
    (forall b, last_answer f h1 = Some b -> (exists h3, h2 = (h3 ++ [Answered q f (Ok b)])%list) /\
                                         forall f', ~ In (Called q f') h) /\
    (last_answer f h1 = None -> exists h3, h2 = (h3 ++ [Called q f])%list).
Proof.
  intros I Hq C1 C2 h h2 q0 f0 h1 E. subst h.
  assert (No : o <> Asked q0 f0).
  { destruct (last_answer f (f_trace s)) as [b|] eqn:L; [rewrite (C1 b eq_refl)|rewrite (C2 eq_refl)]; discriminate. }
  destruct h2 as [|o1 [|o2 h2]]; simpl in E.
  - injection E as E _. contradiction.
  - injection E as <- <- <- <-. split.
    + intros b L. rewrite (C1 b L). split; [exists []; reflexivity|]. intros f' [X|[X|X]]; try discriminate.
      apply (iv_fresh s I) in X. simpl in X. lia.
    + intros L. rewrite (C2 L). exists []. reflexivity.
  - injection E as <- <- E. destruct (iv_asked s I h2 q0 f0 h1 E) as [A B]. split.
    + intros b L. destruct (A b L) as [[h3 ->] C]. split; [exists (o :: Asked q f :: h3); reflexivity|].
      intros f' [X|[X|X]]; [|discriminate|exact (C _ X)].
      assert (Q : q0 < f_next s). { apply (iv_fresh s I (Asked q0 f0)). rewrite E. apply in_app_iff. right. now left. }
      destruct (last_answer f (f_trace s)) as [b'|] eqn:L'; [rewrite (C1 b' eq_refl) in X; discriminate|].
      rewrite (C2 eq_refl) in X. injection X as X _. lia.
    + intros L. destruct (B L) as [h3 ->]. exists (o :: Asked q f :: h3). reflexivity.
Qed.

Lemma ask_inv s f : finv s -> finv (ask true s f).
Proof.
  intros I. unfold ask. set (q := f_next s).
  assert (Fr : forall o, In o (f_trace s) -> obs_q o < q) by exact (iv_fresh s I).
  assert (Of : forall x, In x (opens s) -> x < q) by (intros x; now apply open_fresh).
  destruct (dget (f_cache s) f) as [b|] eqn:D; pose proof D as L; rewrite (iv_cache s I) in L.
  - constructor; cbn [f_cache f_sent f_ready f_next f_trace].
    + intros f'. cbn [last_answer]. destruct (String.eqb_spec f' f) as [->|N]; [congruence|apply (iv_cache s I)].
    + intros o [<-|[<-|H]]; simpl; [lia|lia|]. apply Fr in H. lia.
    + intros q' f' H. right; right. now apply (iv_sent s I).
    + exact (iv_nodup s I).
    + intros q' f' r H. destruct (iv_ready s I _ _ _ H) as (A & rp & C & E). split; [right; right; exact A|].
      exists rp. split; [right; right; exact C|exact E].
    + intros q' H f' a [X|[X|X]]; try discriminate.
      * injection X as X _ _. apply Of in H. lia.
      * exact (iv_open s I q' H f' a X).
    + intros q' H r [X|[X|X]]; try discriminate. exact (iv_sentr s I q' H r X).
    + intros q' r r' [X|[X|X]] [Y|[Y|Y]]; try discriminate. exact (iv_reply1 s I q' r r' X Y).
    + intros q' f' r a [X|[X|X]] [Y|[Y|Y]] [Z|[Z|Z]]; try discriminate.
      * injection Z as Z _ _. apply Fr in X. simpl in X. lia.
      * exact (iv_ans s I q' f' r a X Y Z).
    + intros q' f' b' [X|[X|X]]; try discriminate.
      * injection X as <- <- <-. apply last_in in L as [q0 L].
        destruct (iv_src s I q0 f b L) as (q1 & r & A & C & E). exists q1, r. simpl; auto.
      * destruct (iv_src s I q' f' b' X) as (q1 & r & A & C & E). exists q1, r. simpl; auto.
    + apply asked_new; auto; congruence.
  - constructor; cbn [f_cache f_sent f_ready f_next f_trace].
    + intros f'. cbn [last_answer]. apply (iv_cache s I).
    + intros o [<-|[<-|H]]; simpl; [lia|lia|]. apply Fr in H. lia.
    + intros q' f' [[= <- <-]|H]; [left; reflexivity|]. right; right. now apply (iv_sent s I).
    + unfold opens; simpl. constructor; [|exact (iv_nodup s I)]. intros H. apply Of in H. lia.
    + intros q' f' r H. destruct (iv_ready s I _ _ _ H) as (A & rp & C & E). split; [right; right; exact A|].
      exists rp. split; [right; right; exact C|exact E].
    + unfold opens; simpl. intros q' [<-|H] f' a [X|[X|X]]; try discriminate.
      * apply Fr in X. simpl in X. lia.
      * exact (iv_open s I q' H f' a X).
    + intros q' [<-|H] r [X|[X|X]]; try discriminate.
      * apply Fr in X. simpl in X. lia.
      * exact (iv_sentr s I q' H r X).
    + intros q' r r' [X|[X|X]] [Y|[Y|Y]]; try discriminate. exact (iv_reply1 s I q' r r' X Y).
    + intros q' f' r a [X|[X|X]] [Y|[Y|Y]] [Z|[Z|Z]]; try discriminate.
      * injection X as <- <-. apply Fr in Y. simpl in Y. lia.
      * exact (iv_ans s I q' f' r a X Y Z).
    + intros q' f' b' [X|[X|X]]; try discriminate.
      destruct (iv_src s I q' f' b' X) as (q1 & r & A & C & E). exists q1, r. simpl; auto.
    + apply asked_new; auto; congruence.
Qed.

Lemma nodup_move {A} (x : A) l1 l2 m : NoDup ((l1 ++ x :: l2) ++ m)%list -> NoDup ((l1 ++ l2) ++ x :: m)%list.
Proof.
  intros H. apply (Permutation_NoDup (l := ((l1 ++ x :: l2) ++ m)%list)); [|exact H].
  rewrite <- !app_assoc. apply Permutation_app_head. simpl. apply Permutation_middle.
Qed.

Lemma fstep_inv s s' : finv s -> fstep true s s' -> finv s'.
Proof.
  intros I [f|l1 q f l2 r E|l1 q f r l2 E]; [now apply ask_inv| |].
  - assert (In_sent : In (q, f) (f_sent s)) by (rewrite E; apply in_app_iff; right; now left).
    assert (Sub : forall x, In x (l1 ++ l2)%list -> In x (f_sent s)).
    { intros x H. rewrite E. apply in_app_iff in H. apply in_app_iff. simpl. tauto. }
    assert (Nd : NoDup ((map fst (l1 ++ l2) ++ q :: map (fun x => fst (fst x)) (f_ready s)))%list).
    { pose proof (iv_nodup s I) as N. unfold opens in N. rewrite E, map_app in N. rewrite map_app. now apply nodup_move. }
    assert (Op : forall x, In x (map fst (l1 ++ l2) ++ q :: map (fun x => fst (fst x)) (f_ready s))%list -> In x (opens s)).
    { intros x. unfold opens. rewrite E, !map_app, !in_app_iff. simpl. tauto. }
    constructor; cbn [f_cache f_sent f_ready f_next f_trace].
    + exact (iv_cache s I).
    + intros o [<-|H]; [|now apply (iv_fresh s I)]. simpl. apply (iv_fresh s I (Called q f)). now apply (iv_sent s I).
    + intros q' f' H. right. apply (iv_sent s I). now apply Sub.
    + exact Nd.
    + intros q' f' r' [[= <- <- <-]|H].
      * split; [right; now apply (iv_sent s I)|]. exists r. split; [left; reflexivity|now apply meaning_spec].
      * destruct (iv_ready s I _ _ _ H) as (A & rp & C & F). split; [right; exact A|]. exists rp. split; [right; exact C|exact F].
    + intros q' H f' a [X|X]; [discriminate|]. exact (iv_open s I q' (Op _ H) f' a X).
    + intros q' H r' [X|X].
      * injection X as <- _. apply NoDup_remove_2 in Nd. apply Nd. apply in_app_iff. now left.
      * refine (iv_sentr s I q' _ r' X). rewrite E, map_app. simpl. rewrite map_app, !in_app_iff in *. simpl. tauto.
    + assert (Z : forall r', ~ In (Replied q r') (f_trace s)) by (apply (iv_sentr s I); now apply (in_map fst) in In_sent).
      intros q' r1 r2 [X|X] [Y|Y]; try congruence.
      * injection X as -> _. destruct (Z _ Y).
      * injection Y as -> _. destruct (Z _ X).
      * exact (iv_reply1 s I q' r1 r2 X Y).
    + assert (Z : forall f a, ~ In (Answered q f a) (f_trace s)).
      { apply (iv_open s I). apply in_app_iff. left. now apply (in_map fst) in In_sent. }
      intros q' f' r' a [X|X] [Y|Y] [W|W]; try discriminate.
      * injection Y as -> _. destruct (Z _ _ W).
      * exact (iv_ans s I q' f' r' a X Y W).
    + intros q' f' b' [X|X]; try discriminate.
      destruct (iv_src s I q' f' b' X) as (q1 & r1 & A & C & F). exists q1, r1. simpl; auto.
    + apply asked_keep; [discriminate|discriminate|exact (iv_asked s I)].
  - assert (In_ready : In (q, f, r) (f_ready s)) by (rewrite E; apply in_app_iff; right; now left).
    assert (Sub : forall x, In x (l1 ++ l2)%list -> In x (f_ready s)).
    { intros x H. rewrite E. apply in_app_iff in H. apply in_app_iff. simpl. tauto. }
    destruct (iv_ready s I _ _ _ In_ready) as (HC & rp & HR & HM).
    pose proof (iv_nodup s I) as N. unfold opens in N. rewrite E, map_app in N. simpl in N. rewrite app_assoc in N.
    assert (Nq := NoDup_remove_2 _ _ _ N). apply NoDup_remove_1 in N. rewrite <- app_assoc, <- map_app in *.
    assert (Op : forall x, In x (map fst (f_sent s) ++ map (fun x => fst (fst x)) (l1 ++ l2))%list -> In x (opens s)).
    { intros x. unfold opens. rewrite E, !map_app, !in_app_iff. simpl. tauto. }
    assert (Old : forall f' a, ~ In (Answered q f' a) (f_trace s)).
    { apply (iv_open s I). apply in_app_iff. right. rewrite E, map_app. apply in_app_iff. right. now left. }
    assert (K : forall c, (forall f', dget c f' = last_answer f' (Answered q f r :: f_trace s)) ->
              finv (mkF c (f_sent s) (l1 ++ l2)%list (f_next s) (Answered q f r :: f_trace s))).
    { intros c Hc. constructor; cbn [f_cache f_sent f_ready f_next f_trace].
      + exact Hc.
      + intros o [<-|H]; [|now apply (iv_fresh s I)]. simpl. apply (iv_fresh s I (Called q f)). exact HC.
      + intros q' f' H. right. now apply (iv_sent s I).
      + exact N.
      + intros q' f' r' H. destruct (iv_ready s I _ _ _ (Sub _ H)) as (A & rp' & C & F).
        split; [right; exact A|]. exists rp'. split; [right; exact C|exact F].
      + intros q' H f' a [X|X].
        * injection X as <- _ _. exact (Nq H).
        * exact (iv_open s I q' (Op _ H) f' a X).
      + intros q' H r' [X|X]; [discriminate|]. exact (iv_sentr s I q' H r' X).
      + intros q' r1 r2 [X|X] [Y|Y]; try discriminate. exact (iv_reply1 s I q' r1 r2 X Y).
      + intros q' f' r' a [X|X] [Y|Y] [W|W]; try discriminate.
        * injection W as <- <- <-. now rewrite (iv_reply1 s I q r' rp Y HR).
        * exact (iv_ans s I q' f' r' a X Y W).
      + intros q' f' b' [X|X].
        * injection X as <- <- ->. exists q, rp. simpl; auto.
        * destruct (iv_src s I q' f' b' X) as (q1 & r1 & A & C & F). exists q1, r1. simpl; auto.
      + apply asked_keep; [discriminate|discriminate|exact (iv_asked s I)]. }
    destruct r as [b|e]; simpl; apply K; intros f'.
    + cbn [last_answer]. rewrite dget_dset. destruct (String.eqb_spec f' f) as [->|Nf]; [reflexivity|apply (iv_cache s I)].
    + exact (iv_cache s I f').
Qed.

Lemma reach_inv s : freach true s -> finv s.
Proof. induction 1; [apply finit_inv|eapply fstep_inv; eauto]. Qed.

(** Once every query for [f] is settled, the answer stays. *)
Definition quiet (s : fstate) (f : string) : Prop :=
  (forall q, ~ In (q, f) (f_sent s)) /\ (forall q r, ~ In (q, f, r) (f_ready s)).
Definition stays (s : fstate) : Prop := forall h2 q f b h1,
  f_trace s = (h2 ++ Answered q f (Ok b) :: h1)%list -> settled_queries f (Answered q f (Ok b) :: h1) ->
  quiet s f /\ dget (f_cache s) f = Some b /\ forall q' a, In (Answered q' f a) h2 -> a = Ok b.

Lemma now_quiet s q f b h1 : finv s -> f_trace s = Answered q f (Ok b) :: h1 ->
  settled_queries f (Answered q f (Ok b) :: h1) -> quiet s f /\ dget (f_cache s) f = Some b.
Proof.
  intros I E S. rewrite <- E in S. split; [split|].
  - intros q' H. destruct (S q' (iv_sent s I _ _ H)) as [a A].
    apply (iv_open s I q') in A; auto. apply in_app_iff. left. now apply (in_map fst) in H.
  - intros q' r H. destruct (S q' (proj1 (iv_ready s I _ _ _ H))) as [a A].
    apply (iv_open s I q') in A; auto. apply in_app_iff. right. now apply (in_map (fun x => fst (fst x))) in H.
  - rewrite (iv_cache s I), E. cbn [last_answer]. now rewrite String.eqb_refl.
Qed.

Lemma stays_step s s' : finv s -> stays s -> fstep true s s' -> stays s'.
Proof.
  intros I St F. assert (I' := fstep_inv s s' I F). intros h2 q f b h1 E Q.
  destruct h2 as [|o h2].
  { destruct (now_quiet s' q f b h1 I' E Q). split; [|split]; auto. intros ? ? []. }
  simpl in E. destruct F as [f0|l1 q0 f0 l2 r E0|l1 q0 f0 r l2 E0].
  - unfold ask in *. destruct (dget (f_cache s) f0) as [b0|] eqn:D; cbn [f_trace] in E; injection E as <- E.
    + destruct h2 as [|o2 h2]; [discriminate|]. simpl in E. injection E as <- E.
      destruct (St h2 q f b h1 E Q) as (A & B & C). split; [exact A|split; [exact B|]].
      intros q' a [X|[X|X]]; [injection X as _ <- <-; congruence|discriminate|eauto].
    + destruct h2 as [|o2 h2]; [discriminate|]. simpl in E. injection E as <- E.
      destruct (St h2 q f b h1 E Q) as ([A1 A2] & B & C). split; [split|split]; cbn [f_sent f_ready f_cache]; auto.
      * intros q' [X|X]; [injection X as _ <-; congruence|exact (A1 _ X)].
      * intros q' a [X|[X|X]]; [discriminate|discriminate|eauto].
  - cbn [f_trace] in E. injection E as <- E. destruct (St h2 q f b h1 E Q) as ([A1 A2] & B & C).
    split; [split|split]; cbn [f_sent f_ready f_cache]; auto.
    + intros q' X. apply (A1 q'). rewrite E0. apply in_app_iff in X. apply in_app_iff. simpl. tauto.
    + intros q' r' [X|X]; [|exact (A2 _ _ X)]. injection X as _ -> _. apply (A1 q0). rewrite E0. apply in_app_iff. right. now left.
    + intros q' a [X|X]; [discriminate|eauto].
  - assert (Nf : f0 <> f /\ quiet s f /\ dget (f_cache s) f = Some b /\
                 (forall q' a, In (Answered q' f a) h2 -> a = Ok b) /\ exists a, o = Answered q0 f0 a).
    { assert (Et : f_trace s = (h2 ++ Answered q f (Ok b) :: h1)%list) by (destruct r; simpl in E; now injection E).
      destruct (St h2 q f b h1 Et Q) as ([A1 A2] & B & C). split; [|split; [split; assumption|split; [exact B|split; [exact C|]]]].
      - intros ->. apply (A2 q0 r). rewrite E0. apply in_app_iff. right. now left.
      - destruct r; simpl in E; injection E as <- _; eauto. }
    destruct Nf as (Nf & [A1 A2] & B & C & a0 & ->). split; [split|split].
    + destruct r; exact A1.
    + intros q' r' X. apply (A2 q' r'). rewrite E0. assert (X' : In (q', f, r') (l1 ++ l2)%list) by (destruct r; exact X).
      apply in_app_iff in X'. apply in_app_iff. simpl. tauto.
    + destruct r; simpl; [|exact B]. rewrite dget_dset. destruct (String.eqb_spec f f0); [congruence|exact B].
    + intros q' a [X|X]; [injection X as _ X _; congruence|eauto].
Qed.

Lemma reach_stays s : freach true s -> stays s.
Proof.
  induction 1 as [|s s' R IH F].
  - intros h2 q f b h1 E. destruct h2; discriminate.
  - eapply stays_step; eauto. now apply reach_inv.
Qed.

Lemma no_monitor s : freach false s -> f_cache s = [] /\ f_sent s = [] /\ f_ready s = [] /\
  (forall q f, ~ In (Called q f) (f_trace s)) /\
  (forall q f a, In (Answered q f a) (f_trace s) -> a = Ok false).
Proof.
  induction 1 as [|s s' R (A & B & C & D & E) F].
  - simpl. tauto.
  - destruct F as [f|l1 q f l2 r E0|l1 q f r l2 E0].
    + unfold ask. rewrite A. simpl. rewrite B, C. repeat split; auto.
      * intros q f' [X|[X|X]]; try discriminate. exact (D _ _ X).
      * intros q f' a [X|[X|X]]; try discriminate; [now injection X|eauto].
    + rewrite B in E0. destruct l1; discriminate.
    + rewrite C in E0. destruct l1; discriminate.
Qed.
