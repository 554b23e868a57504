(** C148: outputs that are listed in additional_secret_outputs are secret. *)
From Coq Require Import List Bool String.
From Verif Require Import Model_SecretOuts.
Import ListNotations.

(** Specification. *)
Definition has (l : outputs) (k : string) (o : output) : Prop := In (k, o) l.
Definition proper (l : outputs) : Prop := NoDup (map fst l).

(** The options of a run that does not fail. *)
Definition lists (r : run) (ks : list string) : Prop :=
  match r with Provided ks' _ => ks' = ks | Kept ks' => ks' = ks | Failed _ => False end.

(** The outputs were last reported as [rep] by the provider, and [later] are the
    runs since then, that one included. *)
Definition last_reported (l : list run) (rep : outputs) (later : list run) : Prop :=
  exists l1 ks l2, l = l1 ++ Provided ks rep :: l2 /\ later = Provided ks rep :: l2
    /\ forall ks' rep', ~ In (Provided ks' rep') l2.

Lemma mark_one_keys k l : map fst (mark_one k l) = map fst l.
Proof. induction l as [|[k' o] l IH]; cbn; auto. destruct (String.eqb k k'); cbn; congruence. Qed.
Lemma mark_keys ks : forall l, map fst (mark ks l) = map fst l.
Proof.
  induction ks as [|k ks IH]; intros l; cbn; auto.
  destruct (String.eqb k "id"); rewrite IH; auto using mark_one_keys.
Qed.

Lemma mark_one_in k l x o :
  proper l -> (In (x, o) (mark_one k l) <->
    exists p, In (x, p) l /\ o_value o = o_value p
      /\ o_secret o = if String.eqb k x then true else o_secret p).
Proof.
  unfold proper. induction l as [|[k' q] l IH]; intros N; cbn [mark_one].
  - split; [intros []|intros (p & [] & _)].
  - inversion N as [|? ? N1 N2]; subst. specialize (IH N2).
    destruct (String.eqb k k') eqn:E.
    + apply String.eqb_eq in E; subst k'. split.
      * intros [H|H].
        -- inversion H; subst. exists q. rewrite String.eqb_refl. cbn; auto.
        -- exists o. split; [right; auto|split; auto].
           destruct (String.eqb k x) eqn:F; auto. apply String.eqb_eq in F; subst.
           exfalso; apply N1. apply in_map_iff. exists (x, o); auto.
      * intros (p & [H|H] & V & S).
        -- inversion H; subst. rewrite String.eqb_refl in S. left. destruct o; cbn in *; congruence.
        -- right. destruct (String.eqb k x) eqn:F.
           ++ apply String.eqb_eq in F; subst. exfalso; apply N1. apply in_map_iff. exists (x, p); auto.
           ++ destruct o, p; cbn in *; congruence.
    + split.
      * intros [H|H].
        -- inversion H; subst. exists o. rewrite E. split; [left; auto|auto].
        -- apply IH in H. destruct H as (p & I & H). exists p; split; [right; auto|auto].
      * intros (p & [H|H] & V & S).
        -- inversion H; subst. rewrite E in S. left. destruct o, p; cbn in *; congruence.
        -- right. apply IH. eauto.
Qed.

Lemma mark_in ks : forall l x o,
  proper l -> (In (x, o) (mark ks l) <->
    exists p, In (x, p) l /\ o_value o = o_value p
      /\ (o_secret o = true <-> o_secret p = true \/ In x ks /\ x <> "id"%string)).
Proof.
  induction ks as [|k ks IH]; intros l x o N; cbn [mark].
  - split.
    + intros H. exists o. split; [auto|split; [auto|]]. cbn; tauto.
    + intros (p & I & V & S). cbn in S. replace o with p; auto.
      destruct o as [v b], p as [w c]; cbn in *. subst. f_equal. destruct b, c; intuition congruence.
  - destruct (String.eqb k "id") eqn:E.
    + apply String.eqb_eq in E; subst. rewrite IH by auto. cbn [In].
      split; intros (p & I & V & S); exists p; (split; [auto|split; [auto|]]); rewrite S; intuition congruence.
    + assert (N' : proper (mark_one k l)) by (unfold proper; rewrite mark_one_keys; auto).
      apply String.eqb_neq in E. rewrite IH by auto. cbn [In]. split.
      * intros (p & I & V & S). apply mark_one_in in I; auto. destruct I as (q & I & V' & S').
        exists q. split; [auto|split; [congruence|]]. rewrite S, S'.
        destruct (String.eqb k x) eqn:F.
        -- apply String.eqb_eq in F; subst. intuition congruence.
        -- apply String.eqb_neq in F. intuition congruence.
      * intros (q & I & V & S).
        exists {| o_value := o_value q; o_secret := if String.eqb k x then true else o_secret q |}.
        split; [apply mark_one_in; auto; exists q; cbn; auto|split; [auto|]]. cbn [o_secret]. rewrite S.
        destruct (String.eqb k x) eqn:F.
        -- apply String.eqb_eq in F; subst. intuition congruence.
        -- apply String.eqb_neq in F. intuition congruence.
Qed.

Lemma after_later l rep later :
  last_reported l rep later -> proper rep ->
  exists outs, after l = Some outs /\ proper outs /\ forall x o, In (x, o) outs <->
    exists p, In (x, p) rep /\ o_value o = o_value p
      /\ (o_secret o = true <-> o_secret p = true
          \/ x <> "id"%string /\ exists r ks, In r later /\ lists r ks /\ In x ks).
Proof.
  intros (l1 & ks & l2 & -> & -> & N) P. unfold after. rewrite fold_left_app; cbn [fold_left step].
  induction l2 as [|r l2 IH] using rev_ind.
  - cbn. eexists; split; [reflexivity|]. split; [unfold proper; rewrite mark_keys; auto|].
    intros x o. rewrite mark_in by auto.
    split; intros (p & I & V & S); exists p; (split; [auto|split; [auto|]]); rewrite S.
    + split; [intros [H|[H1 H2]]; auto; right; split; auto; exists (Provided ks rep), ks; cbn; auto|].
      intros [H|(H1 & r & ks' & [<-|[]] & L & H2)]; auto. cbn in L; subst; auto.
    + split; [|intros [H|[H1 H2]]; auto; right; split; auto; exists (Provided ks rep), ks; cbn; auto].
      intros [H|(H1 & r & ks' & [<-|[]] & L & H2)]; auto. cbn in L; subst; auto.
  - destruct IH as (outs & E & Po & H).
    { intros ks' rep' I. apply (N ks' rep'). apply in_or_app; auto. }
    rewrite fold_left_app, E. cbn [fold_left].
    destruct r as [ks' rep'|ks'|ks']; cbn [step option_map].
    + exfalso. apply (N ks' rep'). apply in_or_app; right; left; auto.
    + eexists; split; [reflexivity|]. split; [unfold proper; rewrite mark_keys; auto|].
      assert (X : forall x, (exists r ks0, In r (Provided ks rep :: l2 ++ [Kept ks']) /\ lists r ks0 /\ In x ks0)
         <-> (exists r ks0, In r (Provided ks rep :: l2) /\ lists r ks0 /\ In x ks0) \/ In x ks').
      { intros x. rewrite app_comm_cons. split.
        - intros (r & ks0 & I & L & J). apply in_app_or in I. destruct I as [I|[<-|[]]]; [left; eauto|].
          cbn in L; subst; auto.
        - intros [(r & ks0 & I & L & J)|J].
          + exists r, ks0. split; [apply in_or_app; auto|auto].
          + exists (Kept ks'), ks'. split; [apply in_or_app; right; left; auto|split; [reflexivity|auto]]. }
      intros x o. rewrite mark_in by auto. split.
      * intros (p & I & V & S). apply H in I. destruct I as (q & I & V' & S').
        exists q. split; [auto|split; [congruence|]]. rewrite S, S', X. tauto.
      * intros (q & I & V & S).
        assert (J : exists p, In (x, p) outs).
        { assert (K : In x (map fst outs)).
          { destruct (Bool.bool_dec (o_secret q) true) as [B|B];
            [|destruct (string_dec x "id") as [Z|Z]].
            - apply in_map_iff. exists (x, q). split; auto. apply H. exists q.
              split; [auto|split; [auto|]]. tauto.
            - apply in_map_iff. exists (x, q). split; auto. apply H. exists q.
              split; [auto|split; [auto|]]. split; [auto|]. intros [W|[W _]]; [auto|contradiction].
            - assert (D : {exists r ks0, In r (Provided ks rep :: l2) /\ lists r ks0 /\ In x ks0}
                + {~ exists r ks0, In r (Provided ks rep :: l2) /\ lists r ks0 /\ In x ks0}).
              { clear. induction (Provided ks rep :: l2) as [|r l [D|D]].
                - right. intros (r & ks0 & [] & _).
                - left. destruct D as (r0 & ks0 & I & L). exists r0, ks0. split; [right; auto|auto].
                - destruct r as [k1 ?|k1|k1].
                  + destruct (in_dec string_dec x k1) as [I|I].
                    * left. exists (Provided k1 reported), k1. split; [left; auto|split; [reflexivity|auto]].
                    * right. intros (r0 & ks0 & [<-|J] & L & K); [cbn in L; subst; auto|apply D; eauto].
                  + destruct (in_dec string_dec x k1) as [I|I].
                    * left. exists (Kept k1), k1. split; [left; auto|split; [reflexivity|auto]].
                    * right. intros (r0 & ks0 & [<-|J] & L & K); [cbn in L; subst; auto|apply D; eauto].
                  + right. intros (r0 & ks0 & [<-|J] & L & K); [cbn in L; auto|apply D; eauto]. }
              destruct D as [D|D].
              + apply in_map_iff. exists (x, {| o_value := o_value q; o_secret := true |}). split; auto.
                apply H. exists q. cbn [o_value o_secret]. split; [auto|split; [auto|]]. tauto.
              + apply in_map_iff. exists (x, q). split; auto. apply H. exists q.
                split; [auto|split; [auto|]]. tauto. }
          apply in_map_iff in K. destruct K as ([x' p] & E' & K). cbn in E'; subst. eauto. }
        destruct J as [p J]. exists p. split; auto.
        apply H in J. destruct J as (q' & I' & V' & S').
        assert (q' = q).
        { clear - P I I'. unfold proper in P. induction rep as [|[k o'] rep IH]; [destruct I|].
          cbn in P. inversion P as [|? ? P1 P2]; subst.
          destruct I as [I|I], I' as [I'|I'].
          - congruence.
          - inversion I; subst. exfalso; apply P1, in_map_iff. exists (x, q'); auto.
          - inversion I'; subst. exfalso; apply P1, in_map_iff. exists (x, q); auto.
          - auto. }
        subst q'. split; [congruence|]. rewrite S, S', X. tauto.
    + exists outs. split; [auto|split; [auto|]]. intros x o. rewrite H.
      assert (X : forall x, (exists r ks0, In r (Provided ks rep :: l2 ++ [Failed ks']) /\ lists r ks0 /\ In x ks0)
         <-> (exists r ks0, In r (Provided ks rep :: l2) /\ lists r ks0 /\ In x ks0)).
      { intros y. rewrite app_comm_cons. split.
        - intros (r & ks0 & I & L & J). apply in_app_or in I. destruct I as [I|[<-|[]]]; [eauto|].
          destruct L.
        - intros (r & ks0 & I & L & J). exists r, ks0. split; [apply in_or_app; auto|auto]. }
      split; intros (p & I & V & S); exists p; (split; [auto|split; [auto|]]); rewrite S, X; tauto.
Qed.

(** The outputs have the values that the provider last reported. An output is
    secret if the provider reported it secret, or if it is listed in a run since
    then; in particular all that the last run lists, but for "id". *)
Theorem C148_secret_partial l rep later :
  last_reported l rep later -> proper rep ->
  exists outs, after l = Some outs /\ map fst outs = map fst rep
    /\ forall k o, has outs k o ->
       exists p, has rep k p /\ o_value o = o_value p
         /\ (o_secret p = true -> o_secret o = true)
         /\ (forall r ks, In r later -> lists r ks -> In k ks -> k <> "id"%string -> o_secret o = true)
         /\ (o_secret o = true -> o_secret p = true \/ exists r ks, In r later /\ lists r ks /\ In k ks).
Proof.
  intros L P. destruct (after_later _ _ _ L P) as (outs & E & Po & H).
  exists outs. split; [auto|split].
  - destruct L as (l1 & ks & l2 & -> & _ & N). unfold after in E. rewrite fold_left_app in E; cbn [fold_left step] in E.
    clear H Po. revert outs E. induction l2 as [|r l2 IH] using rev_ind; intros outs E.
    + cbn in E. inversion E; subst. apply mark_keys.
    + rewrite fold_left_app in E. cbn [fold_left] in E.
      destruct (fold_left step l2 (Some (mark ks rep))) as [o1|] eqn:F.
      * assert (K : map fst o1 = map fst rep).
        { apply IH; auto. intros ks' rep' I. apply (N ks' rep'), in_or_app; auto. }
        destruct r as [ks' rep'|ks'|ks']; cbn in E; inversion E; subst; auto.
        -- exfalso. apply (N ks' rep'), in_or_app. right; left; auto.
        -- rewrite mark_keys; auto.
      * destruct r as [ks' rep'|ks'|ks']; cbn in E; try discriminate E.
        exfalso. apply (N ks' rep'), in_or_app. right; left; auto.
  - intros k o I. apply H in I. destruct I as (p & I & V & S). exists p.
    split; [auto|split; [auto|split; [tauto|split]]].
    + intros r ks Hr Hl Hk Z. apply S. right. split; eauto.
    + intros Z. apply S in Z. destruct Z as [Z|[_ Z]]; auto.
Qed.

(** Refuted: an output with the name "id" is not made secret. *)
Theorem C148_refuted_id :
  exists rep outs o, after [Provided ["id"%string] rep] = Some outs /\ has outs "id" o /\ o_secret o = false.
Proof.
  exists [("id"%string, {| o_value := 7; o_secret := false |})]. do 2 eexists.
  split; [reflexivity|split; [left; reflexivity|reflexivity]].
Qed.

(** Refuted: an output that is no longer listed stays secret until the resource is
    updated. *)
Theorem C148_refuted_unlisted :
  exists rep p outs o, has rep "key" p /\ o_secret p = false
    /\ after [Provided ["key"%string] rep; Kept []] = Some outs /\ has outs "key" o /\ o_secret o = true.
Proof.
  exists [("key"%string, {| o_value := 7; o_secret := false |})]. do 3 eexists.
  split; [left; reflexivity|split; [reflexivity|split; [reflexivity|split; [left; reflexivity|reflexivity]]]].
Qed.

(** A case: listed in a later run that keeps the resource. *)
Example some_runs :
  let rep := [("key"%string, {| o_value := 7; o_secret := false |});
              ("url"%string, {| o_value := 8; o_secret := false |})] in
  let l := [Provided [] []; Provided [] rep; Failed ["url"%string]; Kept ["key"%string]] in
  last_reported l rep [Provided [] rep; Failed ["url"%string]; Kept ["key"%string]] /\ proper rep
  /\ after l = Some [("key"%string, {| o_value := 7; o_secret := true |});
                     ("url"%string, {| o_value := 8; o_secret := false |})].
Proof.
  cbv zeta. split; [|split; [|reflexivity]].
  - exists [Provided [] []], [], [Failed ["url"%string]; Kept ["key"%string]].
    split; [reflexivity|split; [reflexivity|]]. intros ks' rep' [E|[E|[]]]; discriminate E.
  - repeat constructor; cbn; intuition discriminate.
Qed.

Print Assumptions C148_secret_partial.
Print Assumptions C148_refuted_id.
Print Assumptions C148_refuted_unlisted.
