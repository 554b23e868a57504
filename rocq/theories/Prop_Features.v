(** Property C42 (feature detection). *)
From Verif Require Import Base Model_Features Spec_Features Proof_Features.
Open Scope string_scope.

(** C42.  In every history of a program with a monitor, whatever the order in
    which queries start, calls end and queries continue:
    - a query that starts after some query for its feature was answered is
      answered at once, with the latest answer, and does not contact the
      engine;
    - a query that starts before that contacts the engine (so failures leave
      nothing behind);
    - the reply decides the answer: not implemented means not supported, other
      errors raise;
    - if every call for the feature is over when an answer is given, every
      later query gives that answer; and if the engine does not contradict
      itself, all answers for the feature are the same.
    Without a monitor nothing is supported.  Missing from the full property:
    overlapping queries to an engine that contradicts itself, see
    [C42_refuted]. *)
Theorem C42_features_partial :
  (forall h, possible true h ->
    (forall h2 q f h1, h = (h2 ++ Asked q f :: h1)%list ->
      (forall b, latest f b h1 ->
         (exists h3, h2 = (h3 ++ [Answered q f (Ok b)])%list) /\ forall f', ~ In (Called q f') h) /\
      (unanswered f h1 -> exists h3, h2 = (h3 ++ [Called q f])%list)) /\
    (forall q f r a, In (Called q f) h -> In (Replied q r) h -> In (Answered q f a) h -> meaning r a) /\
    (forall h2 q f b h1, h = (h2 ++ Answered q f (Ok b) :: h1)%list ->
       settled_queries f (Answered q f (Ok b) :: h1) ->
       forall q' a, In (Answered q' f a) h2 -> a = Ok b) /\
    (forall f, (forall q1 q2 r1 r2 b1 b2, In (Called q1 f) h -> In (Replied q1 r1) h -> meaning r1 (Ok b1) ->
                  In (Called q2 f) h -> In (Replied q2 r2) h -> meaning r2 (Ok b2) -> b1 = b2) ->
       forall q1 q2 b1 b2, In (Answered q1 f (Ok b1)) h -> In (Answered q2 f (Ok b2)) h -> b1 = b2)) /\
  (forall h, possible false h ->
    (forall q f, ~ In (Called q f) h) /\ (forall q f a, In (Answered q f a) h -> a = Ok false)).
Proof.
  split.
  - intros h (s & R & <-). assert (I := reach_inv s R). split; [|split; [|split]].
    + intros h2 q f h1 E. destruct (iv_asked s I h2 q f h1 E) as [A B]. split.
      * intros b L. apply A. now apply last_latest.
      * intros U. apply B. now apply last_none.
    + exact (iv_ans s I).
    + intros h2 q f b h1 E S. apply (reach_stays s R h2 q f b h1 E S).
    + intros f C q1 q2 b1 b2 H1 H2. apply (iv_src s I) in H1 as (p1 & r1 & A1 & B1 & M1).
      apply (iv_src s I) in H2 as (p2 & r2 & A2 & B2 & M2). eauto.
  - intros h (s & R & <-). apply (no_monitor s R).
Qed.
Print Assumptions C42_features_partial.

Ltac step R f :=
  match type of R with
  | freach _ ?s => let t := f s in pose proof (fr_step true s _ R t) as R'; clear R; rename R' into R
  end.

(** The full property fails when two queries overlap and the engine
    contradicts itself: the second reply replaces the first. *)
Definition bad_history : history :=
  [Answered 3 "secrets" (Ok false); Asked 3 "secrets"; Answered 1 "secrets" (Ok false); Replied 1 (RError "UNIMPLEMENTED" "");
   Answered 2 "secrets" (Ok true); Asked 2 "secrets"; Answered 0 "secrets" (Ok true); Replied 0 (RSupport true);
   Called 1 "secrets"; Asked 1 "secrets"; Called 0 "secrets"; Asked 0 "secrets"].
Theorem C42_refuted : exists h, possible true h /\
  exists h3 h2 q1 q2 q f b h1,
    h = (h3 ++ Answered q2 f (Ok (negb b)) :: Asked q2 f :: h2 ++ Answered q1 f (Ok b) :: Asked q1 f :: Answered q f (Ok b) :: h1)%list.
Proof.
  exists bad_history. split.
  - eexists. split.
    + pose proof (fr_init true) as R.
    step R ltac:(fun s => constr:(fs_ask true s "secrets")).
    step R ltac:(fun s => constr:(fs_ask true s "secrets")).
    step R ltac:(fun s => constr:(fs_reply true s [(1, "secrets")] 0 "secrets" [] (RSupport true) eq_refl)).
    step R ltac:(fun s => constr:(fs_resume true s [] 0 "secrets" (Ok true) [] eq_refl)).
    step R ltac:(fun s => constr:(fs_ask true s "secrets")).
    step R ltac:(fun s => constr:(fs_reply true s [] 1 "secrets" [] (RError "UNIMPLEMENTED" "") eq_refl)).
    step R ltac:(fun s => constr:(fs_resume true s [] 1 "secrets" (Ok false) [] eq_refl)).
    step R ltac:(fun s => constr:(fs_ask true s "secrets")).
    exact R.
    + reflexivity.
  - exists [], [Answered 1 "secrets" (Ok false); Replied 1 (RError "UNIMPLEMENTED" "")], 2, 3, 0, "secrets", true,
      [Replied 0 (RSupport true); Called 1 "secrets"; Asked 1 "secrets"; Called 0 "secrets"; Asked 0 "secrets"].
    reflexivity.
Qed.
Print Assumptions C42_refuted.

(** A history in which a first query fails, a second succeeds and a third uses
    its answer. *)
Example C42_satisfiable : exists h h2 h1, possible true h /\
  h = (h2 ++ Asked 2 "secrets" :: h1)%list /\ latest "secrets" true h1 /\
  In (Answered 0 "secrets" (Err (Exn "Exception" "boom"))) h1.
Proof.
  eexists _, [Answered 2 "secrets" (Ok true)], _. split; [eexists; split|split].
  - pose proof (fr_init true) as R.
    step R ltac:(fun s => constr:(fs_ask true s "secrets")).
    step R ltac:(fun s => constr:(fs_reply true s [] 0 "secrets" [] (RError "INTERNAL" "boom") eq_refl)).
    step R ltac:(fun s => constr:(fs_resume true s [] 0 "secrets" (Err (Exn "Exception" "boom")) [] eq_refl)).
    step R ltac:(fun s => constr:(fs_ask true s "secrets")).
    step R ltac:(fun s => constr:(fs_reply true s [] 1 "secrets" [] (RSupport true) eq_refl)).
    step R ltac:(fun s => constr:(fs_resume true s [] 1 "secrets" (Ok true) [] eq_refl)).
    step R ltac:(fun s => constr:(fs_ask true s "secrets")).
    exact R.
  - reflexivity.
  - reflexivity.
  - split; [apply last_latest; reflexivity|]. simpl. auto 8.
Qed.
