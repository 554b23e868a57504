(** The targets of an update are what it treats as such. *)
From Verif Require Import Base Model_Targets Spec_Targets.
Open Scope string_scope.
Open Scope list_scope.

Lemma targeted_spec dependents g q : targeted dependents g q = true <->
  In (q_urn q) (g_targets g) \/ dependents = true /\ exists v, names q v /\ In v (g_targets g).
Proof.
  unfold targeted, names. split.
  - destruct (smem (q_urn q) (g_targets g)) eqn:M; [left; now apply smem_In|]. destruct dependents; cbn; [|discriminate]. intro H. right. split; trivial.
    destruct (negb (String.eqb (q_provider q) "") && smem (q_provider q) (g_targets g)) eqn:A.
    { apply andb_prop in A as [A B]. apply negb_true_iff, String.eqb_neq in A. apply smem_In in B. exists (q_provider q). auto. }
    destruct (negb (String.eqb (q_parent q) "") && smem (q_parent q) (g_targets g)) eqn:C.
    { apply andb_prop in C as [C B]. apply negb_true_iff, String.eqb_neq in C. apply smem_In in B. exists (q_parent q). auto. }
    apply existsb_exists in H as (d & I & E). apply andb_prop in E as [E B]. apply negb_true_iff, String.eqb_neq in E. apply smem_In in B. exists d. auto.
  - intros [I|[-> (v & [N H] & I)]]; [apply smem_In in I; now rewrite I|]. destruct (smem (q_urn q) (g_targets g)); trivial. cbn.
    apply smem_In in I. apply String.eqb_neq in N. destruct H as [->|[->|H]].
    + rewrite N, I. cbn. now destruct (negb _ && _).
    + rewrite N, I. reflexivity.
    + destruct (negb _ && smem (q_provider q) _); trivial. destruct (negb _ && smem (q_parent q) _); trivial.
      apply existsb_exists. exists v. rewrite N, I. auto.
Qed.

(** What is known after the registrations [before]: the targets among them are exactly those
    within, and what has been skipped is known. *)
Record good (dependents : bool) (targets : list string) (old : string -> option bool) (all before : list request) (done : list (request * action)) (g : gen) : Prop := {
  go_sound : forall u, In u (g_targets g) -> within dependents targets all u;
  go_given : forall u, In u targets -> In u (g_targets g);
  go_complete : forall q, In q before -> within dependents targets all (q_urn q) -> In (q_urn q) (g_targets g);
  go_skipped : forall u, In u (g_skipped g) <-> exists q, In (q, Skip) done /\ q_urn q = u;
  go_deletes : g_deletes g = [];
  go_done : map fst done = before
}.

Section Run.
Context (dependents : bool) (targets : list string) (old : string -> option bool) (all : list request).
Context (Ord : in_order all) (Ok : ordinary old all).

Lemma within_urn u : within dependents targets all u -> In u targets \/ dependents = true /\ exists q v, In q all /\ q_urn q = u /\ names q v /\ within dependents targets all v.
Proof using. destruct 1 as [u I|q v D I N W]; [now left|right]. split; trivial. exists q, v. auto. Qed.

Lemma same_urn q q' : In q all -> In q' all -> q_urn q = q_urn q' -> q = q'.
Proof.
  destruct Ord as [Nd _]. intros I I' E. clear -Nd I I' E. induction all as [|x l IH]; [easy|]. cbn in Nd. inversion Nd as [|? ? N Nd']; subst.
  destruct I as [->|I], I' as [->|I']; trivial.
  - exfalso. apply N. rewrite E. now apply in_map.
  - exfalso. apply N. rewrite <- E. now apply in_map.
  - auto.
Qed.

(** One registration. *)
Lemma one before q after done g : all = before ++ q :: after -> good dependents targets old all before done g ->
  let '(a, g') := generate dependents old g q in
  good dependents targets old all (before ++ [q]) (done ++ [(q, a)]) g' /\
  let w := within dependents targets all (q_urn q) in
  match a with
  | Create => old (q_urn q) = None /\ (w \/ q_is_provider q = true)
  | Import => False
  | Update => old (q_urn q) <> None /\ w /\ q_found q = Changed
  | Replace => old (q_urn q) <> None /\ w /\ q_found q = Differs
  | Same => old (q_urn q) <> None /\ (w -> q_found q = Equal)
  | Skip => old (q_urn q) = None /\ ~ w /\ q_is_provider q = false
  end.
Proof.
  intros E G. destruct Ok as [Ox Oq]. assert (Iq : In q all) by (rewrite E; apply in_elt). destruct (Oq q Iq) as [Im Cl].
  assert (T : targeted dependents g q = true <-> within dependents targets all (q_urn q)).
  { rewrite targeted_spec. split.
    - intros [I|[D (v & N & I)]]; [now apply (go_sound _ _ _ _ _ _ _ G)|]. apply (in_dependents _ _ _ q v); trivial. now apply (go_sound _ _ _ _ _ _ _ G).
    - intro W. destruct (within_urn _ W) as [I|[D (q' & v & I' & Eu & N & Wv)]]; [left; now apply (go_given _ _ _ _ _ _ _ G)|].
      assert (q' = q) by now apply same_urn. subst q'. right. split; trivial. exists v. split; trivial.
      destruct Ord as [_ Or]. destruct (proj1 (in_map_iff q_urn before v) (Or before q after v E N)) as (p & <- & Ip).
      now apply (go_complete _ _ _ _ _ _ _ G). }
  unfold generate. rewrite Im, (go_deletes _ _ _ _ _ _ _ G). cbn [smem].
  assert (Gk : forall g' a, g_deletes g' = [] -> g_skipped g' = (if match a with Skip => true | _ => false end then [q_urn q] else []) ++ g_skipped g ->
     g_targets g' = (if targeted dependents g q then [q_urn q] else []) ++ g_targets g -> good dependents targets old all (before ++ [q]) (done ++ [(q, a)]) g').
  { intros g' a Ed Es Et. split; trivial.
    - intros u I. rewrite Et in I. apply in_app_or in I as [I|I]; [|now apply (go_sound _ _ _ _ _ _ _ G)].
      destruct (targeted dependents g q); [|easy]. destruct I as [<-|[]]. now apply T.
    - intros u I. rewrite Et. apply in_or_app. right. now apply (go_given _ _ _ _ _ _ _ G).
    - intros p Ip W. rewrite Et. apply in_or_app. apply in_app_or in Ip as [Ip|[<-|[]]]; [right; now apply (go_complete _ _ _ _ _ _ _ G)|].
      left. apply T in W. rewrite W. now left.
    - intro u. rewrite Es, in_app_iff, (go_skipped _ _ _ _ _ _ _ G). split.
      + intros [I|(p & Ip & Ep)].
        * exists q. destruct a; try easy. destruct I as [<-|[]]. split; trivial. apply in_or_app. right. now left.
        * exists p. split; trivial. apply in_or_app. now left.
      + intros (p & Ip & Ep). apply in_app_or in Ip as [Ip|[[= -> ->]|[]]]; [right; eauto|left; now left].
    - rewrite map_app, (go_done _ _ _ _ _ _ _ G). reflexivity. }
  destruct (old (q_urn q)) as [[]|] eqn:Old; [now destruct (Ox (q_urn q))| |].
  - destruct (targeted dependents g q) eqn:Tq.
    + destruct (q_found q) as [| | |ds] eqn:Fd; [..|now destruct (Cl ds)].
      * split; [apply Gk; try reflexivity; exact (go_deletes _ _ _ _ _ _ _ G)|]. split; [discriminate|trivial].
      * split; [apply Gk; try reflexivity; exact (go_deletes _ _ _ _ _ _ _ G)|]. repeat split; [discriminate|now apply T].
      * split; [apply Gk; try reflexivity; exact (go_deletes _ _ _ _ _ _ _ G)|]. repeat split; [discriminate|now apply T].
    + split; [apply Gk; try reflexivity; exact (go_deletes _ _ _ _ _ _ _ G)|]. split; [discriminate|]. intro W. apply T in W. discriminate.
  - destruct (targeted dependents g q) eqn:Tq; cbn [negb andb].
    + split; [apply Gk; try reflexivity; exact (go_deletes _ _ _ _ _ _ _ G)|]. split; trivial. left. now apply T.
    + destruct (q_is_provider q) eqn:Pq; cbn.
      * split; [apply Gk; try reflexivity; exact (go_deletes _ _ _ _ _ _ _ G)|]. auto.
      * split; [apply Gk; try reflexivity; exact (go_deletes _ _ _ _ _ _ _ G)|]. repeat split; trivial. intro W. apply T in W. discriminate.
Qed.

Definition right_action (q : request) (a : action) : Prop :=
  let w := within dependents targets all (q_urn q) in
  match a with
  | Create => old (q_urn q) = None /\ (w \/ q_is_provider q = true)
  | Import => False
  | Update => old (q_urn q) <> None /\ w /\ q_found q = Changed
  | Replace => old (q_urn q) <> None /\ w /\ q_found q = Differs
  | Same => old (q_urn q) <> None /\ (w -> q_found q = Equal)
  | Skip => old (q_urn q) = None /\ ~ w /\ q_is_provider q = false
  end.

Lemma run_right : forall after before done g, all = before ++ after -> good dependents targets old all before done g ->
  forall done1 q a done2, run dependents old g after = done1 ++ (q, a) :: done2 ->
    right_action q a /\ (acted a -> forall d, In d (q_deps q) -> ~ In (d, Skip) (map (fun e => (q_urn (fst e), snd e)) (done ++ done1))).
Proof.
  induction after as [|x after IH]; intros before done g E G done1 q a done2 R; [now destruct done1|]. cbn [run] in R.
  unfold generate_checked in R. pose proof (one before x after done g E G) as O. destruct (generate dependents old g x) as [b g'] eqn:Ge. destruct O as [G' Ra].
  assert (Q : exists rest, (q, a) :: done2 = rest /\ (existsb (fun d => smem d (g_skipped g')) (q_deps x) = false \/ b = Same \/ b = Skip) /\ (x, b) :: run dependents old g' after = done1 ++ rest).
  { exists ((q, a) :: done2). split; trivial. destruct b; auto; (destruct (existsb (fun d => smem d (g_skipped g')) (q_deps x)); [destruct done1; discriminate|auto]). }
  destruct Q as (rest & <- & Sk & R'). clear R. destruct done1 as [|y done1].
  - injection R' as <- <- <-. split; [exact Ra|]. intros A d Id Sd. rewrite app_nil_r in Sd. apply in_map_iff in Sd as ([p c] & Ep & Ip). cbn in Ep. injection Ep as Ep ->.
    assert (I : In d (g_skipped g')).
    { apply (go_skipped _ _ _ _ _ _ _ G'). exists p. split; trivial. apply in_or_app. now left. }
    destruct Sk as [Sk|[->| ->]]; [|now destruct A as [A|[A|[A|A]]]..].
    assert (T : existsb (fun d => smem d (g_skipped g')) (q_deps x) = true) by (apply existsb_exists; exists d; split; trivial; now apply smem_In). congruence.
  - injection R' as <- R'. assert (E' : all = (before ++ [x]) ++ after) by (rewrite <- app_assoc; exact E).
    destruct (IH _ _ _ E' G' _ _ _ _ R') as [A B]. split; trivial. rewrite <- app_assoc in B. exact B.
Qed.
Lemma run_prefix : forall after g, exists rest, after = map fst (run dependents old g after) ++ rest.
Proof using.
  induction after as [|x after IH]; intro g; cbn; [now exists []|]. destruct (generate_checked dependents old g x) as [[a g']|]; [|now exists (x :: after)].
  destruct (IH g') as [rest R]. exists rest. cbn. now rewrite <- R.
Qed.
(** The run ends early only before something that depends on what it skipped. *)
Lemma run_whole : forall after before done g, all = before ++ after -> good dependents targets old all before done g ->
  let l := run dependents old g after in
  map fst l = after \/ exists q rest p, after = map fst l ++ q :: rest /\ In (p, Skip) (done ++ l) /\ In (q_urn p) (q_deps q).
Proof.
  induction after as [|x after IH]; intros before done g E G; [now left|]. cbn [run]. unfold generate_checked.
  pose proof (one before x after done g E G) as O. destruct (generate dependents old g x) as [b g'] eqn:Ge. destruct O as [G' Ra].
  assert (E' : all = (before ++ [x]) ++ after) by (rewrite <- app_assoc; exact E). specialize (IH _ _ _ E' G').
  assert (Next : let l := (x, b) :: run dependents old g' after in
    map fst l = x :: after \/ exists q rest p, x :: after = map fst l ++ q :: rest /\ In (p, Skip) (done ++ l) /\ In (q_urn p) (q_deps q)).
  { cbn. destruct IH as [->|(q & rest & p & R & Ip & Id)]; [now left|right]. exists q, rest, p. split; [now f_equal|]. split; trivial. rewrite <- app_assoc in Ip. exact Ip. }
  assert (Stop : (b = Create \/ b = Import \/ b = Update \/ b = Replace) -> existsb (fun d => smem d (g_skipped g')) (q_deps x) = true ->
    exists q rest p, x :: after = q :: rest /\ In (p, Skip) (done ++ []) /\ In (q_urn p) (q_deps q)).
  { intros B T. apply existsb_exists in T as (d & Id & Sd). apply smem_In, (go_skipped _ _ _ _ _ _ _ G') in Sd as (p & Ip & <-).
    exists x, after, p. rewrite app_nil_r. repeat split; trivial. apply in_app_or in Ip as [Ip|[Ip|[]]]; trivial. injection Ip as <- ->. now destruct B as [B|[B|[B|B]]]. }
  destruct b; try exact Next; (destruct (existsb (fun d => smem d (g_skipped g')) (q_deps x)) eqn:T; [right; apply Stop; tauto|exact Next]).
Qed.
Lemma start_good : good dependents targets old all [] [] (mkGen targets [] []).
Proof.
  split; cbn; trivial; try easy; [intros u I; now constructor|]. intro u. split; [easy|]. now intros (q & [] & _).
Qed.
End Run.
