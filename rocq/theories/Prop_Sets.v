(** C95: sending values and the dependencies of Outputs *)
From Coq Require Import List Arith Bool Lia.
Import ListNotations.
From Verif Require Import Model_Sets Spec_Sets Proof_Sets.

(** C95.  Full property: whatever values are sent at the same time and in
    whatever order, each sending ends, and the dependencies reported for a
    value are those it had before anything was sent.

    In full generality only the first half of the second part holds: no
    dependency is lost. *)
Theorem C95_none_lost : forall e h0 vs, ready e h0 ->
  forall schedule h ts, run h0 (map (fun kv => start e (fst kv) (snd kv)) vs) schedule = (h, ts) ->
  forall i keep v deps sent, nth_error vs i = Some (keep, v) -> nth_error ts i = Some (Ret deps sent) ->
    (forall r, needs h0 v r -> In r deps) /\
    (if keep && v_outvals e then exists os, outermost v os /\ Forall2 (fun o s => forall r, needs h0 o r -> In r s) os sent else sent = []).
Proof.
  intros e h0 vs Rd sch h ts R i keep v deps sent Hv Ht.
  set (Q := fun kv : bool * sval => fun d s => covers h0 (snd kv) d /\ sent_covers e h0 (fst kv) (snd kv) s).
  assert (G0 : Forall2 (fun Q t => good (over h0) True Q h0 t) (map Q vs) (map (fun kv => start e (fst kv) (snd kv)) vs)).
  { clear -Rd. induction vs as [|[kp x] vs IH]; cbn; constructor; auto. unfold start. apply (send_over e h0 Rd); [apply later_refl|].
    intros h' d s L O C S. cbn. split; assumption. }
  destruct (run_good (over h0) True _ _ _ _ _ _ (later_refl h0) G0 R) as [_ G].
  assert (K : forall Qs ts i Qi t, Forall2 (fun Q t => good (over h0) True Q h t) Qs ts -> nth_error Qs i = Some Qi -> nth_error ts i = Some t -> good (over h0) True Qi h t).
  { clear. intros Qs ts i Qi t F. revert i. induction F; intros [|i]; cbn; try discriminate; [now intros [= <-] [= <-]|apply IHF]. }
  specialize (K _ _ i (Q (keep, v)) _ G (map_nth_error Q i vs Hv) Ht). cbn in K. exact K.
Qed.
Print Assumptions C95_none_lost.

(** Missing for the full property: Outputs that share a set object and depend on
    different resources (see C95_refuted and C95_iteration_refuted). *)
Theorem C95_exact_partial : forall e h0 vs, ready e h0 -> shares_agree e h0 (map snd vs) ->
  forall schedule h ts, run h0 (map (fun kv => start e (fst kv) (snd kv)) vs) schedule = (h, ts) ->
  forall i keep v, nth_error vs i = Some (keep, v) ->
    nth_error ts i <> Some Crash /\
    (* what it reports *)
    (forall deps sent, nth_error ts i = Some (Ret deps sent) ->
      exactly h0 v deps /\
      if keep && v_outvals e then exists os, outermost v os /\ Forall2 (exactly h0) os sent else sent = []) /\
    (* it ends *)
    exists n h' ts' deps sent, run h ts (repeat i n) = (h', ts') /\ nth_error ts' i = Some (Ret deps sent).
Proof.
  intros e h0 vs Rd Ag sch h ts R i keep v Hv.
  set (Q := fun kv : bool * sval => fun d s => exactly h0 (snd kv) d /\ sent_ok e h0 (fst kv) (snd kv) s).
  set (ab := above e h0 (map snd vs)).
  assert (G0 : Forall2 (fun Q t => good ab False Q h0 t) (map Q vs) (map (fun kv => start e (fst kv) (snd kv)) vs)).
  { assert (Sub : forall l, incl l vs -> Forall2 (fun Q t => good ab False Q h0 t) (map Q l) (map (fun kv => start e (fst kv) (snd kv)) l)).
    { induction l as [|[kp x] l IH]; cbn; intros I; constructor; [|apply IH; intros y Hy; apply I; now right].
      unfold start. apply (send_good e h0 _ Rd Ag).
      - intros o P. left. exists x. split; [|exact P]. apply (in_map snd vs (kp, x)). apply I. now left.
      - now apply above_start.
      - intros h' d s L O C S. cbn. split; assumption. }
    apply Sub. intros y; auto. }
  destruct (run_good ab False _ _ _ _ _ _ (above_start e h0 _ Rd) G0 R) as [A G].
  assert (K : forall h Qs ts i Qi t, Forall2 (fun Q t => good ab False Q h t) Qs ts -> nth_error Qs i = Some Qi -> nth_error ts i = Some t -> good ab False Qi h t).
  { clear. intros h Qs ts i Qi t F. revert i. induction F; intros [|i]; cbn; try discriminate; [now intros [= <-] [= <-]|apply IHF]. }
  pose proof (map_nth_error Q i vs Hv) as HQ.
  split; [intros Ht; exact (K _ _ _ i (Q (keep, v)) _ G HQ Ht)|].
  split; [intros deps sent Ht; exact (K _ _ _ i (Q (keep, v)) _ G HQ Ht)|].
  destruct (nth_error ts i) as [t|] eqn:Et.
  2:{ exfalso. apply nth_error_None in Et. assert (L : length (map Q vs) = length ts) by (clear -G; induction G; cbn; auto).
      assert (i < length (map Q vs)) by (apply nth_error_Some; congruence). lia. }
  destruct (nth_error_split _ _ Et) as (ts1 & ts2 & -> & <-). destruct (ends t h ts1 ts2) as (n & h' & t' & E & D).
  exists n, h', (ts1 ++ t' :: ts2).
  destruct (run_good ab False _ _ _ _ _ _ A G E) as [_ G'].
  assert (Et' : nth_error (ts1 ++ t' :: ts2) (length ts1) = Some t') by (rewrite nth_error_app2, Nat.sub_diag by auto; reflexivity).
  pose proof (K _ _ _ _ _ _ G' HQ Et') as Gt. destruct t' as [d s| | |]; try destruct D; [|destruct Gt]. exists d, s. split; [exact E|exact Et'].
Qed.
Print Assumptions C95_exact_partial.

(** The condition holds if no Output holds Outputs or resources in its value,
    whatever set objects they share; and if no two Outputs share one. *)
Theorem C95_flat : forall e h vs, (forall v l x r, In v vs -> part (SOut l x) v -> ~ needs h x r) -> shares_agree e h vs.
Proof.
  intros e h vs H l x y Hx _ r K. apply needs_out in K as [K|[_ K]]; [now apply N_own|]. exfalso.
  destruct Hx as [(v & I & P)|(r' & [E|E])]; [eapply H; eauto| |]; injection E as _ ->; inversion K.
Qed.
Theorem C95_unshared : forall e h vs, (forall l x y, among e vs (SOut l x) -> among e vs (SOut l y) -> x = y) -> shares_agree e h vs.
Proof. intros e h vs H l x y Hx Hy r K. now rewrite <- (H l x y Hx Hy). Qed.

(** Resources with Outputs [urn] and [id] in set objects 3r and 3r+1, and Outputs
    with set objects 2 (holding resource 1), 5 (holding resource 2) and 8. *)
Definition st_env : senv := mkSenv true true (fun r => Nat.eqb r 1) (fun r => r * 3) (fun r => 1 + r * 3).
Definition st_sets : sets := fun l =>
  match l mod 3 with
  | 2 => match l / 3 with 0 => [1] | 1 => [2] | _ => [] end
  | _ => [l / 3]
  end.
Lemma st_ready : ready st_env st_sets.
Proof.
  split.
  - intros l. unfold st_sets. destruct (l mod 3) as [|[|[|n]]]; try (repeat constructor; auto; fail). destruct (l / 3) as [|[|m]]; repeat constructor; auto.
  - intros r. unfold st_sets, st_env, v_urn, v_id. rewrite Nat.mod_mul, Nat.div_mul, Nat.mod_add, Nat.div_add by discriminate. split; reflexivity.
Qed.
Definition st_out1 : sval := SOut 2 SData.
Definition st_out2 : sval := SOut 5 SData.
(** An Output with its own set object that holds an Output and a resource. *)
Definition st_nested : sval := SList [SData; SOut 8 (SList [st_out2; SRes 1]); st_out1].
Lemma st_agree : shares_agree st_env st_sets [st_nested; st_nested; st_out2].
Proof.
  apply C95_unshared.
  assert (Pn : forall l x, part (SOut l x) st_nested -> (l, x) = (8, SList [st_out2; SRes 1]) \/ (l, x) = (5, SData) \/ (l, x) = (2, SData)).
  { intros l x P. inversion P as [|y l' I P'|]; subst. cbn in I. destruct I as [<-|[<-|[<-|[]]]]; [inversion P'| |].
    - inversion P' as [|?|l' y P2]; subst; [now left|]. inversion P2 as [|y l' I P3|]; subst. cbn in I. destruct I as [<-|[<-|[]]]; [|inversion P3].
      inversion P3 as [|?|l' y P4]; subst; [now right; left|]. inversion P4.
    - inversion P' as [|?|l' y P4]; subst; [now right; right|]. inversion P4. }
  assert (Po : forall l x, part (SOut l x) st_out2 -> (l, x) = (5, SData)) by (intros l x P; inversion P as [|?|l' y P4]; subst; [reflexivity|inversion P4]).
  assert (Am : forall l x, among st_env [st_nested; st_nested; st_out2] (SOut l x) ->
    (l, x) = (8, SList [st_out2; SRes 1]) \/ x = SData /\ l <> 8).
  { intros l x [(v & I & P)|(r & [E|E])]; [|injection E as -> ->..].
    - assert (K : (l, x) = (8, SList [st_out2; SRes 1]) \/ (l, x) = (5, SData) \/ (l, x) = (2, SData)) by (destruct I as [<-|[<-|[<-|[]]]]; auto).
      destruct K as [K|[[= -> ->]|[= -> ->]]]; [now left|right; split; [reflexivity|discriminate]..].
    - right. split; [reflexivity|]. cbn. lia.
    - right. split; [reflexivity|]. cbn. lia. }
  intros l x y Hx%Am Hy%Am. destruct Hx as [Hx|[Hx N]], Hy as [Hy|[Hy N']]; congruence.
Qed.
(** Three sendings interleaved step by step, then the first is finished. *)
Fixpoint rotate (n : nat) : list nat := match n with 0 => [] | S m => [0; 1; 2] ++ rotate m end.
Definition st_run : sets * list task :=
  run st_sets (map (fun kv => start st_env (fst kv) (snd kv)) [(true, st_nested); (false, st_nested); (true, st_out2)]) (rotate 40).
Example C95_exact_nonvacuous : ready st_env st_sets /\ shares_agree st_env st_sets [st_nested; st_nested; st_out2] /\
  snd st_run = [Ret [2; 1; 1; 1] [[2; 1]; [1]]; Ret [2; 1; 1; 1] []; Ret [2] [[2]]].
Proof. split; [exact st_ready|]. split; [exact st_agree|]. vm_compute. reflexivity. Qed.
(** Refuted in full.  [o2 = o1.apply(lambda _: [p])] for Outputs [o1] and [p]:
    after [o2] has been sent, [o1] is reported to depend on the resource of [p]. *)
Theorem C95_refuted : exists e h0 o1 o2 r, ready e h0 /\
  (exists l p, o1 = SOut l SData /\ apply_set h0 11 l (SList [p]) = (h0, o2)) /\
  ~ needs h0 o1 r /\
  exists n m h deps d s, run h0 [start e false o2; start e false o1] (repeat 0 n ++ repeat 1 m) = (h, [Ret d s; Ret deps []]) /\ In r deps.
Proof.
  exists st_env, st_sets, st_out1, (SOut 2 (SList [st_out2])), 2. split; [exact st_ready|]. split; [|split].
  - exists 2, st_out2. split; reflexivity.
  - intros K. apply needs_data in K. vm_compute in K. destruct K as [K|[]]. discriminate.
  - exists 4, 2. do 4 eexists. split; [cbn; reflexivity|]. vm_compute. auto.
Qed.
Print Assumptions C95_refuted.

(** And if [o1] is being sent as an Output at the same time, that may fail, with
    "Set changed size during iteration". *)
Theorem C95_iteration_refuted : exists e h0 o1 o2, ready e h0 /\
  (exists l p, o1 = SOut l SData /\ apply_set h0 11 l (SList [p]) = (h0, o2)) /\
  exists schedule h t, run h0 [start e true o1; start e false o2] schedule = (h, [Crash; t]).
Proof.
  exists st_env, st_sets, st_out1, (SOut 2 (SList [st_out2])). split; [exact st_ready|]. split.
  - exists 2, st_out2. split; reflexivity.
  - exists ([0; 0; 0; 0; 0] ++ [1; 1; 1; 1] ++ [0]). do 2 eexists. cbn. reflexivity.
Qed.
Print Assumptions C95_iteration_refuted.
