(** C125: protected resources are not deleted. *)
From Verif Require Import Base Model_Deletes Spec_Deletes Proof_Deletes Proof_DeletesTargets Proof_DeletesChain.
From Coq Require Import Lia.
Open Scope string_scope.
Open Scope list_scope.

Lemma find_old_means s q i : find_old s (q_urn q :: q_aliases q) = Some i -> exists r, nth_error s i = Some r /\ means q r.
Proof.
  unfold means. generalize (q_urn q :: q_aliases q). induction l as [|u us IH]; cbn; [discriminate|]. destruct (find_live u s 0) eqn:E.
  - intros [= <-]. apply find_live_some in E as (_ & r & R & U & _). rewrite Nat.sub_0_r in R. exists r. auto.
  - intro F. destruct (IH F) as (r & A & B). eauto.
Qed.
Lemma find_live_means s q i : find_live (q_urn q) s 0 = Some i -> exists r, nth_error s i = Some r /\ means q r.
Proof. intro E. apply find_live_some in E as (_ & r & R & U & _). rewrite Nat.sub_0_r in R. exists r. split; trivial. now left. Qed.

Definition why_replaced (s : list state) (q : registration) (i : nat) : Prop :=
  exists r, nth_error s i = Some r /\ means q r /\ (s_external r = true \/ q_answer q = Imported \/ q_answer q = Read false \/ (q_protect q && s_protect r) = false).
Lemma register_replaced o s g q g' c : register o s g q = Some (g', c) -> forall i, In i (g_replaced g') -> In i (g_replaced g) \/ why_replaced s q i.
Proof.
  unfold register. destruct (is_in (q_urn q) (g_urns g)); [discriminate|].
  destruct (q_answer q) as [| |before| |same] eqn:Eq; cbv zeta.
  5: { destruct (find_live _ _ _) as [i|] eqn:Ef; [destruct (_ || _) eqn:Es|]; intros [= <- <-] k K; cbn in K; auto.
       destruct K as [<-|K]; auto. right. destruct (find_live_means _ _ _ Ef) as (r & A & B). exists r. repeat split; trivial. right. right. left.
       apply orb_false_iff in Es as [_ ->]. exact Eq. }
  all: destruct (find_old s (q_urn q :: q_aliases q)) as [i|] eqn:Eo;
    [destruct (find_old_means _ _ _ Eo) as (r & A & B); assert (G : forall d, g_replaced (if String.eqb (urn_at s i) (q_urn q) then d else keep d [urn_at s i]) = g_replaced d) by (intro; now destruct (String.eqb _ _))|].
  8: intros [= <- <-] k K; cbn in K; auto.
  7: destruct (is_in _ _); intros [= <- <-] k K; cbn in K; rewrite ?G in K; cbn in K; auto; destruct K as [<-|K]; auto; right; exists r; auto.
  all: destruct (is_in _ (g_deletes _)); [intros [= <- <-] k K; cbn in K; rewrite ?G in K; cbn in K; auto|].
  2,4,6: intros [= <- <-] k K; destruct (q_targeted q); cbn in K; auto.
  all: destruct (flag_at s_external s i) eqn:Ee; [intros [= <- <-] k K; cbn in K; rewrite ?G in K; cbn in K; destruct K as [<-|K]; auto; right; exists r; rewrite (flag_at_some _ _ _ _ A) in Ee; auto|].
  all: destruct (negb (q_targeted q)); [intros [= <- <-] k K; cbn in K; rewrite ?G in K; cbn in K; auto|].
  1,2: intros [= <- <-] k K; cbn in K; rewrite ?G in K; cbn in K; auto.
  destruct (q_protect q && flag_at s_protect s i) eqn:Ep; [discriminate|]. rewrite (flag_at_some _ _ _ _ A) in Ep.
  destruct before; intros [= <- <-] k K; cbn in K; rewrite ?G in K; cbn in K; auto. destruct K as [<-|K]; auto. right. exists r. auto 6.
Qed.
Lemma all_replaced o s qs : forall g g', snd (register_all o s g qs) = Some g' -> forall i, In i (g_replaced g') -> In i (g_replaced g) \/ exists q, In q qs /\ why_replaced s q i.
Proof.
  induction qs as [|q qs IH]; intros g g' E i I; cbn [register_all snd] in E; [injection E as <-; auto|].
  destruct (register o s g q) as [[g1 c]|] eqn:R; [|discriminate]. cbn [snd] in E. destruct (IH _ _ E i I) as [K|(q' & Q & W)].
  - destruct (register_replaced _ _ _ _ _ _ R i K) as [K'|W]; auto. right. exists q. split; [now left|trivial].
  - right. exists q'. split; [now right|trivial].
Qed.
Lemma all_chains o s qs : forall g c, In c (fst (register_all o s g qs)) -> exists q g1 g2, In q qs /\ register o s g1 q = Some (g2, c).
Proof.
  induction qs as [|q qs IH]; intros g c I; cbn [register_all fst] in I; [destruct I|].
  destruct (register o s g q) as [[g1 c1]|] eqn:R; [|destruct I]. cbn [fst] in I. destruct I as [<-|I].
  - exists q, g, g1. split; [now left|trivial].
  - destruct (IH _ _ I) as (q' & a & b & Q & E). exists q', a, b. split; [now right|trivial].
Qed.

(** C125.  If an update, or destroying, asks a provider to delete a resource that is recorded as
    protected, then the program registers that resource without protection.
    Partial: no protected resource relies on one that must be deleted before it is replaced; and
    none is read or imported with another ID instead. *)
Theorem C125_protected_partial : forall needs o s qs st i b r,
  consistent s ->
  (forall q r, In q qs -> In r s -> means q r -> s_protect r = true -> q_answer q <> Imported /\ q_answer q <> Read false) ->
  (forall q i d a c, In q qs -> q_answer q = Differs true -> nth_error s i = Some a -> means q a ->
     nth_error s d = Some c -> clos_refl_trans nat (relies s) d i -> d <> i -> s_protect c = false) ->
  may_perform needs o s qs st -> st = Del i b -> apply (o_preview o) s st = Asking ->
  nth_error s i = Some r -> s_protect r = true ->
  exists q, In q qs /\ means q r /\ q_protect q = false.
Proof.
  intros needs o s qs st i b r C H1 H2 M -> A R Pr.
  assert (Nf : b = false -> False).
  { intros ->. cbn [apply negb andb] in A. rewrite (flag_at_some _ _ _ _ R), Pr in A. discriminate. }
  destruct M as [(k & K & E)|[(c & Ic & Is)|(g & l & k & Eg & El & Ik & E)]].
  - injection E as _ E. destruct (Nf E).
  - destruct (all_chains _ _ _ _ _ Ic) as (q & g1 & g2 & Q & Er). apply register_shape in Er as [N|(x & us & ds & Eo & Ea & Ep & _ & Inc & _ & ->)]; [now apply N in Is|].
    destruct (find_old_means _ _ _ Eo) as (a & Ra & Ma). apply in_app_or in Is as [Is|[Is|[Is|[Is|[]]]]]; try discriminate.
    + apply in_map_iff in Is as (d & [= <- <-] & D). apply Inc in D. destruct (proj2 (dependent_replacements_spec (q_needs q) s us x) d D) as (Lt & Ld & Dp).
      apply depending_sound in Dp as (_ & _ & Rl); trivial; [|lia]. rewrite (H2 q x d a r Q Ea Ra Ma R Rl) in Pr; [discriminate|lia].
    + assert (x = i) by congruence. subst x. rewrite Ra in R. injection R as ->. exists q. repeat split; trivial. rewrite (flag_at_some _ _ _ _ Ra), Pr, andb_true_r in Ep. exact Ep.
  - unfold step_for in E. destruct (has_place k (g_replaced g)) eqn:Hp.
    + assert (k = i) by congruence. subst k. assert (b = true) by congruence. subst b. apply has_place_spec in Hp. destruct (all_replaced _ _ _ _ _ Eg i Hp) as [[]|(q & Q & r' & R' & Mq & W)].
      rewrite R in R'. injection R' as <-. destruct (H1 q r Q) as [N1 N2]; trivial; [eapply nth_error_In; eauto|].
      destruct W as [W|[W|[W|W]]]; try congruence.
      * exfalso. cbn [apply negb andb] in A. rewrite (flag_at_some s_external _ _ _ R), W, orb_true_r in A. cbn in A. discriminate.
      * exists q. repeat split; trivial. rewrite Pr, andb_true_r in W. exact W.
    + destruct (_ || _); [discriminate|]. injection E as _ E. destruct (Nf E).
Qed.

(** A database that is protected and kept, a server whose protection the program drops, and a
    disk that is protected but no longer in the program. *)
Definition res (u : string) (deps : list string) (protect : bool) : state := mkState u "" deps "" true false false protect false false.
Definition plant : list state := [res "db" [] true; res "server" ["db"] true; res "disk" [] true].
Definition again (u : string) (protect : bool) (a : answer) : registration := mkReg u [] protect true a (fun _ _ => true).
Example C125_case :
  let o := mkOptions true None false false in
  let qs := [again "db" true Changed; again "server" false (Differs true)] in
  register_all o plant new_gen qs = ([[Other]; [Del 1 true; Other; Other]], Some (mkGen ["server"; "db"] ["server"; "db"] [] [] [])) /\
  generate_deletes (fun _ _ => false) o plant (mkGen ["server"; "db"] ["server"; "db"] [] [] []) = Steps [2] /\
  apply false plant (Del 1 true) = Asking /\ apply false plant (step_for plant (mkGen ["server"; "db"] ["server"; "db"] [] [] []) 2) = Refused /\
  fst (register_all o plant new_gen [again "db" true (Differs true)]) = [].
Proof. vm_compute. repeat split. Qed.

(** The program keeps everything and protects the server: replacing the unprotected database
    deletes it. *)
Theorem C125_refuted : exists o s qs st r,
  consistent s /\ nth_error s 1 = Some r /\ s_protect r = true /\ may_perform (fun _ _ => false) o s qs st /\ st = Del 1 true /\
  apply (o_preview o) s st = Asking /\ forall q, In q qs -> means q r -> q_protect q = true.
Proof.
  exists (mkOptions true None false false), [res "db" [] false; res "server" ["db"] true], [again "db" false (Differs true); again "server" true Equal], (Del 1 true), (res "server" ["db"] true).
  split; [|split; [reflexivity|split; [reflexivity|split; [|split; [reflexivity|split; [reflexivity|]]]]]].
  - split; [cbn; repeat constructor; cbn; intuition discriminate|]. intros [|[|[|]]] r E; try discriminate; injection E as <-; cbn; (split; [discriminate|]);
      intros u U; intuition subst; try congruence. exists 0. eexists. repeat split. lia.
  - right. left. exists [Del 1 true; Del 0 true; Other; Other]. vm_compute. auto.
  - intros q [<-|[<-|[]]] M; trivial. cbn in M. destruct M as [M|[]]. discriminate.
Qed.
(** So does declaring it with another import ID ... *)
Theorem C125_refuted_import : exists o s qs st r,
  consistent s /\ nth_error s 0 = Some r /\ s_protect r = true /\ may_perform (fun _ _ => false) o s qs st /\ st = Del 0 true /\
  apply (o_preview o) s st = Asking /\ forall q, In q qs -> q_protect q = true.
Proof.
  exists (mkOptions true None false false), [res "db" [] true], [again "db" true Imported], (Del 0 true), (res "db" [] true).
  split; [|split; [reflexivity|split; [reflexivity|split; [|split; [reflexivity|split; [reflexivity|]]]]]].
  - split; [cbn; repeat constructor; cbn; intuition discriminate|]. intros [|[|]] r E; try discriminate; injection E as <-; cbn; (split; [discriminate|]); intros u U; intuition subst; congruence.
  - right. right. do 2 eexists. exists 0. split; [reflexivity|]. split; [vm_compute; reflexivity|]. split; [now left|reflexivity].
  - intros q [<-|[]]. reflexivity.
Qed.
(** ... and reading another one under its name. *)
Theorem C125_refuted_read : exists o s qs st r,
  consistent s /\ nth_error s 0 = Some r /\ s_protect r = true /\ may_perform (fun _ _ => false) o s qs st /\ st = Del 0 true /\
  apply (o_preview o) s st = Asking /\ forall q, In q qs -> q_answer q = Read false.
Proof.
  exists (mkOptions true None false false), [res "db" [] true], [again "db" true (Read false)], (Del 0 true), (res "db" [] true).
  split; [|split; [reflexivity|split; [reflexivity|split; [|split; [reflexivity|split; [reflexivity|]]]]]].
  - split; [cbn; repeat constructor; cbn; intuition discriminate|]. intros [|[|]] r E; try discriminate; injection E as <-; cbn; (split; [discriminate|]); intros u U; intuition subst; congruence.
  - right. right. do 2 eexists. exists 0. split; [reflexivity|]. split; [vm_compute; reflexivity|]. split; [now left|reflexivity].
  - intros q [<-|[]]. reflexivity.
Qed.

Print Assumptions C125_protected_partial.
Print Assumptions C125_case.
Print Assumptions C125_refuted.
Print Assumptions C125_refuted_import.
Print Assumptions C125_refuted_read.
