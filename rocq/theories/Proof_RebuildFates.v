(** Proofs about Model_Rebuild: what is recorded for each resource. *)
From Verif Require Import Base Model_Rebuild Spec_Rebuild Proof_Rebuild.
Open Scope string_scope.
Open Scope list_scope.

Section Values.
  Variable P : value -> Prop.
  Hypothesis HP : forall s, P (Plain s).
  Hypothesis HS : forall v, P v -> P (Secret v).
  Hypothesis HA : forall l, (forall v, In v l -> P v) -> P (Arr l).
  Hypothesis HO : forall l, (forall k v, In (k, v) l -> P v) -> P (Obj l).
  Fixpoint value_every (v : value) : P v.
  Proof.
    destruct v as [s|v|l|l].
    - apply HP.
    - apply HS, value_every.
    - apply HA. induction l as [|v l IH]; intros w H; [destruct H | destruct H as [E|H]; [rewrite <- E; apply value_every | now apply IH]].
    - apply HO. induction l as [|[k v] l IH]; intros k' w H; [destruct H | destruct H as [E|H]].
      + replace w with v by congruence. apply value_every.
      + now apply (IH k').
  Defined.
End Values.

(* ---------------------------------------------------------------- *)
(** Marks do not change what is marked. *)
Lemma annotate_value_revealed : forall n o, revealed (annotate_value n o) = revealed n.
Proof.
  induction n as [s|v IH|l IH|l IH] using value_every; intros o; cbn.
  - now destruct (contains_secrets o).
  - reflexivity.
  - now destruct (contains_secrets o).
  - destruct o as [s|v|o|o]; cbn; try reflexivity; try (match goal with |- context [if ?b then _ else _] => now destruct b end).
    f_equal. rewrite map_map. apply map_ext_in. intros [k v] H. cbn. f_equal.
    destruct (look k o); auto. now apply (IH k).
Qed.
Lemma annotate_revealed : forall n o, all_revealed (annotate n o) = all_revealed n.
Proof.
  intros n o. unfold all_revealed, annotate. rewrite map_map. apply map_ext. intros [k v]. cbn. f_equal.
  destruct (look k o); auto using annotate_value_revealed.
Qed.
Lemma hide_revealed : forall r, all_revealed (r_outputs (hide_outputs r)) = all_revealed (r_outputs r).
Proof.
  intros r. unfold all_revealed, hide_outputs. cbn. rewrite map_map. apply map_ext. intros [k v]. cbn.
  match goal with |- context [if ?b then _ else _] => now destruct b end.
Qed.

(* ---------------------------------------------------------------- *)
(** One step. *)
Lemma unchanged_refl : forall r, unchanged r r.
Proof. intros r. unfold unchanged, about_the_same. auto 20. Qed.
Lemma unchanged_hide : forall r, unchanged r (hide_outputs r).
Proof. intros r. unfold unchanged, about_the_same. cbn. repeat (split; [reflexivity || auto 20|]). apply hide_revealed. Qed.
Lemma new_state_reported : forall b r id s i reasons, id <> "" ->
  exists r', option_map hide_outputs
     (new_state r (mkRead id (Some (if b : bool then s else annotate s (r_outputs r)))
        (match i with None => None | Some i => Some (if b then i else annotate i (r_inputs r)) end)) reasons) = Some r'
    /\ as_reported r id s (option_map Some i) reasons r'.
Proof.
  intros b r id s i reasons NE. unfold new_state. cbn. eexists. split; [reflexivity|].
  assert (N : String.eqb id "" = false) by now apply String.eqb_neq.
  unfold as_reported, about_the_same. cbn -[all_revealed hide_outputs].
  split; [cbn; auto 20|]. split; [|split; [|split]].
  - cbn. rewrite N. cbn. destruct (String.eqb id (r_id r)) eqn:E; cbn; auto. apply String.eqb_eq in E. auto.
  - reflexivity.
  - rewrite hide_revealed. cbn [r_outputs]. destruct b; auto using annotate_revealed.
  - destruct i as [i|]; cbn; auto. destruct b; auto. apply annotate_revealed.
Qed.
Lemma execute_fate : forall targets b r a,
  complete a ->
  fate targets r a (fst (if targeted targets r then execute b r a else (Some r, false))).
Proof.
  intros targets b r a CO.
  assert (HT : targeted targets r = true <-> (targets = [] \/ In (r_urn r) targets)).
  { destruct targets; cbn [targeted]; [tauto|]. rewrite is_in_spec. split; auto. intros [|]; [discriminate | auto]. }
  destruct (targeted targets r) eqn:ET.
  2:{ cbn. apply fate_not_read; [|apply unchanged_refl]. intros [R _]. apply HT in R. congruence. }
  destruct a as [a|]; [|cbn; apply fate_cancelled, unchanged_refl].
  unfold execute, apply_step. destruct (negb (r_custom r) || r_kind r || r_pending r) eqn:E.
  - cbn. apply fate_not_read; [|apply unchanged_hide]. intros [_ [C [K P]]]. rewrite C, K, P in E. discriminate.
  - assert (R : is_read targets r).
    { apply Bool.orb_false_iff in E as [E P]. apply Bool.orb_false_iff in E as [C K].
      apply Bool.negb_false_iff in C. split; [now apply HT | auto]. }
    destruct a as [id s i|id s i reasons|]; cbn [provider_read].
    + unfold unmarshal. destruct (String.eqb id "") eqn:EI.
      * apply String.eqb_eq in EI. subst id. cbn. now constructor.
      * apply String.eqb_neq in EI. destruct s as [s|].
        -- destruct i as [[i|]|].
           ++ destruct (new_state_reported b r id s (Some i) [] EI) as [r' [E1 E2]]. cbn [fst option_map]. cbv beta iota in E1. cbn in E2. unfold fst. rewrite E1. now apply fate_found.
           ++ cbn. apply fate_not_understood; auto using unchanged_hide.
           ++ destruct (new_state_reported b r id s None [] EI) as [r' [E1 E2]]. cbv beta iota in E1. unfold fst. rewrite E1. now apply fate_found.
        -- cbn. apply fate_not_understood; auto using unchanged_hide.
    + destruct (CO _ _ _ _ eq_refl) as [EI [ES EN]]. unfold unmarshal. apply String.eqb_neq in EI as EI'. rewrite EI'.
      destruct s as [s|]; [|congruence]. destruct i as [[i|]|]; [|congruence|].
      * destruct (new_state_reported b r id s (Some i) reasons EI) as [r' [E1 E2]]. cbv beta iota in E1. unfold fst. rewrite E1. now apply fate_unhealthy.
      * destruct (new_state_reported b r id s None reasons EI) as [r' [E1 E2]]. cbv beta iota in E1. unfold fst. rewrite E1. now apply fate_unhealthy.
    + cbn. apply fate_failed, unchanged_hide.
Qed.

(* ---------------------------------------------------------------- *)
(** The record, with the places of what is gone. *)
Fixpoint repair_o (refs : list string) (l : list (option res)) : list (option res) :=
  match l with
  | [] => []
  | None :: l' => None :: repair_o refs l'
  | Some r :: l' => Some (with_deps r (filter (fun d => is_in d refs) (r_deps r))) :: repair_o (r_urn r :: refs) l'
  end.
Fixpoint undangle_o (lives : list string) (avail : list (string * string)) (l : list (option res)) : list (option res) :=
  match l with
  | [] => []
  | None :: l' => None :: undangle_o lives avail l'
  | Some r :: l' =>
      let p := if is_in (r_parent r) lives then r_parent r
               else match look (r_parent r) avail with Some p => p | None => "" end in
      Some (with_parent r p) :: undangle_o lives ((r_urn r, p) :: avail) l'
  end.
Lemma repair_left : forall l refs, left_of (repair_o refs l) = repair refs l.
Proof. induction l as [|[r|] l IH]; intros refs; cbn; auto. now rewrite IH. Qed.
Lemma undangle_left : forall lives l avail, left_of (undangle_o lives avail l) = undangle lives avail (left_of l).
Proof. intros lives. induction l as [|[r|] l IH]; intros avail; cbn; auto. now rewrite IH. Qed.
Definition rebuild_o (l : list (option res)) : list (option res) :=
  let os := repair_o [] l in undangle_o (live (left_of os)) [] os.
Lemma rebuild_left : forall l, left_of (rebuild_o l) = rebuild l.
Proof. intros l. unfold rebuild_o, rebuild. cbv zeta. now rewrite undangle_left, repair_left. Qed.

(** One place. *)
Lemma both_at : forall lives l refs avail i,
  (forall u, In u refs <-> exists p, In (u, p) avail) ->
  match nth_error l i with
  | None => True
  | Some None => nth_error (undangle_o lives avail (repair_o refs l)) i = Some None
  | Some (Some r) =>
      exists p, nth_error (undangle_o lives avail (repair_o refs l)) i =
          Some (Some (with_parent (with_deps r (filter (fun d => is_in d (map r_urn (left_of (firstn i (undangle_o lives avail (repair_o refs l)))) ++ refs)) (r_deps r))) p))
        /\ (In (r_parent r) lives -> p = r_parent r)
        /\ (~ In (r_parent r) lives -> ~ In (r_parent r) (map r_urn (left_of (firstn i (undangle_o lives avail (repair_o refs l)))) ++ refs) -> p = "")
  end.
Proof.
  intros lives. induction l as [|o l IH]; intros refs avail i HA.
  - destruct i; cbn; auto.
  - destruct i as [|i].
    + destruct o as [r|]; cbn; auto.
      eexists. split; [reflexivity|]. split.
      * intros H. apply is_in_spec in H. now rewrite H.
      * intros H N. destruct (is_in (r_parent r) lives) eqn:E; [apply is_in_spec in E; tauto|].
        destruct (look (r_parent r) avail) eqn:EL; auto. exfalso. apply N, HA.
        exists s. clear - EL. induction avail as [|[a b] avail IH]; cbn in *; [discriminate|].
        destruct (String.eqb (r_parent r) a) eqn:E; auto. apply String.eqb_eq in E. inversion EL; subst; auto.
    + destruct o as [r|]; cbn [nth_error repair_o undangle_o].
      * set (p := if is_in _ lives then _ else _).
        assert (HA' : forall u, In u (r_urn r :: refs) <-> exists q, In (u, q) ((r_urn r, p) :: avail)).
        { intros u. cbn. rewrite HA. split.
          - intros [E|[q H]]; [exists p; left; congruence | exists q; auto].
          - intros [q [E|H]]; [left; congruence | right; eauto]. }
        specialize (IH (r_urn r :: refs) ((r_urn r, p) :: avail) i HA').
        destruct (nth_error l i) as [[r0|]|]; auto.
        destruct IH as [q [E [H1 H2]]]. exists q. cbn [firstn left_of map with_parent with_deps r_urn].
        cbn [with_deps r_urn r_parent] in *. fold p.
        assert (X : forall l', (forall u, In u (map r_urn l' ++ r_urn r :: refs) <-> In u ((r_urn r :: map r_urn l') ++ refs))).
        { intros l' u. cbn. rewrite !in_app_iff. cbn. tauto. }
        split; [|split].
        -- rewrite E. do 4 f_equal. apply filter_ext. intros d. apply Bool.eq_iff_eq_true. rewrite !is_in_spec. apply X.
        -- exact H1.
        -- intros N1 N2. apply H2; auto. intros H. apply N2. now apply X.
      * specialize (IH refs avail i HA). destruct (nth_error l i) as [[r0|]|]; auto.
Qed.
Lemma undangle_o_urns : forall lives l avail, map r_urn (left_of (undangle_o lives avail l)) = map r_urn (left_of l).
Proof. intros lives. induction l as [|[r|] l IH]; intros avail; cbn; auto. now rewrite IH. Qed.
Lemma undangle_live : forall lives l avail, live (left_of (undangle_o lives avail l)) = live (left_of l).
Proof.
  intros lives. induction l as [|[r|] l IH]; intros avail; cbn [undangle_o left_of]; auto.
  rewrite !live_cons. cbn [with_parent r_delete r_urn]. now rewrite IH.
Qed.
Lemma rebuild_at : forall os i r, nth_error os i = Some (Some r) ->
  exists p, let r' := with_parent (with_deps r (filter (fun d => existsb (fun q => String.eqb (r_urn q) d) (left_of (firstn i (rebuild_o os)))) (r_deps r))) p in
    nth_error (rebuild_o os) i = Some (Some r')
    /\ names_kept (left_of (firstn i (rebuild_o os))) (left_of (rebuild_o os)) r r'.
Proof.
  intros os i r E. unfold rebuild_o. cbv zeta.
  pose proof (both_at (live (left_of (repair_o [] os))) os [] [] i) as H. rewrite E in H.
  destruct H as [p [H1 [H2 H3]]]; [intros u; split; [intros [] | intros [q []]]|].
  set (os' := undangle_o _ [] (repair_o [] os)) in *. exists p.
  assert (X : forall d, is_in d (map r_urn (left_of (firstn i os')) ++ []) = existsb (fun q => String.eqb (r_urn q) d) (left_of (firstn i os'))).
  { intros d. apply Bool.eq_iff_eq_true. rewrite is_in_spec, app_nil_r, in_map_iff, existsb_exists.
    split; intros [q [A B]]; exists q; split; auto; now apply String.eqb_eq. }
  split.
  - rewrite H1. do 4 f_equal. apply filter_ext. exact X.
  - assert (L : forall u, In u (live (left_of os')) <-> In u (live (left_of (repair_o [] os)))).
    { intros u. unfold os'. now rewrite undangle_live. }
    split; [reflexivity|]. split.
    + intros [q [A [B C]]]. apply H2, L, live_in. eauto.
    + intros N1 N2. apply H3.
      * intros H. apply L, live_in in H as [q [A [B C]]]. rewrite (N1 q A B) in C. discriminate.
      * rewrite app_nil_r, in_map_iff. intros [q [A B]]. now apply (N2 q B).
Qed.
Lemma rebuild_gone : forall os i, nth_error os i = Some None -> nth_error (rebuild_o os) i = Some None.
Proof.
  intros os i E. unfold rebuild_o. cbv zeta.
  pose proof (both_at (live (left_of (repair_o [] os))) os [] [] i) as H. rewrite E in H.
  apply H. intros u; split; [intros [] | intros [q []]].
Qed.
Lemma steps_at : forall t acc ans l i n,
  nth_error (steps t acc ans n l) i =
  option_map (fun r => if targeted t r then execute (acc (n + i)) r (ans (n + i)) else (Some r, false)) (nth_error l i).
Proof.
  intros t acc ans. induction l as [|r l IH]; intros i n; destruct i; cbn; auto.
  - now rewrite Nat.add_0_r.
  - rewrite IH. now rewrite Nat.add_succ_comm.
Qed.
Lemma rebuild_o_length : forall os, length (rebuild_o os) = length os.
Proof.
  intros os. unfold rebuild_o. cbv zeta. generalize (live (left_of (repair_o [] os))) as lives. intros lives.
  assert (A : forall l avail, length (undangle_o lives avail l) = length l).
  { induction l as [|[r|] l IH]; intros avail; cbn; auto. }
  assert (B : forall l refs, length (repair_o refs l) = length l).
  { induction l as [|[r|] l IH]; intros refs; cbn; auto. }
  now rewrite A, B.
Qed.

Lemma steps_length : forall t acc ans l n, length (steps t acc ans n l) = length l.
Proof. intros t acc ans. induction l as [|r l IH]; intros n; cbn; auto. Qed.
(** Everything at once: what the step at each place leaves, then the names. *)
Theorem refresh_places : forall t acc ans l,
  (forall u, In u t -> exists q, In q l /\ r_urn q = u /\ r_delete q = false) ->
  exists os, length os = length l /\ fst (refresh t acc ans l) = left_of os /\
    forall i r, nth_error l i = Some r ->
      match fst (if targeted t r then execute (acc i) r (ans i) else (Some r, false)) with
      | None => nth_error os i = Some None
      | Some r1 => exists deps p, nth_error os i = Some (Some (with_parent (with_deps r1 deps) p))
                     /\ names_kept (left_of (firstn i os)) (left_of os) r1 (with_parent (with_deps r1 deps) p)
      end.
Proof.
  intros t acc ans l HT. unfold refresh.
  assert (E : forallb (fun u => is_in u (live l)) t = true).
  { apply forallb_forall. intros u Hu. apply is_in_spec, live_in. auto. }
  rewrite E. cbn [negb]. exists (rebuild_o (map fst (steps t acc ans 0 l))). split; [|split].
  - now rewrite rebuild_o_length, map_length, steps_length.
  - cbn. now rewrite rebuild_left.
  - intros i r Hr.
    assert (HS : nth_error (map fst (steps t acc ans 0 l)) i =
                 Some (fst (if targeted t r then execute (acc i) r (ans i) else (Some r, false)))).
    { rewrite nth_error_map, steps_at, Hr. reflexivity. }
    destruct (fst (if targeted t r then execute (acc i) r (ans i) else (Some r, false))) as [r1|].
    + destruct (rebuild_at _ _ _ HS) as [p [A B]]. eauto.
    + now apply rebuild_gone.
Qed.

Lemma fate_renamed : forall t r a r1 d p, fate t r a (Some r1) -> fate t r a (Some (with_parent (with_deps r1 d) p)).
Proof.
  intros t r a r1 d p H.
  inversion H; subst; [apply fate_not_read | apply fate_cancelled | apply fate_failed | apply fate_not_understood
    | apply fate_found | apply fate_unhealthy | apply fate_unhealthy_not_understood]; assumption.
Qed.
Lemma step_shape : forall t acc r a, shape r (fst (if targeted t r then execute acc r a else (Some r, false))).
Proof. intros t acc r a. destruct (targeted t r); [apply execute_shape | apply shape_refl]. Qed.

(* ---------------------------------------------------------------- *)
(** Secrets. *)
Lemma has_secret_contains : forall v, has_secret v -> contains_secrets v = true.
Proof.
  intros v H. induction H; cbn; auto; apply existsb_exists; [exists v; auto | exists (k, v); auto].
Qed.
Lemma look_in : forall A k (v : A) l, NoDup (map fst l) -> In (k, v) l -> look k l = Some v.
Proof.
  intros A k v. induction l as [|[k' v'] l IH]; intros N H; [destruct H | destruct H as [E|H]].
  - inversion E; subst. cbn. now rewrite String.eqb_refl.
  - cbn in *. apply NoDup_cons_iff in N as [N1 N2]. destruct (String.eqb k k') eqn:E; auto.
    apply String.eqb_eq in E. subst k'. exfalso. apply N1. apply in_map_iff. exists (k, v). auto.
Qed.
Lemma annotate_value_secret : forall n v, has_secret v -> no_object v -> exists s, annotate_value n v = Secret s.
Proof.
  intros n v H N. apply has_secret_contains in H. destruct n as [s|w|l|l]; cbn; eauto; try (rewrite H; eauto).
  destruct v as [s|w|o|o]; eauto; try (rewrite H; eauto). exfalso. now apply (N o).
Qed.
Lemma annotate_value_obj : forall n o l, annotate_value n (Obj o) = Obj l -> exists m, n = Obj m /\ l = annotate m o.
Proof.
  intros n o l H. destruct n as [s|w|l0|m]; cbn in H; try discriminate;
    try (match type of H with context [if ?b then _ else _] => destruct b end; discriminate).
  inversion H. exists m. auto.
Qed.
Lemma annotate_in : forall k w n o, In (k, w) (annotate n o) ->
  exists w0, In (k, w0) n /\ w = match look k o with Some x => annotate_value w0 x | None => w0 end.
Proof.
  intros k w n o H. unfold annotate in H. apply in_map_iff in H as [[k' w0] [E H]]. cbn in E. inversion E; subst. eauto.
Qed.
Lemma annotate_keeps : forall p l w, shown l p w -> forall n o v, l = annotate n o -> keys_once o -> shown o p v -> has_secret v -> no_object v ->
  exists s, w = Secret s.
Proof.
  intros p l w H. induction H as [l k w HI|l k l' p w HI H IH]; intros n o v E K S HS NO; subst l.
  - destruct (annotate_in _ _ _ _ HI) as [w0 [H0 E]]. inversion K as [o' ND KS]; subst o'.
    inversion S as [? ? ? HV|? ? ? ? ? ? HV]; subst.
    + rewrite (look_in _ _ _ _ ND HV). now apply annotate_value_secret.
    + match goal with X : shown _ [] _ |- _ => inversion X end.
  - destruct (annotate_in _ _ _ _ HI) as [w0 [H0 E]]. inversion K as [o' ND KS]; subst o'.
    inversion S as [? ? ? HV|? ? lo ? ? HV HV']; subst.
    + inversion H.
    + rewrite (look_in _ _ _ _ ND HV) in E. symmetry in E. apply annotate_value_obj in E as [m [-> ->]].
      apply (IH m lo v eq_refl); auto. now apply (KS k).
Qed.
Lemma hide_shown : forall r p w, shown (r_outputs (hide_outputs r)) p w -> shown (r_outputs r) p w \/ exists s, w = Secret s.
Proof.
  intros r p w H. cbn in H.
  inversion H as [l k v HI E1 E2 E3|l k l' q v HI HS E1 E2 E3]; subst; apply in_map_iff in HI as [[k' w0] [E HI]]; cbn in E; inversion E; subst.
  - match goal with |- context [if ?b then _ else _] => destruct b end; eauto. left. now constructor.
  - left. match type of E with context [if ?b then _ else _] => destruct b end; inversion E; subst. econstructor; eauto.
Qed.
Lemma shown_once : forall o p v w, keys_once o -> shown o p v -> shown o p w -> v = w.
Proof.
  intros o p v w K S. revert K w. induction S as [l k v H|l k l' p v H S IH]; intros K w S'.
  - inversion K as [o' ND KS]; subst o'. inversion S' as [? ? ? HV|? ? lo ? ? HV HV']; subst; [|inversion HV'].
    apply (look_in _ _ _ _ ND) in HV. apply (look_in _ _ _ _ ND) in H. congruence.
  - inversion K as [o' ND KS]; subst o'. inversion S' as [? ? ? HV|? ? lo ? ? HV HV']; subst; [inversion S|].
    apply (look_in _ _ _ _ ND) in HV as HV2. apply (look_in _ _ _ _ ND) in H as H2. replace lo with l' in * by congruence.
    apply IH; auto. now apply (KS k).
Qed.
Lemma step_keeps_secrets : forall t r a r1 p v w, fst (if targeted t r then execute false r a else (Some r, false)) = Some r1 ->
  keys_once (r_outputs r) -> shown (r_outputs r) p v -> has_secret v -> no_object v -> shown (r_outputs r1) p w ->
  w = v \/ exists s, w = Secret s.
Proof.
  intros t r a r1 p v w E K S HS NO SW.
  assert (SAME : shown (r_outputs r) p w -> w = v \/ exists s, w = Secret s) by (intros X; left; eapply shown_once; eauto).
  destruct (targeted t r); [|cbn in E; inversion E; subst; auto].
  destruct a as [a|]; [|cbn in E; inversion E; subst; auto].
  unfold execute in E. destruct (apply_step false r a) as [[n|] f] eqn:EA; cbn in E; [|discriminate]. inversion E; subst r1; clear E.
  apply hide_shown in SW as [SW|SW]; [|auto].
  unfold apply_step in EA. destruct (negb (r_custom r) || r_kind r || r_pending r); [inversion EA; subst; auto|].
  assert (NEW : forall d e, (d_outputs d = None \/ exists s, d_outputs d = Some (annotate s (r_outputs r))) -> new_state r d e = Some n -> w = v \/ exists s, w = Secret s).
  { intros d e [X|[s X]] EN; unfold new_state in EN; rewrite X in EN; [discriminate|]. inversion EN; subst n. cbn in SW.
    right. apply (annotate_keeps p _ w SW s (r_outputs r) v); auto. }
  assert (UN : forall id s i b tr d b' tr', unmarshal false r id s i b tr = (d, b', tr') -> d_outputs d = None \/ exists s, d_outputs d = Some (annotate s (r_outputs r))).
  { intros id s i b tr d b' tr' U. unfold unmarshal in U. destruct (String.eqb id ""); [inversion U; subst; auto|].
    destruct s as [s|]; [|inversion U; subst; auto]. destruct i as [[i|]|]; inversion U; subst; cbn; eauto. }
  destruct (provider_read false r a) as [[d b] tr] eqn:ER.
  assert (HD : d_outputs d = None \/ exists s, d_outputs d = Some (annotate s (r_outputs r))).
  { destruct a; cbn in ER; eauto. inversion ER; subst; auto. }
  destruct tr; try destruct b; inversion EA; subst; eauto.
Qed.
Lemma step_hides : forall t b r a r1 k w, targeted t r = true -> fst (execute b r (Some a)) = Some r1 ->
  In k (r_secret r) -> k <> "id" -> In (k, w) (r_outputs r1) -> exists s, w = Secret s.
Proof.
  intros t b r a r1 k w T E HK NE HI. unfold execute in E.
  assert (SE : forall n, fst (apply_step b r a) = Some n -> r_secret n = r_secret r).
  { intros n X. unfold apply_step in X. destruct (negb (r_custom r) || r_kind r || r_pending r); [inversion X; auto|].
    destruct (provider_read b r a) as [[d p] tr].
    assert (N : forall e, new_state r d e = Some n -> r_secret n = r_secret r).
    { intros e N. unfold new_state in N. destruct (d_outputs d); inversion N; auto. }
    destruct tr; try destruct p; cbn in X; eauto; inversion X; auto. }
  destruct (apply_step b r a) as [[n|] f]; cbn in E; [|discriminate]. inversion E; subst r1. clear E.
  cbn in HI. apply in_map_iff in HI as [[k' w0] [E HI]]. cbn in E. inversion E; subst.
  rewrite (SE n eq_refl). apply is_in_spec in HK. rewrite HK. apply String.eqb_neq in NE. rewrite NE. cbn.
  destruct w0; cbn; eauto.
Qed.
