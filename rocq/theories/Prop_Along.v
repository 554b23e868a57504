(** Property C140. *)
From Verif Require Import Base Model_Deletes Spec_Deletes Proof_Deletes Proof_DeletesTargets Model_Along Spec_Along Proof_Along.
Open Scope string_scope.
Open Scope list_scope.

(** C140: a resource that is to be deleted before it is replaced takes along exactly what has to go: the
    set of resources that must go with what goes is determined by the record, and these are deleted with it, but
    for those that an earlier replacement of the same update has deleted already. *)
Theorem C140_along : forall (V : Type) (D : details V) (o : options) (s : list state) (g : gen) (q : registration) (i : nat) (r : state),
  consistent s -> none_pending s ->
  (forall d a k u, nth_error s d = Some a -> In u (d_deps D d k) -> In u (s_deps a)) ->
  o_trust o = true -> q_needs q = requires D ->
  nth_error s i = Some r -> s_urn r = q_urn q -> s_external r = false -> q_targeted q = true -> q_answer q = Differs true ->
  (q_protect q = false \/ s_protect r = false) -> ~ In (q_urn q) (g_urns g) -> ~ In (q_urn q) (g_deletes g) ->
  exists g' chain (X : nat -> Prop),
    register o s g q = Some (g', chain)
    /\ (forall d, X d <-> must_go V D s i (q_urn q :: g_urns g) X d)
    /\ (forall Y : nat -> Prop, (forall d, Y d <-> must_go V D s i (q_urn q :: g_urns g) Y d) -> forall d, Y d <-> X d)
    /\ (forall d b, In (Del d b) chain <-> b = true /\ (d = i \/ (X d /\ ~ In (urn_at s d) (g_deletes g)))).
Proof.
  intros V D o s g q i r CO NP DP T N I U E TG A PR G1 G2.
  assert (IL : i < length s) by (apply nth_error_Some; congruence).
  assert (FO : find_old s (q_urn q :: q_aliases q) = Some i).
  { cbn. destruct (find_live (q_urn q) s 0) as [j|] eqn:F.
    - apply find_live_some in F as [_ [b [B [W _]]]]. rewrite Nat.sub_0_r in B. f_equal. eapply (same_place s CO j i b r); eauto. congruence.
    - exfalso. eapply find_live_none; eauto. }
  unfold register. assert (Q1 : is_in (q_urn q) (g_urns g) = false). { apply Bool.not_true_iff_false. rewrite is_in_In. exact G1. }
  rewrite Q1, A, FO. cbn zeta. rewrite (urn_at_eq s i r I), U, String.eqb_refl. cbn [g_deletes].
  assert (Q2 : is_in (q_urn q) (g_deletes g) = false). { apply Bool.not_true_iff_false. rewrite is_in_In. exact G2. }
  rewrite Q2. unfold flag_at. rewrite I, E, TG. cbn [negb].
  assert (Q3 : q_protect q && s_protect r = false) by (destruct PR as [-> | ->]; [reflexivity | apply Bool.andb_false_r]).
  rewrite Q3, T, N. cbn [g_urns g_deletes g_kept g_condemned g_replaced].
  eexists. eexists. exists (fun d => In d (dependent_replacements (requires D) s (q_urn q :: g_urns g) i)). split; [reflexivity|].
  split; [intros d; apply replacements_fixpoint; auto|]. split; [intros Y FY d; apply fixpoint_unique; auto|].
  intros d b. rewrite in_app_iff, in_map_iff. cbn. split.
  - intros [[d' [H K]]|[H|[H|[H|[]]]]]; try discriminate; inversion H; subst; split; auto. right. apply filter_In in K as [K1 K2]. apply in_rev in K1.
    split; auto. intros Z. apply is_in_In in Z. rewrite Z in K2. discriminate.
  - intros [-> [-> | [K1 K2]]]; auto. left. exists d. split; auto. apply filter_In. split; [now apply in_rev in K1|].
    apply Bool.negb_true_iff, Bool.not_true_iff_false. rewrite is_in_In. exact K2.
Qed.

(** C140: nothing is deleted before its time otherwise: only a registration of a resource that has to be
    deleted before it is replaced deletes anything, and only if the engine is not asked to trust no
    dependencies does it take anything along. *)
Theorem C140_otherwise : forall o s g q g' chain d b, register o s g q = Some (g', chain) -> In (Del d b) chain ->
  q_answer q = Differs true /\ b = true
  /\ (o_trust o = false -> exists r, nth_error s d = Some r /\ In (s_urn r) (q_urn q :: q_aliases q)).
Proof.
  intros o s g q g' chain d b. unfold register. destruct (is_in (q_urn q) (g_urns g)); [discriminate|]. cbn zeta.
  assert (NO : forall x y : gen * list step, (forall k, In k (snd x) -> k = Other) -> Some x = Some y -> In (Del d b) (snd y) -> False).
  { intros x y H [= <-] K. apply H in K. discriminate. }
  assert (O1 : forall (g0 : gen) k, In k (snd (g0, [Other])) -> k = Other) by (cbn; intuition congruence).
  assert (O2 : forall (g0 : gen) k, In k (snd (g0, [Other; Other])) -> k = Other) by (cbn; intuition congruence).
  assert (N1 : forall g0, Some (g0, [Other]) = Some (g', chain) -> In (Del d b) chain -> False) by (intros g0 H K; exact (NO (g0, [Other]) (g', chain) (O1 g0) H K)).
  assert (N2 : forall g0, Some (g0, [Other; Other]) = Some (g', chain) -> In (Del d b) chain -> False) by (intros g0 H K; exact (NO (g0, [Other; Other]) (g', chain) (O2 g0) H K)).
  clear NO O1 O2.
  assert (FO : forall us k, find_old s us = Some k -> exists r, nth_error s k = Some r /\ In (s_urn r) us).
  { induction us as [|u us IH]; cbn [find_old]; intros k H; [discriminate|]. destruct (find_live u s 0) as [j|] eqn:F.
    - inversion H; subst. apply find_live_some in F as [_ [r [R [U _]]]]. rewrite Nat.sub_0_r in R. exists r. split; auto. left. auto.
    - destruct (IH k H) as [r [R J]]. exists r. split; auto. right. exact J. }
  specialize (FO (q_urn q :: q_aliases q)). destruct (find_old s (q_urn q :: q_aliases q)) as [i|].
  - specialize (FO i eq_refl). cbn [g_deletes].
    destruct (q_answer q) as [| |before| |sid];
      repeat (match goal with |- context [if ?c then _ else _] => destruct c end || match goal with |- context [match find_live ?u ?l ?n with _ => _ end] => destruct (find_live u l n) end);
      intros H K; try discriminate; try (exfalso; first [eapply N1; eassumption | eapply N2; eassumption]);
      inversion H; subst chain; (split; [reflexivity|]);
      try (apply in_app_iff in K as [K|K]; [apply in_map_iff in K as [d' [K1 K2]]; inversion K1; subst; split; [reflexivity | discriminate]|]);
      cbn in K; destruct K as [K|[K|[K|[]]]]; try discriminate; inversion K; subst; split; auto.
  - cbn [g_deletes].
    destruct (q_answer q) as [| |before| |sid];
      repeat (match goal with |- context [if ?c then _ else _] => destruct c end || match goal with |- context [match find_live ?u ?l ?n with _ => _ end] => destruct (find_live u l n) end);
      intros H K; exfalso; first [eapply N1; eassumption | eapply N2; eassumption].
Qed.

(** A network, a server in it that cannot be moved to another one, a name that can be given to another server, a
    certificate for it, and an application that is only declared to depend on the network.  With the network, the
    server has to go. *)
Definition res (u : string) (deps : list string) : state := mkState u "" deps "" true false false false false false.
Definition town : list state := [res "net" []; res "server" ["net"]; res "name" ["server"]; res "cert" ["name"]; res "app" ["net"]; res "disk" ["server"]].
Definition facts_of : details string :=
  mkDetails (fun i => nth i [[("cidr", "10.0.0.0/8")]; [("size", "s"); ("net", "n1")]; [("at", "s1")]; [("for", "x")]; [("v", "1")]; [("of", "s1"); ("zone", "a")]] [])
    (fun i k => match i with
                | 1 => if String.eqb k "net" then ["net"] else []
                | 2 => if String.eqb k "at" then ["server"] else []
                | 3 => if String.eqb k "for" then ["name"] else []
                | 5 => if String.eqb k "of" then ["server"] else []
                | _ => []
                end)
    (fun i l => existsb (fun kv => match snd kv with None => String.eqb (fst kv) "net" || String.eqb (fst kv) "of" || String.eqb (fst kv) "for" | Some _ => false end) l).
Definition moved : registration := mkReg "net" [] false true (Differs true) (requires facts_of).
Example C140_case :
  option_map snd (register (mkOptions true None false false) town new_gen moved) = Some [Del 5 true; Del 1 true; Del 0 true; Other; Other]
  /\ consistent town /\ none_pending town /\ (forall d a k u, nth_error town d = Some a -> In u (d_deps facts_of d k) -> In u (s_deps a)).
Proof.
  split; [vm_compute; reflexivity|]. split; [|split].
  - split; [cbn; repeat constructor; cbn; intuition discriminate|].
    intros [|[|[|[|[|[|[|]]]]]]] r E; try discriminate; injection E as <-; cbn; (split; [discriminate|]); intros u U; intuition subst; try congruence.
    all: first [exists 0; eexists; repeat split; lia | exists 1; eexists; repeat split; lia | exists 2; eexists; repeat split; lia].
  - intros [|[|[|[|[|[|[|]]]]]]] r E; try discriminate; injection E as <-; reflexivity.
  - intros [|[|[|[|[|[|[|]]]]]]] a k u E; try discriminate; injection E as <-; cbn; try tauto;
      match goal with |- context [String.eqb k ?c] => destruct (String.eqb k c) end; cbn; tauto.
Qed.

Print Assumptions C140_along.
Print Assumptions C140_otherwise.
Print Assumptions C140_case.
