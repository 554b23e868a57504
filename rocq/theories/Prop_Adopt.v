(** C135, C136: adopting resources with import_. *)
From Verif Require Import Base Model_Adopt Proof_Adopt.
Open Scope string_scope.
Open Scope list_scope.

(** C135.  If the program gives an import ID, and none or another one is recorded, a successful
    update records the resource that has it, which exists, and whose inputs the provider says are
    those of the program.  Nothing is created or changed; what was recorded before is deleted.  If
    there is no such resource, or its inputs are others, the update fails, and nothing changes
    except that what was to be deleted already is. *)
Theorem C135_adopts : forall P (pr : provider P) w g retires w',
  g_import P g <> "" ->
  (forall old, live P w = Some old -> (e_import P old = "" -> e_id P old <> g_import P g) /\ (e_import P old <> "" -> e_import P old <> g_import P g)) ->
  update P pr w g retires true = (w', true) ->
  (exists actual i, In (find P pr (g_import P g), actual) (things P w)
     /\ live P w' = Some (mkEntry P (find P pr (g_import P g)) (g_import P g) i)
     /\ check P pr (Some actual) (g_inputs P g) = Some i /\ differs P pr actual i = Same)
  /\ (forall id p, In (id, p) (things P w') <->
        In (id, p) (things P w) /\ (forall e, In e (pending P w) -> e_id P e <> id) /\ (forall e, live P w = Some e -> e_id P e <> id)).
Proof.
  intros P pr w g a w' NE OLD U. unfold update in U. destruct (negb a && _); [discriminate|].
  assert (I : is_import P (live P w) g = true) by (apply is_import_spec; split; auto).
  unfold register in U. cbn [live things pending] in U. rewrite I in U.
  set (w1 := mkWorld P (delete_all P (pending P w) (things P w)) (live P w) []) in *.
  destruct (import P pr w1 g) as [e|] eqn:EM; [|discriminate]. inversion U; subst w'; clear U. cbn. split.
  - unfold import in EM. destruct (look P (find P pr (g_import P g)) (things P w1)) as [actual|] eqn:L; [|discriminate].
    destruct (check P pr (Some actual) (g_inputs P g)) as [i|] eqn:C; [|discriminate].
    destruct (differs P pr actual i) eqn:D; try discriminate. inversion EM; subst e. exists actual, i.
    apply look_in in L. cbn in L. apply delete_all_in in L as [L _]. auto.
  - intros id p. rewrite !delete_all_in. destruct (live P w) as [old|].
    + split.
      * intros [[A B] C]. split; auto. split; auto. intros e0 E. inversion E; subst. apply C. now left.
      * intros [A [B C]]. split; auto. intros e0 [<-|[]]. now apply C.
    + split; [intros [[A B] C]; split; auto; split; auto; discriminate | intros [A [B C]]; split; auto; intros e0 []].
Qed.
Theorem C135_fails : forall P (pr : provider P) w g retires w',
  g_import P g <> "" ->
  (forall old, live P w = Some old -> (e_import P old = "" -> e_id P old <> g_import P g) /\ (e_import P old <> "" -> e_import P old <> g_import P g)) ->
  update P pr w g retires true = (w', false) ->
  live P w' = live P w
  /\ (forall id p, In (id, p) (things P w') -> In (id, p) (things P w))
  /\ (forall id p, In (id, p) (things P w) -> (forall e, In e (pending P w) -> e_id P e <> id) -> In (id, p) (things P w')).
Proof.
  intros P pr w g a w' NE OLD U. unfold update in U. destruct (negb a && _); [inversion U; subst; auto|].
  assert (I : is_import P (live P w) g = true) by (apply is_import_spec; split; auto).
  unfold register in U. cbn [live things pending] in U. rewrite I in U.
  destruct (import P pr _ g) as [e|]; inversion U; subst w'. cbn. split; auto. split.
  - intros id p H. now apply delete_all_in in H.
  - intros id p H H'. apply delete_all_in. auto.
Qed.
(** And it does fail then. *)
Theorem C135_refuses : forall P (pr : provider P) w g retires deletes,
  g_import P g <> "" ->
  (forall old, live P w = Some old -> (e_import P old = "" -> e_id P old <> g_import P g) /\ (e_import P old <> "" -> e_import P old <> g_import P g)) ->
  (forall actual, In (find P pr (g_import P g), actual) (things P w) ->
     forall i, check P pr (Some actual) (g_inputs P g) = Some i -> differs P pr actual i <> Same) ->
  snd (update P pr w g retires deletes) = false.
Proof.
  intros P pr w g a b NE OLD H. unfold update. destruct (negb a && _); [reflexivity|].
  assert (I : is_import P (live P w) g = true) by (apply is_import_spec; split; auto).
  unfold register. cbn [live things pending]. rewrite I.
  set (w1 := mkWorld P (delete_all P (pending P w) (things P w)) (live P w) []) in *.
  destruct (import P pr w1 g) as [e|] eqn:EM; [|reflexivity]. exfalso. unfold import in EM.
  destruct (look P (find P pr (g_import P g)) (things P w1)) as [actual|] eqn:L; [|discriminate].
  destruct (check P pr (Some actual) (g_inputs P g)) as [i|] eqn:C; [|discriminate].
  destruct (differs P pr actual i) eqn:D; try discriminate.
  apply look_in in L. cbn in L. apply delete_all_in in L as [L _]. exact (H actual L i C D).
Qed.

(** Resources with a size, which can be changed; names stand for IDs if they end with their
    number. *)
Definition ex_find (name : string) : string := if String.eqb name "by-name" then "id-1" else name.
Definition ex_provider : provider nat :=
  mkProvider nat ex_find (fun _ n => Some n) (fun a b => if Nat.eqb a b then Same else Changed) (fun _ => "new").
Definition ex_world : world nat := mkWorld nat [("id-1", 3); ("id-2", 5)] None [].
Example C135_applies :
  update nat ex_provider ex_world (mkGoal nat "by-name" 3) true true = (mkWorld nat [("id-1", 3); ("id-2", 5)] (Some (mkEntry nat "id-1" "by-name" 3)) [], true)
  /\ update nat ex_provider ex_world (mkGoal nat "by-name" 4) true true = (ex_world, false)
  /\ update nat ex_provider (mkWorld nat [("id-1", 3); ("id-2", 5)] (Some (mkEntry nat "id-2" "" 5)) []) (mkGoal nat "id-1" 3) true true
     = (mkWorld nat [("id-1", 3)] (Some (mkEntry nat "id-1" "id-1" 3)) [], true).
Proof. vm_compute. auto. Qed.
Print Assumptions C135_adopts.
Print Assumptions C135_fails.
Print Assumptions C135_refuses.

(* ---------------------------------------------------------------- *)
(** C136.  A resource that exists is not deleted by updates of a program that declares it with its
    import ID, whatever inputs the program gives, and whatever fails.  Proved for import IDs that are the IDs of the resources.

    Missing: other import IDs; see the counterexamples. *)
Theorem C136_kept_partial : forall P (pr : provider P) x,
  x <> "" -> find P pr x = x ->
  forall w, (forall e, In e (pending P w) \/ live P w = Some e -> e_id P e <> x) ->
  forall history, (forall g retires deletes, In (g, retires, deletes) history -> g_import P g = x) ->
  forall p, In (x, p) (things P w) -> exists q, In (x, q) (things P (updates P pr w history)).
Proof.
  intros P pr x NE F w HW h HH p HP. apply ids_in.
  apply (updates_inv P pr x NE F h w HH). split; [auto|]. split; [apply ids_in; eauto|].
  intros e E X. exfalso. apply (HW e); auto.
Qed.
Example C136_applies :
  find nat ex_provider "id-2" = "id-2" /\ (forall a i, differs nat ex_provider a i <> Needs_replacement)
  /\ updates nat ex_provider ex_world [(mkGoal nat "id-2" 5, true, true); (mkGoal nat "id-2" 6, true, true); (mkGoal nat "id-2" 6, true, true)]
     = mkWorld nat [("id-1", 3); ("id-2", 6)] (Some (mkEntry nat "id-2" "" 6)) [].
Proof.
  split; [reflexivity|]. split; [|vm_compute; reflexivity].
  intros a i. cbn. destruct (Nat.eqb a i); discriminate.
Qed.
(** Three times the same program: the first update imports the resource, the second has nothing to
    do and forgets the import ID, the third imports the resource again and deletes it as the one it
    replaces. *)
Theorem C136_refuted : exists P (pr : provider P) w g,
  (forall a i, differs P pr a i <> Needs_replacement) /\ live P w = None /\ pending P w = [] /\ g_import P g <> "" /\
  (exists p, In (find P pr (g_import P g), p) (things P w)) /\
  (exists w1 w2 w3, update P pr w g true true = (w1, true) /\ update P pr w1 g true true = (w2, true) /\ update P pr w2 g true true = (w3, true)
    /\ (exists e, live P w3 = Some e /\ e_id P e = find P pr (g_import P g))
    /\ forall p, ~ In (find P pr (g_import P g), p) (things P w3)).
Proof.
  exists nat, ex_provider, ex_world, (mkGoal nat "by-name" 3).
  split; [intros a i; cbn; destruct (Nat.eqb a i); discriminate|]. split; [reflexivity|]. split; [reflexivity|]. split; [discriminate|].
  split; [exists 3; cbn; auto|].
  do 3 eexists. split; [vm_compute; reflexivity|]. split; [vm_compute; reflexivity|]. split; [vm_compute; reflexivity|].
  split; [eexists; split; reflexivity|]. intros p [H|[]]. inversion H.
Qed.
(** It is enough to write the import ID in the other way. *)
Theorem C136_refuted_notation : exists P (pr : provider P) w g1 g2,
  (forall a i, differs P pr a i <> Needs_replacement) /\ live P w = None /\ pending P w = [] /\
  find P pr (g_import P g1) = g_import P g2 /\ find P pr (g_import P g2) = g_import P g2 /\ g_inputs P g1 = g_inputs P g2 /\
  (exists p, In (g_import P g2, p) (things P w)) /\
  (exists w1 w2, update P pr w g1 true true = (w1, true) /\ update P pr w1 g2 true true = (w2, true)
    /\ (exists e, live P w2 = Some e /\ e_id P e = g_import P g2) /\ forall p, ~ In (g_import P g2, p) (things P w2)).
Proof.
  exists nat, ex_provider, ex_world, (mkGoal nat "by-name" 3), (mkGoal nat "id-1" 3).
  split; [intros a i; cbn; destruct (Nat.eqb a i); discriminate|]. do 5 (split; [reflexivity|]).
  split; [exists 3; cbn; auto|].
  do 2 eexists. split; [vm_compute; reflexivity|]. split; [vm_compute; reflexivity|].
  split; [eexists; split; reflexivity|]. intros p [H|[]]. inversion H.
Qed.
Print Assumptions C136_kept_partial.
Print Assumptions C136_refuted.
