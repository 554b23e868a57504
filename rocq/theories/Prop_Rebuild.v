(** C131 to C134: what a refresh leaves. *)
From Verif Require Import Base Model_Rebuild Spec_Rebuild Proof_Rebuild Proof_RebuildFates.
Open Scope string_scope.
Open Scope list_scope.

(** A stack for the examples: a component A, in it a bucket C, in this an object F that depends on
    the bucket, and a provider P. *)
Definition ex_res (urn : string) (kind custom : bool) (id parent : string) (deps : list string) (provider : option (string * string)) : res :=
  mkRes urn kind custom false false id [("a", Secret (Plain "in"))] [("b", Secret (Plain "out"))] parent deps
    (match deps with [] => [] | _ => [("a", deps)] end) [] provider ["b"] "".
Definition ex_record : list res :=
  [ex_res "P" true true "p" "" [] None; ex_res "A" false false "" "" [] None;
   ex_res "C" false true "c" "A" [] (Some ("P", "p")); ex_res "F" false true "f" "C" ["A"; "C"] (Some ("P", "p"))].
Definition ex_answers (i : nat) : option reply :=
  match i with 2 => Some (Found "" (Some []) None) | 3 => Some (Found "f2" (Some [("b", Plain "new")]) None) | _ => Some Fails end.
Lemma ex_usable : usable ex_record.
Proof. apply verify_usable. vm_compute. reflexivity. Qed.
Lemma ex_keys : keys_once [("b", Secret (Plain "out"))].
Proof.
  constructor.
  - constructor; [intros [] | constructor].
  - intros k l [H|[]]. inversion H.
Qed.

(* ---------------------------------------------------------------- *)
(** C131: the record can be used, whatever the providers answer. *)
Theorem C131_usable : forall targets accepts answers l, usable l -> usable (fst (refresh targets accepts answers l)).
Proof. intros t acc ans l H. apply verify_usable, refresh_verifies, verify_usable, H. Qed.
(** It is what the next operation checks. *)
Theorem C131_checked : forall l, verify [] [] l = true <-> usable l.
Proof. exact verify_usable. Qed.
Example C131_applies :
  usable ex_record /\ fst (refresh [] (fun _ => false) ex_answers ex_record) <> ex_record
  /\ ~ usable (skipn 1 ex_record) /\ ~ usable (filter (fun r => negb (String.eqb (r_urn r) "C")) ex_record).
Proof.
  split; [apply ex_usable|]. split; [vm_compute; discriminate|].
  split; intros H; apply verify_usable in H; vm_compute in H; discriminate.
Qed.
Print Assumptions C131_usable.

(* ---------------------------------------------------------------- *)
(** C132: what is recorded for each resource is what its provider reports.  What is missing:
    resources that exist and whose providers report what is the matter with them in a way that
    is not understood. *)
Theorem C132_recorded_partial : forall targets accepts answers l,
  (forall u, In u targets -> exists q, In q l /\ r_urn q = u /\ r_delete q = false) ->
  (forall i, complete (answers i)) ->
  exists fates, length fates = length l /\ fst (refresh targets accepts answers l) = left_of fates /\
    forall i r, nth_error l i = Some r -> exists o, nth_error fates i = Some o /\ fate targets r (answers i) o.
Proof.
  intros t acc ans l HT HC. destruct (refresh_places t acc ans l HT) as [os [L [E H]]].
  exists os. split; auto. split; auto. intros i r Hr. specialize (H i r Hr).
  pose proof (execute_fate t (acc i) r (ans i) (HC i)) as F.
  destruct (fst (if targeted t r then execute (acc i) r (ans i) else (Some r, false))) as [r1|].
  - destruct H as [d [p [H _]]]. eauto using fate_renamed.
  - eauto.
Qed.
(** The refresh fails if a provider is asked and fails, or is not understood. *)
Theorem C132_failed : forall targets accepts answers l,
  (forall u, In u targets -> exists q, In q l /\ r_urn q = u /\ r_delete q = false) ->
  (snd (refresh targets accepts answers l) = true <->
   exists i r, nth_error l i = Some r /\ is_read targets r /\
     (answers i = Some Fails
      \/ (exists id s inp, answers i = Some (Found id s inp) /\ id <> "" /\ (s = None \/ inp = Some None))
      \/ (exists id s inp reasons, answers i = Some (Unhealthy id s inp reasons) /\ id <> "" /\ (s = None \/ inp = Some None)))).
Proof.
  intros t acc ans l HT. unfold refresh.
  assert (E : forallb (fun u => is_in u (live l)) t = true).
  { apply forallb_forall. intros u Hu. apply is_in_spec, live_in. auto. }
  rewrite E. cbn [negb snd]. rewrite existsb_exists.
  assert (HTG : forall r, targeted t r = true <-> (t = [] \/ In (r_urn r) t)).
  { intros r. destruct t; cbn [targeted]; [tauto|]. rewrite is_in_spec. split; auto. intros [|]; [discriminate | auto]. }
  assert (ONE : forall i r, (snd (if targeted t r then execute (acc i) r (ans i) else (Some r, false)) = true <-> is_read t r /\
     (ans i = Some Fails
      \/ (exists id s inp, ans i = Some (Found id s inp) /\ id <> "" /\ (s = None \/ inp = Some None))
      \/ (exists id s inp reasons, ans i = Some (Unhealthy id s inp reasons) /\ id <> "" /\ (s = None \/ inp = Some None))))).
  { intros i r. unfold is_read. rewrite <- HTG. destruct (targeted t r); cbn [snd]; [|split; [discriminate | intros [[X _] _]; discriminate]].
    destruct (ans i) as [a|]; cbn [execute snd].
    2:{ split; [discriminate|]. intros [_ [X|[[? [? [? [X _]]]]|[? [? [? [? [X _]]]]]]]]; discriminate. }
    unfold apply_step. destruct (r_custom r) eqn:C, (r_kind r) eqn:K, (r_pending r) eqn:P; cbn [negb orb snd];
      try (split; [discriminate | intros [[_ [X1 [X2 X3]]] _]; discriminate]).
    destruct a as [id s inp|id s inp reasons|]; cbn [provider_read]; unfold unmarshal.
    - destruct (String.eqb id "") eqn:EI; [apply String.eqb_eq in EI; subst id | apply String.eqb_neq in EI];
        destruct s as [s|], inp as [[inp|]|]; cbn;
        (split; [try discriminate; intros _; split; auto; right; left; eauto 10
                | try reflexivity; intros [_ [X|[[? [? [? [X [Y Z]]]]]|[? [? [? [? [X _]]]]]]]]; inversion X; subst; try congruence;
                  destruct Z; congruence]).
    - destruct (String.eqb id "") eqn:EI; [apply String.eqb_eq in EI; subst id | apply String.eqb_neq in EI];
        destruct s as [s|], inp as [[inp|]|]; cbn;
        (split; [try discriminate; intros _; split; auto; right; right; eauto 12
                | try reflexivity; intros [_ [X|[[? [? [? [X _]]]]|[? [? [? [? [X [Y Z]]]]]]]]]; inversion X; subst; try congruence;
                  destruct Z; congruence]).
    - cbn. split; auto. }
  split.
  - intros [x [HX HB]]. apply In_nth_error in HX as [i HX]. rewrite steps_at in HX. cbn [plus] in HX.
    destruct (nth_error l i) as [r|] eqn:Hr; cbn in HX; [|discriminate]. inversion HX; subst x.
    exists i, r. split; auto. now apply ONE.
  - intros [i [r [Hr H]]]. exists (if targeted t r then execute (acc i) r (ans i) else (Some r, false)).
    split; [|now apply ONE]. apply nth_error_In with i. now rewrite steps_at, Hr.
Qed.
(** If a target is not recorded, nothing changes. *)
Theorem C132_refused : forall targets accepts answers l u,
  In u targets -> (forall q, In q l -> r_urn q = u -> r_delete q = true) ->
  refresh targets accepts answers l = (l, true).
Proof.
  intros t acc ans l u HU HN. unfold refresh. destruct (forallb (fun u => is_in u (live l)) t) eqn:E; auto.
  exfalso. apply (proj1 (forallb_forall _ _)) with (x := u) in E; auto.
  apply is_in_spec, live_in in E as [q [A [B C]]]. rewrite (HN q A B) in C. discriminate.
Qed.
Example C132_applies :
  (forall i, complete (ex_answers i)) /\
  exists f, fst (refresh ["C"; "F"] (fun _ => true) ex_answers ex_record) = firstn 2 ex_record ++ [f]
    /\ r_id f = "f2" /\ r_outputs f = [("b", Secret (Plain "new"))] /\ r_inputs f = [("a", Secret (Plain "in"))].
Proof.
  split.
  - intros [|[|[|[|i]]]] id s inp reasons; discriminate.
  - eexists. vm_compute. auto.
Qed.
(** A resource that exists, but is unhealthy, and whose state is not understood is no longer
    recorded. *)
Theorem C132_refuted :
  exists l answers r, usable l /\ In r l /\ r_custom r = true /\
    (exists s i reasons, answers 2 = Some (Unhealthy "c" s i reasons)) /\ nth_error l 2 = Some r /\ r_id r = "c" /\
    (forall i, i <> 2 -> answers i = None) /\
    forall accepts, ~ In (r_urn r) (map r_urn (fst (refresh [] accepts answers l))).
Proof.
  exists (firstn 3 ex_record), (fun i => match i with 2 => Some (Unhealthy "c" None None ["crashes"]) | _ => None end),
    (ex_res "C" false true "c" "A" [] (Some ("P", "p"))).
  split; [apply verify_usable; vm_compute; reflexivity|]. split; [cbn; auto|]. split; [reflexivity|].
  split; [eauto|]. split; [reflexivity|]. split; [reflexivity|].
  split; [intros [|[|[|i]]] N; congruence|].
  intros acc H. cbn in H. destruct H as [H|[H|[]]]; discriminate.
Qed.
Print Assumptions C132_recorded_partial.
Print Assumptions C132_failed.

(* ---------------------------------------------------------------- *)
(** C133: the names of resources that are gone.  What is missing: their children are to be put under
    the next resource above that is recorded; dependencies of single properties. *)
Theorem C133_names_partial : forall targets accepts answers l,
  (forall u, In u targets -> exists q, In q l /\ r_urn q = u /\ r_delete q = false) ->
  exists fates, length fates = length l /\ fst (refresh targets accepts answers l) = left_of fates /\
    forall i r, nth_error l i = Some r ->
      nth_error fates i = Some None
      \/ exists r', nth_error fates i = Some (Some r') /\ r_urn r' = r_urn r /\ names_kept (left_of (firstn i fates)) (left_of fates) r r'.
Proof.
  intros t acc ans l HT. destruct (refresh_places t acc ans l HT) as [os [L [E H]]].
  exists os. split; auto. split; auto. intros i r Hr. specialize (H i r Hr).
  pose proof (step_shape t (acc i) r (ans i)) as S.
  destruct (fst (if targeted t r then execute (acc i) r (ans i) else (Some r, false))) as [r1|]; auto.
  right. destruct H as [d [p [H N]]]. eexists. split; [exact H|]. cbn in S. destruct S as [U [_ [_ [P [D _]]]]].
  split; [exact U|]. unfold names_kept in *. now rewrite <- P, <- D.
Qed.
Example C133_applies :
  map (fun r => (r_urn r, r_deps r)) (fst (refresh [] (fun _ => true) ex_answers ex_record)) = [("P", []); ("A", []); ("F", ["A"])].
Proof. vm_compute. reflexivity. Qed.
(** The object in the bucket that is gone was below the component as well, which is recorded; it
    loses its place. *)
Theorem C133_refuted_parent :
  exists l answers f f', usable l /\ In f l /\ r_delete f = false /\
    forall accepts, In f' (fst (refresh [] accepts answers l)) /\ r_urn f' = r_urn f
      /\ nearest l (fst (refresh [] accepts answers l)) (r_parent f) "A" /\ r_parent f' = "".
Proof.
  exists ex_record, (fun i => match i with 2 => Some (Found "" None None) | _ => None end),
    (ex_res "F" false true "f" "C" ["A"; "C"] (Some ("P", "p"))).
  eexists. split; [apply ex_usable|]. split; [cbn; auto|]. split; [reflexivity|].
  intros acc. split; [cbn; right; right; left; reflexivity|]. split; [reflexivity|]. split; [|reflexivity].
  apply nearest_above with (ex_res "C" false true "c" "A" [] (Some ("P", "p"))); [discriminate| |cbn; auto|reflexivity|].
  - intros q H E. cbn in H. destruct H as [<-|[<-|[<-|[]]]]; discriminate.
  - apply nearest_here with (ex_res "A" false false "" "" [] None); [discriminate|cbn; auto|reflexivity].
Qed.
(** The record still has its name with the property that came from it. *)
Theorem C133_refuted_property :
  exists l answers f', usable l /\
    forall accepts, In f' (fst (refresh [] accepts answers l))
      /\ (exists k d, In (k, d) (r_props f') /\ In "C" d)
      /\ ~ In "C" (map r_urn (fst (refresh [] accepts answers l))).
Proof.
  exists ex_record, (fun i => match i with 2 => Some (Found "" None None) | _ => None end).
  eexists. split; [apply ex_usable|].
  intros acc. split; [cbn; right; right; left; reflexivity|]. split.
  - exists "a", ["A"; "C"]. cbn. auto.
  - cbn. intros [H|[H|[H|[]]]]; discriminate.
Qed.
Print Assumptions C133_names_partial.

(* ---------------------------------------------------------------- *)
(** C134: outputs that are secret stay secret.  What is missing: providers that accept secrets and
    return the values without the mark. *)
Theorem C134_secrets_partial : forall targets accepts answers l,
  (forall u, In u targets -> exists q, In q l /\ r_urn q = u /\ r_delete q = false) ->
  exists fates, length fates = length l /\ fst (refresh targets accepts answers l) = left_of fates /\
    forall i r r', nth_error l i = Some r -> nth_error fates i = Some (Some r') ->
      r_urn r' = r_urn r /\ (accepts i = false -> keys_once (r_outputs r) ->
      forall path v w, shown (r_outputs r) path v -> has_secret v -> no_object v -> shown (r_outputs r') path w ->
        w = v \/ exists s, w = Secret s).
Proof.
  intros t acc ans l HT. destruct (refresh_places t acc ans l HT) as [os [L [E H]]].
  exists os. split; auto. split; auto. intros i r r' Hr HO. specialize (H i r Hr). split.
  { pose proof (step_shape t (acc i) r (ans i)) as S.
    destruct (fst (if targeted t r then execute (acc i) r (ans i) else (Some r, false))) as [r1|]; [|congruence].
    destruct H as [d [p [H _]]]. assert (EQ : r' = with_parent (with_deps r1 d) p) by congruence. subst r'. apply S. }
  intros HA K path v w S HS NO SW.
  pose proof (step_keeps_secrets t r (ans i)) as X. rewrite HA in H.
  destruct (fst (if targeted t r then execute false r (ans i) else (Some r, false))) as [r1|]; [|congruence].
  destruct H as [d [p [H _]]]. assert (EQ : r' = with_parent (with_deps r1 d) p) by congruence. subst r'.
  apply (X r1 path v w); auto.
Qed.
(** So do, with any provider, those that the program says are secret. *)
Theorem C134_additional : forall targets accepts answers l,
  (forall u, In u targets -> exists q, In q l /\ r_urn q = u /\ r_delete q = false) ->
  exists fates, length fates = length l /\ fst (refresh targets accepts answers l) = left_of fates /\
    forall i r r', nth_error l i = Some r -> nth_error fates i = Some (Some r') ->
      r_urn r' = r_urn r /\
      forall k w, is_read targets r -> answers i <> None ->
        In k (r_secret r) -> k <> "id" -> In (k, w) (r_outputs r') -> exists s, w = Secret s.
Proof.
  intros t acc ans l HT. destruct (refresh_places t acc ans l HT) as [os [L [E H]]].
  exists os. split; auto. split; auto. intros i r r' Hr HO. specialize (H i r Hr). split.
  { pose proof (step_shape t (acc i) r (ans i)) as S.
    destruct (fst (if targeted t r then execute (acc i) r (ans i) else (Some r, false))) as [r1|]; [|congruence].
    destruct H as [d [p [H _]]]. assert (EQ : r' = with_parent (with_deps r1 d) p) by congruence. subst r'. apply S. }
  intros k w [HR _] HA HK NE HI.
  assert (T : targeted t r = true).
  { destruct t; cbn [targeted]; auto. apply is_in_spec. destruct HR; [discriminate | auto]. }
  rewrite T in H. destruct (ans i) as [a|]; [|congruence].
  pose proof (step_hides t (acc i) r a) as X.
  destruct (fst (execute (acc i) r (Some a))) as [r1|]; [|congruence].
  destruct H as [d [p [H _]]]. assert (EQ : r' = with_parent (with_deps r1 d) p) by congruence. subst r'.
  apply (X r1 k w); auto.
Qed.
Example C134_applies :
  shown (r_outputs (ex_res "F" false true "f" "C" [] None)) ["b"] (Secret (Plain "out")) /\ has_secret (Secret (Plain "out"))
  /\ no_object (Secret (Plain "out")) /\ keys_once [("b", Secret (Plain "out"))]
  /\ map r_outputs (fst (refresh ["F"] (fun _ => false) ex_answers ex_record)) =
     [[("b", Secret (Plain "out"))]; [("b", Secret (Plain "out"))]; [("b", Secret (Plain "out"))]; [("b", Secret (Plain "new"))]].
Proof.
  split; [constructor; cbn; auto|]. split; [constructor|]. split; [intros l; discriminate|]. split; [apply ex_keys|].
  vm_compute. reflexivity.
Qed.
Theorem C134_refuted :
  exists l answers f, usable l /\ nth_error l 1 = Some f /\ keys_once (r_outputs f) /\ shown (r_outputs f) ["b"] (Secret (Plain "out")) /\
    exists f', nth_error (fst (refresh [] (fun _ => true) answers l)) 1 = Some f' /\ r_urn f' = r_urn f /\ shown (r_outputs f') ["b"] (Plain "new").
Proof.
  set (f := mkRes "F" false true false false "f" [] [("b", Secret (Plain "out"))] "" [] [] [] (Some ("P", "p")) [] "").
  exists [ex_res "P" true true "p" "" [] None; f], (fun _ => Some (Found "f" (Some [("b", Plain "new")]) None)), f.
  split; [apply verify_usable; vm_compute; reflexivity|]. split; [reflexivity|]. split; [apply ex_keys|].
  split; [constructor; cbn; auto|]. eexists. split; [reflexivity|]. split; [reflexivity|]. constructor. cbn. auto.
Qed.
Print Assumptions C134_secrets_partial.
Print Assumptions C134_additional.
