(** C128 and C129: what an update with targets does, and what it leaves recorded. *)
From Verif Require Import Base Model_Targets Spec_Targets Proof_Targets.
Open Scope string_scope.
Open Scope list_scope.

(** C128.  An update with targets creates, updates and replaces only the targets, and with
    target_dependents what names one of them, directly or not; providers are created in any case.
    With these it does what an update without targets would do, and it creates and changes nothing
    that depends on something it did not create.

    Missing: resources that are imported, were read before, or are deleted for the replacement of
    something they depend on; see the counterexamples. *)
Theorem C128_targets_partial : forall dependents targets old qs, in_order qs -> ordinary old qs ->
  let w q := within dependents targets qs (q_urn q) in
  forall done q a done', update dependents targets old qs = done ++ (q, a) :: done' ->
    In q qs /\
    match a with
    | Create => old (q_urn q) = None /\ (w q \/ q_is_provider q = true)
    | Update => old (q_urn q) <> None /\ w q /\ q_found q = Changed
    | Replace => old (q_urn q) <> None /\ w q /\ q_found q = Differs
    | Same => old (q_urn q) <> None /\ (w q -> q_found q = Equal)
    | Skip => old (q_urn q) = None /\ ~ w q /\ q_is_provider q = false
    | Import => False
    end /\
    (acted a -> forall p, In (p, Skip) done -> ~ In (q_urn p) (q_deps q)).
Proof.
  intros dependents targets old qs O Or w done q a done' E. unfold update in E.
  destruct (run_right dependents targets old qs O Or qs [] [] _ eq_refl (start_good dependents targets old qs) _ _ _ _ E) as [A B]. split; [|split].
  - destruct (run_prefix dependents old qs (mkGen targets [] [])) as [rest R]. rewrite R, E, map_app. apply in_or_app. left. apply in_elt.
  - exact A.
  - intros Ac p Ip Id. apply (B Ac (q_urn p) Id). cbn. apply in_map_iff. exists (p, Skip). auto.
Qed.
Print Assumptions C128_targets_partial.

(** It goes through the whole program, unless it comes to a resource that depends on one it did not
    create. *)
Theorem C128_whole_partial : forall dependents targets old qs, in_order qs -> ordinary old qs ->
  let l := update dependents targets old qs in
  map fst l = qs \/ exists q rest p, qs = map fst l ++ q :: rest /\ In (p, Skip) l /\ In (q_urn p) (q_deps q).
Proof.
  intros dependents targets old qs O Or. exact (run_whole dependents targets old qs O Or qs [] [] _ eq_refl (start_good dependents targets old qs)).
Qed.
Print Assumptions C128_whole_partial.

Definition rq (u parent : string) (deps : list string) (f : found) : request := mkRequest u parent "" deps false false f.
Definition ex_old (u : string) : option bool := if smem u ["stack"; "a"; "b"] then Some false else None.
Definition ex_program : list request :=
  [rq "stack" "" [] Equal; rq "a" "stack" [] Changed; rq "b" "stack" ["a"] Changed; rq "c" "stack" [] Equal; rq "d" "stack" ["b"] Equal; rq "e" "stack" ["c"; "d"] Equal].
Example C128_case :
  in_order ex_program /\ ordinary ex_old ex_program /\
  map snd (update false ["b"] ex_old ex_program) = [Same; Same; Update; Skip; Skip; Skip] /\
  (* e depends on c, which is not created *)
  map snd (update true ["b"] ex_old ex_program) = [Same; Same; Update; Skip; Create] /\
  within true ["b"] ex_program "e" /\ ~ within true ["b"] ex_program "c".
Proof.
  split; [|split; [|split; [|split; [|split]]]]; try (vm_compute; reflexivity).
  - split; [vm_compute; repeat (constructor; [cbn; intuition discriminate|]); constructor|].
    intros before q after v E [Nv N]. repeat (destruct before as [|? before]; [injection E as <- <-; cbn in N |- *; intuition congruence|injection E as <- E]).
    all: try (now destruct before); discriminate.
  - split; [intro u; unfold ex_old; destruct (smem _ _); discriminate|]. intros q I. repeat (destruct I as [<-|I]; [split; [reflexivity|discriminate]|]). easy.
  - apply (in_dependents true ["b"] ex_program (rq "e" "stack" ["c"; "d"] Equal) "d"); [reflexivity|cbn; tauto|split; [discriminate|cbn; tauto]|].
    apply (in_dependents true ["b"] ex_program (rq "d" "stack" ["b"] Equal) "b"); [reflexivity|cbn; tauto|split; [discriminate|cbn; tauto]|]. constructor. now left.
  - intro W. assert (X : forall u, within true ["b"] ex_program u -> u <> "stack" /\ u <> "c" /\ u <> "").
    { clear. induction 1 as [u [<-|[]]|q v _ I [Nv N] W (A & B & C)]; [repeat split; discriminate|].
      repeat (destruct I as [<-|I]; [cbn in N; repeat split; cbn; try discriminate; intro; intuition congruence|]). easy. }
    now destruct (X _ W) as (_ & H & _).
Qed.

(** Imports, resources that were read before, and dependents of what is deleted before it is
    replaced, are created although they are no targets. *)
Theorem C128_refuted :
  (exists done, update false ["a"] ex_old [rq "stack" "" [] Equal; mkRequest "n" "stack" "" [] false true Equal] = done ++ [(mkRequest "n" "stack" "" [] false true Equal, Import)]) /\
  (let old u := if String.eqb u "r" then Some true else ex_old u in
   exists done, update false ["a"] old [rq "stack" "" [] Equal; rq "r" "stack" [] Equal] = done ++ [(rq "r" "stack" [] Equal, Create)]) /\
  (exists done, update false ["a"] ex_old [rq "stack" "" [] Equal; rq "a" "stack" [] (Clears ["b"]); rq "b" "stack" ["a"] Equal] = done ++ [(rq "b" "stack" ["a"] Equal, Replace)]) /\
  forall qs u, u <> "a" -> ~ within false ["a"] qs u.
Proof.
  split; [eexists [_]; vm_compute; reflexivity|]. split; [eexists [_]; vm_compute; reflexivity|]. split; [eexists [_; _]; vm_compute; reflexivity|].
  intros qs u N W. destruct W as [u [<-|[]]|q v D]; [easy|discriminate].
Qed.
Print Assumptions C128_refuted.

(** C129.  After an update with targets, every resource a recorded one names is recorded: the
    dependencies of what it created, updated or replaced are.

    Missing: parents, and the dependencies of resources that are kept; see the counterexamples. *)
Theorem C129_recorded_partial : forall dependents targets old qs, in_order qs -> ordinary old qs ->
  forall q a d, In (q, a) (update dependents targets old qs) -> acted a -> d <> "" -> In d (q_deps q) ->
    recorded old (update dependents targets old qs) d.
Proof.
  intros dependents targets old qs O Or q a d I A Nd Id. apply in_split in I as (done & done' & E).
  destruct (C128_targets_partial _ _ _ _ O Or _ _ _ _ E) as (_ & _ & S). specialize (S A).
  destruct (run_prefix dependents old qs (mkGen targets [] [])) as [rest R]. fold (update dependents targets old qs) in R. rewrite E, map_app, <- app_assoc in R. cbn [map fst app] in R.
  destruct O as [_ Oo]. specialize (Oo _ _ _ d R (conj Nd (or_intror (or_intror Id)))). rewrite map_map in Oo.
  apply in_map_iff in Oo as ([p b] & Ep & Ip). cbn in Ep. right. exists p, b. rewrite E. repeat split; trivial; [apply in_or_app; now left|].
  intros ->. apply (S p Ip). now rewrite Ep.
Qed.
Print Assumptions C129_recorded_partial.
Example C129_case : exists q a, In (q, a) (update true ["b"] ex_old ex_program) /\ acted a /\ q_urn q = "d" /\ In "b" (q_deps q).
Proof. exists (rq "d" "stack" ["b"] Equal), Create. unfold acted. repeat split; cbn; tauto. Qed.

(** The first update of a stack, with a target: the resource is created and recorded, the stack
    that is its parent is not.  A resource that is kept and depends on a new one that is left out:
    its new dependency is recorded, the new one is not. *)
Theorem C129_refuted :
  (let l := update false ["a"] (fun _ => None) [rq "stack" "" [] Equal; rq "a" "stack" [] Equal] in
   In (rq "a" "stack" [] Equal, Create) l /\ ~ recorded (fun _ => None) l "stack") /\
  (let l := update false ["a"] ex_old [rq "stack" "" [] Equal; rq "a" "stack" [] Equal; rq "new" "stack" [] Equal; rq "b" "stack" ["new"] Changed] in
   In (rq "b" "stack" ["new"] Changed, Same) l /\ ~ recorded ex_old l "new").
Proof.
  split; (split; [vm_compute; tauto|]); intros [N|(q & a & I & E & S)]; try (now apply N); vm_compute in I; intuition (subst; try discriminate); try congruence.
  all: repeat match goal with H : (_, _) = (_, _) |- _ => injection H as <- <- end; cbn in E; try discriminate; now apply S.
Qed.
Print Assumptions C129_refuted.
