(** C87: a component stands for what was created in it. *)
From Verif Require Import Base PyVal Model_Options Spec_Options Model_Resource Spec_Resource Model_Children Spec_Children Proof_Children.
From Verif Require Model_Cycle Model_Deps Spec_Deps.
Open Scope string_scope.

(** C87.  In every history of a program that catches the exceptions of
    constructors, depending on resources means depending on exactly the
    custom resources and remote components among them and created inside the
    local components among them.  Missing: components in which a
    constructor failed after its transformations had run (see [C87_refuted]). *)
Theorem C87_components_partial : forall ord tf late f urns ds g, history tf late f ->
  (forall d p, In d ds -> inside f d p -> local f p -> ~ In p late) -> (forall x, exists u, urns x = Ok u) ->
  exists l, Model_Deps.expand_dependencies ord None g (map (object_of urns f) ds) = Ok (g, l) /\ NoDup l /\
    forall s, In s l <-> s <> "" /\ exists d x, In d ds /\ inside f d x /\ ~ local f x /\ urns x = Ok (Some s).
Proof. exact expansion_ok. Qed.
Print Assumptions C87_components_partial.

(** The same for what a new resource depends on ([Spec_Deps.stands_for] is what
    C28 and C86 are stated with). *)
Theorem C87_stands_for_partial : forall tf late f urns d, history tf late f ->
  (forall p, inside f d p -> local f p -> ~ In p late) ->
  forall y, Spec_Deps.stands_for (object_of urns f d) y <-> exists x, inside f d x /\ ~ local f x /\ y = object_of urns f x.
Proof. exact components_ok. Qed.
Print Assumptions C87_stands_for_partial.

(** C87.  A failed construction leaves every resource as it was, and what
    resources stand for, unless they are the local component given as parent
    or contain it. *)
Theorem C87_failure_partial : forall ord tf late f aliases t name custom remote props given f' e, history tf late f ->
  parent_exists (fm_world f) given -> attempt tf aliases f t name custom remote props given = (f', Err e) ->
  fm_world f' = fm_world f /\ fm_remote f' = fm_remote f /\
  forall urns from g ds, (forall d p, In d ds -> inside f d p -> local f p -> ro_parent given <> Some p) ->
    Model_Deps.expand_dependencies ord from g (map (object_of urns f') ds) =
    Model_Deps.expand_dependencies ord from g (map (object_of urns f) ds).
Proof. exact failure_local. Qed.
Print Assumptions C87_failure_partial.

(* ------------------------------------------------------------------ *)
Definition h_tf (x : nat) : transformation := fun t name p o => if Nat.eqb x 3 then Err (Exn "ValueError" "no") else Ok None.
Definition h_opts (parent : option nat) (prov : option provider) (ts : option (list nat)) : ropts :=
  mkRopts 0 parent None None prov None None None None None None None None None ts None None None None.
Definition h_f0 : family := mkFamily (mkWorld [] None) [] [] 0.
(** A component 0 with: a bucket 1; an inner component 2 with a remote
    component 3 and a constructor that raised early; a custom resource 4
    with a child 5. *)
Definition h_f1 := fst (attempt h_tf None h_f0 "my:index:Comp" "c" false false [] (h_opts None None None)).
Definition h_f2 := fst (attempt h_tf None h_f1 "aws:s3:Bucket" "b" true false [] (h_opts (Some 0) None None)).
Definition h_f3 := fst (attempt h_tf None h_f2 "my:index:Comp" "inner" false false [] (h_opts (Some 0) None None)).
Definition h_f4 := fst (attempt h_tf None h_f3 "my:index:Remote" "r" false true [] (h_opts (Some 2) None None)).
Definition h_f5 := fst (attempt h_tf None h_f4 "aws:s3:Bucket" "b2" true false [] (h_opts (Some 2) None (Some [3]))).
Definition h_f6 := fst (attempt h_tf None h_f5 "aws:s3:Bucket" "b3" true false [] (h_opts (Some 0) None None)).
Definition h_f7 := fst (attempt h_tf None h_f6 "aws:s3:Bucket" "b4" true false [] (h_opts (Some 4) None None)).
(** A constructor that raises late: a provider of another package. *)
Definition h_f8 := fst (attempt h_tf None h_f7 "aws:s3:Bucket" "b5" true false [] (h_opts (Some 2) (Some (mkProvider "gcp" 1)) None)).
Definition h_urns (n : nat) : res (option string) := Ok (Some (String (ascii_of_nat (48 + n)) "")).

Lemma h_history : history h_tf [] h_f7.
Proof.
  assert (W : forall p pr ts, wf_opts (h_opts p pr ts)) by (intros; exact I).
  eapply (hi_made _ _ h_f6 None "aws:s3:Bucket" "b4" true false [] (h_opts (Some 4) None None)); [|apply W|intros n [= <-]; eexists; reflexivity|reflexivity].
  eapply (hi_made _ _ h_f5 None "aws:s3:Bucket" "b3" true false [] (h_opts (Some 0) None None)); [|apply W|intros n [= <-]; eexists; reflexivity|reflexivity].
  eapply (hi_early _ _ h_f4 None "aws:s3:Bucket" "b2" true false [] (h_opts (Some 2) None (Some [3]))); [|apply W|intros n [= <-]; eexists; reflexivity|reflexivity|].
  2: { left. intros (_ & _ & ts & po & [(p & r & _ & G & ->)|(P & _)] & R); [|discriminate P]. inversion R as [|? ? ? ? ? E|? ? ? ? ? ? ? E]; discriminate E. }
  eapply (hi_made _ _ h_f3 None "my:index:Remote" "r" false true [] (h_opts (Some 2) None None)); [|apply W|intros n [= <-]; eexists; reflexivity|reflexivity].
  eapply (hi_made _ _ h_f2 None "my:index:Comp" "inner" false false [] (h_opts (Some 0) None None)); [|apply W|intros n [= <-]; eexists; reflexivity|reflexivity].
  eapply (hi_made _ _ h_f1 None "aws:s3:Bucket" "b" true false [] (h_opts (Some 0) None None)); [|apply W|intros n [= <-]; eexists; reflexivity|reflexivity].
  eapply (hi_made _ _ h_f0 None "my:index:Comp" "c" false false [] (h_opts None None None)); [constructor|apply W|intros n H; discriminate|reflexivity].
Qed.
Example C87_example : history h_tf [] h_f7 /\ local h_f7 0 /\ inside h_f7 0 3 /\ ~ local h_f7 3 /\
  Model_Deps.expand_dependencies (fun _ l => l) None [] (map (object_of h_urns h_f7) [0]) = Ok ([], ["1"; "3"; "4"]).
Proof.
  split; [exact h_history|]. split; [eexists; split; [reflexivity|split; [reflexivity|simpl; intuition discriminate]]|].
  split.
  { eapply (In_child _ _ 2); [|eexists; split; [reflexivity|split; [reflexivity|simpl; intuition discriminate]]|reflexivity|reflexivity].
    eapply (In_child _ _ 0); [apply In_self|eexists; split; [reflexivity|split; [reflexivity|simpl; intuition discriminate]]|reflexivity|reflexivity]. }
  split; [intros (r & _ & _ & K); apply K; left; reflexivity|reflexivity].
Qed.

(** C87 is false in general: after a constructor under component 2 raised and
    the program caught the exception, nothing can depend on 2 or on what
    contains it: each such expansion raises. *)
Theorem C87_refuted : exists e, history h_tf [] h_f7 /\
  attempt h_tf None h_f7 "aws:s3:Bucket" "b5" true false [] (h_opts (Some 2) (Some (mkProvider "gcp" 1)) None) = (h_f8, Err e) /\
  (forall ord g, Model_Deps.expand_dependencies ord None g (map (object_of h_urns h_f7) [2]) = Ok (g, ["3"])) /\
  forall ord g d, In d [0; 2] -> Model_Deps.expand_dependencies ord None g (map (object_of h_urns h_f8) [d]) = Err (Exn "KeyError" "urn").
Proof.
  eexists. split; [exact h_history|]. split; [reflexivity|]. split; [reflexivity|].
  intros ord g d [<-|[<-|[]]]; reflexivity.
Qed.
Print Assumptions C87_refuted.
