(** Properties C92: declared properties of classes and their bases *)
From Verif Require Import Base PyVal Model_Annot Model_Class Spec_Class Proof_Class.
Open Scope string_scope.

(** C92.  Full property: a property declared by a class, or by a class it
    derives from, has the names and the type of its most derived declaration:
    options naming it by its Python name reach the engine with its Pulumi
    name, and what the engine returns under the Pulumi name becomes the
    attribute with the Python name and the declared type.

    Missing (see C92_refuted): properties of base classes declared by
    annotations; declarations that change the Pulumi name of an inherited
    property, or override a getter by an annotation. *)
Theorem C92_resource_partial :
  forall c, well_formed c -> consistent c -> named c -> annotations_in_class c ->
  (forall pys puls, Forall2 (fun py pul => exists a, has_property c py pul a) pys puls ->
     secret_outputs c pys = puls /\ map (attribute_of c) puls = pys) /\
  (forall k, (forall b pul a, In b c -> ~ declared_in b k pul a) -> secret_outputs c [k] = [k]) /\
  (forall k, (forall b py a, In b c -> ~ declared_in b py k a) -> attribute_of c k = k) /\
  (forall types py pul a t, resource_types c = Ok types -> has_property c py pul (Some a) ->
     unwrap_type a = Ok t -> t <> AOutput -> dget types pul = Some t).
Proof.
  intros c W K N A. split; [|split; [|split]].
  - intros pys puls F. induction F as [|py pul pys puls (a & f & b & k & Ec & D & _) F [IH1 IH2]]; [split; reflexivity|].
    assert (Ib : In b c) by (rewrite Ec; apply in_app_iff; right; now left). unfold secret_outputs, attribute_of in *. cbn.
    rewrite (lookup_py c W K N A b py pul a Ib D), (lookup_pulumi c W K N A b py pul a Ib D), IH1, IH2. split; reflexivity.
  - intros k H. unfold secret_outputs. cbn. now rewrite (lookup_py_out c W A).
  - intros k H. unfold attribute_of. now rewrite (lookup_pulumi_out c W A).
  - intros types py pul a t E P U O. exact (typed c W K A py pul a t types P U O E).
Qed.
Print Assumptions C92_resource_partial.

(** Input and output types: they can be decorated once along their bases, and
    options that name properties (ignore_changes, replace_on_changes) reach
    the engine with their Pulumi names. *)
Theorem C92_decorated_partial :
  forall c, well_formed c -> consistent c -> named c -> annotations_in_class c ->
  ((exists c', decorate c = Ok c') <-> forall b, In b c -> b_marked b = false) /\
  forall c', decorate c = Ok c' -> forall pys puls,
    Forall2 (fun py pul => (exists a, has_property c py pul a) \/
                           (forall b p a, In b c -> ~ declared_in b py p a) /\ pul = py) pys puls ->
    ignore_changes c' pys = Ok puls.
Proof.
  intros c W K N A. split; [exact (decorate_ok c)|]. intros c' E pys puls F. unfold ignore_changes.
  destruct (decorated c W A c' E) as [M _].
  assert (T : type_py_to_pulumi c' = Ok (dupdate [] (by_py (py_properties c')))) by (unfold type_py_to_pulumi; now rewrite M).
  rewrite T. cbn [rbind]. f_equal. destruct (decorated_names c W K N A c' _ E T) as [H1 H2].
  induction F as [|py pul pys puls H F IH]; [reflexivity|]. cbn [map]. rewrite IH. f_equal.
  destruct H as [(a & f & b & k & Ec & D & _)|[H ->]].
  - apply (H1 b py pul a); [rewrite Ec; apply in_app_iff; right; now left|exact D].
  - now apply H2.
Qed.
Print Assumptions C92_decorated_partial.

Definition ex_base : base := mkBase [] [("bucket_name", PGetter "bucketName" (Some (AGen GOutput [AName "str"]))); ("helper", PPlain)] false.
Definition ex_own : base := mkBase [("rule_list", AGen GSequence [AOut 1]); ("tags", AName "str")]
  [("rule_list", PProperty "ruleList"); ("bucket_name", PGetter "bucketName" (Some (AGen GOutput [AEnum 3])))] false.
Definition ex_class : class := [ex_base; ex_own].
Example C92_nontrivial :
  well_formed ex_class /\ consistent ex_class /\ named ex_class /\ annotations_in_class ex_class /\
  has_property ex_class "bucket_name" "bucketName" (Some (AGen GOutput [AEnum 3])) /\
  has_property ex_class "rule_list" "ruleList" (Some (AGen GSequence [AOut 1])) /\
  secret_outputs ex_class ["rule_list"; "bucket_name"; "tags"; "other"] = ["ruleList"; "bucketName"; "tags"; "other"] /\
  resource_types ex_class = Ok [("ruleList", AGen GSequence [AOut 1]); ("tags", AName "str"); ("bucketName", AEnum 3)] /\
  exists c', decorate ex_class = Ok c' /\ ignore_changes c' ["tags"; "rule_list"] = Ok ["tags"; "ruleList"].
Proof.
  assert (D : forall b py pul a, In b ex_class -> declared_in b py pul a ->
    (py, pul) = ("bucket_name", "bucketName") \/ (py, pul) = ("rule_list", "ruleList") \/ (py, pul) = ("tags", "tags")).
  { intros b py pul a [<-|[<-|[]]] D; inversion D as [? ? ? I|? ? x I J|? x I NP NG]; subst; cbn in *.
    - destruct I as [I|[I|[]]]; [injection I as <- <- _; auto|discriminate].
    - contradiction.
    - contradiction.
    - destruct I as [I|[I|[]]]; [discriminate|injection I as <- <- _; auto].
    - destruct J as [J|[J|[]]]; [injection J as <- <-; auto|discriminate].
    - destruct I as [I|[I|[]]]; injection I as <- <-; auto. exfalso. exact (NP "ruleList" (or_introl eq_refl)). }
  split; [|split; [|split; [|split; [|split; [|split; [|split; [|split]]]]]]].
  - split; [discriminate|]. intros b [<-|[<-|[]]]; split; repeat constructor; cbn; intuition discriminate.
  - intros b b' py pul a py' pul' a' Ib Ib' D1 D2. pose proof (D _ _ _ _ Ib D1) as X. pose proof (D _ _ _ _ Ib' D2) as Y.
    destruct X as [X|[X|X]], Y as [Y|[Y|Y]]; injection X as -> ->; injection Y as -> ->; split; congruence.
  - intros b py pul a Ib D1. pose proof (D _ _ _ _ Ib D1) as X. destruct X as [X|[X|X]]; injection X as -> ->; split; discriminate.
  - intros [|b0 [|b1 [|b2 f]]] b back E; cbn in E.
    + injection E as <- <-. split; [|discriminate]. intros _. split; [reflexivity|]. intros n p [I|[I|[]]]; discriminate.
    + injection E as <- <- <-. split; [congruence|]. intros _ n b' p r I. cbn in I.
      intros [<-|[<-|[]]] J; cbn in J; destruct I as [<-|[<-|[]]], J as [J|[J|[]]]; discriminate.
    + injection E as _ _ E. destruct back; discriminate.
    + injection E as _ _ E. destruct f; discriminate.
  - exists [ex_base], ex_own, []. split; [reflexivity|]. split; [constructor; right; left; reflexivity|intros ? []].
  - exists [ex_base], ex_own, []. split; [reflexivity|]. split; [eapply di_property; left; reflexivity|intros ? []].
  - reflexivity.
  - reflexivity.
  - eexists. split; reflexivity.
Qed.

(** The code does not have the full property. *)
Definition annotated_base : class := [mkBase [("bucket_name", AOut 4)] [("bucket_name", PProperty "bucketName")] false; mkBase [] [] false].
Definition renamed : class := [mkBase [] [("foo", PGetter "oldName" None)] false; mkBase [] [("foo", PGetter "newName" None)] false].
Definition reannotated : class := [mkBase [] [("foo", PGetter "foo" (Some (AName "str")))] false; mkBase [("foo", AEnum 2)] [] false].
Definition derived_type : class := [mkBase [] [("foo", PGetter "foo" None)] true; mkBase [("max_age", AName "int")] [("max_age", PProperty "maxAge")] false].
Definition path_type : class := [mkBase [("rule_list", AGen GSequence [AIn 1])] [("rule_list", PProperty "ruleList")] false].
Theorem C92_refuted :
  (* annotations of base classes are ignored: the attribute is never set and its type unknown *)
  (has_property annotated_base "bucket_name" "bucketName" (Some (AOut 4)) /\
   attribute_of annotated_base "bucketName" = "bucketName" /\ secret_outputs annotated_base ["bucket_name"] = ["bucket_name"] /\
   resource_types annotated_base = Ok []) /\
  (* an output under the overridden Pulumi name still becomes the attribute *)
  (has_property renamed "foo" "newName" None /\ attribute_of renamed "oldName" = "foo") /\
  (* the type of an overridden getter is used instead of the one annotated in the class *)
  (has_property reannotated "foo" "foo" (Some (AEnum 2)) /\ resource_types reannotated = Ok [("foo", AName "str")]) /\
  (* a class derived from an input type cannot be decorated, and without that its properties are not found *)
  (has_property derived_type "max_age" "maxAge" (Some (AName "int")) /\
   decorate derived_type = Err (Exn "AssertionError" "Cannot apply @input_type and @output_type more than once.") /\
   ignore_changes derived_type ["max_age"] = Ok ["max_age"]) /\
  (* only whole names are translated in ignore_changes, not the paths it takes *)
  (exists c', decorate path_type = Ok c' /\ ignore_changes c' ["rule_list"; "rule_list[0].max_age"] = Ok ["ruleList"; "rule_list[0].max_age"]).
Proof.
  split; [|split; [|split; [|split]]].
  - split; [|repeat split]. eexists [], _, [_]. split; [reflexivity|]. split; [eapply di_property; left; reflexivity|].
    intros b' [<-|[]] [[]|[]].
  - split; [|reflexivity]. eexists [_], _, []. split; [reflexivity|]. split; [constructor; left; reflexivity|intros ? []].
  - split; [|reflexivity]. eexists [_], _, []. split; [reflexivity|]. split; [|intros ? []].
    apply di_plain; [left; reflexivity|intros p []|intros p r []].
  - split; [|split; reflexivity]. eexists [_], _, []. split; [reflexivity|]. split; [eapply di_property; left; reflexivity|intros ? []].
  - eexists. split; reflexivity.
Qed.
Print Assumptions C92_refuted.
