(** Properties C91: annotations of inputs and outputs *)
From Verif Require Import Base PyVal Model_Rpc Model_Translate Spec_Translate Model_Annot Spec_Annot Proof_Annot Proof_Annot2.
Open Scope string_scope.

(** C91.  Full property: the annotation of a property says which values it
    takes, and every value that fits the annotation is accepted: a value from
    the engine is delivered as an object of the annotated type, and a value
    for an input is sent to the engine.

    First, the wrappers: however Optional, Input, InputType and Output are put
    around a type, the type that is read is the one inside. *)
Theorem C91_wrappers :
  forall t a, bare t ->
  In a [t; optional t; input t; optional (input t); input_type t; optional (input_type t);
        input (input_type t); optional (input (input_type t))] ->
  unwrap_type a = Ok t /\ unwrap_type (AGen GOutput [a]) = Ok t.
Proof.
  intros t a B I. pose proof (ways_stand t a B I) as S.
  exact (conj (unwrap_stands a t S) (unwrap_output a t S)).
Qed.
Print Assumptions C91_wrappers.

Example C91_wrappers_nontrivial :
  bare (AIn 3) /\
  optional (input (input_type (AIn 3))) =
    AUnion [AIn 3; AGen GMapping [AName "str"; AAny];
            AGen GAwaitable [AUnion [AIn 3; AGen GMapping [AName "str"; AAny]]];
            AGen GOutput [AUnion [AIn 3; AGen GMapping [AName "str"; AAny]]]; ANone] /\
  input_type (AGen GMapping [AName "str"; AAny]) = AGen GMapping [AName "str"; AAny].
Proof. split; [exact I|split; reflexivity]. Qed.

(** Outputs.  Missing (see C91_refuted): unions other than Optional, and
    Optional around Output. *)
Theorem C91_outputs_partial :
  forall c, (forall cls, distinct_names (ac_class c cls)) ->
  (forall cls f, In f (ac_class c cls) -> output_ann (af_ann f)) ->
  forall a v, engine_value (ocfg_of c) v -> output_ann a -> fits c a v ->
    exists r, from_engine c a v = Ok r /\ delivered c a r.
Proof. exact accepted. Qed.
Print Assumptions C91_outputs_partial.

Definition ex_c : acfg := mkAcfg
  (fun cls => match cls with
              | 0 => [mkAfield "rule_list" "ruleList" (AGen GOutput [AUnion [AGen GSequence [AOut 1]; ANone]]);
                      mkAfield "kind" "kind" (AEnum 7); mkAfield "tags" "tags" (AGen GMapping [AName "str"; AName "str"])]
              | 1 => [mkAfield "id_" "id" (AName "str")]
              | _ => []
              end)
  (fun cls v => match v with VStr "a" => true | _ => false end) true (fun s => s).
Definition ex_v : pyval :=
  VDict [("ruleList", VList [VDict [("id", VStr "r1")]; VNone]); ("kind", VStr "a"); ("tags", VDict [("env", VStr "dev")])].
Example C91_outputs_nontrivial :
  (forall cls, distinct_names (ac_class ex_c cls)) /\
  (forall cls f, In f (ac_class ex_c cls) -> output_ann (af_ann f)) /\
  output_ann (AUnion [AGen GDict [AName "str"; AOut 0]; ANone]) /\
  fits ex_c (AUnion [AGen GDict [AName "str"; AOut 0]; ANone]) (VDict [("main", ex_v)]) /\
  from_engine ex_c (AUnion [AGen GDict [AName "str"; AOut 0]; ANone]) (VDict [("main", ex_v)]) =
    Ok (TDict [("main", TObj 0 [("rule_list", Some (TList [TObj 1 [("id_", Some (TLeaf (VStr "r1")))]; TLeaf VNone]));
                                ("kind", Some (TEnum 7 (VStr "a")));
                                ("tags", Some (TDict [("env", TLeaf (VStr "dev"))]))])]).
Proof.
  assert (NM : forall d, dget d "4dabf18193072939515e22adb298388d" = (None : option pyval) -> ~ marks_secret d).
  { intros d E M. apply dget_None in E. apply E. exact (in_map fst _ _ M). }
  split; [|split; [|split; [|split]]].
  - intros [|[|cls]]; split; repeat constructor; cbn; intuition discriminate.
  - intros [|[|cls]] f; cbn; intros I; try contradiction.
    + destruct I as [<-|[<-|[<-|[]]]]; cbn.
      * eapply oa_output; [apply op_opt; exact I|]. eapply s_list_of; [now right|apply op_same; exact I|constructor].
      * eapply oa_plain; [apply op_same; exact I|constructor].
      * eapply oa_plain; [apply op_same; exact I|]. eapply s_dict_of; [now right|apply op_same; exact I|constructor].
    + destruct I as [<-|[]]. eapply oa_plain; [apply op_same; exact I|constructor].
  - eapply oa_plain; [apply op_opt; exact I|]. eapply s_dict_of; [now left|apply op_same; exact I|constructor].
  - eapply f_union; [left; reflexivity|]. apply f_dict_of; [now left|apply NM; reflexivity|].
    constructor; [|constructor]. cbn. apply f_class; [apply NM; reflexivity|].
    intros k x f I F E. cbn in I, F.
    destruct I as [I|[I|[I|[]]]]; injection I as <- <-; destruct F as [<-|[<-|[<-|[]]]]; cbn in E; try discriminate E; cbn [af_ann].
    + apply f_output. eapply f_union; [left; reflexivity|]. apply f_list_of; [now right|].
      constructor; [|constructor; [|constructor]].
      * apply f_class; [apply NM; reflexivity|]. intros k x f [I|[]] [<-|[]] _. injection I as <- <-. cbn.
        apply f_name. right; right. eauto.
      * apply f_opaque. split; [|split; discriminate]. intros [(b & K)|[(b & K)|(b & K)]]; discriminate K.
    + apply f_enum; [right; right; eauto|reflexivity].
    + apply f_dict_of; [now right|apply NM; reflexivity|]. constructor; [|constructor]. cbn. apply f_name. right; right. eauto.
  - reflexivity.
Qed.

(** Inputs.  Missing (see C91_refuted): unions other than the wrappers, and
    Optional inside Input. *)
Theorem C91_inputs_partial :
  forall c fs,
  (forall cls, distinct_names (fs cls) /\ forall f, In f (fs cls) -> af_pulumi f <> "") ->
  (forall cls f, In f (fs cls) -> exists t, input_ann (af_ann f) t) ->
  (forall r, exists u, r_urn (c_res c r) = Done u) -> (forall r, exists us, r_expand (c_res c r) = Done us) ->
  forall a t v keep, input_ann a t -> suits fs (Some t) v ->
    exists sent, to_engine c fs a v keep = Done sent.
Proof. exact inputs_done. Qed.
Print Assumptions C91_inputs_partial.

Definition ex_i : cfg := mkCfg true true true None (fun _ => []) (fun r => mkRinfo true (Done (Some "urn")) (Done (Some "id")) (Done ["urn"])).
Definition ex_fs : nat -> list afield := fun cls =>
  match cls with
  | 0 => [mkAfield "rule_list" "ruleList" (optional (input (AGen GSequence [input (input_type (AIn 1))])))]
  | 1 => [mkAfield "max_age" "maxAge" (input (AName "int"))]
  | _ => []
  end.
Example C91_inputs_nontrivial :
  (forall cls f, In f (ex_fs cls) -> exists t, input_ann (af_ann f) t) /\
  input_ann (input (input_type (AIn 0))) (AIn 0) /\
  suits ex_fs (Some (AIn 0)) (VDict [("rule_list", VList [VDict [("max_age", VNum 3)]; VInput 1 [("max_age", VAwait (Done (VNum 4)))]])]) /\
  to_engine ex_i ex_fs (input (input_type (AIn 0)))
    (VDict [("rule_list", VList [VDict [("max_age", VNum 3)]; VInput 1 [("max_age", VAwait (Done (VNum 4)))]])]) false =
    Done (WStruct [("ruleList", WList [WStruct [("maxAge", WNum 3)]; WStruct [("maxAge", WNum 4)]])], []).
Proof.
  assert (E1 : stands_for (input (input_type (AIn 1))) (AIn 1)) by (apply ways_stand; [exact I|cbn; tauto]).
  assert (E0 : stands_for (input (input_type (AIn 0))) (AIn 0)) by (apply ways_stand; [exact I|cbn; tauto]).
  assert (EN : stands_for (input (AName "int")) (AName "int")) by (apply ways_stand; [exact I|cbn; tauto]).
  assert (ES : stands_for (optional (input (AGen GSequence [input (input_type (AIn 1))]))) (AGen GSequence [input (input_type (AIn 1))]))
    by (apply ways_stand; [exact I|cbn; tauto]).
  split; [|split; [|split]].
  - intros [|[|cls]] f; cbn [ex_fs]; intros F; [| |contradiction]; destruct F as [<-|[]]; cbn [af_ann].
    + eexists. split; [exact ES|]. eapply s_list_of; [now right|exact E1|constructor].
    + eexists. split; [exact EN|constructor].
  - split; [exact E0|constructor].
  - apply su_class. intros k x [K|[]]. injection K as <- <-.
    eexists. eexists. split; [left; reflexivity|]. split; [reflexivity|]. split; [exact ES|].
    eapply su_list_of; [now right|exact E1|]. constructor; [|constructor; [|constructor]].
    + apply su_class. intros k x [K|[]]. injection K as <- <-.
      eexists. eexists. split; [left; reflexivity|]. split; [reflexivity|]. split; [exact EN|]. apply su_atom. exact I.
    + apply su_object; [now right|]. intros k x [K|[]]. injection K as <- <-.
      eexists. eexists. split; [left; reflexivity|]. split; [reflexivity|]. split; [exact EN|]. apply su_await, su_atom. exact I.
  - vm_compute. reflexivity.
Qed.

(** The code does not have the full property.  Unions, None not at the end,
    and Optional around Output or inside Input are not understood: values
    that fit are rejected.  Worse, Union[str, Dict[str, str]] is read as
    str. *)
Theorem C91_refuted :
  (* Output[Union[str, List[str]]] with a list *)
  (let a := AGen GOutput [union [AName "str"; AGen GList [AName "str"]]] in
   fits ex_c a (VList [VStr "x"]) /\
   from_engine ex_c a (VList [VStr "x"]) = Err (Exn "AssertionError" "Unexpected type. Expected 'list'")) /\
  (* Union[str, Dict[str, str]] is taken for InputType[str] *)
  (let a := union [AName "str"; AGen GDict [AName "str"; AName "str"]] in
   unwrap_type a = Ok (AName "str") /\ fits ex_c a (VDict [("k", VStr "x")]) /\
   from_engine ex_c a (VDict [("k", VStr "x")]) = Err (Exn "AssertionError" "Unexpected type; got a dict")) /\
  (* Optional[Output[Dict[str, str]]] *)
  (let a := optional (AGen GOutput [AGen GDict [AName "str"; AName "str"]]) in
   fits ex_c a (VDict [("k", VStr "x")]) /\
   from_engine ex_c a (VDict [("k", VStr "x")]) = Err (Exn "AssertionError" "Unexpected type; got a dict")) /\
  (* Union[None, str] *)
  (let a := union [ANone; AName "str"] in
   fits ex_c a (VStr "x") /\ from_engine ex_c a (VStr "x") = Err (Exn "AssertionError" "")) /\
  (* inputs: Input[Union[str, Sequence[str]]] and Input[Optional[Sequence[str]]] with a list *)
  (let a := input (union [AName "str"; AGen GSequence [AName "str"]]) in
   to_engine ex_i ex_fs a (VList [VStr "x"]) false = Fail (Exn "AssertionError" "Unexpected type. Expected 'list'")) /\
  (let a := input (optional (AGen GSequence [AName "str"])) in
   to_engine ex_i ex_fs a (VList [VStr "x"]) false = Fail (Exn "AssertionError" "Unexpected type. Expected 'list'")).
Proof.
  assert (FS : forall s, fits ex_c (AName "str") (VStr s)) by (intros; apply f_name; right; right; eauto).
  assert (FD : fits ex_c (AGen GDict [AName "str"; AName "str"]) (VDict [("k", VStr "x")])).
  { apply f_dict_of; [now left| |constructor; [apply FS|constructor]]. intros [M|[]]. discriminate M. }
  cbv zeta.
  split; [split; [|reflexivity]|]. { apply f_output. eapply f_union; [right; left; reflexivity|]. apply f_list_of; [now left|constructor; [apply FS|constructor]]. }
  split; [split; [reflexivity|split; [|reflexivity]]|]. { eapply f_union; [right; left; reflexivity|exact FD]. }
  split; [split; [|reflexivity]|]. { eapply f_union; [left; reflexivity|]. apply f_output. exact FD. }
  split; [split; [|reflexivity]|]. { eapply f_union; [right; left; reflexivity|]. apply FS. }
  split; reflexivity.
Qed.
Print Assumptions C91_refuted.
