(** C51, C52: component providers. *)
From Verif Require Import Base PyVal Model_Output Spec_Output Model_Rpc Spec_Rpc Model_Provider Spec_Provider Proof_Provider
  Proof_RpcTop Prop_Rpc.
Open Scope string_scope.

(** C51.  A component constructor ([ki = false]) or method ([ki = true]: internal
    names such as __self__ are kept) is given the inputs the engine sent, nulls
    left out: an Output with the input's secretness and the dependencies
    recorded by the engine, known iff its value contains no unknown, when the
    input is secret or has dependencies; otherwise, and for values that hold
    Outputs themselves and resources that depend on themselves, the value.
    Unless the input holds Outputs and is not secret, every recorded dependency
    can be seen.  Missing: that last restriction (see the refutation). *)
Theorem C51_inputs_partial :
  forall E ki inputs deps args,
    top_message inputs -> (forall k w, dget inputs k = Some w -> string_ids w) ->
    component_inputs E ki inputs deps = Done args ->
    (forall k, In k (dkeys args) -> exists w, dget inputs k = Some w) /\
    forall k w, dget inputs k = Some w -> ki = true \/ internal_key k = false ->
      exists y, deser (pv_dc E) w true = Ok y /\
        (y = VNone -> ~ In k (dkeys args)) /\
        (y <> VNone -> exists x v secret, dget args k = Some x /\ maybe_secret secret y v /\ unmarked v /\
           (secret = true <-> exposes_secret w) /\
           received E v (recorded_for deps k) secret x /\
           (secret = true \/ ~ holds_output v -> forall u, In u (recorded_for deps k) -> sees_dependency E u x)).
Proof.
  intros E ki inputs deps args Ht Hid H. split; [intros k; apply (inputs_received _ _ _ _ _ Ht Hid H k)|].
  intros k w Hw Hi. destruct (inputs_received _ _ _ _ _ Ht Hid H k) as [_ H2]. destruct (H2 w Hw Hi) as (y & Hy & H3 & H4).
  exists y. split; auto. split; auto. intros Hn. destruct (H4 Hn) as (x & v & s & H5 & H6 & H7 & H8 & H9).
  exists x, v, s. repeat split; auto; try tauto. intros Hs u Hu. eapply no_dependency_lost; eauto.
Qed.
Print Assumptions C51_inputs_partial.

(** Inputs that can be read are given. *)
Theorem C51_inputs_given :
  forall E ki inputs deps v,
    top_message inputs -> deserialize_properties (pv_dc E) inputs true ki = Ok v -> (forall x, exists u, pv_urn E x = Done u) ->
    exists args, component_inputs E ki inputs deps = Done args.
Proof. exact inputs_done. Qed.
Print Assumptions C51_inputs_given.

Definition ex_penv : penv := mkPenv (ex_cfg false None) (ex_dc true) (fun _ => Done (Some ex_urn)) true.
Definition ex_inputs : dict wire :=
  [("plain", WNum 1); ("secret", WList [wsecret (WStr "pw")]); ("dep", WStr UNKNOWN);
   ("out", woutput true false (WNum 3) ["urn:a"]); ("null", WNull); ("__self__", WNum 0)].
Example C51_example :
  top_message ex_inputs /\ (forall k w, dget ex_inputs k = Some w -> string_ids w) /\
  component_inputs ex_penv false ex_inputs [("secret", ["urn:a"; "urn:b"; "urn:a"]); ("dep", ["urn:c"]); ("out", ["urn:a"])]
  = Done [("plain", VNum 1);
          ("secret", VOut (Done [RDep "urn:a"; RDep "urn:b"]) (Done (VList [VStr "pw"])) (Done true) (Done true));
          ("dep", VOut (Done [RDep "urn:c"]) (Done VUnknown) (Done false) (Done false));
          ("out", VOut (Done [RDep "urn:a"]) (Done (VNum 3)) (Done true) (Done false))].
Proof.
  split; [split; [reflexivity|]|split; [|reflexivity]].
  - repeat constructor; simpl; intuition discriminate.
  - intros k w Hw. apply dget_In in Hw. apply string_ids_dec. simpl in Hw.
    repeat destruct Hw as [[= <- <-]|Hw]; try reflexivity. destruct Hw.
Qed.

(** An input that holds an Output keeps only the dependencies of that Output:
    what the engine recorded besides is lost. *)
Theorem C51_refuted :
  exists E inputs deps args k u x,
    top_message inputs /\ (forall k w, dget inputs k = Some w -> string_ids w) /\
    component_inputs E false inputs deps = Done args /\ dget args k = Some x /\
    In u (recorded_for deps k) /\ ~ sees_dependency E u x.
Proof.
  exists (mkPenv (ex_cfg false None) (ex_dc true) (fun _ => Done None) true).
  exists [("k", WList [WNum 1; woutput true false (WNum 3) ["urn:a"]])], [("k", ["urn:a"; "urn:b"])].
  eexists _, "k", "urn:b". eexists. split; [split; [reflexivity|repeat constructor; auto]|]. split.
  { intros k w. simpl. destruct (String.eqb k "k"); [|discriminate]. intros [= <-].
    now apply string_ids_dec. }
  split; [reflexivity|]. split; [reflexivity|]. split; [simpl; auto|].
  intros [rs v kn s Hw Hin | H]; [|discriminate].
  inversion Hw as [|y l Hy Hw'|]; subst. simpl in Hy. destruct Hy as [<-|[<-|[]]].
  - inversion Hw'.
  - inversion Hw'; subst. simpl in Hin. destruct Hin as [K|[]]; discriminate.
Qed.
Print Assumptions C51_refuted.

(* ------------------------------------------------------------------ *)
(** C52, construct.  The response carries the component's URN (empty if not
    known), the serialised state without "id" and "urn" (None left out), and for
    each property exactly the URNs of the resources it depends on. *)
Theorem C52_construct_response :
  forall E urn state r,
    (forall cls, class_ok (c_class (pv_cfg E) cls)) -> (forall k, transform (pv_cfg E) k = k) -> wf_dict state ->
    construct_reply E urn state = Done r ->
    (exists v, future (from_input (pv_dry E) urn) false = Done v /\ (v = VStr (cr_urn r) \/ v = VNone /\ cr_urn r = "")) /\
    (forall k, In k (dkeys (cr_state r)) -> In k (dkeys state) /\ k <> "id" /\ k <> "urn") /\
    (forall k v, dget state k = Some v -> k <> "id" -> k <> "urn" ->
       exists w ds, ser (pv_cfg E) v None false = Done (w, ds) /\ dget (cr_state r) k = match w with WNull => None | _ => Some w end) /\
    dkeys (cr_deps r) = dkeys (cr_state r) /\
    (forall k v us, dget state k = Some v -> dget (cr_deps r) k = Some us ->
       forall u, In u us <-> exists x, mentions (pv_cfg E) x v /\ r_urn (c_res (pv_cfg E) x) = Done (Some u)).
Proof. exact construct_reply_spec. Qed.
Print Assumptions C52_construct_response.

(** C52, call.  Likewise for the outputs of a method; failures as reported. *)
Theorem C52_call_response :
  forall E outputs failures r,
    (forall cls, class_ok (c_class (pv_cfg E) cls)) -> (forall k, transform (pv_cfg E) k = k) -> wf_dict outputs ->
    call_reply E outputs failures = Done r ->
    (forall k, In k (dkeys (pr_return r)) -> In k (dkeys outputs)) /\
    (forall k v, dget outputs k = Some v ->
       exists w ds, ser (pv_cfg E) v None false = Done (w, ds) /\ dget (pr_return r) k = match w with WNull => None | _ => Some w end) /\
    dkeys (pr_deps r) = dkeys (pr_return r) /\
    (forall k v us, dget outputs k = Some v -> dget (pr_deps r) k = Some us ->
       forall u, In u us <-> exists x, mentions (pv_cfg E) x v /\ r_urn (c_res (pv_cfg E) x) = Done (Some u)) /\
    pr_failures r = match failures with Some l => l | None => [] end.
Proof. exact call_reply_spec. Qed.
Print Assumptions C52_call_response.

(** Responses are sent when everything they need is known. *)
Theorem C52_sent :
  forall E us, (forall r, r_urn (c_res (pv_cfg E) r) = Done (Some (us r))) ->
    (forall urn u state, future (from_input (pv_dry E) urn) false = Done (VStr u) ->
       (forall kv, In kv state -> exists w ds, ser (pv_cfg E) (snd kv) None false = Done (w, ds)) ->
       exists r, construct_reply E urn state = Done r) /\
    (forall outputs failures,
       (forall kv, In kv outputs -> exists w ds, ser (pv_cfg E) (snd kv) None false = Done (w, ds)) ->
       exists r, call_reply E outputs failures = Done r).
Proof.
  intros E us Hr. split.
  - intros urn u state Hu Hs. destruct (serialize_done (pv_cfg E) (filter (fun kv => negb (smem (fst kv) ["id"; "urn"])) state) [] []) as (st & pd & Hd).
    + intros kv Hin. apply filter_In in Hin as [Hin _]. auto.
    + eapply construct_reply_done; eauto.
  - intros outputs failures Hs. destruct (serialize_done (pv_cfg E) outputs [] [] Hs) as (st & pd & Hd).
    eapply call_reply_done; eauto.
Qed.
Print Assumptions C52_sent.

Example C52_example :
  construct_reply ex_penv (VStr "urn:comp") [("id", VStr "x"); ("bucket", VRes (RObj 1)); ("none", VNone);
     ("n", VOut (Done [RObj 1; RObj 1]) (Done (VNum 2)) (Done true) (Done true))]
  = Done (mkConstructResponse "urn:comp"
      [("bucket", WStruct [(sig_key, WStr resource_sig); ("urn", WStr ex_urn); ("id", WStr "id-1")]); ("n", wsecret (WNum 2))]
      [("bucket", [ex_urn; ex_urn]); ("n", [ex_urn; ex_urn])]) /\
  call_reply ex_penv [("a", VNum 1)] (Some [("p", "bad"); ("q", "worse")])
  = Done (mkProviderCallResponse [("a", WNum 1)] [("a", [])] [("p", "bad"); ("q", "worse")]) /\
  (forall cls, class_ok (c_class (pv_cfg ex_penv) cls)).
Proof. split; [reflexivity|]. split; [reflexivity|]. intros cls. apply (ex_class_ok false None cls). Qed.
