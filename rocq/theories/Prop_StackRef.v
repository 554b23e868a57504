(** C48: stack references. *)
From Verif Require Import Base PyVal Model_Output Model_StackRef Spec_Output Spec_StackRef Proof_StackRef.
Open Scope string_scope.
Open Scope list_scope.

(** C48.  When the name and the outputs are known (in an update, they always
    are): [get_output] yields the named output, or None; [require_output] the
    named output, or fails with KeyError.  Both depend on the resources of the
    name and of the outputs, and are secret iff the list of secret outputs has
    the name; where the name, or the list, is not available they are as secret
    as the outputs as a whole. *)
Theorem C48_stack_reference :
  forall dry outs names name nrs nsec ors srs n d sv nk ok sk osec ssec,
    settled (from_input dry name) nrs (VStr n) nk nsec -> settled outs ors (VDict d) ok osec -> settled names srs sv sk ssec ->
    sv = VNone \/ (exists l, sv = VList (map VStr l)) -> finished (VDict d) -> dry = false \/ (nk = true /\ ok = true) ->
    (exists o b, get_output dry outs names name = Ok o /\
       settled o (nrs ++ ors) (match dget d n with Some x => x | None => VNone end) true b /\ secret_verdict nk n sv sk osec b) /\
    (exists o b, require_output dry outs names name = Ok o /\ o_secret o = Done b /\ secret_verdict nk n sv sk osec b /\
       match dget d n with
       | Some x => settled o (nrs ++ ors) x true b
       | None => o_val o = Fail (Exn "KeyError" n) /\ o_res o = Done (nrs ++ ors) /\ o_known o = Done false
       end).
Proof.
  intros. split; [eapply get_output_ok|eapply require_output_ok]; eauto.
Qed.
Print Assumptions C48_stack_reference.

(** In a preview in which the name or the outputs are not known, both yield an
    Output that is not known. *)
Theorem C48_not_known :
  forall outs names name nrs nv nk nsec ors d ok osec srs sv sk ssec n,
    settled (from_input true name) nrs nv nk nsec -> (nk = true -> nv = VStr n) -> (nk = false -> nv = VUnknown) ->
    settled outs ors d ok osec -> finished d -> settled names srs sv sk ssec ->
    sv = VNone \/ (exists l, sv = VList (map VStr l)) -> nk && ok = false ->
    (exists o b, get_output true outs names name = Ok o /\ settled o (nrs ++ ors) VNone false b /\ secret_verdict nk n sv sk osec b) /\
    (exists o b, require_output true outs names name = Ok o /\ settled o (nrs ++ ors) VNone false b /\ secret_verdict nk n sv sk osec b).
Proof. intros. split; eapply fetch_unknown; eauto. Qed.
Print Assumptions C48_not_known.

Definition ex_outs : output :=
  mkOut (Done [RObj 1]) (Done (VDict [("pw", VStr "x"); ("url", VList [VStr "u"])])) (Done true) (Done true).
Definition ex_names : output := mkOut (Done [RObj 1]) (Done (VList [VStr "pw"])) (Done true) (Done false).
Definition ex_name : pyval := VOut (Done [RObj 2]) (Done (VStr "url")) (Done true) (Done false).
Example C48_example :
  settled (from_input true ex_name) [RObj 2] (VStr "url") true false /\ finished (VDict [("pw", VStr "x"); ("url", VList [VStr "u"])]) /\
  (exists o, get_output true ex_outs ex_names ex_name = Ok o /\ settled o [RObj 2; RObj 1] (VList [VStr "u"]) true false) /\
  (exists o, get_output true ex_outs ex_names (VStr "pw") = Ok o /\ settled o [RObj 1] (VStr "x") true true) /\
  (exists o, require_output false ex_outs ex_names (VStr "nope") = Ok o /\ o_val o = Fail (Exn "KeyError" "nope")).
Proof.
  split; [vm_compute; repeat split|]. split; [vm_compute; tauto|].
  split; [eexists; split; [reflexivity|vm_compute; repeat split]|].
  split; [eexists; split; [reflexivity|vm_compute; repeat split]|].
  eexists. split; [reflexivity|vm_compute; reflexivity].
Qed.
