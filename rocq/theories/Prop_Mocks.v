(** C49: mocks. *)
From Verif Require Import Base PyVal Model_Output Model_Urn Spec_Urn Proof_Urn Model_Rpc Spec_Rpc Model_Register Model_Mocks
  Spec_Mocks Proof_Mocks Prop_Rpc.
Open Scope string_scope.

(** C49.  In every history of requests: (1) a registration or read for which
    the user's mock gives an id and a state is answered with the URN, that id
    (registrations) and that state; (2) getResource answers with the URN, id and
    state last registered or read for that URN, (3) and raises if there is none;
    (4) a function call answers with what the user's mock returned; (5) URNs are
    determined by stack, project, parent type, type and name.  Missing: mocks
    that return no list of failures, (ret, None) (see the refutation). *)
Theorem C49_mocks_partial :
  (forall E st ev urn id state msg, records E ev urn id state msg ->
     snd (handle E st ev) =
       Done (match ev_req ev with QRead _ _ _ _ _ _ => PRead urn msg | _ => PRegister urn (id_field id) msg end)) /\
  (forall E evs ev urn provider id state,
     ev_req ev = get_request urn provider -> urn <> UNKNOWN ->
     last_registered E evs urn id state ->
     (forall k, transform (m_cfg E) k = k) -> plain (VDict state) -> (forall i, id = Some i -> i <> UNKNOWN) ->
     exists ret, snd (handle E (run_mocks E [] evs) ev) = Done (PInvoke (mkInvokeResponse [] ret)) /\
       forall dc, deserialize_properties dc ret false false =
         Ok (VDict ([("urn", VStr urn)] ++ match id with Some i => [("id", VStr i)] | None => [] end
                    ++ [("state", drop_nulls (VDict state))])%list)) /\
  (forall E evs ev urn provider,
     ev_req ev = get_request urn provider -> urn <> UNKNOWN -> never_registered E evs urn ->
     snd (handle E (run_mocks E [] evs) ev) = Fail (Exn "Exception" ("unknown resource " ++ urn))) /\
  (forall E st ev tok args provider props reply d fs,
     ev_req ev = QInvoke tok args provider -> tok <> "pulumi:pulumi:getResource" ->
     deserialize_properties (m_dc E) args false false = Ok props ->
     ev_call ev (mkMockCall tok props provider) = Ok reply ->
     reply = ReplyDict d /\ fs = [] \/ reply = ReplyPair d (Some fs) ->
     (forall k, transform (m_cfg E) k = k) -> plain (VDict d) ->
     exists ret, snd (handle E st ev) = Done (PInvoke (mkInvokeResponse (map (fun f => (snd f, fst f)) fs) ret)) /\
       forall dc, deserialize_properties dc ret false false = Ok (drop_nulls (VDict d))) /\
  (forall E type name parent urn, mock_urn_is E type name parent urn -> mock_urn E parent type name = Ok urn).
Proof.
  split; [exact handle_answer|]. split; [exact get_last|]. split; [exact get_none|]. split; [exact call_answer|exact mock_urn_ok].
Qed.
Print Assumptions C49_mocks_partial.

(** Two registrations of the same URN, the later one wins. *)
Definition ex_menv : menv := mkMenv "dev" "proj" (ex_cfg false None) (ex_dc false).
Definition ex_reg (id : string) (n : Z) : mevent :=
  mkMevent (QRegister "" "t:m:T" "r" [("in", WNum n)] "" "" true)
    (fun a => Ok (Some id, [("got", mr_inputs a); ("none", VNone)])) (fun _ => Ok (ReplyDict [])).
Definition ex_get : mevent :=
  mkMevent (get_request "urn:pulumi:dev::proj::t:m:T::r" "") (fun _ => Err (Exn "E" "")) (fun _ => Ok (ReplyDict [])).
Example C49_example :
  last_registered ex_menv [ex_reg "a" 1; ex_reg "b" 2; ex_get] "urn:pulumi:dev::proj::t:m:T::r" (Some "b")
    [("got", VDict [("in", VNum 2)]); ("none", VNone)] /\
  snd (handle ex_menv (run_mocks ex_menv [] [ex_reg "a" 1; ex_reg "b" 2; ex_get]) ex_get) =
    Done (PInvoke (mkInvokeResponse [] [("urn", WStr "urn:pulumi:dev::proj::t:m:T::r"); ("id", WStr "b");
       ("state", WStruct [("got", WStruct [("in", WNum 2)]); ("none", WNull)])])) /\
  mock_urn_is ex_menv "t:m:C" "c" (urn_of "dev" "proj" (qualified ["a:b:A"] "t:m:T") "r") "urn:pulumi:dev::proj::t:m:T$t:m:C::c".
Proof.
  split; [|split; [vm_compute; reflexivity|]].
  - exists [ex_reg "a" 1], (ex_reg "b" 2), [ex_get]. eexists. split; [reflexivity|]. split.
    + eapply Rec_register; [reflexivity|discriminate|reflexivity|vm_compute; reflexivity|reflexivity|vm_compute; reflexivity].
    + intros ev' [<-|[]] id' state' msg' [? ? ? ? ? ? ? ? ? Hq|? ? ? ? ? ? ? ? Hq]; discriminate.
  - change "urn:pulumi:dev::proj::t:m:T$t:m:C::c" with (urn_of "dev" "proj" ("t:m:T" ++ "$" ++ "t:m:C") "c").
    apply MU_child.
    + repeat split; try discriminate; intros H; [destruct H as (x & y & H)|destruct H as (x & H)|destruct H as (x & H)];
        repeat (destruct x as [|? x]; simpl in H; try discriminate; injection H as _ H; try discriminate).
    + split; intros H; [destruct H as (x & y & H)|destruct H as (x & H)];
        repeat (destruct x as [|? x]; simpl in H; try discriminate; injection H as _ H; try discriminate).
    + split; intros H; [destruct H as (x & y & H)|destruct H as (x & H)];
        repeat (destruct x as [|? x]; simpl in H; try discriminate; injection H as _ H; try discriminate).
    + intros (x & y & H); repeat (destruct x as [|? x]; simpl in H; try discriminate; injection H as _ H; try discriminate).
    + intros (x & y & H); repeat (destruct x as [|? x]; simpl in H; try discriminate; injection H as _ H; try discriminate).
Qed.

(** A mock [call] that returns (ret, None), as its documented type allows and
    as the base class does, makes the invoke raise TypeError. *)
Theorem C49_no_failures_refuted :
  exists E st ev tok args provider props d,
    ev_req ev = QInvoke tok args provider /\ deserialize_properties (m_dc E) args false false = Ok props /\
    ev_call ev (mkMockCall tok props provider) = Ok (ReplyPair d None) /\ plain (VDict d) /\
    exists msg, snd (handle E st ev) = Fail (Exn "TypeError" msg).
Proof.
  exists ex_menv, [], (mkMevent (QInvoke "a:b:c" [] "") (fun _ => Err (Exn "E" "")) (fun _ => Ok (ReplyPair [] None))), "a:b:c", [], "", (VDict []), [].
  split; [reflexivity|]. split; [reflexivity|]. split; [reflexivity|]. split; [|eexists; reflexivity].
  cbn. repeat split; try tauto. constructor.
Qed.
Print Assumptions C49_no_failures_refuted.
