(** C94: inputs that mix plain values, awaitables and Outputs *)
From Verif Require Import Base PyVal Model_Output Model_Rpc Spec_Rpc Proof_RpcTop Spec_Meaning Proof_Meaning.
Open Scope string_scope.

(** C94.  Full property: a value that mixes plain data, awaitables and Outputs in
    any way, with unknown and secret parts anywhere, means the same data to
    whoever receives it, with what is not known not known, and is secret there
    exactly if a part of it was secret.

    Missing: resources and declared types (C10, C13, C15), and Outputs that hold
    secret Outputs when Outputs are sent as Outputs (see C94_refuted). *)
Theorem C94_value_partial : forall c dc keep t v x s,
  c_transform c = None -> c_secrets c = true -> untyped t ->
  (keep && c_outvals c = true -> urns_ready c) ->
  means (keep && c_outvals c) v x s ->
  d_dry dc = true \/ ~ within VUnknown x ->
  exists w ds, ser c v t keep = Done (w, ds) /\
    forall ku, exists v', deser dc w ku = Ok v' /\ holds (keep && c_outvals c) x s v'.
Proof.
  intros c dc keep t v x s Ht Hs Hu Hr M V. apply untyped_norm in Hu.
  destruct (one c dc (fun k => f_equal (fun o => match o with Some f => f k | None => k end) Ht) Hs keep _ v x s t Hu eq_refl Hr M) as (w & ds & E & D).
  { destruct V as [V|V]; [now left|right; now apply all_known]. }
  exists w, ds. split; [exact E|]. intros ku. destruct (D ku) as (v' & D1 & D2 & _). eauto.
Qed.
Print Assumptions C94_value_partial.

(** The same for the inputs of a resource or of a call: nothing is added,
    nothing is lost but nulls. *)
Theorem C94_inputs_partial : forall c dc keep d data secret,
  c_transform c = None -> c_secrets c = true -> sendable_keys d ->
  (keep && c_outvals c = true -> urns_ready c) ->
  (forall k v, In (k, v) d -> means (keep && c_outvals c) v (data k) (secret k) /\ (d_dry dc = true \/ ~ within VUnknown (data k))) ->
  exists st pd, serialize_properties c None keep d = Done (st, pd) /\
    forall ku ki, exists d', deserialize_properties dc st ku ki = Ok (VDict d') /\
      (forall k, dget d' k <> None -> exists v, In (k, v) d) /\
      (forall k v, In (k, v) d ->
         match dget d' k with
         | Some v' => holds (keep && c_outvals c) (data k) (secret k) v'
         | None => data k = VNone /\ secret k = false
         end).
Proof.
  intros c dc keep d data secret Ht Hs (W & S & I) Hr H.
  assert (H' : forall ki, forall k v, In (k, v) d -> means (keep && c_outvals c) v (data k) (secret k) /\ visible dc (data k) /\ (ki = true \/ internal_key k = false)).
  { intros ki k v K. destruct (H k v K) as [M V]. split; [exact M|]. split; [|right; apply I; exact (in_map fst _ _ K)].
    destruct V as [V|V]; [now left|right; now apply all_known]. }
  pose proof (fun ku ki => bag_through c dc (fun k => f_equal (fun o => match o with Some f => f k | None => k end) Ht) Hs keep _ ku ki d data secret eq_refl Hr W S (H' ki)) as B.
  destruct (B true true) as (st & pd & _ & E & _). exists st, pd. split; [exact E|]. intros ku ki.
  destruct (B ku ki) as (st' & pd' & d' & E' & D1 & D2 & _ & D3). rewrite E in E'. injection E' as <- <-. exists d'. split; [exact D1|]. split; [|exact D3].
  intros k K. assert (Hk : In k (map fst d)). { apply D2. destruct (in_dec string_dec k (dkeys d')) as [Hi|Hi]; [exact Hi|]. apply dget_None in Hi. contradiction. }
  apply in_map_iff in Hk as ([k0 v] & <- & Hk). eauto.
Qed.
Print Assumptions C94_inputs_partial.

(** A map holding a secret Output of a list, an awaitable of a map with a null,
    and an Output that is not known: in both ways of sending. *)
Definition mn_cfg (ov : bool) : cfg :=
  mkCfg true true ov None (fun _ => []) (fun _ => mkRinfo true (Done (Some "urn:r")) (Done (Some "id")) (Done ["urn:r"])).
Definition mn_value : pyval :=
  VDict [("hosts", VList [VStr "a"; VOut (Done [RObj 1]) (Done (VList [VStr "b"; VNum 8%Z])) (Done true) (Done true)]);
         ("none", VAwait (Done VNone));
         ("opts", VAwait (Done (VDict [("x", VNone); ("y", VBool true)])));
         ("later", VOut (Done [RObj 2]) (Done VUnknown) (Done false) (Done true))].
Definition mn_data : pyval :=
  VDict [("hosts", VList [VStr "a"; VList [VStr "b"; VNum 8%Z]]); ("opts", VDict [("y", VBool true)]); ("later", VUnknown)].
Example C94_value_nonvacuous : forall ov, means ov mn_value mn_data true.
Proof.
  intros ov. unfold mn_value, mn_data. apply Me_dict.
  { repeat split; [unfold wf_dict; cbn; repeat constructor; cbn; intuition discriminate|cbn; intuition discriminate|].
    cbn. intros k K. intuition subst; reflexivity. }
  change true with (true || false). apply Me_entry; [|left; discriminate|].
  - apply Me_list. change true with (false || (true || false)). apply Me_cons; [apply Me_str; discriminate|].
    apply Me_cons; [|apply Me_nil]. change true with (true || false) at 4.
    assert (M : means ov (VList [VStr "b"; VNum 8%Z]) (VList [VStr "b"; VNum 8%Z]) false).
    { apply Me_list. change false with (false || (false || false)). repeat (apply Me_cons; [constructor; discriminate|] || (apply Me_cons; [apply Me_num|])). apply Me_nil. }
    assert (N : ~ within VUnknown (VList [VStr "b"; VNum 8%Z])).
    { intros K. inversion K as [|y l I K'|]; subst. cbn in I. destruct I as [<-|[<-|[]]]; inversion K'. }
    apply (Me_out ov _ _ _ true false); auto.
  - apply Me_null; [apply Me_await, Me_none|]. change false with (false || (false || false)). apply Me_entry; [|left; discriminate|].
    + apply Me_await. apply Me_dict.
      { repeat split; [unfold wf_dict; cbn; repeat constructor; cbn; intuition discriminate|cbn; intuition discriminate|].
        cbn. intros k K. intuition subst; reflexivity. }
      apply Me_null; [apply Me_none|]. change false with (false || false). apply Me_entry; [apply Me_bool|left; discriminate|apply Me_empty].
    + apply Me_entry; [|left; discriminate|apply Me_empty]. apply Me_not_known. constructor.
Qed.
(** What arrives: one secret marker around everything, or the same map with the Outputs in place. *)
Definition mn_dc : dcfg := mkDcfg true (fun _ _ => Ok None) (fun _ _ _ => Ok None).
Definition mn_arrives (ov : bool) : option pyval :=
  match ser (mn_cfg ov) mn_value None true with Done (w, _) => match deser mn_dc w false with Ok v => Some v | _ => None end | _ => None end.
Example C94_marked : exists v, mn_arrives false = Some v /\ marked_secret v mn_data.
Proof. eexists. split; [vm_compute; reflexivity|reflexivity]. Qed.
Example C94_outputs : exists out later, mn_arrives true = Some (VDict [("hosts", VList [VStr "a"; out]); ("opts", VDict [("y", VBool true)]); ("later", later)]) /\
  out = VOut (Done [RDep "urn:r"]) (Done (VList [VStr "b"; VNum 8%Z])) (Done true) (Done true) /\
  later = VOut (Done [RDep "urn:r"]) (Done VNone) (Done false) (Done true).
Proof. do 2 eexists. split; [vm_compute; reflexivity|split; reflexivity]. Qed.
Example C94_ready : forall ov, urns_ready (mn_cfg ov).
Proof.
  intros ov r. cbn. split; [eauto|]. eexists. split; [reflexivity|]. cbn. intuition discriminate.
Qed.

(** Refuted in full: an Output of a list that holds a secret Output (for instance
    what [o.apply(lambda x: [secret])] gives), sent as an Output, arrives as an
    Output that is not secret, and whose value is not the list but a map with
    the marker of secrets. *)
Theorem C94_refuted : exists c v x,
  c_transform c = None /\ c_secrets c = true /\ c_outvals c = true /\ urns_ready c /\ means false v x true /\
  forall dc ku, exists w ds, ser c v None true = Done (w, ds) /\
    exists m, marked_secret m x /\ deser dc w ku = Ok (VOut (Done []) (Done m) (Done true) (Done false)).
Proof.
  exists (mn_cfg true), (VOut (Done []) (Done (VList [VOut (Done []) (Done (VStr "pw")) (Done true) (Done true)])) (Done true) (Done false)), (VList [VStr "pw"]).
  split; [reflexivity|]. split; [reflexivity|]. split; [reflexivity|]. split; [apply C94_ready|]. split.
  - change true with (false || true). apply Me_out; [| |discriminate].
    + intros K. inversion K as [|y l I K'|]; subst. cbn in I. destruct I as [<-|[]]. inversion K'.
    + apply Me_list. change true with ((true || false) || false). apply Me_cons; [|apply Me_nil]. apply Me_out; [|apply Me_str; discriminate|discriminate].
      intros K. inversion K.
  - intros dc ku. do 2 eexists. split; [reflexivity|]. eexists. split; [reflexivity|]. reflexivity.
Qed.
Print Assumptions C94_refuted.
