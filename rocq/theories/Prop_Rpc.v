(** C10-C18, C20-C23: the wire format. *)
From Verif Require Import Base PyVal Model_Output Spec_Output Proof_Output Model_Urn Model_Rpc Spec_Rpc
  Proof_Ser Proof_Ser2 Proof_Ser3 Proof_Round Proof_Deser Proof_Deser2 Proof_Secret Proof_RpcTop.

(** Configurations used in the examples: a monitor with every feature, one
    resource [RObj 1] (custom, known) and everything else a component whose
    URN is not known; one declared input type. *)
Definition ex_class : list field :=
  [mkField "bucket_name" "bucketName" None; mkField "tags" "tags" (Some (TyDict TyAny))].
Definition ex_urn : string := "urn:pulumi:dev::proj::aws:s3/bucket:Bucket::b".
Definition ex_res (r : rsrc) : rinfo :=
  match r with
  | RObj 1 => mkRinfo true (Done (Some ex_urn)) (Done (Some "id-1")) (Done [ex_urn])
  | _ => mkRinfo false (Done None) (Done None) (Done [])
  end.
Definition ex_cfg (outvals : bool) (tr : option (string -> string)) : cfg :=
  mkCfg true true outvals tr (fun _ => ex_class) ex_res.
Definition ex_dc (dry : bool) : dcfg :=
  mkDcfg dry (fun _ _ => Ok None) (fun p _ _ => Ok (if String.eqb p "aws" then Some 7 else None)).

Lemma ex_class_ok outvals tr cls : class_ok (c_class (ex_cfg outvals tr) cls).
Proof. intros f g [<-|[<-|[]]] [<-|[<-|[]]]; simpl; congruence. Qed.

(* ------------------------------------------------------------------ *)
(** C10.  Any plain input map comes back unchanged, without its null-valued
    entries, whatever the flags on both sides. *)
Theorem C10_plain_round_trip :
  forall c dc keep ku ki d,
    (forall k, transform c k = k) -> plain (VDict d) ->
    exists st pd, serialize_properties c None keep d = Done (st, pd) /\
      deserialize_properties dc st ku ki = Ok (drop_nulls (VDict d)).
Proof. exact plain_round_trip. Qed.
Print Assumptions C10_plain_round_trip.

Ltac plainly :=
  lazymatch goal with
  | |- _ /\ _ => split; plainly
  | |- True => exact I
  | |- wf_dict _ => unfold wf_dict, dkeys; cbn; repeat constructor; cbn; intuition discriminate
  | |- ~ _ => cbn; intuition discriminate
  | |- _ <> _ => discriminate
  | |- forall _, _ => cbn; intros k K; repeat (destruct K as [<-|K]; [reflexivity|]); destruct K
  end.
Example C10_example :
  let d := [("a", VList [VNum 1; VDict [("x", VNone); ("y", VStr "s")]]); ("b", VBool true); ("c", VNone)] in
  plain (VDict d) /\
  drop_nulls (VDict d) = VDict [("a", VList [VNum 1; VDict [("y", VStr "s")]]); ("b", VBool true)].
Proof. split; [|reflexivity]. cbn -[In internal_key wf_dict]. plainly. Qed.

(* ------------------------------------------------------------------ *)
(** C11.  A known secret output anywhere in the inputs is sent as a secret
    wrapped around the serialisation of its value, and the property it is in
    deserialises to a secret. *)
Theorem C11_secret_travels :
  forall c dc typ keep inputs st pd ku ki v' k k' x v,
    (forall cls, class_declared (c_class c cls)) -> c_secrets c = true ->
    distinct_names c (bag_type typ) (map fst inputs) ->
    (forall k0, In k0 (map fst inputs) -> ~ sent_as c (bag_type typ) k0 sig_key) ->
    In (k, v) inputs -> sent_as c (bag_type typ) k k' -> secret_at c keep x v ->
    ki = true \/ internal_key k' = false ->
    serialize_properties c typ keep inputs = Done (st, pd) ->
    (exists w t w' ds', dget st k' = Some w /\
       ser c x t false = Done (w', ds') /\
       part (WStruct [(sig_key, WStr secret_sig); ("value", w')]) w) /\
    (deserialize_properties dc st ku ki = Ok v' ->
     exists d u, v' = VDict d /\ dget d k' = Some u /\ is_secret u).
Proof.
  intros c dc typ keep inputs st pd ku ki v' k k' x v Hd Hs D N Hi Hk Hx Hki E.
  assert (Hn : forall cls, class_named (c_class c cls)) by (intros cls; apply class_declared_named, Hd).
  pose proof (sent_top c typ k k' Hn Hk) as Ek. subst k'.
  destruct (secret_travels c dc typ keep inputs st pd ku ki v' k x v (fun cls => class_declared_ok _ (Hd cls)) Hs (distinct_top _ _ _ Hn D)) as [A B]; auto.
  - intros K. apply in_map_iff in K as ([k0 v0] & K1 & K2). cbn [fst] in K1.
    apply (N k0); [exact (in_map fst _ _ K2)|]. rewrite <- K1. now apply top_sent.
  - split; [exact A|]. intros Ed. destruct (B Ed) as (d & u & B1 & B2 & B3). exists d, u. rewrite <- is_secret_iff. auto.
Qed.
Print Assumptions C11_secret_travels.

(** A secret inside a list inside an input-type object. *)
Definition ex_secret : pyval := VOut (Done [RObj 1]) (Done (VStr "pw")) (Done true) (Done true).
Example C11_example :
  let c := ex_cfg false (Some (fun k => String.append k "_")) in
  let v := VInput 0 [("tags", VDict [("k", VList [VNum 1; ex_secret])])] in
  secret_at c false (VStr "pw") v /\
  serialize_properties c None false [("p", v)] =
    Done ([("p_", WStruct [("tags", WStruct [("k", WList [WNum 1; wsecret (WStr "pw")])])])], [("p_", [RObj 1])]) /\
  deserialize_properties (ex_dc false) [("p_", WStruct [("tags", WStruct [("k", WList [WNum 1; wsecret (WStr "pw")])])])] false false
    = Ok (VDict [("p_", vsecret (VDict [("tags", VDict [("k", VList [VNum 1; VStr "pw"])])]))]).
Proof.
  split; [|split; vm_compute; reflexivity].
  apply SA_input with (f := mkField "tags" "tags" (Some (TyDict TyAny))) (y := VDict [("k", VList [VNum 1; ex_secret])]);
    try reflexivity; [simpl; tauto|intros g [<-|[<-|[]]]; discriminate|].
  apply SA_dict with "k" (VList [VNum 1; ex_secret]); [now left| |].
  - intros t. simpl. split; [repeat constructor; intros []|].
    destruct t as [[]|]; cbn; split; try reflexivity; intros [K|[]]; discriminate.
  - apply SA_list with ex_secret; [simpl; tauto|]. apply SA_here; reflexivity.
Qed.

(* ------------------------------------------------------------------ *)
(** C12.  For messages whose resource references carry string ids: a
    top-level property is marked secret iff a secret is exposed in it; the
    value under the mark has no marker left at any depth through lists and
    dicts, and through archives and outputs too when the message has no
    output values.  Missing: messages with output values (see the
    refutation). *)
Theorem C12_secrets_bubble_partial :
  forall dc d keep ki v,
    top_message d -> (forall k w, dget d k = Some w -> string_ids w) ->
    deserialize_properties dc d keep ki = Ok v ->
    exists d', v = VDict d' /\
      (forall k u, dget d' k = Some u -> exists w x, dget d k = Some w /\
         (exposes_secret w -> marked_secret u x) /\ (~ exposes_secret w -> u = x) /\
         (is_secret u <-> exposes_secret w) /\
         unmarked x /\ (without_sig output_sig w -> deeply_unmarked x)) /\
      (forall k w, dget d k = Some w -> ki = true \/ internal_key k = false -> exposes_secret w ->
         exists u, dget d' k = Some u /\ is_secret u).
Proof.
  intros dc d keep ki v H1 H2 H3. destruct (secrets_bubble dc d keep ki v H1 H2 H3) as (d' & E & A & B). exists d'. split; [exact E|]. split.
  - intros k u Hu. destruct (A k u Hu) as (w & x & H). exists w, x. rewrite <- is_secret_iff. exact H.
  - intros k w Hk Hi Hw. destruct (B k w Hk Hi Hw) as (u & Hu & Hs). exists u. rewrite <- is_secret_iff. auto.
Qed.
Print Assumptions C12_secrets_bubble_partial.

Example C12_example :
  let w := WList [WStruct [("a", wsecret (WList [wsecret (WNum 1); WNum 2]))]; WNull] in
  top_message [("k", w)] /\ string_ids w /\ exposes_secret w /\
  deserialize_properties (ex_dc true) [("k", w)] false false =
    Ok (VDict [("k", vsecret (VList [VDict [("a", VList [VNum 1; VNum 2])]; VNone]))]).
Proof.
  simpl. split; [|split; [|split]].
  - split; [reflexivity|]. repeat constructor. intros [].
  - apply string_ids_dec. reflexivity.
  - eexists; split; [|eapply E_list; [left; reflexivity|eapply E_struct; [| left; reflexivity| |apply E_here]]]; reflexivity.
  - vm_compute. reflexivity.
Qed.

(** A secret nested in an output value stays as a raw marker inside an Output
    that does not claim to be secret. *)
Theorem C12_refuted :
  exists dc d keep ki d' k u,
    top_message d /\ (forall k w, dget d k = Some w -> string_ids w) /\
    deserialize_properties dc d keep ki = Ok (VDict d') /\ dget d' k = Some u /\
    ~ is_secret u /\
    exists rs y kn x, u = VOut rs (Done y) kn (Done false) /\
      within_deep (VDict [(sig_key, VStr secret_sig); ("value", x)]) y.
Proof.
  exists (ex_dc false), [("k", WStruct [(sig_key, WStr output_sig); ("value", WList [wsecret (WStr "pw")])])], false, false.
  eexists _, "k", _. split; [|split; [|split; [vm_compute; reflexivity|split; [reflexivity|split; [intros (dd & K & _); discriminate K|]]]]].
  - split; [reflexivity|repeat constructor; intros []].
  - intros k w. simpl. destruct (String.eqb k "k"); [|discriminate]. intros [= <-]. apply string_ids_dec. reflexivity.
  - eexists _, _, _, _. split; [reflexivity|]. apply D_here.
Qed.
Print Assumptions C12_refuted.

(* ------------------------------------------------------------------ *)
(** C13.  Two input maps that differ only behind not-known outputs are sent
    as the same message.  Missing: when output values are in use, what is
    behind a not-known output must not mention a resource; and both must be
    serialisable (see the refutation). *)
Theorem C13_unknown_no_leak_partial :
  forall c, (forall cls, class_ok (c_class c cls)) ->
  forall typ keep i1 i2 st1 pd1 st2 pd2,
    map (fun kv => (fst kv, erase_unknown (snd kv))) i1 = map (fun kv => (fst kv, erase_unknown (snd kv))) i2 ->
    (keep && c_outvals c = true ->
       Forall (fun kv => ~ hides_resource c (snd kv)) i1 /\ Forall (fun kv => ~ hides_resource c (snd kv)) i2) ->
    serialize_properties c typ keep i1 = Done (st1, pd1) ->
    serialize_properties c typ keep i2 = Done (st2, pd2) ->
    st1 = st2.
Proof. exact unknown_no_leak. Qed.
Print Assumptions C13_unknown_no_leak_partial.

Example C13_example :
  let hidden x := VOut (Done [RObj 2]) (Done x) (Done false) (Done true) in
  let inp x := [("p", VList [VNum 1; VDict [("q", hidden x)]])] in
  map (fun kv => (fst kv, erase_unknown (snd kv))) (inp (VStr "secret a")) =
    map (fun kv => (fst kv, erase_unknown (snd kv))) (inp (VList [VNum 3])) /\
  serialize_properties (ex_cfg false None) None false (inp (VStr "secret a")) =
    Done ([("p", WList [WNum 1; WStruct [("q", WStr UNKNOWN)]])], [("p", [RObj 2])]).
Proof. split; vm_compute; reflexivity. Qed.

(** With output values, the dependencies of what is behind a not-known
    output are sent; and an unserialisable value behind one makes the whole
    serialisation fail. *)
Theorem C13_refuted :
  (exists c typ i1 i2 st1 pd1 st2 pd2,
     (forall cls, class_ok (c_class c cls)) /\
     map (fun kv => (fst kv, erase_unknown (snd kv))) i1 = map (fun kv => (fst kv, erase_unknown (snd kv))) i2 /\
     serialize_properties c typ true i1 = Done (st1, pd1) /\
     serialize_properties c typ true i2 = Done (st2, pd2) /\ st1 <> st2) /\
  (exists c typ i1 i2 r e,
     map (fun kv => (fst kv, erase_unknown (snd kv))) i1 = map (fun kv => (fst kv, erase_unknown (snd kv))) i2 /\
     serialize_properties c typ false i1 = Done r /\
     serialize_properties c typ false i2 = Fail e).
Proof.
  split.
  - exists (ex_cfg true None), None,
      [("p", VOut (Done []) (Done (VRes (RObj 1))) (Done false) (Done false))],
      [("p", VOut (Done []) (Done VNone) (Done false) (Done false))].
    eexists _, _, _, _. split; [intros; apply ex_class_ok|]. split; [reflexivity|].
    split; [vm_compute; reflexivity|]. split; [vm_compute; reflexivity|]. discriminate.
  - exists (ex_cfg true None), None,
      [("p", VOut (Done []) (Done VNone) (Done false) (Done false))],
      [("p", VOut (Done []) (Done (VOther 0)) (Done false) (Done false))].
    eexists _, _. repeat split; vm_compute; reflexivity.
Qed.
Print Assumptions C13_refuted.

(* ------------------------------------------------------------------ *)
(** C14. *)
Theorem C14_property_dependencies :
  forall c typ keep inputs st pd,
    (forall cls, class_declared (c_class c cls)) ->
    serialize_properties c typ keep inputs = Done (st, pd) ->
    dkeys st = dkeys pd /\
    (distinct_names c (bag_type typ) (map fst inputs) ->
     forall k k' v ds, In (k, v) inputs -> sent_as c (bag_type typ) k k' -> dget pd k' = Some ds ->
       forall r, In r ds <-> mentions c r v).
Proof.
  intros c typ keep inputs st pd Hd E.
  assert (Hn : forall cls, class_named (c_class c cls)) by (intros cls; apply class_declared_named, Hd).
  destruct (property_dependencies c typ keep inputs st pd (fun cls => class_declared_ok _ (Hd cls)) E) as [A B]. split; [exact A|].
  intros D k k' v ds Hi Hk. rewrite <- (sent_top c typ k k' Hn Hk). exact (B (distinct_top _ _ _ Hn D) k v ds Hi).
Qed.
Print Assumptions C14_property_dependencies.

Example C14_example :
  serialize_properties (ex_cfg false None) None false
    [("a", VList [VRes (RObj 1); VNum 1]);
     ("b", VDict [("x", VOut (Done [RObj 2]) (Done (VOut (Done [RObj 3]) (Done (VNum 2)) (Done true) (Done false))) (Done true) (Done true))]);
     ("c", VNone)] =
  Done ([("a", WList [WStruct [(sig_key, WStr resource_sig); ("urn", WStr ex_urn); ("id", WStr "id-1")]; WNum 1]);
         ("b", WStruct [("x", wsecret (WNum 2))])],
        [("a", [RObj 1; RObj 1]); ("b", [RObj 2; RObj 3])]).
Proof. vm_compute. reflexivity. Qed.

(* ------------------------------------------------------------------ *)
(** C15.  Every asset and archive, at the top of a property or anywhere in
    plain data, comes back equal.  Missing: archives sent through a name
    translation, and archive members whose names start with two underscores
    (see the refutation). *)
Theorem C15_assets_round_trip_partial :
  (forall c dc v t keep ku,
    (forall k, transform c k = k) -> untyped t -> asset_tree v ->
    exists w, ser c v t keep = Done (w, []) /\ deser dc w ku = Ok v) /\
  (forall c keep d dc ku ki,
    (forall k, transform c k = k) -> asset_data (VDict d) ->
    exists st pd, serialize_properties c None keep d = Done (st, pd) /\
      deserialize_properties dc st ku ki = Ok (drop_nulls (VDict d))).
Proof. split; [|exact round_trip]. intros c dc v t keep ku H Ht. apply asset_round_trip; [exact H|now apply untyped_norm]. Qed.
Print Assumptions C15_assets_round_trip_partial.

Example C15_example :
  let a := VAssetArchive [("x", VFileAsset "./f"); ("sub", VAssetArchive [("y", VRemoteArchive "http://a"); ("z", VStringAsset "t")])] in
  asset_tree a /\ asset_data (VDict [("p", VList [a; VNum 1])]) /\
  exists w, ser (ex_cfg true None) a None true = Done (w, []) /\ deser (ex_dc true) w false = Ok a.
Proof.
  split; [|split].
  - cbn -[In internal_key wf_dict]. plainly.
  - cbn -[In internal_key wf_dict]. plainly.
  - eexists. split; vm_compute; reflexivity.
Qed.

Theorem C15_refuted :
  (exists c dc a w v, (forall k, transform c k = k) /\
     a = VAssetArchive [("__main.py", VFileAsset "f")] /\
     ser c a None false = Done (w, []) /\ deser dc w false = Ok v /\ v = VAssetArchive []) /\
  (exists c dc a w v,
     a = VAssetArchive [("main_py", VFileAsset "f")] /\
     ser c a None false = Done (w, []) /\ deser dc w false = Ok v /\ v <> a).
Proof.
  split.
  - exists (ex_cfg true None), (ex_dc true). eexists _, _, _. split; [reflexivity|]. split; [reflexivity|].
    split; [vm_compute; reflexivity|]. split; vm_compute; reflexivity.
  - exists (ex_cfg true (Some (fun k => if String.eqb k "main_py" then "mainPy" else k))), (ex_dc true). eexists _, _, _. split; [reflexivity|].
    split; [vm_compute; reflexivity|]. split; [vm_compute; reflexivity|]. discriminate.
Qed.
Print Assumptions C15_refuted.

(* ------------------------------------------------------------------ *)
(** C16. *)
Theorem C16_sentinel_uniform :
  (forall c rs x s t keep w ds, keep && c_outvals c = false ->
     ser c (VOut rs x (Done false) s) t keep = Done (w, ds) -> w = WStr UNKNOWN) /\
  (forall c t keep, ser c VUnknown t keep = Done (WStr UNKNOWN, [])) /\
  (forall dc keep, deser dc (WStr UNKNOWN) keep = Ok (if d_dry dc || keep then VUnknown else VNone)) /\
  (forall dc w keep v, deser dc w keep = Ok v -> ~ within_deep (VStr UNKNOWN) v) /\
  (forall dc d keep ki v, top_message d -> deserialize_properties dc d keep ki = Ok v ->
     ~ within_deep (VStr UNKNOWN) v).
Proof. exact sentinel_uniform. Qed.
Print Assumptions C16_sentinel_uniform.
(** The texts that these statements name are those of the engine's protocol
    (sdk/go/common/resource/plugin/rpc.go:54, properties.go:623-640,
    asset.go:65, 467). *)
Theorem C16_protocol_texts :
  UNKNOWN = "04da6b54-80e4-46f7-96ec-b56ff0331ba9" /\
  sig_key = "4dabf18193072939515e22adb298388d" /\
  secret_sig = "1b47061264138c4ac30d75fd1eb44270" /\
  output_sig = "d0e6a833031e9bbcd3f4e8bde6ca49a4" /\
  resource_sig = "5cf8f73096256a8f31e491e813e4eb8e" /\
  asset_sig = "c44067f5952c0a294b673a41bacd8c17" /\
  archive_sig = "0def7320c3a5731c473e5ecbe6d01bc7".
Proof. repeat split. Qed.

Example C16_example :
  let m := [("a", WList [WStr UNKNOWN; WStr "x"]); ("b", wsecret (WStr UNKNOWN)); ("c", WStr UNKNOWN)] in
  top_message m /\
  deserialize_properties (ex_dc true) m false false =
    Ok (VDict [("a", VList [VUnknown; VStr "x"]); ("b", vsecret VUnknown); ("c", VUnknown)]) /\
  deserialize_properties (ex_dc false) m false false =
    Ok (VDict [("a", VList [VNone; VStr "x"]); ("b", vsecret VNone)]).
Proof.
  split; [|split; vm_compute; reflexivity]. split; [reflexivity|].
  unfold wf_dict, dkeys; cbn; repeat constructor; cbn; intuition discriminate.
Qed.

(* ------------------------------------------------------------------ *)
(** C17.  A sentinel at any position (through lists, maps and secrets) is an
    unknown at the same position of the result, during preview; and with
    keep_unknowns in every mode if it is not inside a secret.  Missing:
    keep_unknowns during an update inside secrets (see the refutation) and
    positions inside archives and output values. *)
Theorem C17_keep_unknowns_partial :
  forall dc d keep ki v k x p,
    top_message d -> dget d k = Some x -> ki = true \/ internal_key k = false ->
    msg_at x p (WStr UNKNOWN) -> string_ids x ->
    d_dry dc = true \/ keep = true /\ without_sig secret_sig x ->
    deserialize_properties dc d keep ki = Ok v ->
    exists d' s u y, v = VDict d' /\ dget d' k = Some u /\ maybe_secret s u y /\ val_at y p VUnknown.
Proof. exact keep_unknowns. Qed.
Print Assumptions C17_keep_unknowns_partial.

Example C17_example :
  let x := WList [WNum 1; WStruct [("q", WStr UNKNOWN)]] in
  top_message [("k", x)] /\ msg_at x [Idx 1; Key "q"] (WStr UNKNOWN) /\ string_ids x /\ without_sig secret_sig x /\
  deserialize_properties (ex_dc false) [("k", x)] true false = Ok (VDict [("k", VList [VNum 1; VDict [("q", VUnknown)]])]).
Proof.
  split; [split; [reflexivity|repeat constructor; intros []]|].
  split; [eapply MA_list; [reflexivity|]; eapply MA_key; try reflexivity; apply MA_here|].
  split; [apply string_ids_dec; reflexivity|]. split; [apply without_sig_dec; reflexivity|].
  vm_compute. reflexivity.
Qed.

(** During an update keep_unknowns is not passed on inside a secret: the
    unknown becomes None. *)
Theorem C17_refuted :
  exists dc d, d_dry dc = false /\ top_message d /\ dget d "k" = Some (wsecret (WStr UNKNOWN)) /\
    deserialize_properties dc d true false = Ok (VDict [("k", vsecret VNone)]).
Proof.
  exists (ex_dc false), [("k", wsecret (WStr UNKNOWN))]. split; [reflexivity|]. split.
  - split; [reflexivity|repeat constructor; intros []].
  - split; vm_compute; reflexivity.
Qed.
Print Assumptions C17_refuted.

(* ------------------------------------------------------------------ *)
(** C18.  The entries of the result are exactly the entries of the message
    whose key is kept and whose value does not deserialise to None.  Missing:
    nested maps (see the refutation). *)
Theorem C18_internal_keys_partial :
  forall dc d keep ki v,
    dget d sig_key = None -> wf_dict d ->
    deserialize_properties dc d keep ki = Ok v ->
    exists d', v = VDict d' /\ wf_dict d' /\
    forall k y, dget d' k = Some y <->
      exists w, dget d k = Some w /\
        (ki = true \/ ~ (String.prefix "__" k = true /\ k <> "__provider")) /\
        deser dc w keep = Ok y /\ y <> VNone.
Proof.
  intros dc d keep ki v H1 H2 H3. destruct (internal_keys dc d keep ki v H1 H2 H3) as (d' & -> & Hw & H).
  exists d'. split; auto. split; auto.
  assert (E : forall k, is_internal k = false <-> ~ (String.prefix "__" k = true /\ k <> "__provider")).
  { intros k. unfold is_internal. destruct (String.eqb_spec k "__provider"), (String.prefix "__" k); simpl; intuition congruence. }
  intros k y. rewrite H. split; intros (w & A & B & C); exists w; rewrite E in *; auto.
Qed.
Print Assumptions C18_internal_keys_partial.

Example C18_example :
  deserialize_properties (ex_dc false) [("__defaults", WList []); ("__provider", WStr "p"); ("_x", WNum 1); ("n", WNull)] false false
    = Ok (VDict [("__provider", VStr "p"); ("_x", VNum 1)]) /\
  deserialize_properties (ex_dc false) [("__defaults", WList []); ("__provider", WStr "p"); ("_x", WNum 1); ("n", WNull)] false true
    = Ok (VDict [("__defaults", VList []); ("__provider", VStr "p"); ("_x", VNum 1)]).
Proof. split; vm_compute; reflexivity. Qed.

(** Internal keys of nested maps are dropped even when they are to be kept. *)
Theorem C18_refuted :
  exists dc, deserialize_properties dc [("a", WStruct [("__x", WNum 1)])] false true = Ok (VDict [("a", VDict [])]).
Proof. exists (ex_dc false). vm_compute. reflexivity. Qed.
Print Assumptions C18_refuted.

(* ------------------------------------------------------------------ *)
(** C20. *)
Theorem C20_none_omitted :
  forall c typ keep inputs st pd,
    (forall cls, class_declared (c_class c cls)) ->
    serialize_properties c typ keep inputs = Done (st, pd) ->
    distinct_names c (bag_type typ) (map fst inputs) ->
    wf_dict st /\ wf_dict pd /\
    (forall k k' v, In (k, v) inputs -> sent_as c (bag_type typ) k k' ->
       (In k' (dkeys st) <-> ~ sends_nothing c keep v) /\
       (In k' (dkeys pd) <-> ~ sends_nothing c keep v)) /\
    (forall k', In k' (dkeys st) -> exists k v, In (k, v) inputs /\ sent_as c (bag_type typ) k k').
Proof.
  intros c typ keep inputs st pd Hd E D.
  assert (Hn : forall cls, class_named (c_class c cls)) by (intros cls; apply class_declared_named, Hd).
  destruct (null_inputs c typ keep inputs st pd E (distinct_top _ _ _ Hn D)) as (A & B & C & F).
  split; [exact A|]. split; [exact B|]. split.
  - intros k k' v Hi Hk. rewrite <- (sent_top c typ k k' Hn Hk). exact (C k v Hi).
  - intros k' Hk. destruct (F k' Hk) as (k & v & Hi & ->). exists k, v. split; [exact Hi|]. now apply top_sent.
Qed.
Print Assumptions C20_none_omitted.

Example C20_example :
  let none_out := VOut (Done [RObj 2]) (Done VNone) (Done true) (Done false) in
  sends_nothing (ex_cfg false None) true (VAwait (Done none_out)) /\
  serialize_properties (ex_cfg false None) None true
    [("a", VNone); ("b", VAwait (Done none_out)); ("c", VList [VNone])] = Done ([("c", WList [WNull])], [("c", [])]).
Proof. split; [|vm_compute; reflexivity]. apply SN_await, SN_out; auto. right. constructor. Qed.

(* ------------------------------------------------------------------ *)
(** C21. *)
Theorem C21_names_translated : forall c,
  (forall cls, class_declared (c_class c cls)) ->
  (* top level *)
  (forall typ keep inputs st pd,
     serialize_properties c typ keep inputs = Done (st, pd) ->
     (forall k, In k (dkeys st) -> exists k0 v, In (k0, v) inputs /\ sent_as c (bag_type typ) k0 k) /\
     dkeys pd = dkeys st /\
     (distinct_names c (bag_type typ) (map fst inputs) ->
      forall k v k', In (k, v) inputs -> sent_as c (bag_type typ) k k' ->
        exists e w ds, entry_type c (bag_type typ) k' e /\ ser c v e keep = Done (w, ds) /\
          (w <> WNull -> dget st k' = Some w /\ dget pd k' = Some ds))) /\
  (* a dict *)
  (forall d t keep w ds, ser c (VDict d) t keep = Done (w, ds) ->
     forall t', t = t' \/ (t = Some TyAny /\ t' = None) ->
     match t' with None | Some TyDictBare | Some (TyDict _) | Some (TyInput _) => True | _ => False end ->
     exists es, w = WStruct es /\
     (forall k, In k (dkeys es) -> exists k0, In k0 (dkeys d) /\ sent_as c t' k0 k) /\
     (distinct_names c t' (dkeys d) ->
      forall k x k', In (k, x) d -> sent_as c t' k k' ->
        exists e w' ds', entry_type c t' k' e /\ dget es k' = Some w' /\ ser c x e keep = Done (w', ds'))) /\
  (* an input-type object: declared names, whatever the translation function *)
  (forall cls fields t keep w ds, ser c (VInput cls fields) t keep = Done (w, ds) ->
     exists es, w = WStruct es /\
     (forall k, In k (dkeys es) -> exists f x, In f (c_class c cls) /\ k = f_pulumi f /\
        dget fields (f_py f) = Some x /\ x <> VNone) /\
     (forall f x, In f (c_class c cls) -> dget fields (f_py f) = Some x -> x <> VNone ->
        exists w' ds', dget es (f_pulumi f) = Some w' /\ ser c x (f_ty f) keep = Done (w', ds'))).
Proof. exact named_translated. Qed.
Print Assumptions C21_names_translated.

Example C21_example :
  let c := ex_cfg false (Some (fun k => String.append "T" k)) in
  class_declared ex_class /\
  serialize_properties c None false
    [("a", VDict [("bucket_name", VNum 1)]); ("b", VInput 0 [("bucket_name", VNum 2); ("tags", VDict [("my_tag", VNum 3)])])]
  = Done ([("Ta", WStruct [("Tbucket_name", WNum 1)]);
           ("Tb", WStruct [("bucketName", WNum 2); ("tags", WStruct [("my_tag", WNum 3)])])], [("Ta", []); ("Tb", [])]) /\
  serialize_properties c (Some 0) false [("bucket_name", VNum 1); ("other_name", VDict [("bucket_name", VNum 1)])]
  = Done ([("bucketName", WNum 1); ("other_name", WStruct [("Tbucket_name", WNum 1)])], [("bucketName", []); ("other_name", [])]).
Proof.
  split; [|split; vm_compute; reflexivity].
  split; [cbn; repeat constructor; cbn; intuition discriminate|].
  split; [cbn; repeat constructor; cbn; intuition discriminate|intros f [<-|[<-|[]]]; discriminate].
Qed.

(* ------------------------------------------------------------------ *)
(** C22. *)
Theorem C22_resource_references :
  forall c dc r u p t keep ku,
  c_refs c = true -> r_urn (c_res c r) = Done (Some u) -> parse_urn u = Ok p ->
  let lookup := if String.eqb (u_pkg p) "pulumi" && String.eqb (u_mod p) "providers"
                then d_pkg dc (u_tname p) "" else d_mod dc (u_pkg p) (u_mod p) "" in
  (r_custom (c_res c r) = false ->
   exists w, ser c (VRes r) t keep = Done (w, [r]) /\
     (forall n, lookup = Ok (Some n) -> deser dc w ku = Ok (VConstructed n (u_name p) (u_typ p) u)) /\
     (lookup = Ok None -> deser dc w ku = Ok (VStr u))) /\
  (forall i, r_custom (c_res c r) = true -> r_id (c_res c r) = Done i ->
   exists w, ser c (VRes r) t keep = Done (w, [r; r]) /\
     (forall n, lookup = Ok (Some n) -> deser dc w ku = Ok (VConstructed n (u_name p) (u_typ p) u)) /\
     (lookup = Ok None ->
        match i with
        | Some s => s <> "" -> s <> UNKNOWN -> deser dc w ku = Ok (VStr s)
        | None => deser dc w ku = Ok (if d_dry dc || ku then VUnknown else VNone)
        end)).
Proof. exact resource_refs. Qed.
Print Assumptions C22_resource_references.

Example C22_example :
  let c := ex_cfg true None in
  r_urn (c_res c (RObj 1)) = Done (Some ex_urn) /\
  parse_urn ex_urn = Ok (mkParts "b" "aws:s3/bucket:Bucket" "aws" "s3/bucket" "Bucket") /\
  exists w, ser c (VRes (RObj 1)) None true = Done (w, [RObj 1; RObj 1]) /\
    deser (ex_dc false) w false = Ok (VConstructed 7 "b" "aws:s3/bucket:Bucket" ex_urn).
Proof. split; [reflexivity|]. split; [vm_compute; reflexivity|]. eexists; split; vm_compute; reflexivity. Qed.

(* ------------------------------------------------------------------ *)
(** C23.  The value comes back without null-valued map entries (C10), and as
    None for an output that is not known. *)
Theorem C23_output_values :
  forall c dc rs x k s t urns,
  (forall k, transform c k = k) -> c_outvals c = true -> asset_data x -> untyped t ->
  await_urns c rs = Done tt -> expand_all c rs = Done urns -> ~ In UNKNOWN urns ->
  exists w us, ser c (VOut (Done rs) (Done x) (Done k) (Done s)) t true = Done (w, rs) /\
    same_set us urns /\
    forall ku, deser dc w ku =
      Ok (VOut (Done (map RDep us)) (Done (if k then drop_nulls x else VNone)) (Done k) (Done s)).
Proof. intros c dc rs x k s t urns H1 H2 H3 H4. apply output_values; auto. now apply untyped_norm. Qed.
Print Assumptions C23_output_values.

Example C23_example :
  let c := ex_cfg true None in
  await_urns c [RObj 1; RObj 2] = Done tt /\ expand_all c [RObj 1; RObj 2] = Done [ex_urn] /\
  asset_data (VList [VNum 1; VStr "a"]) /\
  exists w, ser c (VOut (Done [RObj 1; RObj 2]) (Done (VList [VNum 1; VStr "a"])) (Done true) (Done true)) None true = Done (w, [RObj 1; RObj 2]) /\
    deser (ex_dc false) w false = Ok (VOut (Done [RDep ex_urn]) (Done (VList [VNum 1; VStr "a"])) (Done true) (Done true)).
Proof.
  split; [reflexivity|]. split; [reflexivity|]. split; [cbn; repeat split; discriminate|].
  eexists; split; vm_compute; reflexivity.
Qed.
