(** C97: who is given a component sees the outputs it registered *)
From Verif Require Import Base PyVal Model_Rpc Spec_Rpc Model_Engine Spec_Engine Model_Translate Spec_Translate Model_Register Spec_Register Model_Deployment Spec_Deployment Proof_Deployment.
From Verif Require Spec_Meaning Proof_Meaning.
Open Scope string_scope.

(** C97.  Full property: a component can register any outputs; registering them
    succeeds; and from then on every program given the component (as an output
    of something else, or by URN) sees exactly those outputs, for as long as
    the deployment goes on and whatever else happens in it.

    Here for every history of the deployment: outputs are accepted for a
    resource that was registered and has none yet, and every later lookup
    shows, under the names and with the types its class declares, what of these
    outputs is visible in a program that did not ask for resources.

    Missing: outputs given as an Output, a second registration, resources in
    the outputs, and lookups before the outputs are registered (see
    C97_refuted). *)
Theorem C97_outputs_partial : forall h c urn outputs ps,
  (forall cls, class_declared (c_class c cls)) -> urn <> "" -> ordinary urn ->
  bag_means (mkCfg (c_secrets c) (c_refs c) (c_outvals c) None (c_class c) (c_res c)) (Some h) None false outputs ps ->
  NoDup (map fst ps) -> ~ In reserved_key (map fst ps) ->
  exists r, or_urn r = urn /\
    (forall monitor, exists end_, register_resource_outputs c (Done (Some urn)) (VDict outputs) (Some monitor) = Done ([r], end_)) /\
    (forall evs, p_alive (drun h evs) = true ->
       (exists id o, In (DResource urn id o) evs) -> (forall r', In (DOutputs r') evs -> or_urn r' <> urn) ->
       register_resource_outputs c (Done (Some urn)) (VDict outputs) (Some (outputs_answer h (drun h evs))) = Done ([r], Ok tt) /\
       p_alive (drun h (evs ++ [DOutputs r])%list) = true) /\
    (forall evs, p_alive (drun h evs) = true -> In (DOutputs r) evs ->
       forall g reader props from val sec,
       looks_up g reader props from urn (drun h evs) ->
       (forall key p, In (key, p) ps -> seen (c_deser reader) (mkMopts true false) (c_dry reader) p (val key) (sec key)) ->
       well_typed reader (map fst ps) val ->
       exists l, do_get g [] = (l, Ok tt) /\
         In (TUrn, OVal (TLeaf (VStr urn)) true false [c_self reader]) l /\ shows reader l props (map fst ps) val sec).
Proof.
  intros h c urn outputs ps Hc Hu Ho Hb Hn Hr. destruct (sends h c urn outputs ps Hc Hu Hb Hn) as (r & Er & Rd & Reg).
  exists r. split; [exact Er|]. split; [eauto|]. split.
  - intros evs A D1 D2. destruct (accepted h evs r ps A) as [X Y]; [now rewrite Er|now rewrite Er|exact Rd|].
    split; [|exact Y]. now rewrite Reg, X.
  - intros evs A D g c' props from val sec L S T. destruct (kept h evs r ps A D Rd) as [id K]. rewrite Er in K.
    assert (Hd : c_dry c' = d_dry (c_deser c')) by apply L. rewrite Hd in S.
    apply (reader c' ps val sec S (conj Hn Hr) T g props from urn (drun h evs) _ L A Ho K eq_refl).
Qed.
Print Assumptions C97_outputs_partial.

(** The same for data: outputs that mix plain values, awaitables and Outputs,
    all known, are seen as the data they hold, and secret exactly where they
    were. *)
Theorem C97_data_partial : forall h c urn outputs data secret,
  (forall cls, class_declared (c_class c cls)) -> c_secrets c = true -> urn <> "" -> ordinary urn ->
  NoDup (map fst outputs) -> ~ In reserved_key (map fst outputs) ->
  (forall k v, In (k, v) outputs ->
     Spec_Meaning.means false v (data k) (secret k) /\ ~ within VUnknown (data k) /\ plain_data (data k)) ->
  exists r, or_urn r = urn /\
    (forall evs, p_alive (drun h evs) = true ->
       (exists id o, In (DResource urn id o) evs) -> (forall r', In (DOutputs r') evs -> or_urn r' <> urn) ->
       register_resource_outputs c (Done (Some urn)) (VDict outputs) (Some (outputs_answer h (drun h evs))) = Done ([r], Ok tt) /\
       p_alive (drun h (evs ++ [DOutputs r])%list) = true) /\
    (forall evs, p_alive (drun h evs) = true -> In (DOutputs r) evs ->
       forall g reader props from,
       looks_up g reader props from urn (drun h evs) -> well_typed reader (map fst outputs) data ->
       exists l, do_get g [] = (l, Ok tt) /\
         In (TUrn, OVal (TLeaf (VStr urn)) true false [c_self reader]) l /\ shows reader l props (map fst outputs) data secret).
Proof.
  intros h c urn outputs data secret Hc Hs Hu Ho Hn Hr Hm.
  pose proof (fun dc => bag_data (no_transform c) (Some h) dc false Hs eq_refl outputs data secret Hn Hr Hm) as B.
  assert (U : forall ps ps', bag_means (no_transform c) (Some h) None false outputs ps ->
    bag_means (no_transform c) (Some h) None false outputs ps' -> NoDup (map fst ps) -> NoDup (map fst ps') -> ps = ps').
  { intros ps ps' H1 H2 N1 N2. destruct (sends h c urn outputs ps Hc Hu H1 N1) as (r & _ & R & S), (sends h c urn outputs ps' Hc Hu H2 N2) as (r' & _ & R' & S').
    specialize (S (fun _ => AResp tt)). rewrite S' in S. injection S as ->. congruence. }
  destruct (B (mkDcfg false (fun _ _ => Ok None) (fun _ _ _ => Ok None))) as (ps & Bm & Np & I1 & I2 & _).
  destruct (C97_outputs_partial h c urn outputs ps Hc Hu Ho Bm Np) as (r & Er & _ & Acc & Rd); [intros K; apply Hr; auto|].
  exists r. split; [exact Er|]. split; [exact Acc|]. intros evs A D g c' props from L T.
  destruct (B (c_deser c')) as (ps' & Bm' & Np' & _ & _ & S). rewrite <- (U _ _ Bm Bm' Np Np') in S.
  destruct (Rd evs A D g c' props from data secret L) as (l & E1 & E2 & E3).
  - replace (c_dry c') with (d_dry (c_deser c')); [intros k p K; apply (S k p K)|]. symmetry. apply L.
  - eapply typed_keys; eauto.
  - exists l. split; [exact E1|]. split; [exact E2|]. eapply shows_keys; eauto.
Qed.
Print Assumptions C97_data_partial.

(* ---- a concrete case ---- *)
Definition dp_hash (p : pval) : res string := Ok "digest".
Definition dp_urn : string := "urn:pulumi:dev::p::my:mod:Web::site".
Definition dp_cfg : cfg :=
  mkCfg true true true None (fun _ => [])
    (fun _ => mkRinfo true (Done (Some "urn:pulumi:dev::p::aws:s3:Bucket::b")) (Done (Some "b-17")) (Done ["urn:pulumi:dev::p::aws:s3:Bucket::b"])).
Definition dp_outputs : dict pyval :=
  [("url", VOut (Done [RObj 1]) (Done (VStr "https://a")) (Done true) (Done false)); ("note", VNone);
   ("login", VDict [("user", VStr "u"); ("pass", VOut (Done []) (Done (VStr "p")) (Done true) (Done true))])].
Definition dp_data (k : string) : pyval :=
  if String.eqb k "url" then VStr "https://a"
  else if String.eqb k "login" then VDict [("user", VStr "u"); ("pass", VStr "p")] else VNone.
Definition dp_secret (k : string) : bool := String.eqb k "login".
Definition dp_before : list devent := [DResource "urn:pulumi:dev::p::pulumi:pulumi:Stack::p-dev" "" []; DResource dp_urn "" []].
Definition dp_sent (outputs : pyval) (evs : list devent) : list devent * res unit :=
  match register_resource_outputs dp_cfg (Done (Some dp_urn)) outputs (Some (outputs_answer dp_hash (drun dp_hash evs))) with
  | Done (rs, e) => (evs ++ map DOutputs rs, e)%list
  | Fail e => (evs, Err e)
  | Pending => (evs, Ok tt)
  end.
Definition dp_after : list devent := (fst (dp_sent (VDict dp_outputs) dp_before) ++ [DResource "urn:other" "o" [("url", PStr "no")]])%list.
Definition dp_reader (dry : bool) : rcfg :=
  mkRcfg dry false (fun k => if String.eqb k "url" then "web_url" else k) (fun _ => None)
    (mkOcfg (fun _ => []) (fun _ _ => false) true (fun k => k)) (mkDcfg dry (fun _ _ => Ok None) (fun _ _ _ => Ok (Some 7))) (RObj 5).
Definition dp_props : list string := ["web_url"; "note"; "login"; "more"; "bucket"].
Definition dp_get (dry : bool) (evs : list devent) : get :=
  mkGet (dp_reader dry) false dp_props (Ok []) (asks_for dp_cfg dp_urn (drun dp_hash evs)).

Lemma dp_within x y : within x y -> match y with VStr _ => x = y | VDict d => x = y \/ exists k v, In (k, v) d /\ within x v | VNone => x = VNone | _ => True end.
Proof. intros H. inversion H; subst; eauto. destruct y; auto. Qed.
Example C97_nonvacuous :
  (forall cls, class_declared (c_class dp_cfg cls)) /\ c_secrets dp_cfg = true /\ dp_urn <> "" /\ ordinary dp_urn /\
  NoDup (map fst dp_outputs) /\ ~ In reserved_key (map fst dp_outputs) /\
  (forall k v, In (k, v) dp_outputs ->
     Spec_Meaning.means false v (dp_data k) (dp_secret k) /\ ~ within VUnknown (dp_data k) /\ plain_data (dp_data k)) /\
  p_alive (drun dp_hash dp_before) = true /\ (exists id o, In (DResource dp_urn id o) dp_before) /\
  (forall r', In (DOutputs r') dp_before -> or_urn r' <> dp_urn) /\
  p_alive (drun dp_hash dp_after) = true /\ (exists r, In (DOutputs r) dp_after) /\
  (forall dry, looks_up (dp_get dry dp_after) (dp_reader dry) dp_props dp_cfg dp_urn (drun dp_hash dp_after) /\
     well_typed (dp_reader dry) (map fst dp_outputs) dp_data) /\
  do_get (dp_get false dp_after) [] =
    ([(TUrn, OVal (TLeaf (VStr dp_urn)) true false [RObj 5]);
      (TProp "web_url", OVal (TLeaf (VStr "https://a")) true false [RObj 5]);
      (TProp "login", OVal (TDict [("user", TLeaf (VStr "u")); ("pass", TLeaf (VStr "p"))]) true true [RObj 5]);
      (TProp "note", OVal (TLeaf VNone) true false [RObj 5]);
      (TProp "more", OVal (TLeaf VNone) true false [RObj 5]);
      (TProp "bucket", OVal (TLeaf VNone) true false [RObj 5])], Ok tt).
Proof.
  split; [intros; repeat split; try constructor; intros f []|]. split; [reflexivity|]. split; [discriminate|].
  split; [unfold ordinary, dp_urn; cbn; intuition discriminate|]. split; [cbn; repeat constructor; cbn; intuition discriminate|]. split; [cbn; intuition discriminate|].
  assert (O : forall s, In s sentinels -> s <> "https://a" /\ s <> "u" /\ s <> "p") by (cbn; intros s H; intuition (subst; discriminate)).
  split.
  { intros k v [[= <- <-]|[[= <- <-]|[[= <- <-]|[]]]].
    - split.
      + change (dp_secret "url") with (false || false). apply Spec_Meaning.Me_out; [intros K; apply dp_within in K; discriminate|apply Spec_Meaning.Me_str; discriminate|intros H0; discriminate H0].
      + split; [intros K; apply dp_within in K; discriminate|]. split; [|intros y A K; apply dp_within in K; cbn in K; subst y; destruct A].
        intros s Hs K. apply dp_within in K. cbn in K. injection K as ->. now destruct (O _ Hs).
    - split; [apply Spec_Meaning.Me_none|]. split; [intros K; apply dp_within in K; discriminate|]. split; [intros s Hs K; apply dp_within in K; discriminate|].
      intros y A K; apply dp_within in K; cbn in K; subst y; destruct A.
    - split.
      + apply Spec_Meaning.Me_dict.
        { repeat split; [unfold wf_dict; cbn; repeat constructor; cbn; intuition discriminate|cbn; intuition discriminate|].
          cbn. intros k K. intuition subst; reflexivity. }
        change (dp_secret "login") with (false || (true || false)).
        apply Spec_Meaning.Me_entry; [apply Spec_Meaning.Me_str; discriminate|left; discriminate|].
        apply Spec_Meaning.Me_entry; [|left; discriminate|apply Spec_Meaning.Me_empty].
        change true with (true || false) at 2.
        apply (Spec_Meaning.Me_out false _ _ _ true false); [intros K; apply dp_within in K; discriminate|apply Spec_Meaning.Me_str; discriminate|intros H0; discriminate H0].
      + split; [|split].
        * intros K. apply dp_within in K as [K|(k & v & [[= <- <-]|[[= <- <-]|[]]] & K)]; [discriminate| |]; apply dp_within in K; discriminate.
        * intros s Hs K. apply dp_within in K as [K|(k & v & [[= <- <-]|[[= <- <-]|[]]] & K)]; [discriminate| |]; apply dp_within in K; cbn in K; injection K as ->; now destruct (O _ Hs) as (? & ? & ?).
        * intros y A K. inversion K as [|? ? ? ?|? ? ? Hi K']; subst; [destruct A|]. cbn in Hi. destruct Hi as [[= <- <-]|[[= <- <-]|[]]]; apply dp_within in K'; cbn in K'; subst y; destruct A. }
  split; [reflexivity|]. split; [exists "", []; right; now left|]. split; [intros r' [K|[K|[]]]; discriminate|].
  split; [vm_compute; reflexivity|]. split; [eexists; right; right; now left|].
  split; [|vm_compute; reflexivity].
  intros dry. split; [split; [reflexivity|]; split; [cbn; repeat constructor; cbn; intuition discriminate|reflexivity]|].
  split; [intros cls; split; constructor|]. split.
  { intros x y [<-|[<-|[<-|[]]]] [<-|[<-|[<-|[]]]]; (reflexivity || discriminate). }
  assert (B : forall s, becomes (c_out (dp_reader dry)) None (VStr s) (TLeaf (VStr s))).
  { intros s. apply b_scalar; [right; right; eauto|intros cls [K|K]; discriminate]. }
  intros key [<-|[<-|[<-|[]]]].
  - split; [apply ev_leaf; discriminate|]. eexists. apply B.
  - split; [apply ev_leaf; discriminate|]. eexists. apply b_leaf; try discriminate. intros [[? K]|[[? K]|[? K]]]; discriminate.
  - split.
    + apply ev_dict; [unfold wf_dict; cbn; repeat constructor; cbn; intuition discriminate| | |].
      * intros K. cbn in K. intuition discriminate.
      * cbn. repeat constructor; cbn; intuition discriminate.
      * repeat (apply Forall_cons; [apply ev_leaf; discriminate|]); constructor.
    + exists (TDict [("user", TLeaf (VStr "u")); ("pass", TLeaf (VStr "p"))]).
      apply b_dict; [intros K; cbn in K; intuition discriminate|left; now left|].
      repeat (apply Forall2_cons; [split; [reflexivity|apply B]|]); constructor.
Qed.

(** C97 is false in general.  A resource among the outputs is seen as a string
    with its id, though the program has a class for it: the lookup does not ask
    for resources.  Outputs registered a second time are not accepted, and the
    whole deployment ends.  Outputs given as an Output, as the signature allows,
    cannot be registered.  A program that looks the component up before its
    outputs are registered sees none of them. *)
Theorem C97_refuted :
  (exists evs, evs = fst (dp_sent (VDict [("bucket", VRes (RObj 1))]) dp_before) /\ p_alive (drun dp_hash evs) = true /\
     d_mod (c_deser (dp_reader false)) "aws" "s3" "" = Ok (Some 7) /\
     In (TProp "bucket", OVal (TLeaf (VStr "b-17")) true false [RObj 5]) (fst (do_get (dp_get false evs) []))) /\
  (let (evs, e) := dp_sent (VDict dp_outputs) (fst (dp_sent (VDict dp_outputs) dp_before)) in
     (exists x, e = Err x) /\ p_alive (drun dp_hash evs) = false) /\
  (exists x, snd (dp_sent (VOut (Done []) (Done (VDict dp_outputs)) (Done true) (Done false)) dp_before) = Err x) /\
  In (TProp "web_url", OVal (TLeaf VNone) true false [RObj 5]) (fst (do_get (dp_get false dp_before) [])).
Proof.
  split; [eexists; split; [reflexivity|]; split; [vm_compute; reflexivity|]; split; [reflexivity|vm_compute; auto 10]|].
  split; [vm_compute; eauto|]. split; [vm_compute; eauto|vm_compute; auto 10].
Qed.
Print Assumptions C97_refuted.
