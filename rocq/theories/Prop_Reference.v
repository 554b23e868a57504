(** C99: what one stack exports, another reads *)
From Verif Require Import Base PyVal Model_Rpc Spec_Rpc Model_Engine Spec_Engine Model_Translate Model_Register Model_Deployment Spec_Deployment Proof_Deployment
  Model_Output Spec_Output Model_StackRef Spec_Urn Model_State Spec_State Proof_State Model_Reference Spec_Reference Proof_Reference.
From Verif Require Spec_Meaning Proof_Meaning Proof_Refactor.
Open Scope string_scope.

(** C99.  Full property: whatever a stack exports under a name, a program of
    another stack reads under that name through a StackReference: the same
    value, secret iff it was exported as a secret, depending on the reference;
    other names are None, or raise KeyError if they are required.

    Here for every history of the exporting deployment, every backend that
    stores the state it leaves (C100) and everything else in the backend,
    previews and updates, names that are plain or Outputs, and
    data of every shape.

    Missing: exports and keys called "secretOutputNames", and requiring exports
    that are None (see C99_refuted); assets and resources among the exports; and
    the conversion of objects before they are exported, which also leaves out
    names that start with an underscore (C46). *)
Theorem C99_exports_partial : forall h c root exports data secret,
  (forall cls, class_declared (c_class c cls)) -> c_secrets c = true -> root <> "" ->
  exported exports data secret -> readable_names exports data ->
  exists r, or_urn r = root /\
    (forall evs, p_alive (drun h evs) = true ->
       (exists id o, In (DResource root id o) evs) -> (forall r', In (DOutputs r') evs -> or_urn r' <> root) ->
       register_resource_outputs c (Done (Some root)) (VDict exports) (Some (outputs_answer h (drun h evs))) = Done ([r], Ok tt) /\
       p_alive (drun h (evs ++ [DOutputs r])%list) = true) /\
    (forall evs, p_alive (drun h evs) = true -> In (DOutputs r) evs -> one_stack root evs ->
       forall b stack, good_backend b -> stored_in b stack (snapshot_of (drun h evs)) ->
       others_storable root (snapshot_of (drun h evs)) -> ordinary stack ->
       forall f label given, (given = None /\ label = stack) \/ given = Some stack -> f_dry f = d_dry (f_deser f) ->
       forall name nrs n nsec, settled (from_input (f_dry f) name) nrs (VStr n) true nsec ->
       let (outs, names) := stack_reference f b label given in
       (exists o v s, get_output (f_dry f) outs names name = Ok o /\
          reads exports data secret n v s /\ settled o (nrs ++ [f_self f])%list v true s) /\
       (In n (map fst exports) -> ~ left_out (data n) (secret n) ->
          exists o, require_output (f_dry f) outs names name = Ok o /\ settled o (nrs ++ [f_self f])%list (data n) true (secret n)) /\
       (~ In n (map fst exports) ->
          exists o, require_output (f_dry f) outs names name = Ok o /\ o_val o = Fail (Exn "KeyError" n) /\
            o_res o = Done (nrs ++ [f_self f])%list /\ o_known o = Done false /\ o_secret o = Done false)).
Proof.
  intros h c root exports data secret Hc Hs Hu He Hnm. pose proof He as (Hn & Hr & Hm).
  assert (U : forall ps ps', bag_means (no_transform c) (Some h) None false exports ps ->
    bag_means (no_transform c) (Some h) None false exports ps' -> NoDup (map fst ps) -> NoDup (map fst ps') -> ps = ps').
  { intros ps ps' H1 H2 N1 N2. destruct (sends h c root exports ps Hc Hu H1 N1) as (r & _ & R & S), (sends h c root exports ps' Hc Hu H2 N2) as (r' & _ & R' & S').
    specialize (S (fun _ => AResp tt)). rewrite S' in S. injection S as ->. congruence. }
  destruct (bag_data (no_transform c) (Some h) (mkDcfg false (fun _ _ => Ok None) (fun _ _ _ => Ok None)) false Hs eq_refl exports data secret Hn Hr Hm) as (ps & Bm & Np & I1 & I2 & _).
  destruct (sends h c root exports ps Hc Hu Bm Np) as (r & Er & Rd & Reg).
  exists r. split; [exact Er|]. split.
  - intros evs A D1 D2. destruct (accepted h evs r ps A) as [X Y]; [now rewrite Er|now rewrite Er|exact Rd|].
    split; [|exact Y]. now rewrite Reg, X.
  - intros evs A D O b stack Hb Hst Hos Ho f label given Hg Hd name nrs n nsec Hset. destruct (kept h evs r ps A D Rd) as [id K]. rewrite Er in K.
    eapply (read_elsewhere h c root exports data secret ps evs f b label given stack); eauto.
    destruct Hg as [[-> ->]| ->]; reflexivity.
Qed.
Print Assumptions C99_exports_partial.

(* ---- a concrete case ---- *)
Definition rf_hash (p : pval) : res string := Ok "digest".
Definition rf_root : string := "urn:pulumi:net::infra::pulumi:pulumi:Stack::infra-net".
Definition rf_cfg : cfg := mkCfg true true true None (fun _ => []) (fun _ => mkRinfo true (Done None) (Done None) (Done [])).
Definition rf_exports : dict pyval :=
  [("vpc", VOut (Done [RObj 1]) (Done (VStr "vpc-1")) (Done true) (Done false));
   ("db", VDict [("host", VStr "h"); ("password", VOut (Done []) (Done (VStr "p")) (Done true) (Done true))])].
Definition rf_data (k : string) : pyval :=
  if String.eqb k "vpc" then VStr "vpc-1"
  else if String.eqb k "db" then VDict [("host", VStr "h"); ("password", VStr "p")] else VNone.
Definition rf_secret (k : string) : bool := String.eqb k "db".
Definition rf_before : list devent :=
  [DResource rf_root "" []; DResource "urn:pulumi:net::infra::aws:ec2/vpc:Vpc::main" "vpc-1" [("cidr", PStr "10.0.0.0/8")]].
Definition rf_sent (exports : dict pyval) : list devent :=
  match register_resource_outputs rf_cfg (Done (Some rf_root)) (VDict exports) (Some (outputs_answer rf_hash (drun rf_hash rf_before))) with
  | Done (rs, _) => (rf_before ++ map DOutputs rs)%list
  | _ => rf_before
  end.
Definition rf_encrypt (_ : list nat) (text : string) : res string := Ok ("#" ++ text).
Definition rf_decrypt (c : string) : res string := match c with String "#" text => Ok text | _ => Err (Exn "" "authentication failed") end.
Definition rf_backend (exports : dict pyval) : backend :=
  mkBackend toy_json toy_unjson rf_encrypt (fun text => Ok text) rf_decrypt 1
    (fun s => if String.eqb s "acme/infra/net"
              then match store_deployment toy_json rf_encrypt false (snapshot_of (drun rf_hash (rf_sent exports))) with Ok ss => Some ss | Err _ => None end
              else None).
Definition rf_referrer (dry : bool) : referrer :=
  mkReferrer dry false rf_cfg (mkDcfg dry (fun _ _ => Ok None) (fun _ _ _ => Ok None)) true (RObj 9) "urn:pulumi:dev::app::pulumi:pulumi:StackReference::net".
Definition rf_get (exports : dict pyval) (n : string) : res output :=
  let (outs, names) := stack_reference (rf_referrer false) (rf_backend exports) "net" (Some "acme/infra/net") in get_output false outs names (VStr n).
Definition rf_require (exports : dict pyval) (n : string) : res output :=
  let (outs, names) := stack_reference (rf_referrer false) (rf_backend exports) "net" (Some "acme/infra/net") in require_output false outs names (VStr n).

Lemma rf_within x y : within x y -> match y with VStr _ => x = y | VDict d => x = y \/ exists k v, In (k, v) d /\ within x v | VNone => x = VNone | _ => True end.
Proof. intros H. inversion H; subst; eauto. destruct y; auto. Qed.
Example C99_nonvacuous :
  (forall cls, class_declared (c_class rf_cfg cls)) /\ c_secrets rf_cfg = true /\ rf_root <> "" /\
  exported rf_exports rf_data rf_secret /\ readable_names rf_exports rf_data /\
  p_alive (drun rf_hash rf_before) = true /\ (exists id o, In (DResource rf_root id o) rf_before) /\
  (forall r', In (DOutputs r') rf_before -> or_urn r' <> rf_root) /\
  p_alive (drun rf_hash (rf_sent rf_exports)) = true /\ (exists r, In (DOutputs r) (rf_sent rf_exports)) /\ one_stack rf_root (rf_sent rf_exports) /\
  good_backend (rf_backend rf_exports) /\ stored_in (rf_backend rf_exports) "acme/infra/net" (snapshot_of (drun rf_hash (rf_sent rf_exports))) /\
  others_storable rf_root (snapshot_of (drun rf_hash (rf_sent rf_exports))) /\
  ordinary "acme/infra/net" /\ settled (from_input true (VOut (Done [RObj 2]) (Done (VStr "db")) (Done true) (Done false))) [RObj 2] (VStr "db") true false /\
  (exists o, rf_get rf_exports "db" = Ok o /\ settled o [RObj 9] (VDict [("host", VStr "h"); ("password", VStr "p")]) true true) /\
  (exists o, rf_get rf_exports "vpc" = Ok o /\ settled o [RObj 9] (VStr "vpc-1") true false).
Proof.
  split; [intros; repeat split; try constructor; intros f []|]. split; [reflexivity|]. split; [discriminate|].
  assert (O : forall s, In s sentinels -> s <> "vpc-1" /\ s <> "h" /\ s <> "p") by (cbn; intros s H; intuition (subst; discriminate)).
  split.
  { split; [cbn; repeat constructor; cbn; intuition discriminate|]. split; [cbn; intuition discriminate|].
    intros k v [[= <- <-]|[[= <- <-]|[]]].
    - split.
      + change (rf_secret "vpc") with (false || false). apply Spec_Meaning.Me_out; [intros K; apply rf_within in K; discriminate|apply Spec_Meaning.Me_str; discriminate|intros H0; discriminate H0].
      + split; [intros K; apply rf_within in K; discriminate|]. split; [|intros y A K; apply rf_within in K; cbn in K; subst y; destruct A].
        intros s Hs K. apply rf_within in K. cbn in K. injection K as ->. now destruct (O _ Hs).
    - split.
      + apply Spec_Meaning.Me_dict.
        { repeat split; [unfold wf_dict; cbn; repeat constructor; cbn; intuition discriminate|cbn; intuition discriminate|].
          cbn. intros k K. intuition subst; reflexivity. }
        change (rf_secret "db") with (false || (true || false)).
        apply Spec_Meaning.Me_entry; [apply Spec_Meaning.Me_str; discriminate|left; discriminate|].
        apply Spec_Meaning.Me_entry; [|left; discriminate|apply Spec_Meaning.Me_empty].
        change true with (true || false) at 2.
        apply (Spec_Meaning.Me_out false _ _ _ true false); [intros K; apply rf_within in K; discriminate|apply Spec_Meaning.Me_str; discriminate|intros H0; discriminate H0].
      + split; [|split].
        * intros K. apply rf_within in K as [K|(k & v & [[= <- <-]|[[= <- <-]|[]]] & K)]; [discriminate| |]; apply rf_within in K; discriminate.
        * intros s Hs K. apply rf_within in K as [K|(k & v & [[= <- <-]|[[= <- <-]|[]]] & K)]; [discriminate| |]; apply rf_within in K; cbn in K; injection K as ->; now destruct (O _ Hs) as (? & ? & ?).
        * intros y A K. inversion K as [|? ? ? ?|? ? ? Hi K']; subst; [destruct A|]. cbn in Hi. destruct Hi as [[= <- <-]|[[= <- <-]|[]]]; apply rf_within in K'; cbn in K'; subst y; destruct A. }
  split.
  { intros k K. cbn in K. destruct K as [<-|[<-|[]]]; (split; [discriminate|]; split; [reflexivity|]; split; [discriminate|]); intros d K.
    - apply rf_within in K. discriminate.
    - apply rf_within in K as [[= ->]|(k & v & [[= <- <-]|[[= <- <-]|[]]] & K)]; [cbn; intuition discriminate| |]; apply rf_within in K; discriminate. }
  split; [vm_compute; reflexivity|]. split; [exists "", []; now left|]. split; [intros r' [K|[K|[]]]; discriminate|].
  split; [vm_compute; reflexivity|]. split; [eexists; right; right; now left|]. split.
  { intros u id o [[= <- <- <-]|[[= <- <- <-]|[K|[]]]]; [| |discriminate].
    - exists (mkSurn "net" "infra" [] "pulumi:pulumi:Stack" "infra-net"). split; [|split; [discriminate|split; [reflexivity|split; reflexivity]]].
      repeat split; try discriminate; try Proof_Refactor.no_sep; try Proof_Refactor.walk.
      apply Forall_cons; [|apply Forall_nil]. cbn [s_type]. split; [split; [Proof_Refactor.no_sep|Proof_Refactor.walk]|Proof_Refactor.walk2].
    - exists (mkSurn "net" "infra" [] "aws:ec2/vpc:Vpc" "main"). split; [|split; [discriminate|split; [reflexivity|split; discriminate]]].
      repeat split; try discriminate; try Proof_Refactor.no_sep; try Proof_Refactor.walk.
      apply Forall_cons; [|apply Forall_nil]. cbn [s_type]. split; [split; [Proof_Refactor.no_sep|Proof_Refactor.walk]|Proof_Refactor.walk2]. }
  split; [split; [exact toy_reads|]; split; [intros place text c [= <-]; repeat split; discriminate|intros text; exists text; reflexivity]|].
  split; [split; [vm_compute; auto|exists false; eexists; split; [|reflexivity]; vm_compute; reflexivity]|].
  split.
  { intros r K N. vm_compute in K. destruct K as [<-|[<-|[]]]; [exfalso; apply N; reflexivity|].
    cbn. constructor; [repeat constructor; discriminate|cbn; intuition discriminate]. }
  split; [unfold ordinary; cbn; intuition discriminate|].
  split; [vm_compute; auto|].
  split; (eexists; split; [vm_compute; reflexivity|vm_compute; auto]).
Qed.

(** C99 is false in general.  A value exported as "secretOutputNames" is read
    under another name, because the name is translated as if it were the
    property of the reference, at every depth; and so are keys inside other
    exports.  An export that is None cannot be required. *)
Theorem C99_refuted :
  (exists o, rf_get [("secretOutputNames", VStr "x")] "secretOutputNames" = Ok o /\ o_val o = Done VNone) /\
  (exists o, rf_get [("secretOutputNames", VStr "x")] "secret_output_names" = Ok o /\ o_val o = Done (VStr "x")) /\
  (exists o, rf_get [("a", VDict [("secretOutputNames", VNum 1)])] "a" = Ok o /\ o_val o = Done (VDict [("secret_output_names", VNum 1)])) /\
  (exists o, rf_require [("note", VNone)] "note" = Ok o /\ o_val o = Fail (Exn "KeyError" "note")).
Proof. repeat split; (eexists; split; [vm_compute; reflexivity|reflexivity]). Qed.
Print Assumptions C99_refuted.
