(** C102: what a program registers as secret is in the stored state only as a
    ciphertext *)
From Verif Require Import Base PyVal Model_Rpc Spec_Rpc Model_Engine Spec_Engine Model_Register Model_Deployment Proof_Deployment
  Model_State Spec_State Proof_State Model_Reference Spec_Exports Proof_Exports.
Open Scope string_scope.

(** Let the secrets manager answer with certain ciphertexts, whatever the
    plaintexts.  Take two deployments in which the same things happen, except
    that what the secrets hold may differ, both those in the values the programs
    register as outputs (at any depth) and those in the outputs of resources.
    The states they leave are stored as the same document. *)
Theorem C102_stored :
  forall (h : pval -> res string) (evs evs' : list devent) (json : wire -> string) (answers : list nat -> res string) (ss ss' : list stored),
    Forall2 (same_event h) evs evs' ->
    store_deployment json (fun place _ => answers place) false (snapshot_of (drun h evs)) = Ok ss ->
    store_deployment json (fun place _ => answers place) false (snapshot_of (drun h evs')) = Ok ss' ->
    ss = ss'.
Proof. intros h evs evs' json answers ss ss' F. apply deployment_hidden, snapshot_alike, run_alike, F. Qed.

(** Nor do the programs learn anything about each other's secrets: the engine
    gives both the same answers. *)
Theorem C102_answers :
  forall (h : pval -> res string) (evs evs' : list devent) (c : cfg) (urn : string) (outputs outputs' : dict pyval) (r r' : outputs_request),
    Forall2 (same_event h) evs evs' -> same_public_bag outputs outputs' ->
    registers h c urn outputs r -> registers h c urn outputs' r' ->
    outputs_answer h (drun h evs) r = outputs_answer h (drun h evs') r'.
Proof. intros. eapply answer_alike; eauto. now apply run_alike. Qed.

(* ---- a concrete case ---- *)
Definition ex_hash (p : pval) : res string := Ok "digest".
Definition ex_root : string := "urn:pulumi:net::infra::pulumi:pulumi:Stack::infra-net".
Definition ex_cfg : cfg :=
  mkCfg true true true None (fun _ => [mkField "user_name" "userName" None; mkField "pass_word" "passWord" (Some TyAny)])
    (fun _ => mkRinfo true (Done None) (Done None) (Done [])).
Definition ex_secret (v : pyval) : pyval := VOut (Done []) (Done v) (Done true) (Done true).
Definition ex_exports (v : pyval) : dict pyval :=
  [("vpc", VOut (Done [RObj 1]) (Done (VStr "vpc-1")) (Done true) (Done false));
   ("login", VAwait (Done (VInput 0 [("user_name", VStr "u"); ("pass_word", ex_secret v)])));
   ("all", VList [VNum 1; VDict [("k", ex_secret v)]]);
   ("none", VNone)].
Definition ex_request (v : pyval) : outputs_request :=
  match register_resource_outputs ex_cfg (Done (Some ex_root)) (VDict (ex_exports v)) (Some (fun _ => AResp tt)) with
  | Done ([r], _) => r
  | _ => mkOutputsRequest "" []
  end.
Definition ex_events (secret : pval) (v : pyval) : list devent :=
  [DResource ex_root "" []; DResource "urn:pulumi:net::infra::a:b:C::main" "c-1" [("key", PSecret secret); ("cidr", PStr "10.0.0.0/8")];
   DOutputs (ex_request v)].
Definition ex_means (p : pval) : list (string * pval) :=
  [("vpc", PStr "vpc-1"); ("login", PObj [("userName", PStr "u"); ("passWord", PSecret p)]); ("all", PArr [PNum 1; PObj [("k", PSecret p)]])].

Lemma ex_bag v p : contains_unknowns v = false -> means ex_cfg (Some ex_hash) None false v p ->
  bag_means (mkCfg true true true None (c_class ex_cfg) (c_res ex_cfg)) (Some ex_hash) None false (ex_exports v) (ex_means p).
Proof.
  intros U M. change (mkCfg true true true None (c_class ex_cfg) (c_res ex_cfg)) with ex_cfg.
  assert (O1 : ordinary "vpc-1") by (intros K; cbn in K; intuition discriminate). assert (O2 : ordinary "u") by (intros K; cbn in K; intuition discriminate).
  assert (S : forall t, t = None \/ t = Some TyAny -> means ex_cfg (Some ex_hash) t false (ex_secret v) (PSecret p)).
  { intros t Ht. change (PSecret p) with (if c_secrets ex_cfg then PSecret p else p). destruct Ht as [-> | ->]; [|apply Me_any]; now apply Me_secret. }
  eapply Bag_cons; [now constructor|constructor|apply Me_output; [reflexivity|reflexivity|now constructor]|discriminate|].
  eapply Bag_cons; [now constructor|constructor| |discriminate|].
  { apply Me_await, Me_input; [|cbn; split; [repeat constructor; cbn; intuition discriminate|cbn; intuition discriminate]].
    eapply Fl_given; [reflexivity|discriminate|now constructor|]. eapply Fl_given; [reflexivity|discriminate|apply S; now right|constructor]. }
  eapply Bag_cons; [now constructor|constructor| |discriminate|].
  { eapply Me_list; [constructor|]. constructor; [constructor|]. constructor; [|constructor].
    apply Me_dict; [|cbn; split; [repeat constructor; cbn; intuition discriminate|cbn; intuition discriminate]].
    eapply Ent_cons; [now constructor|constructor|apply S; now left|constructor]. }
  eapply Bag_null; [now constructor|constructor|constructor|constructor].
Qed.
Lemma ex_registers v p : contains_unknowns v = false -> means ex_cfg (Some ex_hash) None false v p ->
  registers ex_hash ex_cfg ex_root (ex_exports v) (ex_request v).
Proof.
  intros U M.
  assert (Hc : forall cls, class_declared (c_class ex_cfg cls)).
  { intros cls. cbn. repeat split; [repeat constructor; cbn; intuition discriminate|repeat constructor; cbn; intuition discriminate|].
    intros f [<-|[<-|[]]]; discriminate. }
  assert (N : NoDup (map fst (ex_means p))) by (cbn; repeat constructor; cbn; intuition discriminate).
  assert (Hr : ex_root <> "") by discriminate.
  destruct (sends ex_hash ex_cfg ex_root (ex_exports v) (ex_means p) Hc Hr (ex_bag v p U M) N) as (r & Er & _ & S).
  split; [exact Hc|]. split; [reflexivity|]. split; [exact Hr|]. split; [exists (ex_means p); split; [exact (ex_bag v p U M)|exact N]|].
  intros m. unfold ex_request. rewrite !S. eauto.
Qed.

(** One program exports a password, the other a list in its place; a provider
    answers with different keys; and the stored states are the same. *)
Example C102_nonvacuous :
  Forall2 (same_event ex_hash) (ex_events (PStr "k1") (VStr "p")) (ex_events (PNum 2) (VList [VNum 3; VNone])) /\
  registers ex_hash ex_cfg ex_root (ex_exports (VStr "p")) (ex_request (VStr "p")) /\
  registers ex_hash ex_cfg ex_root (ex_exports (VList [VNum 3; VNone])) (ex_request (VList [VNum 3; VNone])) /\
  or_outputs (ex_request (VStr "p")) <> or_outputs (ex_request (VList [VNum 3; VNone])) /\
  exists ss, ss <> [] /\
    store_deployment toy_json (fun _ _ => Ok "xyz") false (snapshot_of (drun ex_hash (ex_events (PStr "k1") (VStr "p")))) = Ok ss /\
    store_deployment toy_json (fun _ _ => Ok "xyz") false (snapshot_of (drun ex_hash (ex_events (PNum 2) (VList [VNum 3; VNone])))) = Ok ss /\
    store_deployment toy_json (fun _ text => Ok text) false (snapshot_of (drun ex_hash (ex_events (PNum 2) (VList [VNum 3; VNone])))) <> Ok ss.
Proof.
  assert (R1 : registers ex_hash ex_cfg ex_root (ex_exports (VStr "p")) (ex_request (VStr "p"))).
  { apply ex_registers with (p := PStr "p"); [reflexivity|]. constructor. intros K; cbn in K; intuition discriminate. }
  assert (R2 : registers ex_hash ex_cfg ex_root (ex_exports (VList [VNum 3; VNone])) (ex_request (VList [VNum 3; VNone]))).
  { apply ex_registers with (p := PArr [PNum 3; PNull]); [reflexivity|]. eapply Me_list; repeat constructor. }
  split.
  { constructor; [apply Se_same|]. constructor; [apply Se_resource|].
    - constructor. constructor; [split; [reflexivity|constructor]|]. constructor; [split; [reflexivity|apply Al_same]|constructor].
    - constructor; [|constructor]. eapply Se_outputs; [|exact R1|exact R2].
      constructor; [split; [reflexivity|apply Sp_same]|]. constructor.
      { split; [reflexivity|]. apply Sp_await, Sp_input. constructor; [split; [reflexivity|apply Sp_same]|]. constructor; [split; [reflexivity|apply Sp_secret]|constructor]. }
      constructor; [|constructor; [split; [reflexivity|apply Sp_same]|constructor]].
      split; [reflexivity|]. apply Sp_list. constructor; [apply Sp_same|]. constructor; [|constructor]. apply Sp_dict.
      constructor; [split; [reflexivity|apply Sp_secret]|constructor]. }
  split; [exact R1|]. split; [exact R2|]. split; [vm_compute; discriminate|].
  destruct (store_deployment toy_json (fun _ _ => Ok "xyz") false (snapshot_of (drun ex_hash (ex_events (PStr "k1") (VStr "p"))))) as [ss|] eqn:E; [|vm_compute in E; discriminate].
  exists ss. vm_compute in E. injection E as <-. split; [discriminate|]. split; [reflexivity|]. split; [vm_compute; reflexivity|vm_compute; discriminate].
Qed.
Print Assumptions C102_stored.
Print Assumptions C102_answers.
