(** C105, C106: the outputs of a stack *)
From Verif Require Import Base PyVal Model_Rpc Spec_Rpc Model_Engine Spec_Engine Model_Translate Model_Register Model_Deployment Spec_Deployment Proof_Deployment
  Model_Output Model_StackRef Spec_Urn Model_State Spec_State Proof_State Model_Reference Spec_Reference Proof_Reference Model_Outputs Spec_Outputs Proof_Outputs.
From Verif Require Import Model_Cmd Model_StackInit Model_Json Model_WsConfig Spec_WsConfig Model_WsState.
From Verif Require Import Proof_WsConfig.
From Verif Require Spec_Json Spec_WsState Prop_WsState Proof_WsState Prop_WsConfig Prop_Reference Proof_Refactor.
Open Scope string_scope.

(** C105.  Full property: what a program exports is what outputs() of the automation API gives
    after the update: under each name the value of the export, said to be secret iff there is a
    secret in it; exports that are None are left out.

    First, exactly what it gives.  For every history of the deployment, every backend that stores
    the state it leaves, every CLI and whatever others do between its two runs as long as the
    state remains, and data of every shape: every value, but said to be secret iff the
    export is secret as a whole or is the text the CLI shows for secrets. *)
Theorem C105_exact : forall h c root exports data,
  (forall cls, class_declared (c_class c cls)) -> c_secrets c = true -> root <> "" -> exports_data exports data ->
  exists r, or_urn r = root /\
    (forall evs, p_alive (drun h evs) = true ->
       (exists id o, In (DResource root id o) evs) -> (forall r', In (DOutputs r') evs -> or_urn r' <> root) ->
       register_resource_outputs c (Done (Some root)) (VDict exports) (Some (outputs_answer h (drun h evs))) = Done ([r], Ok tt) /\
       p_alive (drun h (evs ++ [DOutputs r])%list) = true) /\
    (forall evs, p_alive (drun h evs) = true -> In (DOutputs r) evs -> one_stack root evs ->
       others_storable root (snapshot_of (drun h evs)) ->
       forall b meanwhile stack print_json trouble, Spec_WsState.printer print_json ->
       good_backend b -> stored_in b stack (snapshot_of (drun h evs)) ->
       good_backend (meanwhile b) -> stored_in (meanwhile b) stack (snapshot_of (drun h evs)) ->
       let a := stack_outputs (cli_outputs print_json trouble) meanwhile b stack in
       (fst a = b \/ fst a = meanwhile b) /\
       ((exists k, snd a = CliError k /\ ~ (forall x y, trouble x y = None)) \/
        exists d, snd a = Got d /\ NoDup (map fst d) /\
          forall k x m, In (k, (x, m)) d <->
            exists v, In (k, v) exports /\ ~ nothing v (data k) /\ x = data k /\ (m = true <-> whole_secret v \/ data k = VStr "[secret]"))).
Proof.
  intros h c root exports data Hc Hs Hu He.
  destruct (bag_worth (no_transform c) (Some h) Hs eq_refl exports data He) as (ps & Bm & Np & G & A & I).
  destruct (sends h c root exports ps Hc Hu Bm Np) as (r & Er & Rd & Reg).
  exists r. split; [exact Er|]. split.
  - intros evs Al D1 D2. destruct (accepted h evs r ps Al) as [X Y]; [now rewrite Er|now rewrite Er|exact Rd|].
    split; [|exact Y]. now rewrite Reg, X.
  - intros evs Al D O Os b meanwhile stack print_json trouble Hp Hb St Hb' St'.
    destruct (kept h evs r ps Al D Rd) as [id K]. rewrite Er in K.
    assert (Sps : storable (PObj ps)).
    { constructor; [|intros Ki; apply (proj1 (proj2 He)); now apply I]. apply Forall_forall. intros [k p] Ki. now destruct (G k p Ki) as (v & _ & _ & _ & S & _). }
    destruct (outputs_given print_json trouble Hp meanwhile b stack ps data Np) as [P1 P2].
    + intros k p Ki. now destruct (G k p Ki) as (v & _ & _ & T & _).
    + eapply stored_outputs; eauto.
    + eapply stored_outputs; eauto.
    + cbv zeta. split; [exact P1|]. destruct P2 as [P2|(d & Ed & Ek & W)]; [now left|right]. exists d. split; [exact Ed|].
      split; [now rewrite Ek|]. intros k x m. split.
      * intros Ki. destruct (W k x m Ki) as (-> & p & Kp & Em). destruct (G k p Kp) as (v & Kv & Nn & _ & _ & Wv).
        exists v. split; [exact Kv|]. split; [exact Nn|]. split; [reflexivity|]. now rewrite Em, Wv.
      * intros (v & Kv & Nn & -> & Em). destruct (A k v Kv Nn) as (p & Kp).
        assert (Kd : In k (map fst d)) by (rewrite Ek; now apply (in_map fst) in Kp).
        apply in_map_iff in Kd as ([k' [x' m']] & Ek' & Kd). cbn [fst] in Ek'. subst k'. destruct (W k x' m' Kd) as (-> & p' & Kp' & Em').
        destruct (G k p' Kp') as (v' & Kv' & _ & _ & _ & Wv'). assert (v' = v) by (apply (in_dget _ _ _ (proj1 He)) in Kv, Kv'; congruence). subst v'.
        assert (m' = m). { rewrite Wv' in Em'. destruct m, m'; try reflexivity; [apply Em', Em; reflexivity|symmetry; apply Em, Em'; reflexivity]. }
        subst m'. exact Kd.
Qed.
Print Assumptions C105_exact.

(** The property, for exports other than the text the CLI shows for secrets, and in which there is
    no secret unless they are secret as a whole. *)
Theorem C105_outputs_partial : forall h c root exports data,
  (forall cls, class_declared (c_class c cls)) -> c_secrets c = true -> root <> "" -> exports_data exports data ->
  (forall k v, In (k, v) exports -> data k <> VStr "[secret]" /\ (some_secret v -> whole_secret v)) ->
  exists r, or_urn r = root /\
    (forall evs, p_alive (drun h evs) = true ->
       (exists id o, In (DResource root id o) evs) -> (forall r', In (DOutputs r') evs -> or_urn r' <> root) ->
       register_resource_outputs c (Done (Some root)) (VDict exports) (Some (outputs_answer h (drun h evs))) = Done ([r], Ok tt) /\
       p_alive (drun h (evs ++ [DOutputs r])%list) = true) /\
    (forall evs, p_alive (drun h evs) = true -> In (DOutputs r) evs -> one_stack root evs ->
       others_storable root (snapshot_of (drun h evs)) ->
       forall b meanwhile stack print_json trouble, Spec_WsState.printer print_json ->
       good_backend b -> stored_in b stack (snapshot_of (drun h evs)) ->
       good_backend (meanwhile b) -> stored_in (meanwhile b) stack (snapshot_of (drun h evs)) ->
       let a := stack_outputs (cli_outputs print_json trouble) meanwhile b stack in
       (fst a = b \/ fst a = meanwhile b) /\
       ((exists k, snd a = CliError k /\ ~ (forall x y, trouble x y = None)) \/
        exists d, snd a = Got d /\ gives_outputs exports data d)).
Proof.
  intros h c root exports data Hc Hs Hu He Hw. destruct (C105_exact h c root exports data Hc Hs Hu He) as (r & Er & R1 & R2).
  exists r. split; [exact Er|]. split; [exact R1|]. intros evs Al D O Os b meanwhile stack print_json trouble Hp Hb St Hb' St'.
  destruct (R2 evs Al D O Os b meanwhile stack print_json trouble Hp Hb St Hb' St') as [P1 P2]. cbv zeta. split; [exact P1|].
  destruct P2 as [P2|(d & Ed & N & W)]; [now left|right]. exists d. split; [exact Ed|]. split; [exact N|]. intros k x m. rewrite W.
  assert (E : forall v, In (k, v) exports -> (whole_secret v \/ data k = VStr "[secret]") <-> some_secret v).
  { intros v K. destruct (Hw k v K) as [H1 H2]. split; [intros [H|H]; [now apply whole_some|contradiction]|auto]. }
  split; intros (v & K & Nn & Ex & Em); exists v; (split; [exact K|]; split; [exact Nn|]; split; [exact Ex|]); rewrite Em; [|symmetry]; now apply E.
Qed.
Print Assumptions C105_outputs_partial.

(* ---- a concrete case ---- *)
Definition oc_exports : dict pyval :=
  [("url", VOut (Done [RObj 1]) (Done (VStr "http")) (Done true) (Done false));
   ("token", VOut (Done []) (Done (VDict [("t", VStr "shh"); ("n", VNone)])) (Done true) (Done true));
   ("deep", VList [VNum 1; VDict [("a", VNone)]]); ("none", VNone)].
Definition oc_data (k : string) : pyval :=
  if String.eqb k "url" then VStr "http" else if String.eqb k "token" then VDict [("t", VStr "shh"); ("n", VNone)]
  else if String.eqb k "deep" then VList [VNum 1; VDict [("a", VNone)]] else VNone.
Definition oc_cli : cli backend := cli_outputs Prop_WsConfig.ex_print (fun _ _ => None).
Definition oc_outputs (exports : dict pyval) : answer (dict (pyval * bool)) :=
  snd (stack_outputs oc_cli (fun b => b) (Prop_Reference.rf_backend exports) "acme/infra/net").
Example C105_case :
  exports_data oc_exports oc_data /\
  (forall k v, In (k, v) oc_exports -> oc_data k <> VStr "[secret]" /\ (some_secret v -> whole_secret v)) /\
  p_alive (drun Prop_Reference.rf_hash (Prop_Reference.rf_sent oc_exports)) = true /\
  stored_in (Prop_Reference.rf_backend oc_exports) "acme/infra/net" (snapshot_of (drun Prop_Reference.rf_hash (Prop_Reference.rf_sent oc_exports))) /\
  oc_outputs oc_exports = Got [("url", (VStr "http", false)); ("token", (VDict [("t", VStr "shh"); ("n", VNone)], true)); ("deep", (VList [VNum 1; VDict [("a", VNone)]], false))].
Proof.
  assert (O : forall s, In s ["http"; "shh"] -> ordinary s) by (intros s K H; cbn in K, H; intuition (subst; discriminate)).
  assert (NU : forall d, (forall k v, In (k, v) d -> match v with VStr _ | VNone => True | _ => False end) -> ~ within VUnknown (VDict d)).
  { intros d H K. apply within_dict in K as [K|(k & v & Hi & Kv)]; [discriminate|]. specialize (H k v Hi). inversion Kv; subst; contradiction. }
  assert (SL : forall l, some_secret (VList l) -> exists v, In v l /\ some_secret v) by (intros l H; inversion H; eauto).
  assert (SD : forall d, some_secret (VDict d) -> exists k v, In (k, v) d /\ some_secret v) by (intros d H; inversion H; eauto).
  split.
  { split; [cbn; repeat constructor; cbn; intuition discriminate|]. split; [cbn; intuition discriminate|].
    intros k v [[= <- <-]|[[= <- <-]|[[= <- <-]|[[= <- <-]|[]]]]]; cbn.
    - apply Wo_out; [intros K; inversion K|]. apply Wo_str, O. cbn. tauto.
    - apply Wo_out; [apply NU; intros k v [[= <- <-]|[[= <- <-]|[]]]; exact I|].
      apply Wo_dict; [cbn; repeat constructor; cbn; intuition discriminate|cbn; intuition discriminate|].
      apply Wo_entry; [apply Wo_str, O; cbn; tauto|]. apply Wo_entry; [apply Wo_none|apply Wo_empty].
    - apply Wo_list. apply Wo_cons; [apply Wo_num|]. apply Wo_cons; [|apply Wo_nil].
      apply Wo_dict; [cbn; repeat constructor; cbn; intuition discriminate|cbn; intuition discriminate|]. apply Wo_entry; [apply Wo_none|apply Wo_empty].
    - apply Wo_none. }
  split.
  { intros k v [[= <- <-]|[[= <- <-]|[[= <- <-]|[[= <- <-]|[]]]]]; (split; [discriminate|]); intros H.
    - inversion H as [|? ? ? ? Hv| | |]; subst. inversion Hv.
    - constructor.
    - exfalso. apply SL in H as (v & [<-|[<-|[]]] & Hv); [inversion Hv|]. apply SD in Hv as (k & v & [[= <- <-]|[]] & Hv). inversion Hv.
    - inversion H. }
  split; [vm_compute; reflexivity|]. split; [split; [vm_compute; auto|exists false; eexists; split; [|reflexivity]; vm_compute; reflexivity]|].
  vm_compute. reflexivity.
Qed.

(** The property as stated is false: of an export with a secret inside, the whole is given as if it
    were not secret, though a StackReference says it is (C99); and an export that reads "[secret]"
    is said to be one. *)
Theorem C105_refuted :
  (exists o, Prop_Reference.rf_get Prop_Reference.rf_exports "db" = Ok o /\ o_secret o = Done true) /\
  oc_outputs Prop_Reference.rf_exports = Got [("vpc", (VStr "vpc-1", false)); ("db", (VDict [("host", VStr "h"); ("password", VStr "p")], false))] /\
  oc_outputs [("note", VStr "[secret]")] = Got [("note", (VStr "[secret]", true))].
Proof. split; [eexists; split; [vm_compute; reflexivity|vm_compute; reflexivity]|]. split; vm_compute; reflexivity. Qed.
Print Assumptions C105_refuted.

(* ------------------------------------------------------------------ *)
(** C106.  Without "--show-secrets" the CLI tells nothing of the contents of secrets: for any two
    backends, however they encrypt, in which the stack has states that differ only in what is in
    their secrets, "pulumi stack output --json" answers the same, to the letter. *)
Theorem C106_masked : forall print_json trouble b b' name rs rs',
  good_backend b -> good_backend b' -> b_json b' = b_json b ->
  Forall storable_resource rs -> Forall storable_resource rs' -> stored_in b name rs -> stored_in b' name rs' ->
  Forall2 alike_resources rs rs' ->
  (forall words, trouble b words = trouble b' words) ->
  snd (command (cli_outputs print_json trouble) b [VStr "stack"; VStr "output"; VStr "--json"; VStr "--stack"; VStr name]) =
  snd (command (cli_outputs print_json trouble) b' [VStr "stack"; VStr "output"; VStr "--json"; VStr "--stack"; VStr name]).
Proof.
  intros print_json trouble b b' name rs rs' Hb Hb' Hj Hs Hs' St St' Al Ht.
  change [VStr "stack"; VStr "output"; VStr "--json"; VStr "--stack"; VStr name] with (map VStr (Proof_WsState.output_words false name)).
  assert (L : forall x ys, good_backend x -> Forall storable_resource ys -> stored_in x name ys ->
    exists ss, b_stacks x name = Some ss /\ load_deployment (b_unjson x) (b_again x) (b_decrypt x) (b_depth x) ss = Ok ys).
  { intros x ys (J & Dc & Ag) S (Nest & show & ss & W & B). exists ss. split; [exact B|].
    apply (deployment_back (b_json x) (b_unjson x) (b_again x) J show ys (b_encrypt x) (b_decrypt x) ss (fun _ => Ag) S); [|exact W|exact Nest].
    intros place w c C. exact (Dc _ _ _ C). }
  destruct (L b rs Hb Hs St) as (ss & B & Ld), (L b' rs' Hb' Hs' St') as (ss' & B' & Ld').
  assert (E : snd (cli_outputs print_json trouble b (final_words (Proof_WsState.output_words false name))) =
              snd (cli_outputs print_json trouble b' (final_words (Proof_WsState.output_words false name)))).
  { destruct (trouble b (final_words (Proof_WsState.output_words false name))) as [err|] eqn:Et.
    - unfold cli_outputs. rewrite <- Ht, Et. reflexivity.
    - rewrite !cli_words by (rewrite <- ?Ht; exact Et). unfold output_command. rewrite B, B', Ld, Ld', Hj. cbn [rbind]. rewrite (shown_alike (b_json b) rs rs' Al).
      destruct (shown_outputs (b_json b) false rs'); reflexivity. }
  destruct (cli_outputs print_json trouble b (final_words (Proof_WsState.output_words false name))) as [s1 [[o1 e1] k1]] eqn:E1.
  destruct (cli_outputs print_json trouble b' (final_words (Proof_WsState.output_words false name))) as [s2 [[o2 e2] k2]] eqn:E2.
  cbn [snd] in E. injection E as <- <- <-. rewrite (command_words _ _ _ _ _ _ _ E1), (command_words _ _ _ _ _ _ _ E2). reflexivity.
Qed.
Print Assumptions C106_masked.

(** Two states with the same outputs but for their secrets, in backends that encrypt differently. *)
Definition mk_state (secret : string) : list rstate :=
  [mkRstate Prop_Reference.rf_root "pulumi:pulumi:Stack" false "" [] [("a", PNum 1); ("b", PArr [PSecret (PStr secret); PStr "c"])] VNone].
Definition mk_backend (pad : string) (rs : list rstate) : backend :=
  let enc (_ : list nat) (text : string) : res string := Ok ("#" ++ pad ++ text) in
  let dec (c : string) : res string := match c with String "#" text => Ok (substring (String.length pad) (String.length text) text) | _ => Err (Exn "" "") end in
  mkBackend toy_json toy_unjson enc (fun text => Ok text) dec 1
    (fun s => if String.eqb s "dev" then match store_deployment toy_json enc false rs with Ok ss => Some ss | Err _ => None end else None).
Example C106_case :
  Forall storable_resource (mk_state "shh") /\ Forall2 alike_resources (mk_state "shh") (mk_state "hush") /\
  stored_in (mk_backend "" (mk_state "shh")) "dev" (mk_state "shh") /\ stored_in (mk_backend "x" (mk_state "hush")) "dev" (mk_state "hush") /\
  snd (command oc_cli (mk_backend "" (mk_state "shh")) [VStr "stack"; VStr "output"; VStr "--json"; VStr "--stack"; VStr "dev"]) =
    Got "{""a"": 1, ""b"": [""[secret]"", ""c""]}" /\
  snd (command oc_cli (mk_backend "x" (mk_state "hush")) [VStr "stack"; VStr "output"; VStr "--json"; VStr "--show-secrets"; VStr "--stack"; VStr "dev"]) =
    Got "{""a"": 1, ""b"": [""hush"", ""c""]}".
Proof.
  split; [constructor; [|constructor]; repeat split; try discriminate; cbn; constructor; cbn; try (intuition discriminate); repeat constructor; discriminate|].
  split; [constructor; [|constructor]; repeat split; [apply Al_same|]; cbn [t_outputs]; apply Al_obj; constructor; [split; [reflexivity|apply Al_same]|];
          constructor; [split; [reflexivity|]; cbn [snd]; apply Al_arr; constructor; [apply Al_secret|constructor; [apply Al_same|constructor]]|constructor]|].
  split; [split; [vm_compute; auto|exists false; eexists; split; [|reflexivity]; vm_compute; reflexivity]|].
  split; [split; [vm_compute; auto|exists false; eexists; split; [|reflexivity]; vm_compute; reflexivity]|].
  split; vm_compute; reflexivity.
Qed.
