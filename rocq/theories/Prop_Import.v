(** Exporting and importing the states of stacks: what the documents say. *)
From Verif Require Import Base PyVal Model_Urn Model_Cmd Model_StackInit Model_Rpc Model_Engine Model_State Spec_State Proof_State Model_WsConfig Spec_WsConfig Model_WsState Spec_WsState Model_WsImport Spec_WsImport Proof_WsImport Model_Import Spec_Import Proof_Import.
From Verif Require Spec_Json Model_Json Prop_WsConfig Prop_WsImport Prop_State.
Open Scope string_scope.
Open Scope list_scope.

(* ------------------------------------------------------------------ *)
(** C109.  For every stack whose state can be read and passes the checks: exporting
    gives a document with its secrets in plaintext that says what the state says,
    and importing it later, whatever has happened to the stack, leaves the stack
    with a document that says the same, with its secrets encrypted and without
    pending operations.  Neither changes anything else. *)
Theorem C109_export_import :
  forall json unjson of_type n sha upgrade read_json print_json trouble temp (s s2 : stores) name d snap,
  json_reads json unjson -> (forall secrets m, of_type secrets = Ok m -> works m) -> printer print_json -> reader read_json ->
  dget (fst s) name = Some d -> plain d -> deserialize unjson of_type n d = Ok snap ->
  Forall ordinary (sn_resources snap) -> Forall ordinary (map snd (sn_pending snap)) ->
  Forall (fun r => of_stack name (t_urn r)) (sn_resources snap) -> cookie sha (sn_manifest snap) -> consistent (sn_resources snap) ->
  In name (dkeys (fst s2)) -> ~ In (temp (snd s2)) (dkeys (snd s2)) -> temp (snd s2) <> "" ->
  let c := cli_states json unjson of_type n sha upgrade read_json print_json trouble in
  fst (export_stack c s name) = s /\
  ((exists k, snd (export_stack c s name) = CliError k /\ ~ (forall a b, trouble a b = None)) \/
   exists st, snd (export_stack c s name) = Got st /\
     d_version st = VNum 3 /\ plain (d_deployment st) /\ readable (d_deployment st) /\ deserialize unjson of_type n (d_deployment st) = Ok snap /\
     let r := import_stack temp c s2 name st in
     (exists k, snd r = CliError k /\ fst (fst r) = fst s2 /\ ~ (forall a b, trouble a b = None)) \/
     (snd r = Got tt /\ snd (fst r) = snd s2 /\ (forall other, other <> name -> dget (fst (fst r)) other = dget (fst s2) other) /\
      exists d2, dget (fst (fst r)) name = Some d2 /\ plain d2 /\ hidden d2 /\
        deserialize unjson of_type n d2 = Ok (mkSnapshot (sn_manifest snap) (sn_secrets snap) (sn_resources snap) []))).
Proof.
  intros json unjson of_type n sha upgrade read_json print_json trouble temp s s2 name d snap J W Hp Hr Hd Pd D Or Op St Ck Co In2 Hf Hn c.
  destruct (export_ok json unjson of_type n d snap J W Pd D Or Op) as (v & Ev & Pv & Rv & Dv).
  destruct (export_spec (fun d => match export_document json unjson of_type n d with Ok v => v | Err _ => VNone end) (fun name version doc => match import_document json unjson of_type n sha upgrade name version doc with Ok v => Some v | Err _ => None end)
    read_json print_json trouble Hp s name) as (E1 & E2).
  { intros d0 E0. assert (d0 = d) by congruence. subst. now rewrite Ev. }
  fold (cli_states json unjson of_type n sha upgrade read_json print_json trouble) in E1, E2. fold c in E1, E2. split; [exact E1|].
  destruct E2 as [(k & Ek & T)|(d0 & E0 & Eg)]; [left; exists k; split; [exact Ek|]; apply T; eapply dget_key; eauto|right].
  assert (d0 = d) by congruence. subst d0. rewrite Ev in Eg. eexists. split; [exact Eg|]. cbn [d_version d_deployment]. do 4 (split; [auto|]).
  destruct (import_ok json unjson of_type n sha upgrade name (VNum 3) v snap J W v eq_refl Pv Dv Or Op (conj St (conj Ck Co))) as (d2 & Ei & P2 & H2 & D2).
  destruct (import_spec (fun d => match export_document json unjson of_type n d with Ok v => v | Err _ => VNone end)
    (fun name version doc => match import_document json unjson of_type n sha upgrade name version doc with Ok v => Some v | Err _ => None end)
    read_json print_json trouble temp Hr s2 name (mkDeployment (VNum 3) v)) as [(old & d3 & Eo & Ea & F1 & F2)|(k & t & F1 & F2 & _ & F3)]; cbn [d_version d_deployment] in *; auto; [constructor| |].
  - right. fold (cli_states json unjson of_type n sha upgrade read_json print_json trouble) in F1, F2. fold c in F1, F2. rewrite Ei in Ea. injection Ea as <-. rewrite F1, F2. cbn [fst snd].
    split; [reflexivity|]. split; [reflexivity|]. split.
    + intros other N. rewrite dget_dset. destruct (String.eqb_spec other name); [contradiction|reflexivity].
    + exists d2. rewrite dget_dset, String.eqb_refl. auto.
  - left. exists k. fold (cli_states json unjson of_type n sha upgrade read_json print_json trouble) in F1, F2. fold c in F1, F2. rewrite F2. split; [exact F1|]. split; [reflexivity|]. apply F3; [exact In2|]. now rewrite Ei.
Qed.
Print Assumptions C109_export_import.

(* ------------------------------------------------------------------ *)
(** C110.  For every stack and deployment: importing either fails and changes no
    stack, or the deployment, brought to version 3, can be read, all of its
    resources are of this stack, its manifest has the right cookie and its
    resources are consistent, and the stack's new document says what the deployment
    says, with its secrets encrypted and without pending operations; and no other
    stack and no file changes. *)
Theorem C110_import_checked :
  forall json unjson of_type n sha upgrade read_json print_json trouble temp (s : stores) name st,
  json_reads json unjson -> (forall secrets m, of_type secrets = Ok m -> works m) -> reader read_json ->
  plain (d_version st) -> plain (d_deployment st) -> ~ In (temp (snd s)) (dkeys (snd s)) -> temp (snd s) <> "" ->
  let r := import_stack temp (cli_states json unjson of_type n sha upgrade read_json print_json trouble) s name st in
  (exists k, snd r = CliError k /\ fst (fst r) = fst s) \/
  (snd r = Got tt /\ In name (dkeys (fst s)) /\ snd (fst r) = snd s /\ (forall other, other <> name -> dget (fst (fst r)) other = dget (fst s) other) /\
   exists v snap d2,
     (d_version st = VNum 3 /\ v = d_deployment st \/ exists z, (1 <= z <= 2)%Z /\ d_version st = VNum z /\ upgrade z (d_deployment st) = Ok v) /\
     deserialize unjson of_type n v = Ok snap /\
     Forall (fun r => of_stack name (t_urn r)) (sn_resources snap) /\ cookie sha (sn_manifest snap) /\ consistent (sn_resources snap) /\
     dget (fst (fst r)) name = Some d2 /\
     (plain v -> Forall ordinary (sn_resources snap) -> Forall ordinary (map snd (sn_pending snap)) ->
      plain d2 /\ hidden d2 /\ deserialize unjson of_type n d2 = Ok (mkSnapshot (sn_manifest snap) (sn_secrets snap) (sn_resources snap) []))).
Proof.
  intros json unjson of_type n sha upgrade read_json print_json trouble temp s name st J W Hr Pv Pd Hf Hn r.
  destruct (import_spec (fun d => match export_document json unjson of_type n d with Ok v => v | Err _ => VNone end)
    (fun name version doc => match import_document json unjson of_type n sha upgrade name version doc with Ok v => Some v | Err _ => None end)
    read_json print_json trouble temp Hr s name st Pv Pd Hf Hn) as [(old & d3 & Eo & Ea & F1 & F2)|(k & t & F1 & F2 & _ & F3)];
    fold (cli_states json unjson of_type n sha upgrade read_json print_json trouble) in F1, F2; fold r in F1, F2.
  - right. rewrite F1, F2. cbn [fst snd]. destruct (import_document json unjson of_type n sha upgrade name (d_version st) (d_deployment st)) as [d2|] eqn:Ei; [|discriminate].
    injection Ea as <-. destruct (import_inv _ _ _ _ _ _ _ _ _ _ Ei) as (v & snap & U & D & C). split; [reflexivity|]. split; [eapply dget_key; eauto|]. split; [reflexivity|]. split.
    { intros other N. rewrite dget_dset. destruct (String.eqb_spec other name); [contradiction|reflexivity]. }
    exists v, snap, d2. split; [now apply untyped_inv|]. split; [exact D|]. destruct C as (C1 & C2 & C3). split; [exact C1|]. split; [exact C2|]. split; [exact C3|].
    split; [now rewrite dget_dset, String.eqb_refl|]. intros P Or Op.
    destruct (import_ok json unjson of_type n sha upgrade name _ _ snap J W v U P D Or Op (conj C1 (conj C2 C3))) as (d4 & E4 & P2 & H2 & D2). assert (d4 = d2) by congruence. subst d4. auto.
  - left. exists k. rewrite F2. auto.
Qed.
Print Assumptions C110_import_checked.
(** Nothing else keeps a deployment from being imported. *)
Theorem C110_import_accepts :
  forall json unjson of_type n sha upgrade read_json print_json trouble temp (s : stores) name st v snap,
  json_reads json unjson -> (forall secrets m, of_type secrets = Ok m -> works m) -> reader read_json ->
  plain (d_version st) -> plain (d_deployment st) -> ~ In (temp (snd s)) (dkeys (snd s)) -> temp (snd s) <> "" ->
  (d_version st = VNum 3 /\ v = d_deployment st \/ exists z, (1 <= z <= 2)%Z /\ d_version st = VNum z /\ upgrade z (d_deployment st) = Ok v) ->
  plain v -> deserialize unjson of_type n v = Ok snap -> Forall ordinary (sn_resources snap) -> Forall ordinary (map snd (sn_pending snap)) ->
  Forall (fun r => of_stack name (t_urn r)) (sn_resources snap) -> cookie sha (sn_manifest snap) -> consistent (sn_resources snap) ->
  In name (dkeys (fst s)) -> (forall a b, trouble a b = None) ->
  snd (import_stack temp (cli_states json unjson of_type n sha upgrade read_json print_json trouble) s name st) = Got tt.
Proof.
  intros json unjson of_type n sha upgrade read_json print_json trouble temp s name st v snap J W Hr Pv Pd Hf Hn U P D Or Op C1 C2 C3 I T. apply untyped_inv in U.
  destruct (import_ok json unjson of_type n sha upgrade name _ _ snap J W v U P D Or Op (conj C1 (conj C2 C3))) as (d2 & Ei & _).
  destruct (import_spec (fun d => match export_document json unjson of_type n d with Ok v => v | Err _ => VNone end)
    (fun name version doc => match import_document json unjson of_type n sha upgrade name version doc with Ok v => Some v | Err _ => None end)
    read_json print_json trouble temp Hr s name st Pv Pd Hf Hn) as [(old & d3 & Eo & Ea & F1 & F2)|(k & t & F1 & F2 & _ & F3)]; [exact F2|].
  exfalso. apply F3; [exact I| |exact T]. now rewrite Ei.
Qed.
Print Assumptions C110_import_accepts.

(** A stack with a provider, a component, a bucket in it with a secret, and an
    operation that did not finish: *)
Definition ex_manager : manager := mkManager (fun _ _ text => Ok (Prop_State.shift text)) (fun text => Ok text) Prop_State.unshift.
Definition ex_of_type (secrets : pyval) : res manager :=
  match secrets with VDict d => if dmem d "state" then Ok ex_manager else Err (Exn "" "no state") | _ => Err (Exn "" "no known secrets provider") end.
Definition ex_sha (version : string) : string := ("sha-" ++ version)%string.
Definition ex_secret (text : string) : pyval :=
  VDict [("4dabf18193072939515e22adb298388d", VStr "1b47061264138c4ac30d75fd1eb44270"); ("ciphertext", VStr (Prop_State.shift (toy_json (WStr text))))].
Definition ex_shown (text : string) : pyval :=
  VDict [("4dabf18193072939515e22adb298388d", VStr "1b47061264138c4ac30d75fd1eb44270"); ("plaintext", VStr (toy_json (WStr text)))].
Definition ex_bucket (secret : pyval) : list (string * pyval) :=
  [("urn", VStr "urn:pulumi:dev::p::my:m:C$aws:s3:Bucket::b"); ("custom", VBool true); ("type", VStr "aws:s3:Bucket"); ("id", VStr "b-1");
   ("inputs", VDict [("key", secret); ("tags", VList [VNum 1])]); ("outputs", VDict [("key", secret)]);
   ("parent", VStr "urn:pulumi:dev::p::my:m:C::c"); ("protect", VBool true); ("dependencies", VList [VStr "urn:pulumi:dev::p::pulumi:providers:aws::default"]);
   ("provider", VStr "urn:pulumi:dev::p::pulumi:providers:aws::default::i-7")].
Definition ex_provider : pyval :=
  VDict [("urn", VStr "urn:pulumi:dev::p::pulumi:providers:aws::default"); ("custom", VBool true); ("type", VStr "pulumi:providers:aws"); ("id", VStr "i-7")].
Definition ex_component : pyval :=
  VDict [("urn", VStr "urn:pulumi:dev::p::my:m:C::c"); ("custom", VBool false); ("type", VStr "my:m:C")].
Definition ex_document (resources pending : list pyval) : pyval :=
  VDict ([("manifest", VDict [("time", VStr "now"); ("magic", VStr "sha-v3"); ("version", VStr "v3")]);
          ("secrets_providers", VDict [("type", VStr "passphrase"); ("state", VStr "salt")]);
          ("resources", VList resources)] ++ match pending with [] => [] | _ => [("pending_operations", VList pending)] end).
Definition ex_pending : pyval := VDict [("resource", VDict [("urn", VStr "urn:pulumi:dev::p::aws:s3:Bucket::d"); ("custom", VBool true); ("type", VStr "aws:s3:Bucket")]); ("type", VStr "creating")].
Definition ex_state : pyval := ex_document [ex_provider; ex_component; VDict (ex_bucket (ex_secret "k"))] [ex_pending].
Definition ex_states : cli stores :=
  cli_states toy_json toy_unjson ex_of_type 3 ex_sha (fun _ _ => Err (Exn "" "old")) Prop_WsImport.ex_read Prop_WsConfig.ex_print (fun _ _ => None).
Definition ex_world : stores := ([("dev", ex_state); ("prod", VNone)], [("Pulumi.yaml", "name: p")]).
Definition ex_import (deployment : pyval) (name : string) := import_stack Prop_WsImport.ex_temp ex_states ex_world name (mkDeployment (VNum 3) deployment).
Lemma ex_works : forall secrets m, ex_of_type secrets = Ok m -> works m.
Proof.
  intros secrets m. unfold ex_of_type. intros E. assert (m = ex_manager) as -> by (destruct secrets; try discriminate; destruct (dmem d "state"); congruence).
  split; [cbn; eauto|]. split; [|cbn; eauto]. intros t place text c [= <-]. repeat split; discriminate.
Qed.
Ltac plainly := lazymatch goal with
  | |- Spec_Json.plain_data (VDict _) =>
      constructor; [cbn [map fst]; repeat (apply NoDup_cons; [cbn [In]; intuition discriminate|]); apply NoDup_nil
                   |repeat (apply Forall_cons; [cbn [snd]; plainly|]); apply Forall_nil]
  | |- Spec_Json.plain_data (VList _) => constructor; repeat (apply Forall_cons; [plainly|]); apply Forall_nil
  | |- _ => constructor
  end.
Example C109_case :
  json_reads toy_json toy_unjson /\ printer Prop_WsConfig.ex_print /\ reader Prop_WsImport.ex_read /\ plain ex_state /\
  exists snap, deserialize toy_unjson ex_of_type 3 ex_state = Ok snap /\ List.length (sn_resources snap) = 3 /\ List.length (sn_pending snap) = 1 /\
    Forall ordinary (sn_resources snap) /\ Forall ordinary (map snd (sn_pending snap)) /\
    Forall (fun r => of_stack "dev" (t_urn r)) (sn_resources snap) /\ cookie ex_sha (sn_manifest snap) /\ consistent (sn_resources snap) /\
  exists st, export_stack ex_states ex_world "dev" = (ex_world, Got st) /\
    d_deployment st = ex_document [ex_provider; ex_component; VDict (ex_bucket (ex_shown "k"))] [ex_pending] /\
    ex_import (d_deployment st) "dev" =
      (([("dev", ex_document [ex_provider; ex_component; VDict (ex_bucket (ex_secret "k"))] []); ("prod", VNone)], snd ex_world), Got tt).
Proof.
  split; [exact toy_reads|]. split; [exact (proj1 Prop_WsConfig.ex_prints)|]. split; [exact Prop_WsImport.ex_reader|]. split; [vm_compute; plainly|].
  eexists. split; [vm_compute; reflexivity|]. cbn [sn_resources sn_pending sn_manifest]. do 2 (split; [reflexivity|]).
  split; [repeat constructor; cbn; intuition discriminate|]. split; [repeat constructor; cbn; intuition discriminate|].
  split; [rewrite Forall_forall; intros r I; apply in_stack_spec; revert r I; apply forallb_forall; vm_compute; reflexivity|].
  split; [apply genuine_spec; vm_compute; reflexivity|]. split; [apply verify_consistent; vm_compute; reflexivity|].
  eexists. split; [vm_compute; reflexivity|]. split; vm_compute; reflexivity.
Qed.
(** A bucket before its component, one twice, one of another stack, a provider with
    another ID, another cookie, and a stack that is not there: *)
Example C110_case :
  Forall (fun d => fst (fst (ex_import d "dev")) = fst ex_world /\ exists k, snd (ex_import d "dev") = CliError k)
    [ex_document [ex_provider; VDict (ex_bucket (ex_shown "k")); ex_component] [];
     ex_document [ex_provider; ex_component; ex_component] [];
     ex_document [ex_provider; VDict [("urn", VStr "urn:pulumi:prod::p::my:m:C::c"); ("custom", VBool false); ("type", VStr "my:m:C")]] [];
     ex_document [VDict [("urn", VStr "urn:pulumi:dev::p::pulumi:providers:aws::default"); ("custom", VBool true); ("type", VStr "pulumi:providers:aws"); ("id", VStr "i-8")];
                  ex_component; VDict (ex_bucket (ex_shown "k"))] [];
     VDict [("manifest", VDict [("magic", VStr "sha-v2"); ("version", VStr "v3")])]] /\
  snd (ex_import VNone "dev") = Got tt /\ (exists k, snd (ex_import ex_state "test") = CliError k) /\
  (** What is to be deleted may be there twice. *)
  snd (ex_import (ex_document [ex_component; VDict [("urn", VStr "urn:pulumi:dev::p::my:m:C::c"); ("custom", VBool false); ("type", VStr "my:m:C"); ("delete", VBool true)]] []) "dev") = Got tt.
Proof.
  split; [repeat apply Forall_cons; try apply Forall_nil; (split; [vm_compute; reflexivity|eexists; vm_compute; reflexivity])|].
  split; [vm_compute; reflexivity|]. split; [eexists; vm_compute; reflexivity|vm_compute; reflexivity].
Qed.
