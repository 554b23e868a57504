(** Surprising behaviour of the code, as theorems about the models: none of these contradicts a
    property of the list (those are the theorems named ..._refuted), but a user may trip over them. *)
From Verif Require Import Base PyVal Model_Output Model_Urn Model_Rpc Model_Registry Model_Options Model_Resource
  Model_Types Model_Invoke Model_Mocks Model_StackRef Model_Cmd Model_Argv Model_StackInit Model_WsSettings Model_Inline Model_WsState
  Spec_WsSettings Proof_WsSettings Spec_Output Spec_StackRef Proof_StackRef.
Open Scope string_scope.
Open Scope list_scope.

(** A module "m" of the package "a:b" and a module "b:m" of the package "a" are one: what is
    registered as the one is found as the other. *)
Theorem finding_module_key : forall parse r a b m version e,
  register_resource_module r (a ++ ":" ++ b) m e = register_resource_module r a (b ++ ":" ++ m) e /\
  get_resource_module parse r (a ++ ":" ++ b) m version = get_resource_module parse r a (b ++ ":" ++ m) version.
Proof.
  intros. unfold register_resource_module, get_resource_module, module_key.
  enough (E : ((a ++ ":" ++ b) ++ ":" ++ m = a ++ ":" ++ b ++ ":" ++ m)%string) by now rewrite E.
  induction a as [|c a IH]; cbn; [reflexivity|]. f_equal. exact IH.
Qed.
Print Assumptions finding_module_key.

(** The marker of unknown values is a value to the path of an asset, though a string equal to it is not. *)
Theorem finding_asset_sentinel : forall dc keep,
  deser dc (WStr "04da6b54-80e4-46f7-96ec-b56ff0331ba9") keep <> Ok (VStr "04da6b54-80e4-46f7-96ec-b56ff0331ba9") /\
  deser dc (WStruct [("4dabf18193072939515e22adb298388d", WStr "c44067f5952c0a294b673a41bacd8c17");
                     ("path", WStr "04da6b54-80e4-46f7-96ec-b56ff0331ba9")]) keep
    = Ok (VFileAsset "04da6b54-80e4-46f7-96ec-b56ff0331ba9").
Proof.
  intros. split; [|reflexivity].
  change (deser dc _ keep) with (Ok (if d_dry dc || keep then VUnknown else VNone)). destruct (d_dry dc || keep); discriminate.
Qed.
Print Assumptions finding_asset_sentinel.

(** A null entry of a map is dropped, an entry that is a secret null is kept as null (inside a
    secret map). *)
Theorem finding_secret_none : forall dc keep,
  deser dc (WStruct [("a", WNull)]) keep = Ok (VDict []) /\
  deser dc (WStruct [("a", WStruct [("4dabf18193072939515e22adb298388d", WStr "1b47061264138c4ac30d75fd1eb44270"); ("value", WNull)])]) keep
    = Ok (VDict [("4dabf18193072939515e22adb298388d", VStr "1b47061264138c4ac30d75fd1eb44270"); ("value", VDict [("a", VNone)])]).
Proof. split; reflexivity. Qed.
Print Assumptions finding_secret_none.

(** The data of an output type that it does not declare are dropped: changing them changes nothing. *)
Theorem finding_undeclared : forall D output k v,
  (forall p, In p (d_props D) -> p_pulumi p <> k) ->
  output_from_dict D (dset output k v) = output_from_dict D output.
Proof.
  intros D output k v H. unfold output_from_dict. destruct (d_input D); [reflexivity|]. f_equal.
  generalize (@nil (string * pyval)). induction (d_props D) as [|p ps IH]; intros acc; cbn; [reflexivity|].
  rewrite dget_dset. rewrite (proj2 (String.eqb_neq _ _)) by (apply H; now left). apply IH. intros q Hq. apply H. now right.
Qed.
Print Assumptions finding_undeclared.

(** A component of a type of package "my" is given a provider for "aws": it is kept under the name
    "my", so resources of "aws" inside it do not get it, and those of "my" do, and are refused. *)
Definition only_provider (p : provider) (parent : option nat) : ropts :=
  mkRopts 0 parent None None (Some p) None None None None None None None None None None None None None None.
Definition under (n : nat) : ropts :=
  mkRopts 0 (Some n) None None None None None None None None None None None None None None None None None.
Theorem finding_component_provider : forall tf w name x y p, name <> "" -> x <> "" -> y <> "" -> p_package p = "aws" ->
  w_resources w = [] -> w_root w = None ->
  exists w1 r, Model_Resource.construct tf w "my:m:C" name false [] (only_provider p None) = Ok (w1, 0, r) /\
    (exists w2 o, Model_Resource.construct tf w1 "aws:m:R" x true [] (under 0) = Ok (w2, 1, RRegister "aws:m:R" x true [] o) /\ ro_provider o = None) /\
    (exists m, Model_Resource.construct tf w1 "my:m:R" y true [] (under 0) = Err (Exn "ValueError" m)).
Proof.
  intros tf w name x y p Hn Hx Hy Hp Hw Hr.
  assert (En : String.eqb name "" = false) by now apply String.eqb_neq.
  assert (Ex : String.eqb x "" = false) by now apply String.eqb_neq.
  assert (Ey : String.eqb y "" = false) by now apply String.eqb_neq.
  unfold Model_Resource.construct. cbn [String.eqb only_provider ro_parent]. rewrite En, Hr.
  cbn. rewrite Hw. cbn. do 2 eexists. split; [reflexivity|]. rewrite Ex, Ey. cbn. split.
  - do 2 eexists. split; [reflexivity|]. reflexivity.
  - rewrite Hp. cbn. eexists. reflexivity.
Qed.
Print Assumptions finding_component_provider.

(** An invoke whose answer has no data gives None, not an instance of the result type; and the
    marker around secret values stays in the result. *)
Theorem finding_invoke_result : forall E typ, 
  convert E typ [] = Ok INone /\
  convert E None [("k", WStruct [("4dabf18193072939515e22adb298388d", WStr "1b47061264138c4ac30d75fd1eb44270"); ("value", WStr "s")])]
    = Ok (IPlain (VDict [("k", VDict [("4dabf18193072939515e22adb298388d", VStr "1b47061264138c4ac30d75fd1eb44270"); ("value", VStr "s")])])).
Proof. split; reflexivity. Qed.
Print Assumptions finding_invoke_result.

(** The mocks' URNs have at most two types: the type of a grandparent is forgotten, so two
    resources can get the same URN though their parents differ in type. *)
Theorem finding_mock_urn : forall E t name,
  mock_urn E "urn:pulumi:s::p::a:b:G$a:b:C::x" t name = mock_urn E "urn:pulumi:s::p::a:b:H$a:b:C::x" t name /\
  (forall stack project, m_stack E = stack -> m_project E = project ->
   mock_urn E "urn:pulumi:s::p::a:b:G$a:b:C::x" t name
     = Ok ("urn:pulumi:" ++ stack ++ "::" ++ project ++ "::a:b:C$" ++ t ++ "::" ++ name)%string).
Proof. split; [reflexivity|]. intros stack project <- <-. reflexivity. Qed.
Print Assumptions finding_mock_urn.

(** An output of another stack asked for by a secret name is not secret if it is not listed as secret. *)
Theorem finding_secret_name : forall dry outs names name nrs ors srs n d l osec ssec,
  settled (from_input dry name) nrs (VStr n) true true -> settled outs ors (VDict d) true osec -> finished (VDict d) ->
  settled names srs (VList (map VStr l)) true ssec -> ~ In n l ->
  exists o, get_output dry outs names name = Ok o /\ o_secret o = Done false.
Proof.
  intros dry outs names name nrs ors srs n d l osec ssec Hn Ho Hf Hs Hl.
  destruct (get_output_ok dry outs names name nrs true ors srs n d (VList (map VStr l)) true true true osec ssec Hn Ho Hs) as (o & b & E & (_ & _ & _ & Eb) & V); eauto.
  exists o. split; [exact E|]. rewrite Eb. inversion V as [K|l' _ _ El K|]; subst; [|exfalso; apply Hl|reflexivity].
  - destruct K as [K|[K|K]]; discriminate.
  - injection El as El. revert l' El K. clear. induction l as [|a l IH]; intros [|b l'] E K; try discriminate; [easy|].
    injection E as -> E. destruct K as [->|K]; [now left|right; eauto].
Qed.
Print Assumptions finding_secret_name.
Example finding_secret_name_example : exists o,
  get_output false (mkOut (Done [RObj 1]) (Done (VDict [("url", VStr "u")])) (Done true) (Done true))
    (mkOut (Done [RObj 1]) (Done (VList [])) (Done true) (Done false)) (VOut (Done []) (Done (VStr "url")) (Done true) (Done true)) = Ok o /\
  o_val o = Done (VStr "u") /\ o_secret o = Done false.
Proof. eexists. split; [reflexivity|]. split; vm_compute; reflexivity. Qed.

(** White space at the end of a line of the CLI's output is lost. *)
Theorem finding_rstrip : forall pulumi err,
  pulumi ["x"; "--non-interactive"] = (("a  " ++ String (ascii_of_nat 10) "b" ++ String (ascii_of_nat 9) "")%string, err, 0%Z) ->
  exists ws calls, run_cmd pulumi [VStr "x"] None = (ws, calls, Returned (mkResult ("a" ++ String (ascii_of_nat 10) "b")%string err 0%Z)).
Proof. intros pulumi err H. unfold run_cmd. cbn [words non_interactive existsb is_word app option_map]. cbn. rewrite H. vm_compute. do 2 eexists. reflexivity. Qed.
Print Assumptions finding_rstrip.

(** Asking for 0 parallel operations, or for an empty message, is like not asking. *)
Definition with_parallel (n : option Z) (m : option string) (o : op_options) : op_options :=
  mkOpts n m (a_target o) (a_policy_packs o) (a_policy_pack_configs o) (a_expect_no_changes o) (a_diff o) (a_target_dependents o)
    (a_replace o) (a_color o) (a_on_event o) (a_program o) (a_plan o) (a_log_flow o) (a_log_verbosity o) (a_log_to_std_err o)
    (a_tracing o) (a_debug o).
Theorem finding_falsy_options : forall pulumi c o w cb,
  operate pulumi c (with_parallel (Some 0%Z) (Some "") o) w cb = operate pulumi c (with_parallel None None o) w cb.
Proof. intros. destruct c; reflexivity. Qed.
Print Assumptions finding_falsy_options.

(** "Build FAILED" is taken for a failure to compile, whatever character follows. *)
Theorem finding_build_failed : forall c err code rest, c <> ascii_of_nat 10 ->
  err = "" ->
  create_command_error (mkResult ("Build FAILED" ++ String c rest) err code) = CompilationError.
Proof.
  intros c err code rest Hc ->. unfold create_command_error. cbn [cm_stderr cm_stdout].
  change (not_found_regex "") with false. change (already_exists_regex "") with false. change (occurs conflict_text "") with false. cbv iota.
  unfold compilation_error_regex.
  enough (E : search_dot "Build FAILED" ("Build FAILED" ++ String c rest) = true) by now rewrite E.
  change ((true && negb (Ascii.eqb c newline)) || search_dot "Build FAILED" ("uild FAILED" ++ String c rest) = true).
  unfold newline. destruct (Ascii.eqb_spec c (ascii_of_nat 10)); [contradiction|]. reflexivity.
Qed.
Print Assumptions finding_build_failed.

(** Stacks of the same name in different organisations and projects have one settings file: what is
    saved for one is read for the other. *)
Theorem finding_shared_settings : forall fs name1 name2 stack s,
  last_component name1 stack -> last_component name2 stack ->
  load_stack_settings (save_stack_settings fs name1 s) name2
  = load_stack_settings (save_stack_settings fs name2 s) name2.
Proof.
  intros fs name1 name2 stack s H1 H2. apply component_name in H1. apply component_name in H2.
  unfold save_stack_settings, load_stack_settings, stack_base. now rewrite H1, H2.
Qed.
Print Assumptions finding_shared_settings.
Example finding_shared_settings_example : forall fs s,
  load_stack_settings (save_stack_settings fs "org1/p/dev" s) "org2/q/dev" = load_stack_settings (save_stack_settings fs "org2/q/dev" s) "org2/q/dev".
Proof. intros. reflexivity. Qed.

(** An inline program that raises RunError("") is reported as a success. *)
Theorem finding_run_error : forall unavailable, respond unavailable (Err (Exn "RunError" "")) = respond unavailable (Ok tt).
Proof. reflexivity. Qed.
Print Assumptions finding_run_error.

(** The page asked for is ignored unless a page size is given too. *)
Theorem finding_page : forall S strptime (c : cli S) s name page show,
  stack_history strptime c s name None page show = stack_history strptime c s name None None show.
Proof. reflexivity. Qed.
Print Assumptions finding_page.
