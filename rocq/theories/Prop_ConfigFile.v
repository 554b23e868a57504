(** C103: configuration set through the Automation API is what the program sees.
    C104: secrets set through it are stored only as ciphertexts. *)
From Verif Require Import Base PyVal Model_Urn Model_Cmd Model_StackInit Model_Json Spec_Json Proof_Json Proof_Capture Model_WsConfig Spec_WsConfig Proof_WsConfig.
From Verif Require Import Model_Host Spec_Host Spec_ConfigRun Proof_ConfigRun Model_ConfigFile Spec_ConfigFile Proof_ConfigFile.
Open Scope string_scope.
Open Scope list_scope.

(** C103.  For every project, all settings files, every way of encrypting, every CLI (failing at
    any command for reasons of its own) and every sequence of calls that set or remove
    configuration: afterwards no stack has appeared or disappeared, every call has returned or
    raised a command error, and a program of any of the stacks, started in any environment, sees
    as its configuration exactly what the calls that returned make of the configuration the
    files stood for: values set in plain or as secrets, and values in the files before,
    structured ones and those with secrets in them included, decrypted and in the stack's own
    words; and exactly the secret ones are secret.
    Partial: the keys are proper (see C74), the texts of the request do not begin with a minus
    sign, and if there is no configuration at all, the environment has none either (see C83). *)
Theorem C103_seen_partial : forall to_json of_json project print_json order enc dec trouble fs st calls legacy chdir environ h info,
  reads_back to_json of_json -> undoes dec enc -> colons project = 0 ->
  configured to_json dec fs st -> Forall (proper_call project) calls ->
  let '(fs', rs) := make_all (cli_files to_json of_json project print_json order enc dec trouble) fs calls in
  let m := fold_left (expected project) (returned rs) (memory_of st) in
  map fst rs = calls /\
  Forall (fun ar => snd ar = Got tt \/ exists k, snd ar = CliError k) rs /\
  (forall stack, In stack (map fst fs') <-> In stack (map fst fs)) /\
  (In (q_stack info) (map fst fs) ->
   Forall plain [q_monitor info; h_engine h; q_project info; q_stack info; q_pwd info; h_tracing h; q_organization info] ->
   Forall plain (q_program info :: q_args info) ->
   (q_pwd info = "" \/ chdir (q_pwd info) = true) ->
   ((exists k, m (q_stack info) k <> None) \/ ~ In "PULUMI_CONFIG" (map fst environ)) ->
   exists r w, run_request to_json of_json dec fs' info = Ok r /\ exec_start legacy chdir (spawn environ h r) = Starts w /\
     sees environ w (m (q_stack info))).
Proof.
  intros to_json of_json project print_json order enc dec trouble fs st calls legacy chdir environ h info Hj Hc Hp Hf Hcalls.
  pose proof (files_history to_json of_json Hj project print_json order enc dec trouble Hc Hp calls fs st (memory_of st) Hcalls
    (configured_stands to_json of_json Hj dec fs st Hf) (fun _ _ => eq_refl)) as H.
  destruct (make_all _ fs calls) as [fs' rs]. destruct H as (ast & St & Hk & Hm & H1 & H2). cbv zeta. split; [exact H1|]. split; [exact H2|]. split; [exact Hk|].
  intros Hs P1 P2 Hd He. apply Hk in Hs. fold (dkeys fs') in Hs. rewrite (stands_keys _ _ _ _ _ St) in Hs. apply dget_Some_key in Hs as (cfg & Ec).
  pose proof (request_ok to_json of_json dec fs' ast info cfg St Ec) as R. eexists. rewrite R.
  assert (M : forall k, fold_left (expected project) (returned rs) (memory_of st) (q_stack info) k = match dget cfg k with Some e => Some (e_value e, e_secret e) | None => None end).
  { intros k. rewrite <- (Hm (q_stack info) k). unfold memory_of. now rewrite Ec. }
  assert (Nd : wf_dict cfg).
  { destruct (stands_fit _ _ _ _ _ St) as [_ Hfit]. apply dget_In in Ec. exact (proj1 (Hfit _ _ Ec)). }
  assert (V : forall k, dget (map (fun ke => (fst ke, e_value (snd ke))) cfg) k = match dget cfg k with Some e => Some (e_value e) | None => None end).
  { intros k. clear. induction cfg as [|[a e] cfg IH]; [reflexivity|]. cbn [map fst snd dget]. destruct (String.eqb k a); [reflexivity|exact IH]. }
  assert (S : forall k e, dget cfg k = Some e -> smem k (map fst (filter (fun ke => e_secret (snd ke)) cfg)) = e_secret e).
  { intros k e E. destruct (e_secret e) eqn:Es.
    - apply smem_In, in_map_iff. exists (k, e). split; [reflexivity|]. apply filter_In. split; [now apply dget_In in E|exact Es].
    - destruct (smem k _) eqn:K; [|reflexivity]. apply smem_In, in_map_iff in K as ([k' e'] & Ek & Hin). cbn [fst] in Ek. subst k'. apply filter_In in Hin as [Hin Es'].
      apply (In_dget _ _ _ Nd) in Hin. cbn [snd] in Es'. congruence. }
  destruct (run_sees legacy chdir environ h (mkRequest (q_project info) (q_stack info) (q_pwd info) (q_program info) (q_args info)
    (map (fun ke => (fst ke, e_value (snd ke))) cfg) (q_dry info) (q_parallel info) (q_monitor info) (map fst (filter (fun ke => e_secret (snd ke)) cfg)) (q_organization info)))
    as (w & Ew & Sw); cbn [q_monitor q_project q_stack q_pwd q_organization q_program q_args q_config]; auto.
  - rewrite map_map. exact Nd.
  - destruct He as [(k & He)|He]; [left|now right]. rewrite M in He. destruct cfg; [easy|discriminate].
  - exists w. split; [reflexivity|]. split; [exact Ew|]. apply Sw; cbn [q_config q_secret_keys].
    + intros k. rewrite M, V. destruct (dget cfg k) as [e|] eqn:E; [|reflexivity]. now rewrite (S k e E).
    + intros k Hin. rewrite map_map. cbn [fst]. apply in_map_iff in Hin as (x & <- & Hx). apply filter_In in Hx as [Hx _]. now apply in_map with (f := fst).
Qed.
Print Assumptions C103_seen_partial.

(** Reading with the calls of the Automation API gives the same configuration. *)
Theorem C103_read_partial : forall to_json of_json project print_json order enc dec trouble fs st calls,
  reads_back to_json of_json -> undoes dec enc -> colons project = 0 -> prints print_json order ->
  configured to_json dec fs st -> Forall (proper_call project) calls ->
  let c := cli_files to_json of_json project print_json order enc dec trouble in
  let '(fs', rs) := make_all c fs calls in
  let m := fold_left (expected project) (returned rs) (memory_of st) in
  (forall stack key, proper_key key ->
     (exists k, snd (get_config c fs' stack key) = CliError k) \/
     exists v b, m stack (full_key project key) = Some (v, b) /\ snd (get_config c fs' stack key) = Got (mkCV (VStr v) (VBool b))) /\
  (forall stack,
     (exists k, snd (get_all_config c fs' stack) = CliError k) \/
     exists d, snd (get_all_config c fs' stack) = Got d /\ NoDup (dkeys d) /\
       forall k, dget d k = match m stack k with Some (v, b) => Some (mkCV (VStr v) (VBool b)) | None => None end).
Proof.
  intros to_json of_json project print_json order enc dec trouble fs st calls Hj Hc Hp Hprints Hf Hcalls c.
  pose proof (files_history to_json of_json Hj project print_json order enc dec trouble Hc Hp calls fs st (memory_of st) Hcalls
    (configured_stands to_json of_json Hj dec fs st Hf) (fun _ _ => eq_refl)) as H. fold c in H.
  destruct (make_all c fs calls) as [fs' rs]. destruct H as (ast & St & Hk & Hm & H1 & H2). cbv zeta. pose proof (stands_fit _ _ _ _ _ St) as Hfit. split.
  - intros stack key Hkey.
    destruct (read_agrees to_json of_json Hj project print_json order enc dec trouble Hc fs' ast (get_words stack key)
      (fun out => answer_of (let+ v := loads out in read_value_secret v)) St) as [(k & E)|E].
    + left. exists k. unfold get_config. change [VStr "config"; VStr "get"; VStr key; VStr "--json"; VStr "--stack"; VStr stack] with (map VStr (get_words stack key)).
      fold c in E. now rewrite E.
    + destruct (get_spec project legacy_key print_json order (fun _ _ => None) Hp Hprints ast stack key Hfit Hkey) as (_ & G & _). specialize (G eq_refl).
      change (snd (get_config c fs' stack key) = snd (get_config (cli_config project legacy_key print_json order (fun _ _ => None)) ast stack key)) in E. rewrite E.
      rewrite (Hm stack (full_key project key)) in G. destruct (fold_left (expected project) (returned rs) (memory_of st) stack (full_key project key)) as [[v b]|]; [right; eauto|left; exact G].
  - intros stack.
    destruct (read_agrees to_json of_json Hj project print_json order enc dec trouble Hc fs' ast (all_words stack)
      (fun out => answer_of (let+ j := loads out in let+ ks := keys_of j in read_all_config j ks [])) St) as [(k & E)|E].
    + left. exists k. unfold get_all_config. change [VStr "config"; VStr "--show-secrets"; VStr "--json"; VStr "--stack"; VStr stack] with (map VStr (all_words stack)).
      fold c in E. now rewrite E.
    + destruct (get_all_spec project legacy_key print_json order (fun _ _ => None) Hprints ast stack Hfit) as (_ & G & _). specialize (G eq_refl).
      change (snd (get_all_config c fs' stack) = snd (get_all_config (cli_config project legacy_key print_json order (fun _ _ => None)) ast stack)) in E. rewrite E.
      destruct (dget ast stack) as [cfg|]; [|left; exact G]. destruct G as (d & Ed & Hw & Hd). right. exists d. split; [exact Ed|]. split; [exact Hw|].
      intros k. rewrite Hd, (Hm stack k). reflexivity.
Qed.
Print Assumptions C103_read_partial.

(** A concrete case. *)
Definition ex_print (v : pyval) : string := match dumps v with Ok s => s | Err _ => "" end.
Lemma ex_reads : reads_back ex_print loads.
Proof. intros v Hp. destruct (dumps_plain v Hp) as (s & E). unfold ex_print. rewrite E. apply loads_document; [|exact Hp]. now apply text_document, dumps_text. Qed.
Definition ex_enc : files -> string -> string -> string -> res string := fun _ stack key t => Ok (("v1:" ++ t)%string).
Definition ex_dec : string -> string -> res string := fun stack c => Ok (sdrop 3 c).
Lemma ex_undoes : undoes ex_dec ex_enc.
Proof. intros st stack key t c [= <-]. reflexivity. Qed.
Definition ex_cli : cli files := cli_files ex_print loads "p" ex_print (fun d => d) ex_enc ex_dec (fun _ _ => None).
Definition ex_files : files :=
  [("dev", [("p:config:old", VStr "1"); ("p:db", VDict [("user", VStr "u"); ("password", VDict [("secure", VStr "v1:hush")])]); ("aws:region", VStr "west")]); ("prod", [])].
Definition ex_state : configs :=
  [("dev", [("p:old", mkEntry "1" false None);
            ("p:db", mkEntry (ex_print (VDict [("user", VStr "u"); ("password", VStr "hush")])) true (Some (VDict [("user", VStr "u"); ("password", VStr "hush")])));
            ("aws:region", mkEntry "west" false None)]); ("prod", [])].
Definition ex_calls : list call :=
  [SetConfig "dev" "token" "--secret" true; SetConfig "none" "k" "v" false; SetAllConfig "dev" [("size", ("12", false)); ("pin", ("0=0", true))];
   RemoveAllConfig "dev" ["aws:region"; "gone"]].
Definition ex_info : request := mkRequest "p" "dev" "" "." [] [] false 4 "127.0.0.1:1" [] "org".
Definition ex_host : host := mkHost "127.0.0.1:2" "" "".
Example C103_case :
  configured ex_print ex_dec ex_files ex_state /\ Forall (proper_call "p") ex_calls /\
  (let '(fs', rs) := make_all ex_cli ex_files ex_calls in
   map snd rs = [Got tt; CliError StackNotFoundError; Got tt; Got tt] /\
   dget fs' "dev" = Some [("p:old", VStr "1"); ("p:db", VDict [("user", VStr "u"); ("password", VDict [("secure", VStr "v1:hush")])]);
                          ("p:token", VDict [("secure", VStr "v1:--secret")]); ("p:size", VStr "12"); ("p:pin", VDict [("secure", VStr "v1:0=0")])] /\
   exists r, run_request ex_print loads ex_dec fs' ex_info = Ok r /\
     q_config r = [("p:old", "1"); ("p:db", "{""user"": ""u"", ""password"": ""hush""}"); ("p:token", "--secret"); ("p:size", "12"); ("p:pin", "0=0")] /\
     q_secret_keys r = ["p:db"; "p:token"; "p:pin"]) /\
  Forall plain [q_monitor ex_info; h_engine ex_host; q_project ex_info; q_stack ex_info; q_pwd ex_info; h_tracing ex_host; q_organization ex_info].
Proof.
  split; [|split; [|split]].
  - split; [repeat constructor; cbn; intuition discriminate|]. constructor; [|constructor; [|constructor]]; cbn [fst snd].
    + split; [reflexivity|]. split; [repeat constructor; cbn; intuition discriminate|]. split.
      * repeat constructor; cbn; intuition discriminate.
      * constructor; [|constructor; [|constructor; [|constructor]]]; cbn [fst snd].
        -- split; [exact (Sp_old "p" "old" eq_refl eq_refl)|constructor].
        -- split; [now constructor|]. apply Y_object; [exact I|discriminate| |].
           ++ apply O_dict; [discriminate|]. constructor; [split; [reflexivity|constructor]|]. constructor; [split; [reflexivity|now constructor]|constructor].
           ++ split; [|reflexivity]. intros _. apply (H_dict _ "password" (VDict [("secure", VStr "v1:hush")])); [cbn; tauto|constructor].
        -- split; now constructor.
    + split; [reflexivity|]. split; [constructor|]. split; constructor.
  - repeat (apply Forall_cons; [|]); [..|apply Forall_nil]; cbn [proper_call].
    + split; cbn; [lia|discriminate].
    + split; cbn; [lia|discriminate].
    + split; [|repeat constructor; cbn; intuition discriminate].
      intros k x [[= <- <-]|[[= <- <-]|[]]]; (split; [cbn; lia|]; split; [reflexivity|]; intros c s [= <- _]; reflexivity).
    + split; [discriminate|]. intros k [<-|[<-|[]]]; (split; [cbn; lia|discriminate]).
  - assert (E : make_all ex_cli ex_files ex_calls = make_all ex_cli ex_files ex_calls) by reflexivity.
    destruct (make_all ex_cli ex_files ex_calls) as [fs' rs] in E at 2 |- *. vm_compute in E. injection E as <- <-.
    split; [reflexivity|]. split; [reflexivity|]. eexists. split; [vm_compute; reflexivity|]. split; reflexivity.
  - repeat constructor; intros rest; discriminate.
Qed.

(** The full property is false: after the last value of a stack is removed, its program may see
    values of the surrounding environment; and a key with "=" in a map reaches the program as
    another one. *)
Theorem C103_refuted :
  (exists fs' r w, make_all ex_cli [("dev", [("p:k", VStr "v")])] [RemoveConfig "dev" "k"] = (fs', [(RemoveConfig "dev" "k", Got tt)]) /\
     run_request ex_print loads ex_dec fs' ex_info = Ok r /\
     exec_start false (fun _ => true) (spawn [("PULUMI_CONFIG", "{""p:k"": ""w""}")] ex_host r) = Starts w /\
     Model_Config.get_config exec_builtins (w_env w) (w_config w) 0 "p:k" = Ok (VStr "w")) /\
  (exists fs' r w, make_all ex_cli [("dev", [])] [SetAllConfig "dev" [("a=b", ("v", false))]] = (fs', [(SetAllConfig "dev" [("a=b", ("v", false))], Got tt)]) /\
     run_request ex_print loads ex_dec fs' ex_info = Ok r /\
     exec_start false (fun _ => true) (spawn [] ex_host r) = Starts w /\
     Model_Config.get_config exec_builtins (w_env w) (w_config w) 0 "p:a=b" = Ok VNone /\
     Model_Config.get_config exec_builtins (w_env w) (w_config w) 0 "p:a" = Ok (VStr "b=v")).
Proof.
  split.
  - do 3 eexists. split; [vm_compute; reflexivity|]. split; [vm_compute; reflexivity|]. split; vm_compute; reflexivity.
  - do 3 eexists. split; [vm_compute; reflexivity|]. split; [vm_compute; reflexivity|]. split; [vm_compute; reflexivity|]. split; vm_compute; reflexivity.
Qed.
Print Assumptions C103_refuted.

(* ------------------------------------------------------------------ *)
(** C104.  For all settings files and every CLI: two programs that make the same calls, but for the
    values they set as secrets, leave the same files and get the same answers, if the ciphertexts
    are the same: nothing of a secret value is stored or answered in any other way.
    Partial: the keys are proper (see C74). *)
Theorem C104_stored_partial : forall to_json of_json project print_json order enc dec trouble fs calls calls',
  colons project = 0 ->
  (forall st stack key t t', enc st stack key t = enc st stack key t') ->
  (forall st args args', trouble st args = trouble st args') ->
  Forall2 alike_call calls calls' -> Forall (proper_call project) calls -> Forall (proper_call project) calls' ->
  let c := cli_files to_json of_json project print_json order enc dec trouble in
  fst (make_all c fs calls) = fst (make_all c fs calls') /\
  map snd (snd (make_all c fs calls)) = map snd (snd (make_all c fs calls')).
Proof.
  intros to_json of_json project print_json order enc dec trouble fs calls calls' Hp He Ht H P P' c.
  exact (make_all_alike to_json of_json project print_json order enc dec trouble Hp He Ht calls calls' H P P' fs).
Qed.
Print Assumptions C104_stored_partial.

Definition blind_cli (answers : string -> res string) : cli files :=
  cli_files ex_print loads "p" ex_print (fun d => d) (fun _ _ key _ => answers key) ex_dec (fun _ _ => None).
Definition calls_with (a b : string) : list call :=
  [SetConfig "dev" "token" a true; SetAllConfig "dev" [("size", ("12", false)); ("pin", (b, true))]; RemoveConfig "dev" "old"].
Example C104_case :
  Forall2 alike_call (calls_with "one" "--secret") (calls_with "x=y" "") /\
  Forall (proper_call "p") (calls_with "one" "--secret") /\ Forall (proper_call "p") (calls_with "x=y" "") /\
  fst (make_all (blind_cli (fun key => Ok ("c:" ++ key)%string)) ex_files (calls_with "one" "--secret")) =
    [("dev", [("p:db", VDict [("user", VStr "u"); ("password", VDict [("secure", VStr "v1:hush")])]); ("aws:region", VStr "west");
              ("p:token", VDict [("secure", VStr "c:p:token")]); ("p:size", VStr "12"); ("p:pin", VDict [("secure", VStr "c:p:pin")])]); ("prod", [])].
Proof.
  assert (P : forall a b, Forall (proper_call "p") (calls_with a b)).
  { intros a b. repeat (apply Forall_cons; [|]); [..|apply Forall_nil]; cbn [proper_call].
    - split; cbn; [lia|discriminate].
    - split; [|repeat constructor; cbn; intuition discriminate].
      intros k x [[= <- <-]|[[= <- <-]|[]]]; (split; [cbn; lia|]; split; [reflexivity|]; intros c s [= <- _]; reflexivity).
    - split; cbn; [lia|discriminate]. }
  split; [|split; [apply P|split; [apply P|vm_compute; reflexivity]]].
  constructor; [constructor|]. constructor; [apply A_map|constructor; [apply A_same|constructor]].
  constructor; [cbn; auto|]. constructor; [|constructor]. cbn. split; [reflexivity|]. split; [reflexivity|]. discriminate.
Qed.

(** The full property is false: with a key that begins with a quote, in a map, part of the secret
    value is stored in the clear, as a part of the key. *)
Theorem C104_refuted : forall answers c, answers "p:k=hush" = Ok c ->
  make_all (blind_cli answers) [("dev", [])] [SetAllConfig "dev" [(String quote "k", (("hush" ++ String quote "=tail")%string, true))]] =
  ([("dev", [("p:k=hush", VDict [("secure", VStr c)])])],
   [(SetAllConfig "dev" [(String quote "k", (("hush" ++ String quote "=tail")%string, true))], Got tt)]).
Proof.
  intros answers c E. cbn [make_all]. rewrite make_words.
  set (a := SetAllConfig "dev" [(String quote "k", (("hush" ++ String quote "=tail")%string, true))]).
  assert (R : blind_cli answers [("dev", [])] (final_words (call_words a)) = ([("dev", [("p:k=hush", VDict [("secure", VStr c)])])], ("", "", 0%Z))).
  { change (final_words (call_words a)) with ["config"; "set-all"; "--stack"; "dev"; "--secret"; (String quote "k=hush" ++ String quote "=tail")%string; "--non-interactive"].
    unfold blind_cli, cli_files. cbn. rewrite E. reflexivity. }
  rewrite (command_words _ _ _ _ _ _ _ R). reflexivity.
Qed.
Print Assumptions C104_refuted.
