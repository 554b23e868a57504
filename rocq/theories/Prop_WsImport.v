(** Exporting and importing the state of stacks. *)
From Verif Require Import Base PyVal Model_Urn Model_Cmd Model_Argv Model_StackInit Model_Json Spec_Json Proof_Json Model_WsConfig Spec_WsConfig Model_WsState Spec_WsState Prop_WsConfig Model_WsImport Spec_WsImport Proof_WsImport.
Open Scope string_scope.
Open Scope list_scope.

(* ------------------------------------------------------------------ *)
(** C79.  For every stack and state: export_stack gives the stack's state with its secrets
    readable and changes nothing.  import_stack makes the stack's state what the CLI makes of the
    given one, or raises and changes no stack; no other stack and no file changes.  Importing what
    was exported leaves the stack as it was.
    Partial: the files are as before only when the import succeeds. *)
Theorem C79_export : forall reveal accept read_json print_json trouble (s : stores) name,
  printer print_json -> (forall d, dget (fst s) name = Some d -> plain_data (reveal d)) ->
  let r := export_stack (cli_deploy reveal accept read_json print_json trouble) s name in
  fst r = s /\
  ((exists k, snd r = CliError k /\ (In name (dkeys (fst s)) -> ~ (forall a b, trouble a b = None))) \/
   (exists d, dget (fst s) name = Some d /\ snd r = Got (mkDeployment (VNum 3) (reveal d)))).
Proof. intros. now apply export_spec. Qed.
Print Assumptions C79_export.
Theorem C79_import_partial : forall reveal accept read_json print_json trouble temp (s : stores) name st,
  reader read_json -> plain_data (d_version st) -> plain_data (d_deployment st) ->
  ~ In (temp (snd s)) (dkeys (snd s)) -> temp (snd s) <> "" ->
  let r := import_stack temp (cli_deploy reveal accept read_json print_json trouble) s name st in
  (exists old d, dget (fst s) name = Some old /\ accept name (d_version st) (d_deployment st) = Some d /\
     fst r = (dset (fst s) name d, snd s) /\ snd r = Got tt) \/
  (exists k, snd r = CliError k /\ fst (fst r) = fst s /\ (forall file, file <> temp (snd s) -> dget (snd (fst r)) file = dget (snd s) file) /\
     (In name (dkeys (fst s)) -> accept name (d_version st) (d_deployment st) <> None -> ~ (forall a b, trouble a b = None))).
Proof.
  intros reveal accept read_json print_json trouble temp s name st Hr Hv Hd Hf Hn r.
  destruct (import_spec reveal accept read_json print_json trouble temp Hr s name st Hv Hd Hf Hn) as [H|(k & t & E1 & E2 & _ & E3)]; [left; exact H|right].
  exists k. subst r. rewrite E1, E2. cbn [fst snd]. repeat split; auto. intros file Hne. rewrite dget_dset.
  apply String.eqb_neq in Hne. match goal with |- (if ?b then _ else _) = _ => assert (E : b = false) by exact Hne; rewrite E end. reflexivity.
Qed.
Print Assumptions C79_import_partial.
(** What was exported can be imported again, whatever has happened to the stack in between. *)
Theorem C79_round_trip : forall reveal accept read_json print_json trouble temp (s s2 : stores) name d st,
  printer print_json -> reader read_json -> dget (fst s) name = Some d -> plain_data (reveal d) ->
  accept name (VNum 3) (reveal d) = Some d -> ~ In (temp (snd s2)) (dkeys (snd s2)) -> temp (snd s2) <> "" ->
  let c := cli_deploy reveal accept read_json print_json trouble in
  snd (export_stack c s name) = Got st -> snd (import_stack temp c s2 name st) = Got tt ->
  dget (fst (fst (import_stack temp c s2 name st))) name = Some d /\ (dget (fst s2) name = Some d -> fst (import_stack temp c s2 name st) = s2).
Proof.
  intros reveal accept read_json print_json trouble temp s s2 name d st Hp Hr Hg Hd Ha Hf Hn c E I.
  destruct (export_spec reveal accept read_json print_json trouble Hp s name) as (_ & [(k & Ek & _)|(d0 & Ed & Es)]).
  { intros d0 E0. congruence. }
  { fold c in Ek. congruence. }
  fold c in Es. assert (d0 = d) by congruence. subst d0. rewrite E in Es. injection Es as ->.
  destruct (import_spec reveal accept read_json print_json trouble temp Hr s2 name (mkDeployment (VNum 3) (reveal d))) as [(old & d1 & Eo & Ea & E1 & E2)|(k & t & E1 & _)];
    cbn [d_version d_deployment]; try assumption; [constructor| |fold c in E1; congruence].
  fold c in E1, E2. cbn [d_version d_deployment] in Ea. assert (d1 = d) by congruence. subst d1. rewrite E1. cbn [fst]. split.
  - now rewrite dget_dset, String.eqb_refl.
  - intros Es2. destruct s2. cbn [fst snd] in *. f_equal. now apply dset_same.
Qed.
Print Assumptions C79_round_trip.

(** The property as stated is false: whenever an import fails, a file with the whole state, its
    secrets readable, stays in the directory for temporary files. *)
Theorem C79_refuted : forall reveal accept read_json print_json trouble temp (s : stores) name st,
  reader read_json -> plain_data (d_version st) -> plain_data (d_deployment st) ->
  ~ In (temp (snd s)) (dkeys (snd s)) -> temp (snd s) <> "" ->
  let r := import_stack temp (cli_deploy reveal accept read_json print_json trouble) s name st in
  snd r <> Got tt ->
  exists text, dget (snd (fst r)) (temp (snd s)) = Some text /\ document (VDict [("version", d_version st); ("deployment", d_deployment st)]) text.
Proof.
  intros reveal accept read_json print_json trouble temp s name st Hr Hv Hd Hf Hn r Hg.
  destruct (import_spec reveal accept read_json print_json trouble temp Hr s name st Hv Hd Hf Hn) as [(old & d & _ & _ & _ & E)|(k & t & E1 & E2 & E3 & _)]; [fold r in E; contradiction|].
  exists t. fold r in E2. rewrite E2. cbn [fst snd]. split; [now rewrite dget_dset, String.eqb_refl|exact E3].
Qed.
Print Assumptions C79_refuted.

(** A CLI whose stored states have their secrets hidden, and which refuses other versions. *)
Definition ex_reveal (v : pyval) : pyval :=
  match v with VDict [("resources", l); ("password", VStr "v1:hidden")] => VDict [("resources", l); ("password", VStr "hunter2")] | _ => v end.
Definition ex_accept (name : string) (version d : pyval) : option pyval :=
  match version with
  | VNum 3 => match d with VDict [("resources", l); ("password", VStr "hunter2")] => Some (VDict [("resources", l); ("password", VStr "v1:hidden")]) | _ => None end
  | _ => None
  end.
Definition ex_read (s : string) : option pyval := match loads s with Ok v => Some v | Err _ => None end.
Lemma ex_reader : reader ex_read.
Proof. intros v s Hd Hv. unfold ex_read. now rewrite (loads_document v s Hd Hv). Qed.
Definition ex_temp (fs : file_texts) : string := fold_right (fun kv t => (fst kv ++ t)%string) "t" fs.
Definition ex_stored : pyval := VDict [("resources", VList [VStr "bucket"; VList []]); ("password", VStr "v1:hidden")].
Definition ex_deploys : cli stores := cli_deploy ex_reveal ex_accept ex_read ex_print (fun _ _ => None).
Definition ex_stores : stores := ([("dev", ex_stored); ("prod", VNone)], [("Pulumi.yaml", "name: p")]).
Example C79_case :
  plain_data (ex_reveal ex_stored) /\ ~ In (ex_temp (snd ex_stores)) (dkeys (snd ex_stores)) /\ ex_temp (snd ex_stores) <> "" /\
  ex_accept "dev" (VNum 3) (ex_reveal ex_stored) = Some ex_stored /\
  exists st, snd (export_stack ex_deploys ex_stores "dev") = Got st /\ d_deployment st = ex_reveal ex_stored /\ d_deployment st <> ex_stored /\
    import_stack ex_temp ex_deploys (fst ex_stores, []) "dev" st = ((fst ex_stores, []), Got tt) /\
    (** An import that fails. *)
    dget (snd (fst (import_stack ex_temp ex_deploys ex_stores "dev" (mkDeployment (VNum 4) (VDict [("password", VStr "hunter2"); ("l", VList [VNum 1; VNum 2])]))))) (ex_temp (snd ex_stores))
      = Some ("{" ++ nl ++ "    ""version"": 4," ++ nl ++ "    ""deployment"": {" ++ nl ++ "        ""password"": ""hunter2""," ++ nl
        ++ "        ""l"": [" ++ nl ++ "            1," ++ nl ++ "            2" ++ nl ++ "        ]" ++ nl ++ "    }" ++ nl ++ "}")%string.
Proof.
  split. { constructor; [cbn; repeat constructor; cbn; intuition discriminate|]. repeat apply Forall_cons; cbn [snd]; repeat constructor. }
  split; [cbn; intuition discriminate|]. split; [discriminate|]. split; [reflexivity|]. eexists. split; [vm_compute; reflexivity|]. cbn [d_deployment].
  split; [reflexivity|]. split; [discriminate|]. split; vm_compute; reflexivity.
Qed.
