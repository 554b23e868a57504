(** C121: refresh_config gets the configuration of the last update back. *)
From Verif Require Import Base PyVal Model_Urn Model_Cmd Model_StackInit Model_Json Spec_Json Proof_Json Proof_Capture Model_WsConfig Spec_WsConfig Proof_WsConfig.
From Verif Require Import Model_Host Model_ConfigFile Spec_ConfigFile Proof_ConfigFile Model_Lock Model_Save Spec_Files Model_Refresh Spec_Refresh Proof_Refresh.
From Verif Require Model_Files Proof_Files.
Open Scope string_scope.
Open Scope list_scope.

(** C121.  Whatever stacks were created, updated and removed before, and whatever was written
    to settings files: if the stack [n] was last updated at one time, and things other than
    updates and its removal happened since, then refresh_config puts the configuration of that
    update into its settings file.  Reading all configuration gives what it gave when the
    update ran, failures to decrypt included; programs are given the same configuration with
    the same secrets; other settings files and the states stay as they are.  The call returns
    if the configuration can be read, and raises what reading it raises.
    Partial: the storage works, names are proper (see C114), and the two settings files can be
    read. *)
Theorem C121_refreshed_partial : forall (S V : Type) (has_resources : S -> bool) to_json of_json project print_json order enc dec fs0 before e n ss (v : V) after t0 e',
  reads_back to_json of_json ->
  Forall sound (before ++ Updated e n ss v :: after) -> going_on t0 (flat_map time_of (before ++ Updated e n ss v :: after)) -> working e' ->
  let happens := act has_resources to_json of_json in
  let w1 := fold_left (fun w a => fst (happens w a)) before (mkWorld fs0 []) in
  let w2 := fold_left (fun w a => fst (happens w a)) after (fst (happens w1 (Updated e n ss v))) in
  snd (happens w1 (Updated e n ss v)) = true -> Forall (spares n) after ->
  (forall f, dget (w_files w1) n = Some f -> readable f) -> (forall f, dget (w_files w2) n = Some f -> readable f) ->
  let c := cli_refresh to_json of_json project print_json order enc dec e' in
  exists w3,
    refresh_config c w2 n = (w3, match snd (get_all_config c w1 n) with Got _ => Got tt | CliError k => CliError k | PyError x => PyError x end) /\
    snd (get_all_config c w3 n) = snd (get_all_config c w1 n) /\
    (forall info, q_stack info = n -> run_request to_json of_json dec (w_files w3) info = run_request to_json of_json dec (w_files w1) info) /\
    (forall m, m <> n -> dget (w_files w3) m = dget (w_files w2) m) /\ w_bucket w3 = w_bucket w2.
Proof.
  intros S V has_resources to_json of_json project print_json order enc dec fs0 before e n ss v after t0 e' Hj F G W' happens w1 w2 Ok1 Sp R1 R2 c.
  apply Forall_app in F as [F1 F2]. inversion F2 as [|? ? Su F3 Q]; subst. rewrite flat_map_app in G. cbn [flat_map] in G.
  destruct (act_all_inv S V has_resources to_json of_json before (mkWorld fs0 []) no_stacks t0 _ (Proof_Files.inv_start t0) F1 G) as (a1 & t1 & I1 & G1 & _).
  change (act_all has_resources to_json of_json (mkWorld fs0 []) before) with w1 in I1.
  destruct (happens w1 (Updated e n ss v)) as [u ok] eqn:Eu. cbn [fst snd] in *. subst ok.
  assert (Ef : exists f cfg r, dget (w_files w1) n = Some f /\ load_config to_json f = Ok cfg /\ save_config of_json cfg = Ok r /\ load_config to_json r = Ok cfg /\ settled to_json cfg).
  { destruct (dget (w_files w1) n) as [f|] eqn:Ef; [|unfold happens, act, update_stack in Eu; rewrite Ef in Eu; discriminate].
    destruct (load_settled to_json f [] (settled_nil to_json) (R1 f eq_refl)) as (cfg & L & St). destruct (save_settled to_json of_json Hj cfg St) as (r & Sv & Lr). exists f, cfg, r. auto. }
  destruct Ef as (f & cfg & r & Ef & Lf & Sv & Lr & St).
  destruct (update_newest S V has_resources to_json of_json w1 a1 t1 e n ss v u f r I1 Su (going_prefix _ _ _ G1) Eu Ef) as (a2 & I2 & s0 & N2); [now rewrite Lf|].
  pose proof (proj2 (proj2 (proj2 G1))) as G2. rewrite <- (app_nil_r (flat_map time_of after)) in G2.
  destruct (act_all_inv S V has_resources to_json of_json after u a2 (Model_Files.e_stamp e) [] I2 F3 G2) as (a3 & t3 & I3 & _ & N3).
  change (act_all has_resources to_json of_json u after) with w2 in I3.
  destruct (N3 n _ Sp N2) as (x & h & Ex & _ & Eh). destruct Su as [_ Pn].
  assert (L : latest_configuration to_json w2 n = Ok cfg).
  { unfold latest_configuration. rewrite (Proof_Files.history_read _ _ _ n 1 1 I3 Pn). unfold Proof_Files.past. rewrite Ex, Eh. cbn [snd Nat.ltb Nat.leb Nat.sub Nat.mul skipn firstn]. exact Lr. }
  assert (Gs : Model_Files.get_stack e' (w_bucket w2) n <> None).
  { rewrite (Proof_Files.get_stack_inv e' _ _ _ n I3 W' Pn). rewrite Ex. discriminate. }
  assert (O : exists old, match dget (w_files w2) n with Some g => load_config to_json g | None => Ok [] end = Ok old).
  { destruct (dget (w_files w2) n) as [g|] eqn:Eg; [|now exists []]. destruct (load_settled to_json g [] (settled_nil to_json) (R2 g eq_refl)) as (old & Lo & _). now exists old. }
  destruct O as (old & O).
  pose proof (refresh_runs S V to_json of_json project print_json order enc dec e' w2 n cfg old r Gs L O Sv) as Run. fold c in Run.
  set (w3 := mkWorld (dset (w_files w2) n r) (w_bucket w2)) in *. exists w3.
  assert (E3 : dget (w_files w3) n = Some r) by (cbn [w3 w_files]; now rewrite dget_dset, String.eqb_refl).
  destruct (all_same S V to_json of_json project print_json order enc dec e' w3 w1 n r f cfg E3 Lr Ef Lf) as [A1 A2]. fold c in A1, A2.
  split; [|split; [exact A2|split; [|split; [|reflexivity]]]].
  - unfold refresh_config. change [VStr "config"; VStr "refresh"; VStr "--force"; VStr "--stack"; VStr n] with (map VStr ["config"; "refresh"; "--force"; "--stack"; n]).
    rewrite (command_words _ _ _ _ _ _ _ Run). cbn [Z.eqb]. rewrite A1, A2. reflexivity.
  - intros info <-. exact (request_same to_json of_json dec _ _ _ _ cfg info E3 Lr Ef Lf).
  - intros m N. cbn [w3 w_files]. rewrite dget_dset. destruct (String.eqb_spec m n); congruence.
Qed.
Print Assumptions C121_refreshed_partial.

(** Refuted in full: if an update cannot write its record at the end, or is killed before, the
    state is what it made, but refresh_config gets the configuration of the update before it. *)
Definition ex_print (v : pyval) : string := match dumps v with Ok s => s | Err _ => "" end.
Lemma ex_reads : reads_back ex_print loads.
Proof. intros v Hp. destruct (dumps_plain v Hp) as (s & E). unfold ex_print. rewrite E. apply loads_document; [|exact Hp]. now apply text_document, dumps_text. Qed.
Definition ex_enc : files -> string -> string -> string -> res string := fun _ stack key t => Ok (("v1:" ++ t)%string).
Definition ex_dec : string -> string -> res string := fun stack c => Ok (sdrop 3 c).
Definition ex_env (stamp : string) (io : nat -> nat -> io) : Model_Files.env string := Model_Files.mkEnv false io (fun i => 100 + i) stamp (fun _ => true).
Definition ex_cli : cli (world string nat) := cli_refresh ex_print loads "p" ex_print (fun d => d) ex_enc ex_dec (ex_env "99" (fun _ _ => Fine)).
Definition ex_act (w : world string nat) (a : action string nat) : world string nat * bool := act (fun _ => true) ex_print loads w a.
Definition ex_all (l : list (action string nat)) : world string nat := fold_left (fun w a => fst (ex_act w a)) l (mkWorld [] []).
Theorem C121_refuted :
  let w := ex_all [Created (ex_env "01" (fun _ _ => Fine)) "dev"; Edited [("dev", [("p:size", VStr "1")])]; Updated (ex_env "02" (fun _ _ => Fine)) "dev" ["made with 1"] 1;
                   Edited [("dev", [("p:size", VStr "2")])]; Updated (ex_env "03" (fun phase _ => if Nat.eqb phase 1 then Fault false else Fine)) "dev" ["made with 2"] 2] in
  current ".pulumi/stacks/dev.json" (w_bucket w) = Some (Model_Files.Checkpoint (Some "made with 2")) /\
  snd (refresh_config ex_cli w "dev") = Got tt /\
  snd (get_all_config ex_cli (fst (refresh_config ex_cli w "dev")) "dev") = Got [("p:size", mkCV (VStr "1") (VBool false))].
Proof. vm_compute. repeat split; reflexivity. Qed.
Print Assumptions C121_refuted.

(** A concrete case: a secret and a structured value, an old spelling of a key, another stack,
    and a settings file that was changed since. *)
Definition ex_file : cfile := [("p:config:old", VStr "1"); ("p:db", VDict [("user", VStr "u"); ("password", VDict [("secure", VStr "v1:hush")])]); ("p:token", VDict [("secure", VStr "v1:t")])].
Definition ex_before : list (action string nat) :=
  [Created (ex_env "01" (fun _ _ => Fine)) "dev"; Created (ex_env "02" (fun _ _ => Fine)) "prod"; Edited [("dev", [("p:size", VStr "1")]); ("prod", [])];
   Updated (ex_env "03" (fun _ _ => Fine)) "dev" ["a"; "b"] 1; Edited [("dev", ex_file); ("prod", [])]].
Definition ex_after : list (action string nat) :=
  [Edited [("dev", [("p:size", VNum 3%Z)]); ("prod", [("p:size", VStr "9")])]; Updated (ex_env "05" (fun _ _ => Fine)) "prod" ["c"] 1; Created (ex_env "06" (fun _ _ => Fine)) "dev"].
Definition ex_update : action string nat := Updated (ex_env "04" (fun _ _ => Fine)) "dev" ["d"] 2.
Example C121_case :
  Forall sound (ex_before ++ ex_update :: ex_after) /\ going_on "00" (flat_map time_of (ex_before ++ ex_update :: ex_after)) /\ Forall (spares "dev") ex_after /\
  snd (ex_act (ex_all ex_before) ex_update) = true /\ readable ex_file /\ readable [("p:size", VNum 3%Z)] /\
  let w2 := ex_all (ex_before ++ ex_update :: ex_after) in
  snd (refresh_config ex_cli w2 "dev") = Got tt /\
  let w3 := fst (refresh_config ex_cli w2 "dev") in
  w_files w3 = [("dev", [("p:old", VStr "1"); ("p:db", VDict [("user", VStr "u"); ("password", VDict [("secure", VStr "v1:hush")])]); ("p:token", VDict [("secure", VStr "v1:t")])]); ("prod", [("p:size", VStr "9")])] /\
  snd (get_all_config ex_cli w3 "dev") = Got [("p:old", mkCV (VStr "1") (VBool false)); ("p:db", mkCV (VStr "{""user"": ""u"", ""password"": ""hush""}") (VBool true)); ("p:token", mkCV (VStr "t") (VBool true))].
Proof.
  assert (Ns : forall n, Model_Files.has_slash n = false -> forall a b, n <> (a ++ "/" ++ b)%string) by (intros n Hs a b; now apply Proof_Files.slash_no).
  assert (Pr : forall n, Model_Files.has_slash n = false -> n <> "." -> n <> ".." -> proper n) by (intros n Hs N1 N2; split; [now apply Ns|split; assumption]).
  split; [|split; [|split; [|split; [|split; [|split; [|vm_compute; repeat split; reflexivity]]]]]].
  - cbn [ex_before ex_update ex_after app].
    repeat match goal with |- Forall _ _ => constructor end; cbn [sound]; try exact I; (split; [split; [intros ? ?; reflexivity|reflexivity]|apply Pr; [reflexivity|discriminate|discriminate]]).
  - cbn [ex_before ex_update ex_after app flat_map time_of going_on Model_Files.e_stamp ex_env]. repeat match goal with |- _ /\ _ => split end; try reflexivity; try exact I; now apply Ns.
  - repeat constructor; cbn; try discriminate; exact I.
  - vm_compute. reflexivity.
  - intros w y [[= <- <-]|[[= <- <-]|[[= <- <-]|[]]]]; (split; [eexists; try (now apply Sp_key); exact (Sp_old "p" "old" eq_refl eq_refl)|]); repeat constructor; cbn; intuition discriminate.
  - intros w y [[= <- <-]|[]]. split; [eexists; now apply Sp_key|constructor].
Qed.

(* ------------------------------------------------------------------ *)
(** C122.  What up() returns is about the update it made: the outputs are read from the state
    that the update saved last, and the summary is that of the update, whatever happened
    before and whatever others do in the meantime.
    Partial: others neither update nor remove the same stack before up() has read both. *)
Theorem C122_own_result_partial : forall (S V : Type) (has_resources : S -> bool) to_json of_json fs0 before e n ss s (v : V) others1 others2 t0,
  reads_back to_json of_json ->
  Forall sound (before ++ Updated e n (ss ++ [s]) v :: others1 ++ others2) -> going_on t0 (flat_map time_of (before ++ Updated e n (ss ++ [s]) v :: others1 ++ others2)) ->
  let happens := act has_resources to_json of_json in
  let w1 := fold_left (fun w a => fst (happens w a)) before (mkWorld fs0 []) in
  (forall f, dget (w_files w1) n = Some f -> readable f) ->
  Forall (spares n) (others1 ++ others2) ->
  match up_result has_resources to_json of_json w1 e n (ss ++ [s]) v others1 others2 with
  | Some (s', v') => s' = Some s /\ v' = v
  | None => snd (happens w1 (Updated e n (ss ++ [s]) v)) = false
  end.
Proof.
  intros S V has_resources to_json of_json fs0 before e n ss s v others1 others2 t0 Hj F G happens w1 R1 Sp.
  apply Forall_app in F as [F1 F2]. inversion F2 as [|? ? Su F3 Q]; subst. apply Forall_app in F3 as [F3 F4]. apply Forall_app in Sp as [Sp1 Sp2]. rewrite flat_map_app in G. cbn [flat_map] in G. rewrite flat_map_app in G.
  destruct (act_all_inv S V has_resources to_json of_json before (mkWorld fs0 []) no_stacks t0 _ (Proof_Files.inv_start t0) F1 G) as (a1 & t1 & I1 & G1 & _).
  change (act_all has_resources to_json of_json (mkWorld fs0 []) before) with w1 in I1. unfold up_result. fold happens.
  destruct (happens w1 (Updated e n (ss ++ [s]) v)) as [u ok] eqn:Eu. destruct ok; [|reflexivity].
  destruct (dget (w_files w1) n) as [f|] eqn:Ef; [|unfold happens, act, update_stack in Eu; rewrite Ef in Eu; discriminate].
  destruct (load_settled to_json f [] (settled_nil to_json) (R1 f eq_refl)) as (cfg & Lf & St). destruct (save_settled to_json of_json Hj cfg St) as (r & Sv & _).
  destruct (update_newest S V has_resources to_json of_json w1 a1 t1 e n (ss ++ [s]) v u f r I1 Su (going_prefix _ _ _ G1) Eu Ef) as (a2 & I2 & s0 & N2); [unfold load_config; now rewrite Lf|].
  pose proof (proj2 (proj2 (proj2 G1))) as G2.
  destruct (act_all_inv S V has_resources to_json of_json others1 u a2 (Model_Files.e_stamp e) _ I2 F3 G2) as (a3 & t3 & I3 & G3 & N3).
  rewrite <- (app_nil_r (flat_map time_of others2)) in G3.
  destruct (act_all_inv S V has_resources to_json of_json others2 _ a3 t3 [] I3 F4 G3) as (a4 & t4 & I4 & _ & N4).
  pose proof (N3 n _ Sp1 N2) as M3. pose proof (N4 n _ Sp2 M3) as M4. destruct M3 as (x & h & Ex & Es & _), M4 as (y & h' & Ey & _ & Eh). destruct Su as [_ Pn].
  rewrite (Proof_Files.current_read _ _ _ n I3 Pn), Ex, (Proof_Files.history_read _ _ _ n 1 1 I4 Pn). unfold Proof_Files.past. rewrite Ey, Eh. cbn [Nat.ltb Nat.leb Nat.sub Nat.mul skipn firstn fst snd].
  split; [|reflexivity]. rewrite Es. cbn [fst]. rewrite map_app. apply List.last_last.
Qed.
Print Assumptions C122_own_result_partial.
(** Refuted in full: another update of the stack between the commands. *)
Theorem C122_refuted :
  up_result (fun _ => true) ex_print loads (ex_all [Created (ex_env "01" (fun _ _ => Fine)) "dev"; Edited [("dev", [])]]) (ex_env "02" (fun _ _ => Fine)) "dev" ["mine"] 1
    [] [Updated (ex_env "03" (fun _ _ => Fine)) "dev" ["theirs"] 2] = Some (Some "mine", 2).
Proof. vm_compute. reflexivity. Qed.
Print Assumptions C122_refuted.
Example C122_case :
  up_result (fun _ => true) ex_print loads (ex_all ex_before) (ex_env "04" (fun _ _ => Fine)) "dev" ["c"; "d"] 2 ex_after [] = Some (Some "d", 2) /\
  up_result (fun _ => true) ex_print loads (ex_all ex_before) (ex_env "04" (fun _ _ => Fine)) "none" ["c"; "d"] 2 ex_after [] = None.
Proof. vm_compute. split; reflexivity. Qed.
