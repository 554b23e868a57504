(** Lemmas about exporting and importing. *)
From Verif Require Import Base PyVal Model_Urn Model_Cmd Model_Argv Model_StackInit Model_Json Spec_Json Proof_Json Proof_Capture Model_WsConfig Spec_WsConfig Proof_WsConfig Model_WsState Spec_WsState Model_WsImport Spec_WsImport.
Open Scope string_scope.
Open Scope list_scope.

(* ------------------------------------------------------------------ *)
(** Indented JSON is JSON. *)
Lemma blanks_app a b : blanks a -> blanks b -> blanks (a ++ b).
Proof. intros H. induction H; intros Hb; [exact Hb|]. cbn. constructor; auto. Qed.
Lemma blanks_four : blanks four.
Proof. repeat (apply (B_more 32); [cbn; tauto|]). constructor. Qed.
Lemma blanks_nl : blanks nl.
Proof. apply (B_more 10); [cbn; tauto|constructor]. Qed.
Lemma lines_elements pad w l ts : blanks pad -> blanks w -> Forall2 text l ts -> l <> [] -> elements l (lines pad ts ++ w).
Proof.
  intros Hp Hw H. induction H as [|v t l ts Hv H IH]; intros Hne; [easy|]. destruct H as [|v2 t2 l ts Hv2 H].
  - cbn [lines]. rewrite !sapp_assoc. rewrite <- sapp_assoc. apply E_one; [apply blanks_app; [apply blanks_nl|exact Hp]|exact Hv|exact Hw].
  - cbn [lines] in *. rewrite !sapp_assoc in *. specialize (IH ltac:(discriminate)). rewrite <- (sapp_assoc nl pad).
    change (t ++ "," ++ ?r)%string with (t ++ "" ++ "," ++ r)%string. apply (E_more (nl ++ pad) v t ""); [apply blanks_app; [apply blanks_nl|exact Hp]|exact Hv|constructor|exact IH].
Qed.
Lemma lines_members pad w l ts : blanks pad -> blanks w -> Forall2 member_text l ts -> l <> [] -> members l (lines pad ts ++ w).
Proof.
  intros Hp Hw H. induction H as [|[k v] t l ts Hv H IH]; intros Hne; [easy|]. destruct Hv as (u & Hv & ->). destruct H as [|v2 t2 l ts Hv2 H].
  - cbn [lines]. cbn [fst snd] in *. rewrite !sapp_assoc. rewrite <- (sapp_assoc nl).
    change (quoted k ++ ": " ++ u ++ w)%string with (quoted k ++ "" ++ ":" ++ " " ++ u ++ w)%string.
    apply M_one; [apply blanks_app; [apply blanks_nl|exact Hp]|apply quoted_text|constructor|apply blank_space|exact Hv|exact Hw].
  - cbn [lines] in *. cbn [fst snd] in *. rewrite !sapp_assoc in *. specialize (IH ltac:(discriminate)). rewrite <- (sapp_assoc nl pad).
    change (quoted k ++ ": " ++ u ++ "," ++ ?r)%string with (quoted k ++ "" ++ ":" ++ " " ++ u ++ "" ++ "," ++ r)%string.
    apply M_more; [apply blanks_app; [apply blanks_nl|exact Hp]|apply quoted_text|constructor|apply blank_space|exact Hv|constructor|exact IH].
Qed.
Lemma dumps_indent_text v : forall pad s, blanks pad -> dumps_indent pad v = Ok s -> text v s.
Proof.
  induction v using pyval_ind'; intros pad tx Hb Ht; try discriminate; cbn in Ht.
  - injection Ht as <-. constructor.
  - injection Ht as <-. destruct b; constructor.
  - injection Ht as <-. constructor.
  - injection Ht as <-. constructor. apply quoted_text.
  - destruct l as [|x l].
    { injection Ht as <-. apply (T_array0 ""). constructor. }
    match type of Ht with rbind ?m _ = _ => destruct m as [ts|] eqn:E end; [|discriminate]. injection Ht as <-.
    change (res_all (map (dumps_indent (pad ++ four)) (x :: l)) = Ok ts) in E. apply res_all_Forall2 in E.
    change (lines (pad ++ "    ") ts) with (lines (pad ++ four) ts).
    change (text (VList (x :: l)) ("[" ++ lines (pad ++ four) ts ++ nl ++ pad ++ "]")). rewrite <- (sapp_assoc nl), <- (sapp_assoc (lines _ _)).
    apply T_array. apply lines_elements; [apply blanks_app; [exact Hb|apply blanks_four]|apply blanks_app; [apply blanks_nl|exact Hb]| |discriminate].
    assert (Hp : blanks (pad ++ four)) by (apply blanks_app; [exact Hb|apply blanks_four]).
    clear -H E Hp. revert H. induction E as [|v0 t0 l0 ts0 Ht El IH]; intros H; [constructor|]. apply Forall_cons_iff in H as [Hx Hl]. constructor; [now apply (Hx (pad ++ four)%string)|auto].
  - destruct d as [|x l].
    { injection Ht as <-. apply (T_object0 ""). constructor. }
    match type of Ht with rbind ?m _ = _ => destruct m as [ts|] eqn:E end; [|discriminate]. injection Ht as <-.
    match type of E with ?m = _ => change m with (res_all (map (fun kv => let+ t := dumps_indent (pad ++ four) (snd kv) in Ok (quoted (fst kv) ++ ": " ++ t)%string) (x :: l))) in E end.
    apply res_all_Forall2 in E.
    change (text (VDict (x :: l)) ("{" ++ lines (pad ++ four) ts ++ nl ++ pad ++ "}")). rewrite <- (sapp_assoc nl), <- (sapp_assoc (lines _ _)).
    apply T_object. apply lines_members; [apply blanks_app; [exact Hb|apply blanks_four]|apply blanks_app; [apply blanks_nl|exact Hb]| |discriminate].
    assert (Hp : blanks (pad ++ four)) by (apply blanks_app; [exact Hb|apply blanks_four]).
    clear -H E Hp. revert H. induction E as [|[k v] t0 l0 ts0 Ht El IH]; intros H; [constructor|]. apply Forall_cons_iff in H as [Hx Hl]. constructor; [|auto].
    cbn [fst snd] in *. destruct (dumps_indent (pad ++ four) v) as [u|] eqn:Eu; [|discriminate]. injection Ht as <-. exists u. split; [now apply (Hx (pad ++ four)%string)|reflexivity].
Qed.
Lemma dumps_indent_plain v : forall pad, plain_data v -> exists s, dumps_indent pad v = Ok s.
Proof.
  induction v using pyval_ind'; intros pad Hp; inversion Hp; subst; try (cbn; eauto; fail).
  - destruct l as [|x0 l0]; [cbn; eauto|]. set (l := x0 :: l0) in *.
    assert (E : exists ts, Forall2 (fun x t => dumps_indent (pad ++ four) x = Ok t) l ts).
    { clear Hp. clearbody l. induction l as [|x l IH]; [exists []; constructor|]. apply Forall_cons_iff in H as [Hx Hl]. apply Forall_cons_iff in H1 as [Px Pl].
      destruct (Hx (pad ++ four)%string Px) as [t Ht]. destruct (IH Hl Pl) as [ts Hts]. exists (t :: ts). now constructor. }
    destruct E as [ts E]. exists ("[" ++ lines (pad ++ four) ts ++ nl ++ pad ++ "]")%string.
    transitivity (let+ ts := res_all (map (dumps_indent (pad ++ four)) l) in Ok ("[" ++ lines (pad ++ four) ts ++ nl ++ pad ++ "]")%string); [reflexivity|].
    now rewrite (res_all_ok _ _ _ E).
  - destruct d as [|x0 l0]; [cbn; eauto|]. set (d := x0 :: l0) in *.
    assert (E : exists ts, Forall2 (fun kv t => (let+ t := dumps_indent (pad ++ four) (snd kv) in Ok (quoted (fst kv) ++ ": " ++ t)%string) = Ok t) d ts).
    { clear Hp H1. clearbody d. induction d as [|x l IH]; [exists []; constructor|]. apply Forall_cons_iff in H as [Hx Hl]. apply Forall_cons_iff in H2 as [Px Pl].
      destruct (Hx (pad ++ four)%string Px) as [t Ht]. destruct (IH Hl Pl) as [ts Hts]. eexists (_ :: ts). constructor; [|exact Hts]. rewrite Ht. reflexivity. }
    destruct E as [ts E]. exists ("{" ++ lines (pad ++ four) ts ++ nl ++ pad ++ "}")%string.
    transitivity (let+ ts := res_all (map (fun kv => let+ t := dumps_indent (pad ++ four) (snd kv) in Ok (quoted (fst kv) ++ ": " ++ t)%string) d) in Ok ("{" ++ lines (pad ++ four) ts ++ nl ++ pad ++ "}")%string); [reflexivity|].
    now rewrite (res_all_ok _ _ _ E).
Qed.

(* ------------------------------------------------------------------ *)
(** Dictionaries. *)
Lemma dset_same {V} (d : dict V) k v : dget d k = Some v -> dset d k v = d.
Proof.
  induction d as [|[k' v'] d IH]; cbn; [discriminate|]. destruct (String.eqb_spec k k') as [->|Hn]; [now intros [= ->]|].
  intros E. now rewrite IH.
Qed.
Lemma ddel_dset {V} (d : dict V) k v : ~ In k (dkeys d) -> ddel (dset d k v) k = d.
Proof.
  induction d as [|[k' v'] d IH]; cbn.
  - intros _. now rewrite String.eqb_refl.
  - intros H. destruct (String.eqb_spec k k') as [->|Hn]; [exfalso; apply H; now left|]. cbn.
    destruct (String.eqb_spec k k') as [->|]; [easy|]. cbn. rewrite IH; [reflexivity|]. intros Hi. apply H. now right.
Qed.

(* ------------------------------------------------------------------ *)
(** The calls. *)
Section Calls.
  Variable reveal : pyval -> pyval.
  Variable accept : string -> pyval -> pyval -> option pyval.
  Variable read_json : string -> option pyval.
  Variable print_json : pyval -> string.
  Variable trouble : stores -> list string -> option (string * Z).
  Variable temp : file_texts -> string.
  Hypothesis Hprint : printer print_json.
  Hypothesis Hread : reader read_json.
  Notation c := (cli_deploy reveal accept read_json print_json trouble).

  Lemma says w ws v : c w (final_words ws) = say print_json w v -> plain_data v ->
    exists out, command c w (map VStr ws) = (w, Got out) /\ loads out = Ok v.
  Proof.
    intros E Hv. unfold say in E. rewrite (command_words _ _ _ _ _ _ _ E). cbn [Z.eqb]. eexists. split; [reflexivity|].
    apply loads_captured; [|exact Hv]. apply document_nl. now apply Hprint.
  Qed.
  Lemma refuses w ws e : c w (final_words ws) = usage w e -> exists k, command c w (map VStr ws) = (w, CliError k).
  Proof. intros E. unfold usage, fails in E. rewrite (command_words _ _ _ _ _ _ _ E). eexists. reflexivity. Qed.
  Lemma in_trouble w ws err : trouble w (final_words ws) = Some err -> exists k, command c w (map VStr ws) = (w, CliError k).
  Proof.
    intros E. assert (H : exists e code, c w (final_words ws) = (w, ("", e, code)) /\ code <> 0%Z).
    { unfold cli_deploy. rewrite E. destruct (Z.eqb_spec (snd err) 0) as [Ez|Ez].
      - exists (fst err), 255%Z. split; [reflexivity|discriminate].
      - exists (fst err), (snd err). split; [reflexivity|exact Ez]. }
    destruct H as (e & code & H & Hc). rewrite (command_words _ _ _ _ _ _ _ H). apply Z.eqb_neq in Hc. rewrite Hc. eexists. reflexivity.
  Qed.

  Lemma export_spec s name : (forall d, dget (fst s) name = Some d -> plain_data (reveal d)) ->
    let r := export_stack c s name in
    fst r = s /\
    ((exists k, snd r = CliError k /\ (In name (dkeys (fst s)) -> ~ (forall a b, trouble a b = None))) \/
     (exists d, dget (fst s) name = Some d /\ snd r = Got (mkDeployment (VNum 3) (reveal d)))).
  Proof.
    intros Hd r. unfold export_stack in r.
    change [VStr "stack"; VStr "export"; VStr "--show-secrets"; VStr "--stack"; VStr name] with (map VStr ["stack"; "export"; "--show-secrets"; "--stack"; name]) in r.
    destruct (trouble s (final_words ["stack"; "export"; "--show-secrets"; "--stack"; name])) as [err|] eqn:Et.
    - destruct (in_trouble _ _ _ Et) as [k Ek]. subst r. rewrite Ek. cbn. split; [reflexivity|]. left. exists k. split; [reflexivity|]. intros _ H. now rewrite H in Et.
    - assert (E : c s (final_words ["stack"; "export"; "--show-secrets"; "--stack"; name]) =
        match dget (fst s) name with
        | Some d => say print_json s (VDict [("version", VNum 3); ("deployment", reveal d)])
        | None => usage s ("error: no stack named '" ++ name ++ "' found")%string
        end).
      { unfold cli_deploy. rewrite Et. destruct (final_words_cases ["stack"; "export"; "--show-secrets"; "--stack"; name]) as [-> | ->]; reflexivity. }
      destruct (dget (fst s) name) as [d|] eqn:Ed.
      + destruct (says _ _ _ E) as (out & Eo & El).
        { constructor; [cbn; repeat constructor; cbn; intuition discriminate|].
          repeat apply Forall_cons; cbn [snd]; [constructor|now apply Hd|apply Forall_nil]. }
        subst r. rewrite Eo. cbn [fst snd abind]. rewrite El. split; [reflexivity|]. right. exists d. split; [reflexivity|]. reflexivity.
      + destruct (refuses _ _ _ E) as [k Ek]. subst r. rewrite Ek. cbn. split; [reflexivity|]. left. exists k. split; [reflexivity|].
        intros Hi. now apply dget_None in Ed.
  Qed.

  Lemma import_spec s name st : plain_data (d_version st) -> plain_data (d_deployment st) -> ~ In (temp (snd s)) (dkeys (snd s)) -> temp (snd s) <> "" ->
    let r := import_stack temp c s name st in
    (exists old d, dget (fst s) name = Some old /\ accept name (d_version st) (d_deployment st) = Some d /\
       fst r = (dset (fst s) name d, snd s) /\ snd r = Got tt) \/
    (exists k text, snd r = CliError k /\ fst r = (fst s, dset (snd s) (temp (snd s)) text) /\
       document (VDict [("version", d_version st); ("deployment", d_deployment st)]) text /\
       (In name (dkeys (fst s)) -> accept name (d_version st) (d_deployment st) <> None -> ~ (forall a b, trouble a b = None))).
  Proof.
    intros Hv Hd Hf Hne r. destruct s as [stacks fs]. cbn [fst snd] in *. set (v := VDict [("version", d_version st); ("deployment", d_deployment st)]) in *.
    assert (Pv : plain_data v).
    { constructor; [cbn; repeat constructor; cbn; intuition discriminate|]. repeat apply Forall_cons; cbn [snd]; [exact Hv|exact Hd|apply Forall_nil]. }
    destruct (dumps_indent_plain v "" Pv) as [text Etext]. 
    assert (Er : r = let '(s', a) := command c (stacks, dset fs (temp fs) text) [VStr "stack"; VStr "import"; VStr "--file"; VStr (temp fs); VStr "--stack"; VStr name] in
      match a with
      | Got _ => if dmem (snd s') (temp fs) then ((fst s', ddel (snd s') (temp fs)), Got tt) else (s', PyError (Exn "FileNotFoundError" (temp fs)))
      | CliError k => (s', CliError k)
      | PyError e => (s', PyError e)
      end).
    { subst r. unfold import_stack. cbn [fst snd]. fold v. rewrite Etext. reflexivity. }
    clearbody r.
    assert (Dt : document v text) by (apply text_document; apply (dumps_indent_text v ""); [constructor|exact Etext]).
    change [VStr "stack"; VStr "import"; VStr "--file"; VStr (temp fs); VStr "--stack"; VStr name] with (map VStr ["stack"; "import"; "--file"; temp fs; "--stack"; name]) in Er.
    set (s1 := (stacks, dset fs (temp fs) text)) in *. set (ws := ["stack"; "import"; "--file"; temp fs; "--stack"; name]) in *.
    assert (Bad : forall k, (In name (dkeys stacks) -> accept name (d_version st) (d_deployment st) <> None -> ~ (forall a b, trouble a b = None)) ->
      command c s1 (map VStr ws) = (s1, CliError k) ->
      exists k text, snd r = CliError k /\ fst r = (stacks, dset fs (temp fs) text) /\ document v text /\
       (In name (dkeys stacks) -> accept name (d_version st) (d_deployment st) <> None -> ~ (forall a b, trouble a b = None))).
    { intros k Hno E. exists k, text. rewrite E in Er. rewrite Er. cbn [fst snd]. repeat split; auto. }
    destruct (trouble s1 (final_words ws)) as [err|] eqn:Et.
    - right. destruct (in_trouble _ _ _ Et) as [k Ek]. apply (Bad k); [|exact Ek]. intros _ _ H. now rewrite H in Et.
    - assert (E : c s1 (final_words ws) =
        match dget stacks name with
        | None => usage s1 ("error: no stack named '" ++ name ++ "' found")%string
        | Some _ =>
            match accept name (d_version st) (d_deployment st) with
            | Some d' => ((dset stacks name d', snd s1), (("Import complete." ++ nl)%string, "", 0%Z))
            | None => usage s1 "error: importing this file could be dangerous; rerun with --force to proceed anyway"
            end
        end).
      { unfold cli_deploy. rewrite Et. clear Et Er Bad.
        assert (F : (if String.eqb (temp fs) "" then None else dget (dset fs (temp fs) text) (temp fs)) = Some text).
        { destruct (String.eqb_spec (temp fs) "") as [|_]; [easy|]. rewrite dget_dset, String.eqb_refl. reflexivity. }
        assert (P : exists tail ni, final_words ws = "stack" :: "import" :: tail
          /\ parse_flags ["force"; "non-interactive"] ["stack"; "file"] tail = Some (ni, [])
          /\ flag_values ni "stack" = [name] /\ flag_values ni "file" = [temp fs] /\ flag_given ni "force" = false).
        { destruct (final_words_cases ws) as [-> | ->].
          - exists ["--file"; temp fs; "--stack"; name], [("file", temp fs); ("stack", name)]. repeat split.
          - exists ["--file"; temp fs; "--stack"; name; "--non-interactive"], [("file", temp fs); ("stack", name); ("non-interactive", "")]. repeat split. }
        destruct P as (tail & ni & -> & Ep & E1 & E2 & E3). cbv iota beta. rewrite Ep, E1, E2, E3. change (fst s1) with stacks.
        destruct (dget stacks name); [|reflexivity].
        match goal with |- match (if _ then _ else ?m) with Some _ => _ | None => _ end = _ => change m with (dget (dset fs (temp fs) text) (temp fs)) end.
        rewrite F. rewrite (Hread _ _ Dt Pv). reflexivity. }
      destruct (dget stacks name) as [old|] eqn:Eo; [destruct (accept name (d_version st) (d_deployment st)) as [d|] eqn:Ea|].
      + left. exists old, d. split; [reflexivity|]. split; [reflexivity|]. pose proof (command_words _ _ _ _ _ _ _ E) as K. cbn [Z.eqb] in K. rewrite K in Er.
        assert (M : dmem (snd s1) (temp fs) = true). { cbn [s1 snd]. unfold dmem. now rewrite dget_dset, String.eqb_refl. }
        cbn [fst snd] in Er. rewrite M in Er. rewrite Er. cbn [fst snd]. split; [|reflexivity]. f_equal. cbn [s1 snd]. now apply ddel_dset.
      + right. destruct (refuses _ _ _ E) as [k Ek]. apply (Bad k); [|exact Ek]. intros _ H. easy.
      + right. destruct (refuses _ _ _ E) as [k Ek]. apply (Bad k); [|exact Ek]. intros Hi. now apply dget_None in Eo.
  Qed.
End Calls.
