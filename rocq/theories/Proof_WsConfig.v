(** Lemmas about the configuration calls. *)
From Verif Require Import Base PyVal Model_Urn Model_Cmd Model_StackInit Model_Json Spec_Json Proof_Json Proof_Capture Model_WsConfig Spec_WsConfig.
Open Scope string_scope.
Open Scope list_scope.

(* ------------------------------------------------------------------ *)
(** Running a command made of words. *)
Definition final_words (ws : list string) : list string :=
  if smem "--non-interactive" ws then ws else ws ++ ["--non-interactive"].
Lemma words_map ws : words (map VStr ws) = Some ws.
Proof. induction ws; simpl; [reflexivity|]. now rewrite IHws. Qed.
Lemma final_words_ok ws : words (non_interactive (map VStr ws)) = Some (final_words ws).
Proof.
  unfold non_interactive, final_words.
  assert (E : existsb (is_word "--non-interactive") (map VStr ws) = smem "--non-interactive" ws).
  { induction ws as [|w ws IH]; [reflexivity|]. cbn [map existsb smem is_word]. rewrite IH, String.eqb_sym. now destruct (String.eqb "--non-interactive" w). }
  rewrite E. destruct (smem "--non-interactive" ws); [apply words_map|].
  change [VStr "--non-interactive"] with (map VStr ["--non-interactive"]). rewrite <- map_app. apply words_map.
Qed.
Lemma final_words_cases ws : final_words ws = ws \/ final_words ws = ws ++ ["--non-interactive"].
Proof. unfold final_words. destruct (smem "--non-interactive" ws); auto. Qed.
Lemma report_none ls : report None ls = ([], Ok (map rstrip ls)).
Proof. induction ls as [|l ls IH]; [reflexivity|]. cbn [report map]. now rewrite IH. Qed.
(** A command made of words. *)
Lemma command_words {S} (c : cli S) s ws s' out err code :
  c s (final_words ws) = (s', (out, err, code)) ->
  command c s (map VStr ws) =
  (s', if Z.eqb code 0 then Got (clean out) else CliError (create_command_error (mkResult (clean out) err code))).
Proof.
  intros E. unfold command, run_cli, run_cmd. rewrite final_words_ok, E. cbn [snd fst].
  rewrite report_none. fold (clean out). rewrite ?E; cbn [fst]; destruct (Z.eqb code 0); rewrite ?E; reflexivity.
Qed.

(* ------------------------------------------------------------------ *)
(** Command lines. *)
Lemma not_flag key : proper_key key -> flag_word key = false.
Proof.
  intros [_ H]. destruct key as [|c [|d s]]; try reflexivity. cbn. destruct (Ascii.eqb_spec c "-") as [->|]; [|reflexivity].
  exfalso. exact (H _ eq_refl).
Qed.
Lemma parse_pos B T w rest : flag_word w = false ->
  parse_flags B T (w :: rest) = match parse_flags B T rest with Some (fl, pos) => Some (fl, w :: pos) | None => None end.
Proof. intros H. cbn [parse_flags]. now rewrite H. Qed.
Lemma parse_positionals B T ks rest fl pos : (forall k, In k ks -> flag_word k = false) -> parse_flags B T rest = Some (fl, pos) ->
  parse_flags B T (ks ++ rest) = Some (fl, ks ++ pos).
Proof.
  intros H E. induction ks as [|k ks IH]; [exact E|]. change ((k :: ks) ++ rest) with (k :: (ks ++ rest)). rewrite parse_pos by (apply H; now left).
  rewrite IH; [reflexivity|]. intros x Hx. apply H. now right.
Qed.
Definition pair_flag (kv : string * (string * bool)) : string * string :=
  (if snd (snd kv) then "secret" else "plaintext", (fst kv ++ "=" ++ fst (snd kv))%string).
Definition pair_words (kv : string * (string * bool)) : list string := [secret_arg (snd (snd kv)); (fst kv ++ "=" ++ fst (snd kv))%string].
Lemma pair_args_words config : flat_map pair_args config = map VStr (flat_map pair_words config).
Proof. induction config as [|[k [v s]] config IH]; [reflexivity|]. cbn [flat_map]. rewrite map_app, IH. reflexivity. Qed.
Lemma parse_pairs config rest fl pos :
  parse_flags ["non-interactive"] ["stack"; "secret"; "plaintext"] rest = Some (fl, pos) ->
  parse_flags ["non-interactive"] ["stack"; "secret"; "plaintext"] (flat_map pair_words config ++ rest) = Some (map pair_flag config ++ fl, pos).
Proof.
  intros E. induction config as [|[k [v s]] config IH]; [exact E|]. cbn [flat_map pair_words fst snd app].
  destruct s; cbn - [parse_flags]; cbn [parse_flags]; cbn -[parse_flags]; rewrite IH; reflexivity.
Qed.
Lemma values_pairs config b : flag_values (map pair_flag config) (if b : bool then "secret" else "plaintext")
  = map (fun kv => (fst kv ++ "=" ++ fst (snd kv))%string) (filter (fun kv => Bool.eqb (snd (snd kv)) b) config).
Proof.
  unfold flag_values. induction config as [|[k [v s]] config IH]; [reflexivity|]. cbn [map pair_flag filter fst snd].
  destruct s, b; cbn; now f_equal.
Qed.
Lemma values_app a b n : flag_values (a ++ b) n = flag_values a n ++ flag_values b n.
Proof. unfold flag_values. now rewrite filter_app, map_app. Qed.
Lemma values_pairs_stack config : flag_values (map pair_flag config) "stack" = [].
Proof. unfold flag_values. induction config as [|[k [v []]] config IH]; [reflexivity|exact IH|exact IH]. Qed.

(** Keys. *)
Section Keys.
  Variable project : string.
  Variable legacy : string -> option string.
  Hypothesis Hproject : colons project = 0.
  Lemma colons_app a b : colons (a ++ b) = colons a + colons b.
  Proof. induction a as [|c a IH]; [reflexivity|]. cbn. rewrite IH. lia. Qed.
  Lemma config_key_ok key : colons key <= 1 -> config_key legacy project key = Some (full_key project key).
  Proof.
    intros H. unfold config_key, full_key, parse_key. destruct (Nat.eqb_spec (colons key) 0) as [E|E].
    - rewrite !colons_app, Hproject, E. reflexivity.
    - assert (E1 : colons key = 1) by lia. rewrite E1. reflexivity.
  Qed.
  Lemma split_eq key value : has "=" key = false -> split_first "=" (key ++ "=" ++ value) = Some (key, value).
  Proof.
    induction key as [|c key IH]; intros H.
    - cbn. destruct value; reflexivity.
    - cbn [has] in H. apply orb_false_iff in H as [Hc H]. cbn [append split_first]. cbn [String.prefix].
      destruct (ascii_dec "=" c) as [<-|]; [discriminate|]. specialize (IH H). cbn [append] in IH. rewrite IH. reflexivity.
  Qed.
  Lemma split_pair_ok key value : proper_map_key key -> split_pair (key ++ "=" ++ value) = Some (key, value).
  Proof.
    intros (_ & H & Hq). destruct key as [|c key].
    - cbn. destruct value; reflexivity.
    - cbn [append split_pair]. rewrite (Hq _ _ eq_refl). apply (split_eq (String c key)). exact H.
  Qed.

  Definition news (secret : bool) (config : dict (string * bool)) : dict entry :=
    map (fun kv => (full_key project (fst kv), mkEntry (fst (snd kv)) secret None)) config.
  Lemma set_pairs_ok secret config : (forall key x, In (key, x) config -> proper_map_key key) -> forall cfg,
    set_pairs project legacy secret (map (fun kv => (fst kv ++ "=" ++ fst (snd kv))%string) config) cfg = Some (dupdate cfg (news secret config)).
  Proof.
    unfold dupdate, news. induction config as [|[k [v s]] config IH]; intros H cfg; [reflexivity|]. cbn [map fst snd set_pairs fold_left].
    rewrite split_pair_ok by (eapply H; left; reflexivity).
    rewrite config_key_ok by (apply (H k (v, s)); now left). apply IH. intros key x Hin. apply (H key x). now right.
  Qed.
  Lemma remove_keys_ok keys : (forall key, In key keys -> proper_key key) -> forall cfg,
    remove_keys project legacy keys cfg = Some (fold_left (fun d key => ddel d (full_key project key)) keys cfg).
  Proof.
    induction keys as [|k keys IH]; intros H cfg; [reflexivity|]. cbn [remove_keys fold_left].
    rewrite config_key_ok by (apply H; now left). apply IH. intros key Hk. apply H. now right.
  Qed.
End Keys.

(* ------------------------------------------------------------------ *)
(** What the calls do. *)
Section Calls.
  Variable project : string.
  Variable legacy : string -> option string.
  Variable print_json : pyval -> string.
  Variable order : dict pyval -> dict pyval.
  Variable trouble : configs -> list string -> option (string * Z).
  Hypothesis Hproject : colons project = 0.
  Hypothesis Hprints : prints print_json order.
  Local Notation c := (cli_config project legacy print_json order trouble).

  (** The words a call runs. *)
  Definition call_words (a : call) : list string :=
    match a with
    | SetConfig stack key value secret => ["config"; "set"; key; secret_arg secret; "--stack"; stack; "--non-interactive"; "--"; value]
    | SetAllConfig stack config => ["config"; "set-all"; "--stack"; stack] ++ flat_map pair_words config
    | RemoveConfig stack key => ["config"; "rm"; key; "--stack"; stack]
    | RemoveAllConfig stack keys => ["config"; "rm-all"; "--stack"; stack] ++ keys
    end.
  Definition call_stack (a : call) : string :=
    match a with SetConfig s _ _ _ | SetAllConfig s _ | RemoveConfig s _ | RemoveAllConfig s _ => s end.
  Definition new_config (a : call) (cfg : dict entry) : dict entry :=
    match a with
    | SetConfig _ key value secret => dset cfg (full_key project key) (mkEntry value secret None)
    | SetAllConfig _ config =>
        dupdate (dupdate cfg (news project false (filter (fun kv => Bool.eqb (snd (snd kv)) false) config)))
                (news project true (filter (fun kv => Bool.eqb (snd (snd kv)) true) config))
    | RemoveConfig _ key => ddel cfg (full_key project key)
    | RemoveAllConfig _ keys => fold_left (fun d key => ddel d (full_key project key)) keys cfg
    end.

  Lemma make_words {S} (c : cli S) s a : make c s a = let '(s', r) := command c s (map VStr (call_words a)) in (s', done r).
  Proof.
    destruct a; try reflexivity.
    - cbn [make call_words]. unfold set_all_config. rewrite map_app, pair_args_words. reflexivity.
  Qed.

  (** What the CLI does with those words. *)
  Lemma cli_call a st : proper_call project a -> trouble st (final_words (call_words a)) = None ->
    c st (final_words (call_words a)) =
    match dget st (call_stack a) with
    | Some cfg => (dset st (call_stack a) (new_config a cfg), ("", "", 0%Z))
    | None => refuse st ("error: no stack named '" ++ call_stack a ++ "' found")%string
    end.
  Proof.
    intros Hp Ht. unfold cli_config. rewrite Ht. clear Ht. destruct a as [stack key value secret|stack config|stack key|stack keys]; cbn [proper_call call_stack] in *.
    - assert (E : final_words (call_words (SetConfig stack key value secret)) = call_words (SetConfig stack key value secret)).
      { unfold final_words. replace (smem "--non-interactive" (call_words (SetConfig stack key value secret))) with true; [reflexivity|].
        symmetry. apply smem_In. cbn. tauto. }
      rewrite E. unfold call_words. cbv iota beta.
      assert (P : parse_flags ["secret"; "plaintext"; "non-interactive"] ["stack"] [key; secret_arg secret; "--stack"; stack; "--non-interactive"; "--"; value]
        = Some ([(if secret then "secret" else "plaintext", ""); ("stack", stack); ("non-interactive", "")], [key; value])).
      { rewrite parse_pos by now apply not_flag. destruct secret; reflexivity. }
      rewrite P. cbv iota beta. unfold on_stack.
      replace (flag_values [(if secret then "secret" else "plaintext", ""); ("stack", stack); ("non-interactive", "")] "stack") with [stack] by (destruct secret; reflexivity).
      cbv iota. destruct (dget st stack) as [cfg|]; [|reflexivity]. rewrite config_key_ok by (assumption || apply Hp). destruct secret; reflexivity.
    - destruct Hp as [Hk Hn].
      assert (P : exists tail ni, final_words (call_words (SetAllConfig stack config)) = "config" :: "set-all" :: "--stack" :: stack :: flat_map pair_words config ++ tail
        /\ parse_flags ["non-interactive"] ["stack"; "secret"; "plaintext"] tail = Some (ni, [])
        /\ flag_values ni "stack" = [] /\ flag_values ni "secret" = [] /\ flag_values ni "plaintext" = []).
      { destruct (final_words_cases (call_words (SetAllConfig stack config))) as [-> | ->].
        - exists [], []. cbn [call_words]. rewrite app_nil_r. repeat split.
        - exists ["--non-interactive"], [("non-interactive", "")]. cbn [call_words app]. repeat split. }
      destruct P as (tail & ni & -> & Et & E1 & E2 & E3). cbv iota beta.
      assert (P : parse_flags ["non-interactive"] ["stack"; "secret"; "plaintext"] ("--stack" :: stack :: flat_map pair_words config ++ tail)
        = Some (("stack", stack) :: map pair_flag config ++ ni, [])).
      { cbn -[parse_flags app]. cbn [parse_flags]. cbn -[parse_flags app]. now rewrite (parse_pairs config tail ni []). }
      rewrite P. cbv iota beta. unfold on_stack.
      change (("stack", stack) :: map pair_flag config ++ ni) with ([("stack", stack)] ++ map pair_flag config ++ ni). rewrite !values_app, values_pairs_stack, E1, E2, E3, !app_nil_r.
      pose proof (values_pairs config true) as V1. pose proof (values_pairs config false) as V2. cbv iota in V1, V2.
      change (flag_values [("stack", stack)] "stack") with [stack]. change (flag_values [("stack", stack)] "secret") with (@nil string).
      change (flag_values [("stack", stack)] "plaintext") with (@nil string). cbn [app]. cbv iota.
      destruct (dget st stack) as [cfg|]; [|reflexivity]. rewrite V1, V2.
      rewrite set_pairs_ok; [|assumption|]. rewrite set_pairs_ok; [reflexivity|assumption|].
      + intros k x Hin. apply filter_In in Hin as [Hin _]. exact (Hk _ _ Hin).
      + intros k x Hin. apply filter_In in Hin as [Hin _]. exact (Hk _ _ Hin).
    - assert (P : exists tail ni, final_words (call_words (RemoveConfig stack key)) = "config" :: "rm" :: key :: "--stack" :: stack :: tail
        /\ parse_flags ["non-interactive"] ["stack"] tail = Some (ni, []) /\ flag_values ni "stack" = []).
      { destruct (final_words_cases (call_words (RemoveConfig stack key))) as [-> | ->].
        - exists [], []. repeat split.
        - exists ["--non-interactive"], [("non-interactive", "")]. repeat split. }
      destruct P as (tail & ni & -> & Et & E1). cbv iota beta.
      assert (P : parse_flags ["non-interactive"] ["stack"] (key :: "--stack" :: stack :: tail) = Some (("stack", stack) :: ni, [key])).
      { rewrite parse_pos by now apply not_flag. cbn -[parse_flags]. cbn [parse_flags]. cbn -[parse_flags]. now rewrite Et. }
      rewrite P. cbv iota beta. unfold on_stack. change (("stack", stack) :: ni) with ([("stack", stack)] ++ ni). rewrite values_app, E1.
      change (flag_values [("stack", stack)] "stack" ++ []) with [stack]. cbv iota.
      destruct (dget st stack) as [cfg|]; [|reflexivity]. rewrite remove_keys_ok; [reflexivity|assumption|]. intros k [<-|[]]. exact Hp.
    - destruct Hp as [Hne Hk].
      assert (P : exists tail ni, final_words (call_words (RemoveAllConfig stack keys)) = "config" :: "rm-all" :: "--stack" :: stack :: keys ++ tail
        /\ parse_flags ["non-interactive"] ["stack"] tail = Some (ni, []) /\ flag_values ni "stack" = []).
      { destruct (final_words_cases (call_words (RemoveAllConfig stack keys))) as [-> | ->].
        - exists [], []. cbn [call_words]. rewrite app_nil_r. repeat split.
        - exists ["--non-interactive"], [("non-interactive", "")]. cbn [call_words app]. repeat split. }
      destruct P as (tail & ni & -> & Et & E1). cbv iota beta.
      assert (P : parse_flags ["non-interactive"] ["stack"] ("--stack" :: stack :: keys ++ tail) = Some (("stack", stack) :: ni, keys)).
      { cbn -[parse_flags app]. cbn [parse_flags]. cbn -[parse_flags app].
        rewrite (parse_positionals _ _ keys tail ni []); [now rewrite app_nil_r|intros k Hin; now apply not_flag, Hk|exact Et]. }
      rewrite P. cbv iota beta. destruct keys as [|key keys]; [easy|]. unfold on_stack. change (("stack", stack) :: ni) with ([("stack", stack)] ++ ni). rewrite values_app, E1.
      change (flag_values [("stack", stack)] "stack" ++ []) with [stack]. cbv iota.
      destruct (dget st stack) as [cfg|]; [|reflexivity]. rewrite remove_keys_ok; [reflexivity|assumption|exact Hk].
  Qed.

  Lemma trouble_case st ws err : trouble st ws = Some err ->
    exists e code, c st ws = (st, ("", e, code)) /\ code <> 0%Z.
  Proof.
    intros E. unfold cli_config. rewrite E. destruct (Z.eqb_spec (snd err) 0) as [Ez|Ez].
    - exists (fst err), 255%Z. split; [reflexivity|discriminate].
    - exists (fst err), (snd err). split; [reflexivity|exact Ez].
  Qed.

  Lemma make_spec a st : proper_call project a ->
    (exists k, make c st a = (st, CliError k)) \/
    (exists cfg, dget st (call_stack a) = Some cfg /\ make c st a = (dset st (call_stack a) (new_config a cfg), Got tt)).
  Proof.
    intros Hp. rewrite make_words. destruct (trouble st (final_words (call_words a))) as [err|] eqn:Et.
    - left. destruct (trouble_case _ _ _ Et) as (e & code & E & Hc). rewrite (command_words _ _ _ _ _ _ _ E).
      apply Z.eqb_neq in Hc. rewrite Hc. eexists. reflexivity.
    - pose proof (cli_call a st Hp Et) as E. destruct (dget st (call_stack a)) as [cfg|] eqn:Es.
      + right. exists cfg. split; [reflexivity|]. rewrite (command_words _ _ _ _ _ _ _ E). reflexivity.
      + left. unfold refuse, failure in E. rewrite (command_words _ _ _ _ _ _ _ E). eexists. reflexivity.
  Qed.

  (** Memories. *)
  Definition same (m m' : memory) : Prop := forall stack k, m stack k = m' stack k.
  Lemma set_memory_same m m' stack k x : same m m' -> same (set_memory m stack k x) (set_memory m' stack k x).
  Proof. intros H s k'. unfold set_memory. now rewrite H. Qed.
  Lemma fold_same {A} (f : memory -> A -> memory) l : (forall m m' a, same m m' -> same (f m a) (f m' a)) -> forall m m', same m m' -> same (fold_left f l m) (fold_left f l m').
  Proof. intros Hf. induction l as [|a l IH]; intros m m' H; [exact H|]. cbn. apply IH, Hf, H. Qed.
  Lemma expected_same a m m' : same m m' -> same (expected project m a) (expected project m' a).
  Proof.
    intros H. destruct a; cbn [expected].
    - now apply set_memory_same.
    - apply fold_same; [|exact H]. intros. now apply set_memory_same.
    - now apply set_memory_same.
    - apply fold_same; [|exact H]. intros. now apply set_memory_same.
  Qed.

  Definition shown (e : entry) : string * bool := (e_value e, e_secret e).
  Lemma memory_dset st stack cfg stack' k :
    memory_of (dset st stack cfg) stack' k = if String.eqb stack' stack then option_map shown (dget cfg k) else memory_of st stack' k.
  Proof. unfold memory_of. rewrite dget_dset. destruct (String.eqb stack' stack); [|reflexivity]. destruct (dget cfg k); reflexivity. Qed.

  Lemma fold_set_other (l : dict (string * bool)) stack stack' k : stack' <> stack -> forall m,
    fold_left (fun m kv => set_memory m stack (full_key project (fst kv)) (Some (snd kv))) l m stack' k = m stack' k.
  Proof.
    intros Hs. induction l as [|x l IH]; intros m; [reflexivity|]. cbn [fold_left]. rewrite IH. unfold set_memory.
    apply String.eqb_neq in Hs. now rewrite Hs.
  Qed.
  Lemma fold_set_same (l : dict (string * bool)) stack k : NoDup (map (fun kv => full_key project (fst kv)) l) -> forall m,
    fold_left (fun m kv => set_memory m stack (full_key project (fst kv)) (Some (snd kv))) l m stack k =
    match dget (map (fun kv => (full_key project (fst kv), snd kv)) l) k with Some x => Some x | None => m stack k end.
  Proof.
    induction l as [|x l IH]; intros Hn m; [reflexivity|]. cbn [map] in Hn. apply NoDup_cons_iff in Hn as [Hx Hn].
    cbn [fold_left map dget]. rewrite IH by assumption. unfold set_memory. rewrite String.eqb_refl. cbn [andb].
    destruct (String.eqb_spec k (full_key project (fst x))) as [->|]; [|reflexivity].
    destruct (dget (map _ l) (full_key project (fst x))) eqn:E; [|reflexivity].
    exfalso. apply Hx. apply dget_key in E. unfold dkeys in E. rewrite map_map in E. exact E.
  Qed.
  Lemma fold_remove_other (l : list string) stack stack' k : stack' <> stack -> forall m,
    fold_left (fun m key => set_memory m stack (full_key project key) None) l m stack' k = m stack' k.
  Proof.
    intros Hs. induction l as [|x l IH]; intros m; [reflexivity|]. cbn [fold_left]. rewrite IH. unfold set_memory.
    apply String.eqb_neq in Hs. now rewrite Hs.
  Qed.
  Lemma fold_remove_same (l : list string) stack k : forall m cfg, m stack k = option_map shown (dget cfg k) ->
    fold_left (fun m key => set_memory m stack (full_key project key) None) l m stack k =
    option_map shown (dget (fold_left (fun d key => ddel d (full_key project key)) l cfg) k).
  Proof.
    induction l as [|x l IH]; intros m cfg H; [exact H|]. cbn [fold_left]. apply IH. unfold set_memory. rewrite String.eqb_refl, dget_ddel. cbn [andb].
    destruct (String.eqb k (full_key project x)); [reflexivity|exact H].
  Qed.
  Lemma dget_news (b : bool) l k : NoDup (map (fun kv => full_key project (fst kv)) l) ->
    option_map shown (dget (news project b (filter (fun kv => Bool.eqb (snd (snd kv)) b) l)) k) =
    match dget (map (fun kv => (full_key project (fst kv), snd kv)) l) k with
    | Some x => if Bool.eqb (snd x) b then Some x else None
    | None => None
    end.
  Proof.
    induction l as [|[key [v s]] l IH]; intros Hn; [reflexivity|]. cbn [map] in Hn. apply NoDup_cons_iff in Hn as [Hx Hn]. cbn [fst snd] in *.
    cbn [filter map fst snd dget]. destruct (Bool.eqb_spec s b) as [->|Hs].
    - cbn [news map fst snd dget]. destruct (String.eqb_spec k (full_key project key)) as [->|].
      + cbn [option_map snd]. rewrite Bool.eqb_reflx. reflexivity.
      + now apply IH.
    - rewrite IH by assumption. destruct (String.eqb_spec k (full_key project key)) as [->|]; [|reflexivity].
      cbn [snd]. destruct (Bool.eqb_spec s b) as [|]; [congruence|].
      destruct (dget (map (fun kv : string * (string * bool) => (full_key project (fst kv), snd kv)) l) (full_key project key)) eqn:E; [|reflexivity].
      exfalso. apply Hx. apply dget_key in E. unfold dkeys in E. rewrite map_map in E. exact E.
  Qed.
  Lemma news_nodup (b : bool) l (f : string * (string * bool) -> bool) : NoDup (map (fun kv => full_key project (fst kv)) l) -> wf_dict (news project b (filter f l)).
  Proof.
    unfold wf_dict, dkeys, news. rewrite map_map. cbn [fst]. induction l as [|x l IH]; intros Hn; [constructor|].
    cbn [map] in Hn. apply NoDup_cons_iff in Hn as [Hx Hn]. cbn [filter]. destruct (f x); [|auto]. cbn [map]. constructor; [|auto].
    intros Hin. apply Hx. apply in_map_iff in Hin as (y & Ey & Hy). apply filter_In in Hy as [Hy _]. rewrite <- Ey. now apply in_map with (f := fun kv => full_key project (fst kv)).
  Qed.

  Lemma new_memory a st cfg : proper_call project a -> dget st (call_stack a) = Some cfg ->
    same (memory_of (dset st (call_stack a) (new_config a cfg))) (expected project (memory_of st) a).
  Proof.
    intros Hp Hs stack' k. rewrite memory_dset.
    assert (Hm : memory_of st (call_stack a) k = option_map shown (dget cfg k)).
    { unfold memory_of. rewrite Hs. destruct (dget cfg k); reflexivity. }
    destruct (String.eqb_spec stack' (call_stack a)) as [->|Hd].
    - destruct a as [stack key value secret|stack config|stack key|stack keys]; cbn [call_stack new_config expected proper_call] in *.
      + unfold set_memory. rewrite String.eqb_refl, dget_dset. cbn [andb]. destruct (String.eqb k _); [reflexivity|]. now rewrite Hm.
      + destruct Hp as [_ Hn]. rewrite fold_set_same by assumption. rewrite !dget_dupdate by now apply news_nodup.
        pose proof (dget_news true config k Hn) as E1. pose proof (dget_news false config k Hn) as E2.
        destruct (dget (map (fun kv => (full_key project (fst kv), snd kv)) config) k) as [[v s]|].
        * destruct s; cbn in E1, E2.
          -- destruct (dget (news project true _) k) as [e|]; [|discriminate]. exact E1.
          -- destruct (dget (news project true _) k) as [e|]; [discriminate|]. destruct (dget (news project false _) k) as [e|]; [|discriminate]. exact E2.
        * destruct (dget (news project true _) k) as [e|]; [discriminate|]. destruct (dget (news project false _) k) as [e|]; [discriminate|]. now rewrite Hm.
      + unfold set_memory. rewrite String.eqb_refl, dget_ddel. cbn [andb]. destruct (String.eqb k _); [reflexivity|]. now rewrite Hm.
      + symmetry. now apply fold_remove_same.
    - destruct a as [stack key value secret|stack config|stack key|stack keys]; cbn [call_stack expected] in *.
      + unfold set_memory. apply String.eqb_neq in Hd. now rewrite Hd.
      + now rewrite fold_set_other.
      + unfold set_memory. apply String.eqb_neq in Hd. now rewrite Hd.
      + now rewrite fold_remove_other.
  Qed.

  (** States stay fit. *)
  Definition fit_config (cfg : dict entry) : Prop := wf_dict cfg /\ forall k e o, In (k, e) cfg -> e_object e = Some o -> plain_data o.
  Lemma In_dset {V} (d : dict V) k v k' v' : In (k', v') (dset d k v) -> (k' = k /\ v' = v) \/ In (k', v') d.
  Proof.
    induction d as [|[k1 v1] d IH]; cbn [dset].
    - intros [[= <- <-]|[]]. auto.
    - destruct (String.eqb_spec k k1) as [->|].
      + intros [[= <- <-]|H]; [auto|right; now right].
      + intros [[= <- <-]|H]; [right; now left|]. destruct (IH H) as [|]; [auto|right; now right].
  Qed.
  Lemma In_ddel {V} (d : dict V) k x : In x (ddel d k) -> In x d.
  Proof. induction d as [|[k1 v1] d IH]; cbn [ddel]; [easy|]. destruct (String.eqb k k1); [intros H; right; auto|]. intros [<-|H]; [now left|right; auto]. Qed.
  Lemma wf_ddel {V} (d : dict V) k : wf_dict d -> wf_dict (ddel d k).
  Proof.
    unfold wf_dict. induction d as [|[k1 v1] d IH]; cbn [ddel]; [easy|]. cbn [dkeys map fst]. intros H. apply NoDup_cons_iff in H as [H1 H].
    destruct (String.eqb k k1); [auto|]. cbn [dkeys map fst]. constructor; [|auto]. intros Hin. apply H1.
    apply in_map_iff in Hin as (x & E & Hx). apply In_ddel in Hx. rewrite <- E. now apply in_map.
  Qed.
  Lemma fit_dset cfg k v b : fit_config cfg -> fit_config (dset cfg k (mkEntry v b None)).
  Proof.
    intros [H1 H2]. split; [now apply wf_dset|]. intros k' e o Hin. apply In_dset in Hin as [[-> ->]|Hin]; [discriminate|]. now apply (H2 k').
  Qed.
  Lemma fit_ddel cfg k : fit_config cfg -> fit_config (ddel cfg k).
  Proof. intros [H1 H2]. split; [now apply wf_ddel|]. intros k' e o Hin. apply In_ddel in Hin. now apply (H2 k'). Qed.
  Lemma fit_dupdate l b : forall cfg, fit_config cfg -> fit_config (dupdate cfg (news project b l)).
  Proof. unfold dupdate, news. induction l as [|x l IH]; intros cfg H; [exact H|]. cbn [map fold_left fst snd]. apply IH, fit_dset, H. Qed.
  Lemma fit_ddels l : forall cfg, fit_config cfg -> fit_config (fold_left (fun d key => ddel d (full_key project key)) l cfg).
  Proof. induction l as [|x l IH]; intros cfg H; [exact H|]. cbn [fold_left]. apply IH, fit_ddel, H. Qed.
  Lemma new_fit a st cfg : fit_state st -> dget st (call_stack a) = Some cfg -> fit_state (dset st (call_stack a) (new_config a cfg)).
  Proof.
    intros [H1 H2] Hs. split; [now apply wf_dset|]. intros stack cfg' Hin. apply In_dset in Hin as [[-> ->]|Hin]; [|now apply (H2 stack)].
    assert (Hc : fit_config cfg) by (apply dget_In in Hs; exact (H2 _ _ Hs)).
    change (fit_config (new_config a cfg)). destruct a; cbn [new_config].
    - now apply fit_dset.
    - now repeat apply fit_dupdate.
    - now apply fit_ddel.
    - now apply fit_ddels.
  Qed.
  Lemma new_stacks a st cfg stack : dget st (call_stack a) = Some cfg ->
    (In stack (dkeys (dset st (call_stack a) (new_config a cfg))) <-> In stack (dkeys st)).
  Proof. intros Hs. rewrite dkeys_dset. apply dget_key in Hs. split; [intros [->|H]; auto|auto]. Qed.

  Lemma history l : forall st m, Forall (proper_call project) l -> fit_state st -> same (memory_of st) m ->
    let '(st', rs) := make_all c st l in
    fit_state st' /\ (forall stack, In stack (dkeys st') <-> In stack (dkeys st)) /\
    same (memory_of st') (fold_left (expected project) (returned rs) m) /\ map fst rs = l /\
    Forall (fun ar => snd ar = Got tt \/ exists k, snd ar = CliError k) rs.
  Proof.
    induction l as [|a l IH]; intros st m Hl Hf Hm; cbn [make_all].
    - split; [exact Hf|]. split; [easy|]. split; [exact Hm|]. split; [reflexivity|constructor].
    - apply Forall_cons_iff in Hl as [Ha Hl]. destruct (make_spec a st Ha) as [(k & E)|(cfg & Hs & E)]; rewrite E.
      + specialize (IH st m Hl Hf Hm). destruct (make_all c st l) as [st' rs]. destruct IH as (H1 & H2 & H3 & H4 & H5).
        split; [exact H1|]. split; [exact H2|]. split; [exact H3|]. split; [cbn; now f_equal|]. constructor; [right; now exists k|exact H5].
      + assert (Hm' : same (memory_of (dset st (call_stack a) (new_config a cfg))) (expected project m a)).
        { intros s k. rewrite (new_memory a st cfg Ha Hs). now apply expected_same. }
        specialize (IH _ _ Hl (new_fit a st cfg Hf Hs) Hm'). destruct (make_all c _ l) as [st' rs]. destruct IH as (H1 & H2 & H3 & H4 & H5).
        split; [exact H1|]. split; [intros s; rewrite H2; now apply new_stacks|]. split; [exact H3|]. split; [cbn; now f_equal|]. constructor; auto.
  Qed.

  (* ---------------------------------------------------------------- *)
  (** Reading. *)
  Lemma entry_plain e : (forall o, e_object e = Some o -> plain_data o) -> plain_data (entry_json e).
  Proof.
    intros H. unfold entry_json. constructor.
    - destruct (e_object e); cbn; repeat constructor; cbn; intuition discriminate.
    - destruct (e_object e) as [o|]; cbn; repeat constructor; cbn. now apply H.
  Qed.
  Lemma document_nl v s : document v s -> document v (s ++ nl).
  Proof.
    intros (w1 & t & w2 & H1 & Ht & H2 & ->). exists w1, t, (w2 ++ nl)%string. repeat split; auto.
    - clear -H2. induction H2 as [|n s Hn H IH]; [apply (B_more 10); [cbn; tauto|constructor]|]. cbn. now constructor.
    - now rewrite !sapp_assoc.
  Qed.
  Lemma read_entry e : read_value_secret (entry_json e) = Ok (mkCV (VStr (e_value e)) (VBool (e_secret e))).
  Proof. unfold read_value_secret, entry_json. destruct (e_object e); reflexivity. Qed.

  Definition get_words (stack key : string) : list string := ["config"; "get"; key; "--json"; "--stack"; stack].
  Lemma get_spec st stack key : fit_state st -> proper_key key ->
    fst (get_config c st stack key) = st /\
    (trouble st (final_words (get_words stack key)) = None ->
      match memory_of st stack (full_key project key) with
      | Some (v, b) => snd (get_config c st stack key) = Got (mkCV (VStr v) (VBool b))
      | None => exists k, snd (get_config c st stack key) = CliError k
      end) /\
    (trouble st (final_words (get_words stack key)) <> None -> exists k, snd (get_config c st stack key) = CliError k).
  Proof.
    intros Hf Hk. unfold get_config. change [VStr "config"; VStr "get"; VStr key; VStr "--json"; VStr "--stack"; VStr stack] with (map VStr (get_words stack key)).
    destruct (trouble st (final_words (get_words stack key))) as [err|] eqn:Et.
    - destruct (trouble_case _ _ _ Et) as (e & code & E & Hc). rewrite (command_words _ _ _ _ _ _ _ E).
      apply Z.eqb_neq in Hc. rewrite Hc. split; [reflexivity|]. split; [discriminate|]. intros _. eexists. reflexivity.
    - assert (E : c st (final_words (get_words stack key)) =
        match dget st stack with
        | Some cfg => match dget cfg (full_key project key) with
                      | Some e => (st, ((print_json (entry_json e) ++ nl)%string, "", 0%Z))
                      | None => refuse st ("error: configuration key '" ++ key ++ "' not found for stack '" ++ stack ++ "'")%string
                      end
        | None => refuse st ("error: no stack named '" ++ stack ++ "' found")%string
        end).
      { unfold cli_config. rewrite Et. clear Et.
        assert (P : exists tail ni, final_words (get_words stack key) = "config" :: "get" :: key :: "--json" :: "--stack" :: stack :: tail
          /\ parse_flags ["json"; "non-interactive"] ["stack"] tail = Some (ni, []) /\ flag_values ni "stack" = []).
        { destruct (final_words_cases (get_words stack key)) as [-> | ->].
          - exists [], []. repeat split.
          - exists ["--non-interactive"], [("non-interactive", "")]. repeat split. }
        destruct P as (tail & ni & -> & Et & E1). cbv iota beta.
        assert (P : parse_flags ["json"; "non-interactive"] ["stack"] (key :: "--json" :: "--stack" :: stack :: tail) = Some (("json", "") :: ("stack", stack) :: ni, [key])).
        { rewrite parse_pos by now apply not_flag. cbn -[parse_flags]. cbn [parse_flags]. cbn -[parse_flags]. now rewrite Et. }
        rewrite P. cbv iota beta. unfold on_stack. change (("json", "") :: ("stack", stack) :: ni) with ([("json", ""); ("stack", stack)] ++ ni). rewrite values_app, E1.
        change (flag_values [("json", ""); ("stack", stack)] "stack" ++ []) with [stack]. cbv iota.
        destruct (dget st stack) as [cfg|]; [|reflexivity]. rewrite config_key_ok by (assumption || apply Hk).
        destruct (dget cfg (full_key project key)); reflexivity. }
      unfold memory_of. destruct (dget st stack) as [cfg|] eqn:Es.
      + destruct (dget cfg (full_key project key)) as [e|] eqn:Ee.
        * rewrite (command_words _ _ _ _ _ _ _ E). cbn [Z.eqb fst snd abind].
          assert (Hp : plain_data (entry_json e)).
          { apply entry_plain. intros o Ho. destruct Hf as [_ Hf]. apply dget_In in Es. destruct (Hf _ _ Es) as [_ Hc]. apply dget_In in Ee. exact (Hc _ _ _ Ee Ho). }
          rewrite (loads_captured (entry_json e)); [|apply document_nl, Hprints, Hp|exact Hp]. cbn [rbind answer_of]. rewrite read_entry.
          split; [reflexivity|]. split; [reflexivity|easy].
        * unfold refuse, failure in E. rewrite (command_words _ _ _ _ _ _ _ E). split; [reflexivity|]. split; [|easy]. intros _. eexists. reflexivity.
      + unfold refuse, failure in E. rewrite (command_words _ _ _ _ _ _ _ E). split; [reflexivity|]. split; [|easy]. intros _. eexists. reflexivity.
  Qed.

  Definition shown_value (e : entry) : config_value := mkCV (VStr (e_value e)) (VBool (e_secret e)).
  Lemma read_all_ok (d : dict entry) j : (forall k e, In (k, e) d -> item j k = Ok (entry_json e)) -> forall acc,
    read_all_config j (dkeys d) acc = Ok (dupdate acc (map (fun kv => (fst kv, shown_value (snd kv))) d)).
  Proof.
    unfold dupdate. induction d as [|[k e] d IH]; intros H acc; [reflexivity|]. cbn [dkeys map fst snd read_all_config fold_left].
    rewrite (H k e) by now left. cbn [rbind]. rewrite read_entry. cbn [rbind]. apply IH. intros k' e' Hin. apply H. now right.
  Qed.
  Definition all_words (stack : string) : list string := ["config"; "--show-secrets"; "--json"; "--stack"; stack].
  Lemma get_all_spec st stack : fit_state st ->
    fst (get_all_config c st stack) = st /\
    (trouble st (final_words (all_words stack)) = None ->
      match dget st stack with
      | Some cfg => exists d, snd (get_all_config c st stack) = Got d /\ wf_dict d /\
                      forall k, dget d k = match memory_of st stack k with Some (v, b) => Some (mkCV (VStr v) (VBool b)) | None => None end
      | None => exists k, snd (get_all_config c st stack) = CliError k
      end) /\
    (trouble st (final_words (all_words stack)) <> None -> exists k, snd (get_all_config c st stack) = CliError k).
  Proof.
    intros Hf. unfold get_all_config. change [VStr "config"; VStr "--show-secrets"; VStr "--json"; VStr "--stack"; VStr stack] with (map VStr (all_words stack)).
    destruct (trouble st (final_words (all_words stack))) as [err|] eqn:Et.
    - destruct (trouble_case _ _ _ Et) as (e & code & E & Hc). rewrite (command_words _ _ _ _ _ _ _ E).
      apply Z.eqb_neq in Hc. rewrite Hc. split; [reflexivity|]. split; [discriminate|]. intros _. eexists. reflexivity.
    - assert (E : c st (final_words (all_words stack)) =
        match dget st stack with
        | Some cfg => (st, ((print_json (VDict (order (map (fun kv => (fst kv, entry_json (snd kv))) cfg))) ++ nl)%string, "", 0%Z))
        | None => refuse st ("error: no stack named '" ++ stack ++ "' found")%string
        end).
      { unfold cli_config. rewrite Et. clear Et.
        assert (P : exists tail ni, final_words (all_words stack) = "config" :: "--show-secrets" :: "--json" :: "--stack" :: stack :: tail
          /\ parse_flags ["json"; "show-secrets"; "non-interactive"] ["stack"] tail = Some (ni, []) /\ flag_values ni "stack" = []).
        { destruct (final_words_cases (all_words stack)) as [-> | ->].
          - exists [], []. repeat split.
          - exists ["--non-interactive"], [("non-interactive", "")]. repeat split. }
        destruct P as (tail & ni & -> & Et & E1). cbv iota beta.
        assert (P : parse_flags ["json"; "show-secrets"; "non-interactive"] ["stack"] ("--show-secrets" :: "--json" :: "--stack" :: stack :: tail)
          = Some (("show-secrets", "") :: ("json", "") :: ("stack", stack) :: ni, [])).
        { cbn -[parse_flags]. cbn [parse_flags]. cbn -[parse_flags]. now rewrite Et. }
        rewrite P. cbv iota beta. unfold on_stack.
        change (("show-secrets", "") :: ("json", "") :: ("stack", stack) :: ni) with ([("show-secrets", ""); ("json", ""); ("stack", stack)] ++ ni). rewrite values_app, E1.
        change (flag_values [("show-secrets", ""); ("json", ""); ("stack", stack)] "stack" ++ []) with [stack]. cbv iota.
        destruct (dget st stack) as [cfg|]; reflexivity. }
      destruct (dget st stack) as [cfg|] eqn:Es.
      + rewrite (command_words _ _ _ _ _ _ _ E). cbn [Z.eqb fst snd abind].
        set (d := map (fun kv => (fst kv, entry_json (snd kv))) cfg) in *.
        destruct Hf as [_ Hf]. pose proof (dget_In _ _ _ Es) as Hin. destruct (Hf _ _ Hin) as [Hwf Hobj].
        assert (Hperm : Permutation (order d) d) by apply Hprints.
        assert (Hwd : wf_dict d). { unfold wf_dict, d, dkeys. rewrite map_map. exact Hwf. }
        assert (Hwo : wf_dict (order d)). { unfold wf_dict, dkeys. apply (Permutation_NoDup (l := map fst d)); [now apply Permutation_map, Permutation_sym|exact Hwd]. }
        assert (Hp : plain_data (VDict (order d))).
        { constructor; [exact Hwo|]. apply Forall_forall. intros [k v] Hk. apply (Permutation_in _ Hperm) in Hk. unfold d in Hk.
          apply in_map_iff in Hk as ([k' e] & [= <- <-] & He). cbn [snd]. apply entry_plain. intros o Ho. exact (Hobj _ _ _ He Ho). }
        rewrite (loads_captured (VDict (order d))); [|apply document_nl, Hprints, Hp|exact Hp]. cbn [rbind answer_of keys_of].
        (* the entries in the printed order *)
        assert (Hent : exists es, order d = map (fun kv => (fst kv, entry_json (snd kv))) es /\ Permutation es cfg).
        { pose proof Hperm as Hq. unfold d in Hq at 2. apply Permutation_map_inv in Hq as (es & E1 & E2). exists es. split; [exact E1|now apply Permutation_sym]. }
        destruct Hent as (es & Eo & Hes).
        assert (Hk : dkeys (order d) = dkeys es). { rewrite Eo. unfold dkeys. now rewrite map_map. }
        rewrite Hk. rewrite read_all_ok.
        * cbn [answer_of]. split; [reflexivity|]. split; [|easy]. intros _.
          assert (Hwe : wf_dict es). { unfold wf_dict. rewrite <- Hk. exact Hwo. }
          assert (Hws : wf_dict (map (fun kv => (fst kv, shown_value (snd kv))) es)). { unfold wf_dict, dkeys in *. rewrite map_map. exact Hwe. }
          eexists. split; [reflexivity|]. split; [apply wf_dupdate; constructor|]. intros k. rewrite dget_dupdate by exact Hws. cbn [dget].
          unfold memory_of. rewrite Es.
          assert (Hg : dget es k = dget cfg k).
          { destruct (dget es k) as [e|] eqn:Ee.
            - symmetry. apply In_dget; [exact Hwf|]. apply (Permutation_in _ Hes). now apply dget_In.
            - symmetry. apply dget_None. apply dget_None in Ee. intros Hi. apply Ee. unfold dkeys in *. eapply Permutation_in; [|exact Hi]. apply Permutation_sym. now apply Permutation_map. }
          rewrite <- Hg. clear. induction es as [|[k' e] es IH]; [reflexivity|]. cbn. destruct (String.eqb k k'); [reflexivity|exact IH].
        * intros k e He. unfold item. replace (dget (order d) k) with (Some (entry_json e)); [reflexivity|]. symmetry. apply In_dget; [exact Hwo|].
          rewrite Eo. apply in_map_iff. exists (k, e). auto.
      + unfold refuse, failure in E. rewrite (command_words _ _ _ _ _ _ _ E). split; [reflexivity|]. split; [|easy]. intros _. eexists. reflexivity.
  Qed.
End Calls.
