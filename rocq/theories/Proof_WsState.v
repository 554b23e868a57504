(** Lemmas about the calls that ask about stacks and plugins. *)
From Coq Require Import DecimalString DecimalZ.
From Verif Require Import Base PyVal Model_Urn Model_Cmd Model_Argv Model_StackInit Model_Json Spec_Json Proof_Json Proof_Capture Model_WsConfig Spec_WsConfig Proof_WsConfig Model_WsState Spec_WsState.
Open Scope string_scope.
Open Scope list_scope.

(* ------------------------------------------------------------------ *)
(** Reading what the CLI printed. *)
Lemma dget_map {A B} (f : A -> B) (d : dict A) k : dget (map (fun kv => (fst kv, f (snd kv))) d) k = option_map f (dget d k).
Proof. induction d as [|[a x] d IH]; [reflexivity|]. cbn [map fst snd dget]. destruct (String.eqb k a); [reflexivity|exact IH]. Qed.
Lemma dkeys_map {A B} (f : A -> B) (d : dict A) : dkeys (map (fun kv => (fst kv, f (snd kv))) d) = dkeys d.
Proof. unfold dkeys. rewrite map_map. reflexivity. Qed.
Lemma plain_map {A} (f : A -> pyval) (d : dict A) : NoDup (dkeys d) -> (forall k x, In (k, x) d -> plain_data (f x)) ->
  plain_data (VDict (map (fun kv => (fst kv, f (snd kv))) d)).
Proof.
  intros Hn H. constructor.
  - pose proof (dkeys_map f d) as E. unfold dkeys in E at 1. now rewrite E.
  - apply Forall_map, Forall_forall. intros [k x] Hin. cbn [snd]. exact (H k x Hin).
Qed.
Lemma dset_new {V} (d : dict V) k v : ~ In k (dkeys d) -> dset d k v = d ++ [(k, v)].
Proof.
  induction d as [|[a x] d IH]; intros H; [reflexivity|]. cbn [dkeys map fst] in H. cbn [dset].
  destruct (String.eqb_spec k a) as [->|]; [exfalso; apply H; now left|]. rewrite IH; [reflexivity|]. intros Hin. apply H. now right.
Qed.

(** Building a dict by reading entry after entry. *)
Lemma read_all_spec (j : pyval) (g : string -> config_value) ks : forall acc,
  (forall k, In k ks -> exists v, item j k = Ok v /\ read_value_secret v = Ok (g k)) -> NoDup (dkeys acc ++ ks) ->
  read_all_config j ks acc = Ok (acc ++ map (fun k => (k, g k)) ks).
Proof.
  induction ks as [|k ks IH]; intros acc H Hn; [cbn; now rewrite app_nil_r|]. cbn [read_all_config].
  destruct (H k (or_introl eq_refl)) as (v & E1 & E2). rewrite E1. cbn [rbind]. rewrite E2. cbn [rbind].
  assert (Hk : ~ In k (dkeys acc)). { apply NoDup_remove_2 in Hn. intros Hin. apply Hn, in_or_app. now left. }
  rewrite dset_new by exact Hk. rewrite IH.
  - cbn [map]. now rewrite <- app_assoc.
  - intros k' Hk'. apply H. now right.
  - unfold dkeys. rewrite map_app. cbn [map fst]. rewrite <- app_assoc. exact Hn.
Qed.
Lemma read_outputs_spec (m p : pyval) (g : string -> pyval * bool) ks : forall acc,
  (forall k, In k ks -> exists x v, item m k = Ok x /\ item p k = Ok v /\ g k = (v, is_masked x)) -> NoDup (dkeys acc ++ ks) ->
  read_outputs m p ks acc = Ok (acc ++ map (fun k => (k, g k)) ks).
Proof.
  induction ks as [|k ks IH]; intros acc H Hn; [cbn; now rewrite app_nil_r|]. cbn [read_outputs].
  destruct (H k (or_introl eq_refl)) as (x & v & E1 & E2 & E3). rewrite E1. cbn [rbind]. rewrite E2. cbn [rbind].
  assert (Hk : ~ In k (dkeys acc)). { apply NoDup_remove_2 in Hn. intros Hin. apply Hn, in_or_app. now left. }
  rewrite dset_new by exact Hk. rewrite IH.
  - cbn [map]. rewrite E3. now rewrite <- app_assoc.
  - intros k' Hk'. apply H. now right.
  - unfold dkeys. rewrite map_app. cbn [map fst]. rewrite <- app_assoc. exact Hn.
Qed.
Lemma map_res_spec {A B} (R : A -> B -> Prop) (f : pyval -> res B) (j : A -> pyval) l :
  (forall a, In a l -> exists b, f (j a) = Ok b /\ R a b) -> exists bs, map_res f (map j l) = Ok bs /\ Forall2 R l bs.
Proof.
  induction l as [|a l IH]; intros H; [exists []; split; [reflexivity|constructor]|].
  destruct (H a (or_introl eq_refl)) as (b & E & Hb). destruct IH as (bs & Es & Hbs); [intros; apply H; now right|].
  exists (b :: bs). cbn [map map_res]. rewrite E. cbn [rbind]. rewrite Es. split; [reflexivity|now constructor].
Qed.

(** Finding the current stack. *)
Lemma find_forall2 {A B} (R : A -> B -> Prop) (f : A -> bool) (g : B -> bool) l l' :
  Forall2 R l l' -> (forall a b, R a b -> g b = f a) ->
  match find f l with Some a => exists b, find g l' = Some b /\ R a b | None => find g l' = None end.
Proof.
  intros H Hfg. induction H as [|a b l l' Hab H IH]; [reflexivity|]. cbn [find]. rewrite (Hfg a b Hab). destruct (f a); [eauto|exact IH].
Qed.

Section Questions.
  Variable strptime : string -> res Z.
  Variable fmt_time : Z -> string.
  Variable print_json : pyval -> string.
  Variable trouble : world -> list string -> option (string * Z).
  Hypothesis Hprint : printer print_json.
  Hypothesis Hclock : clock strptime fmt_time.
  Local Notation c := (cli_state fmt_time print_json trouble).

  Lemma ask w ws v : c w (final_words ws) = say print_json w v -> plain_data v ->
    exists out, command c w (map VStr ws) = (w, Got out) /\ loads out = Ok v.
  Proof.
    intros E Hv. unfold say in E. rewrite (command_words _ _ _ _ _ _ _ E). cbn [Z.eqb]. eexists. split; [reflexivity|].
    apply loads_captured; [|exact Hv]. apply document_nl. now apply Hprint.
  Qed.
  Lemma ask_fails w ws e : c w (final_words ws) = usage w e -> exists k, command c w (map VStr ws) = (w, CliError k).
  Proof. intros E. unfold usage, fails in E. rewrite (command_words _ _ _ _ _ _ _ E). eexists. reflexivity. Qed.
  Lemma ask_trouble w ws err : trouble w (final_words ws) = Some err -> exists k, command c w (map VStr ws) = (w, CliError k).
  Proof.
    intros E. assert (H : exists e code, c w (final_words ws) = (w, ("", e, code)) /\ code <> 0%Z).
    { unfold cli_state. rewrite E. destruct (Z.eqb_spec (snd err) 0) as [Ez|Ez].
      - exists (fst err), 255%Z. split; [reflexivity|discriminate].
      - exists (fst err), (snd err). split; [reflexivity|exact Ez]. }
    destruct H as (e & code & H & Hc). rewrite (command_words _ _ _ _ _ _ _ H). apply Z.eqb_neq in Hc. rewrite Hc. eexists. reflexivity.
  Qed.

  (* ---------------------------------------------------------------- *)
  (** Updates. *)
  Definition history_words (page_size page : option Z) (show : bool) (name : string) : list string :=
    ["stack"; "history"; "--json"] ++ (if show then ["--show-secrets"] else []) ++
    match page_size with
    | Some n => ["--page-size"; str_int n; "--page"; str_int (match page with Some p => p | None => 1%Z end)]
    | None => []
    end ++ ["--stack"; name].
  Lemma history_command w name ps p show :
    stack_command c w name (history_args ps p show) = command c w (map VStr (history_words ps p show name)).
  Proof. unfold stack_command, history_args, history_words. destruct show, ps; reflexivity. Qed.
  Definition the_page (ps p : option Z) (l : list update) : list update :=
    match ps with
    | Some n => page_of n (match p with Some p => p | None => 1%Z end) l
    | None => page_of 10 1 l
    end.
  Lemma int_back n : NilEmpty.int_of_string (str_int n) = Some (Z.to_int n).
  Proof. apply NilEmpty.isi. Qed.
  Lemma cli_history w name ps p show : trouble w (final_words (history_words ps p show name)) = None ->
    c w (final_words (history_words ps p show name)) =
    match dget (w_stacks w) name with
    | Some s => say print_json w (VList (map (update_json fmt_time show) (the_page ps p (s_updates s))))
    | None => usage w ("error: no stack named '" ++ name ++ "' found")%string
    end.
  Proof.
    intros Ht. unfold cli_state. rewrite Ht. clear Ht.
    assert (P : exists fl, match final_words (history_words ps p show name) with
                           | a :: b :: rest => a = "stack" /\ b = "history" /\ 
                               parse_flags ["json"; "show-secrets"; "full-dates"; "non-interactive"] ["stack"; "page-size"; "page"] rest = Some (fl, [])
                           | _ => False
                           end /\ flag_values fl "stack" = [name] /\ flag_given fl "json" = true /\ flag_given fl "show-secrets" = show
                           /\ flag_values fl "page-size" = match ps with Some n => [str_int n] | None => [] end
                           /\ flag_values fl "page" = match ps with Some n => [str_int (match p with Some p => p | None => 1%Z end)] | None => [] end).
    { destruct (final_words_cases (history_words ps p show name)) as [-> | ->]; destruct show, ps as [n|]; eexists; (split; [repeat split; reflexivity|]; repeat split; reflexivity). }
    destruct P as (fl & P & F1 & F2 & F3 & F4 & F5).
    destruct (final_words (history_words ps p show name)) as [|a [|b rest]]; try contradiction. destruct P as (-> & -> & P). cbv iota beta.
    rewrite P. cbv iota beta. unfold of_stack. rewrite F1. cbv iota. destruct (dget (w_stacks w) name) as [s|]; [|reflexivity].
    unfold number_flag. rewrite F4, F5, F2, F3. unfold the_page. destruct ps as [n|]; [|reflexivity]. rewrite !int_back, !of_to. reflexivity.
  Qed.

  (** What a summary is read from. *)
  Definition shown_config (cfg : dict entry) : dict config_value := map (fun kv => (fst kv, mkCV (VStr (e_value (snd kv))) (VBool (e_secret (snd kv))))) cfg.
  Lemma shown_plain show e : fit_entry e -> plain_data (shown_entry show e).
  Proof.
    intros H. unfold shown_entry. destruct (show || negb (e_secret e)); [|repeat constructor; cbn; intuition].
    constructor.
    - destruct (e_object e); cbn; repeat constructor; cbn; intuition discriminate.
    - destruct (e_object e) as [o|] eqn:E; cbn; repeat constructor; cbn. now apply H.
  Qed.
  Lemma update_plain show u : fit_update u -> plain_data (update_json fmt_time show u).
  Proof.
    intros (H1 & H2 & H3 & _ & H4).
    assert (Pc : plain_data (VDict (map (fun kv => (fst kv, shown_entry show (snd kv))) (u_config u)))).
    { apply plain_map; [exact H2|]. intros k x Hin. apply shown_plain. exact (H3 k x Hin). }
    assert (Pe : plain_data (environment_json (u_environment u))).
    { unfold environment_json. destruct (u_environment u) as [|x d]; [constructor|].
      apply (plain_map VStr); [exact H1|]. constructor. }
    unfold update_json. destruct (u_progress u) as [|r t ch].
    - constructor; [cbn; repeat constructor; cbn; intuition discriminate|]. cbn [app]. repeat (apply Forall_cons; [cbn [snd]; auto; constructor|]). constructor.
    - destruct H4 as (Hr & _ & Hch). apply String.eqb_neq in Hr. rewrite Hr.
      assert (Ph : plain_data (VDict (map (fun kv => (fst kv, VNum (snd kv))) ch))) by (apply (plain_map VNum); [exact Hch|constructor]).
      constructor; [cbn; repeat constructor; cbn; intuition discriminate|]. cbn [app]. repeat (apply Forall_cons; [cbn [snd]; auto; constructor|]). constructor.
  Qed.
  Lemma config_read show cfg : NoDup (dkeys cfg) -> (show = true \/ existsb (fun kv => e_secret (snd kv)) cfg = false) ->
    exists d, summary_config (VDict (map (fun kv => (fst kv, shown_entry show (snd kv))) cfg)) = Ok d /\ tells_config cfg d.
  Proof.
    intros Hn Hs. unfold summary_config. cbn [keys_of rbind]. rewrite dkeys_map.
    set (g := fun k => match dget cfg k with Some e => mkCV (VStr (e_value e)) (VBool (e_secret e)) | None => mkCV VNone VNone end).
    rewrite (read_all_spec _ g (dkeys cfg) []).
    - eexists. split; [reflexivity|]. cbn [app]. split.
      + unfold dkeys at 1. rewrite map_map. apply map_id.
      + intros k. assert (E : dget (map (fun k => (k, g k)) (dkeys cfg)) k = if smem k (dkeys cfg) then Some (g k) else None).
        { generalize (dkeys cfg). intros l. induction l as [|a l IH]; [reflexivity|]. cbn [map dget smem].
          destruct (String.eqb_spec k a) as [->|Hd]; [reflexivity|exact IH]. }
        rewrite E. unfold g. destruct (dget cfg k) as [e|] eqn:Ek.
        * apply dget_key, smem_In in Ek. now rewrite Ek.
        * apply dget_None, smem_notIn in Ek. now rewrite Ek.
    - intros k Hk. apply dget_Some_key in Hk as (e & Ek). exists (shown_entry show e). cbn [item]. rewrite (dget_map (shown_entry show)), Ek. split; [reflexivity|].
      assert (V : show || negb (e_secret e) = true).
      { destruct Hs as [-> | Hs]; [reflexivity|]. apply orb_true_iff. right. apply negb_true_iff. destruct (e_secret e) eqn:Ee; [|reflexivity].
        apply dget_In in Ek. exfalso. assert (existsb (fun kv => e_secret (snd kv)) cfg = true); [|congruence]. apply existsb_exists. exists (k, e). auto. }
      unfold shown_entry, g. rewrite V, Ek. unfold read_value_secret. destruct (e_object e); reflexivity.
    - cbn [app dkeys map]. exact Hn.
  Qed.
  Lemma summary_read show u : fit_update u -> finished u -> (show = true \/ has_secrets u = false) ->
    exists o, read_summary strptime (update_json fmt_time show u) = Ok o /\ tells_update u o.
  Proof.
    intros (H1 & H2 & H3 & Hst & H4) Hf Hs. destruct (config_read show (u_config u) H2 Hs) as (d & Ed & Td).
    unfold finished in Hf. destruct (u_progress u) as [|r t ch] eqn:Ep; [easy|]. destruct H4 as (Hr & Ht & _). apply String.eqb_neq in Hr.
    unfold update_json. rewrite Ep, Hr. unfold read_summary. cbn [app].
    cbn -[summary_config environment_json]. rewrite Hclock by exact Hst. cbn -[summary_config environment_json]. rewrite Hclock by exact Ht. cbn -[summary_config environment_json].
    rewrite Ed. cbn [rbind]. eexists. split; [reflexivity|]. unfold tells_update. rewrite Ep. cbn. repeat split.
    - eexists. split; [reflexivity|]. unfold environment_json. destruct (u_environment u); reflexivity.
    - eexists. split; [reflexivity|exact Td].
  Qed.

  Lemma dget_stack w name s : fit_world w -> dget (w_stacks w) name = Some s -> fit_stack s.
  Proof. intros (_ & H & _) E. apply dget_In in E. exact (H _ _ E). Qed.
  Lemma page_In n p l u : In u (page_of n p l) -> In u l.
  Proof.
    unfold page_of. destruct (Z.ltb 0 n); [|auto]. intros H. 
    rewrite <- (firstn_skipn (Z.to_nat ((Z.max p 1 - 1) * n)) l). apply in_or_app. right.
    rewrite <- (firstn_skipn (Z.to_nat n) (skipn (Z.to_nat ((Z.max p 1 - 1) * n)) l)). apply in_or_app. now left.
  Qed.
  Lemma the_page_In ps p l u : In u (the_page ps p l) -> In u l.
  Proof. unfold the_page. destruct ps; apply page_In. Qed.

  Lemma history_spec w name ps p show : fit_world w ->
    fst (stack_history strptime c w name ps p show) = w /\
    ((exists k, snd (stack_history strptime c w name ps p show) = CliError k) \/
     exists s, dget (w_stacks w) name = Some s /\
       ((forall u, In u (the_page ps p (s_updates s)) -> finished u /\ (show = true \/ has_secrets u = false)) ->
        exists l, snd (stack_history strptime c w name ps p show) = Got l /\ Forall2 tells_update (the_page ps p (s_updates s)) l)) /\
    (forall s, (forall a b, trouble a b = None) -> dget (w_stacks w) name = Some s -> forall k, snd (stack_history strptime c w name ps p show) <> CliError k).
  Proof.
    intros Hw. unfold stack_history. rewrite history_command.
    destruct (trouble w (final_words (history_words ps p show name))) as [err|] eqn:Et.
    - destruct (ask_trouble _ _ _ Et) as (k & E). rewrite E. cbn. split; [reflexivity|]. split; [left; eauto|]. intros s Hno. rewrite Hno in Et. discriminate.
    - pose proof (cli_history w name ps p show Et) as E. destruct (dget (w_stacks w) name) as [s|] eqn:Es.
      + destruct (ask _ _ _ E) as (out & E1 & E2).
        { constructor. apply Forall_map, Forall_forall. intros u Hu. apply update_plain. apply the_page_In in Hu. apply dget_stack in Es; [|exact Hw].
          destruct Es as [Es _]. rewrite Forall_forall in Es. now apply Es. }
        rewrite E1. cbn [fst snd abind]. split; [reflexivity|]. rewrite E2. cbn [rbind items_of answer_of]. split.
        * right. exists s. split; [reflexivity|]. intros Hall.
          destruct (map_res_spec tells_update (read_summary strptime) (update_json fmt_time show) (the_page ps p (s_updates s))) as (l & El & Hl).
          { intros u Hu. destruct (Hall u Hu) as [Hf Hsec]. apply summary_read; auto. apply the_page_In in Hu. apply dget_stack in Es; [|exact Hw].
            destruct Es as [Es _]. rewrite Forall_forall in Es. now apply Es. }
          exists l. rewrite El. split; [reflexivity|exact Hl].
        * intros s' _ _ k. destruct (map_res _ _); discriminate.
      + destruct (ask_fails _ _ _ E) as (k & E1). rewrite E1. cbn. split; [reflexivity|]. split; [left; eauto|]. discriminate.
  Qed.

  (* ---------------------------------------------------------------- *)
  (** Outputs. *)
  Fixpoint massage_stands v {struct v} : stands v (massage true v).
  Proof.
    destruct v as [| b | z | s | l | d | v]; cbn [massage]; constructor; try apply massage_stands.
    - induction l as [|x l IH]; cbn [map]; constructor; [apply massage_stands|exact IH].
    - induction d as [|[k x] d IH]; cbn [map fst snd]; constructor; [split; [reflexivity|apply massage_stands]|exact IH].
  Qed.
  Lemma stands_fun : forall v x, stands v x -> x = massage true v.
  Proof.
    fix F 3. intros v x H. destruct H as [| b | z | s | l l' H | d d' H | v x H]; cbn [massage]; try reflexivity.
    - f_equal. induction H as [|a b l l' H1 H IH]; [reflexivity|]. cbn [map]. f_equal; [now apply F|exact IH].
    - f_equal. induction H as [|[a x] [b y] d d' [H1 H2] H IH]; [reflexivity|]. cbn [map fst snd] in *. subst b. f_equal; [f_equal; now apply F|exact IH].
    - now apply F.
  Qed.
  Lemma massage_plain show : forall v, fit_ov v -> plain_data (massage show v).
  Proof.
    fix F 2. intros v H. destruct H as [| b | z | s | l H | d Hn H | v H]; cbn [massage]; try constructor.
    - induction H as [|x l Hx H IH]; cbn [map]; constructor; [now apply F|exact IH].
    - pose proof (dkeys_map (massage show) d) as E. unfold dkeys in E at 1. rewrite E. exact Hn.
    - clear Hn. induction H as [|x d Hx H IH]; cbn [map snd]; constructor; [now apply F|exact IH].
    - pose proof (F v H) as K. clear F. destruct show; [exact K|constructor].
  Qed.
  Definition output_words (show : bool) (name : string) : list string :=
    ["stack"; "output"; "--json"] ++ (if show then ["--show-secrets"] else []) ++ ["--stack"; name].
  Lemma cli_output w name show : trouble w (final_words (output_words show name)) = None ->
    c w (final_words (output_words show name)) =
    match dget (w_stacks w) name with
    | Some s => say print_json w (outputs_json show (s_outputs s))
    | None => usage w ("error: no stack named '" ++ name ++ "' found")%string
    end.
  Proof.
    intros Ht. unfold cli_state. rewrite Ht. clear Ht.
    assert (P : exists fl, match final_words (output_words show name) with
                           | a :: b :: rest => a = "stack" /\ b = "output" /\ parse_flags ["json"; "show-secrets"; "non-interactive"] ["stack"] rest = Some (fl, [])
                           | _ => False
                           end /\ flag_values fl "stack" = [name] /\ flag_given fl "json" = true /\ flag_given fl "show-secrets" = show).
    { destruct (final_words_cases (output_words show name)) as [-> | ->]; destruct show; eexists; (split; [repeat split; reflexivity|]; repeat split; reflexivity). }
    destruct P as (fl & P & F1 & F2 & F3).
    destruct (final_words (output_words show name)) as [|a [|b rest]]; try contradiction. destruct P as (-> & -> & P). cbv iota beta.
    rewrite P. cbv iota beta. unfold of_stack. rewrite F1. cbv iota. destruct (dget (w_stacks w) name) as [s|]; [|reflexivity]. now rewrite F2, F3.
  Qed.
  Lemma outputs_ask w name show : fit_world w ->
    (exists k, command c w (map VStr (output_words show name)) = (w, CliError k) /\ ((forall a b, trouble a b = None) -> dget (w_stacks w) name = None)) \/
    (exists s out, dget (w_stacks w) name = Some s /\ command c w (map VStr (output_words show name)) = (w, Got out) /\ loads out = Ok (outputs_json show (s_outputs s))).
  Proof.
    intros Hw. destruct (trouble w (final_words (output_words show name))) as [err|] eqn:Et.
    - left. destruct (ask_trouble _ _ _ Et) as (k & E). exists k. split; [exact E|]. intros Hno. rewrite Hno in Et. discriminate.
    - pose proof (cli_output w name show Et) as E. destruct (dget (w_stacks w) name) as [s|] eqn:Es.
      + right. destruct (ask _ _ _ E) as (out & E1 & E2).
        { apply dget_stack in Es; [|exact Hw]. destruct Es as (_ & Es & _). apply (massage_plain show) in Es. exact Es. }
        exists s, out. auto.
      + left. destruct (ask_fails _ _ _ E) as (k & E1). exists k. auto.
  Qed.
  (** Whatever happens between the two commands. *)
  Lemma outputs_spec meanwhile w name : fit_world w -> fit_world (meanwhile w) ->
    fst (stack_outputs c meanwhile w name) = w \/ fst (stack_outputs c meanwhile w name) = meanwhile w.
  Proof.
    intros H1 H2. unfold stack_outputs.
    change [VStr "stack"; VStr "output"; VStr "--json"; VStr "--stack"; VStr name] with (map VStr (output_words false name)).
    change [VStr "stack"; VStr "output"; VStr "--json"; VStr "--show-secrets"; VStr "--stack"; VStr name] with (map VStr (output_words true name)).
    destruct (outputs_ask w name false H1) as [(k & -> & _)|(s & out & _ & -> & _)]; [left; reflexivity|].
    destruct (outputs_ask (meanwhile w) name true H2) as [(k & -> & _)|(s2 & out2 & _ & -> & _)]; right; reflexivity.
  Qed.
  Definition output_value (d1 d2 : dict ov) (k : string) : pyval * bool :=
    match dget d1 k, dget d2 k with
    | Some a, Some b => (massage true b, is_masked (massage false a))
    | _, _ => (VNone, false)
    end.
  Lemma outputs_value meanwhile w name s1 s2 : fit_world w -> fit_world (meanwhile w) ->
    dget (w_stacks w) name = Some s1 -> dget (w_stacks (meanwhile w)) name = Some s2 ->
    (forall k, In k (dkeys (s_outputs s2)) -> In k (dkeys (s_outputs s1))) ->
    (exists k, snd (stack_outputs c meanwhile w name) = CliError k /\ ~ (forall a b, trouble a b = None)) \/
    snd (stack_outputs c meanwhile w name) = Got (map (fun k => (k, output_value (s_outputs s1) (s_outputs s2) k)) (dkeys (s_outputs s2))).
  Proof.
    intros H1 H2 E1 E2 Hk. unfold stack_outputs.
    change [VStr "stack"; VStr "output"; VStr "--json"; VStr "--stack"; VStr name] with (map VStr (output_words false name)).
    change [VStr "stack"; VStr "output"; VStr "--json"; VStr "--show-secrets"; VStr "--stack"; VStr name] with (map VStr (output_words true name)).
    destruct (outputs_ask w name false H1) as [(k & -> & Hno)|(s & out & Es & -> & L1)].
    { left. exists k. split; [reflexivity|]. intros H. rewrite (Hno H) in E1. discriminate. }
    destruct (outputs_ask (meanwhile w) name true H2) as [(k & -> & Hno)|(s' & out2 & Es' & -> & L2)].
    { left. exists k. split; [reflexivity|]. intros H. rewrite (Hno H) in E2. discriminate. }
    right. rewrite E1 in Es. rewrite E2 in Es'. injection Es as <-. injection Es' as <-. cbn [snd abind]. rewrite L1, L2. cbn [rbind].
    unfold outputs_json. cbn [keys_of rbind]. rewrite dkeys_map.
    rewrite (read_outputs_spec _ _ (output_value (s_outputs s1) (s_outputs s2)) (dkeys (s_outputs s2)) []).
    - reflexivity.
    - intros k Hin. cbn [item]. rewrite !dget_map. unfold output_value. 
      destruct (dget_Some_key _ _ Hin) as (b & ->). destruct (dget_Some_key _ _ (Hk _ Hin)) as (a & ->). cbn [option_map]. eauto.
    - cbn [app dkeys map]. apply dget_stack in E2; [|exact H2]. destruct E2 as (_ & E2 & _). inversion E2; subst. assumption.
  Qed.

  (* ---------------------------------------------------------------- *)
  (** Stacks and plugins. *)
  Lemma cli_stacks w : trouble w (final_words ["stack"; "ls"; "--json"]) = None ->
    c w (final_words ["stack"; "ls"; "--json"]) = say print_json w (VList (map (fun kv => stack_json fmt_time (w_current w) (fst kv) (snd kv)) (w_stacks w))).
  Proof. intros Ht. unfold cli_state. rewrite Ht. reflexivity. Qed.
  Lemma cli_plugins w : trouble w (final_words ["plugin"; "ls"; "--json"]) = None ->
    c w (final_words ["plugin"; "ls"; "--json"]) = say print_json w (VList (map (plugin_json fmt_time) (w_plugins w))).
  Proof. intros Ht. unfold cli_state. rewrite Ht. reflexivity. Qed.
  Lemma stack_plain cur name s : plain_data (stack_json fmt_time cur name s).
  Proof.
    unfold stack_json. destruct s as [ups outs lu n url]; cbn [s_last_update s_resources s_url].
    destruct lu as [t|]; cbn [some]; [destruct (Z.eqb t 0)|]; destruct n; cbn [some]; destruct (String.eqb url "");
      (constructor; [cbn; repeat constructor; cbn; intuition discriminate|cbn [app]; repeat (apply Forall_cons; [constructor|]); constructor]).
  Qed.
  Lemma plugin_plain p : plain_data (plugin_json fmt_time p).
  Proof.
    unfold plugin_json. destruct (p_installed p), (p_used p); cbn [some];
      (constructor; [cbn; repeat constructor; cbn; intuition discriminate|cbn [app]; repeat (apply Forall_cons; [constructor|]); constructor]).
  Qed.
  Lemma stack_read cur name s : fit_stack s -> exists o, read_stack strptime (stack_json fmt_time cur name s) = Ok o /\ tells_stack cur name s o.
  Proof.
    intros (_ & _ & Ht). unfold stack_json. destruct s as [ups outs lu n url]; cbn [s_last_update s_resources s_url] in *.
    assert (K : forall f, exists b, (match cur with Some c0 => String.eqb name c0 | None => false end) = b /\ (b = true <-> cur = Some name) /\ f = f :> unit).
    { intros []. eexists. split; [reflexivity|]. split; [|reflexivity]. destruct cur as [c0|]; [|split; discriminate].
      destruct (String.eqb_spec name c0) as [->|]; split; congruence. }
    destruct (K tt) as (b & -> & Hb & _). clear K.
    assert (U : (if string_dec url "" then VNone else VStr url) = if String.eqb url "" then VNone else VStr url).
    { destruct (string_dec url "") as [->|Hd]; [reflexivity|]. apply String.eqb_neq in Hd. now rewrite Hd. }
    destruct lu as [t|]; cbn [some].
    - destruct (Z.eqb_spec t 0) as [->|Hz].
      + destruct n, (String.eqb url ""); cbn; (eexists; split; [reflexivity|]; unfold tells_stack; cbn [s_last_update s_resources s_url]; rewrite U; cbn;
          repeat split; try (eexists; split; [reflexivity|]; first [exact Hb|split; congruence])).
      + destruct n, (String.eqb url ""); cbn; rewrite Hclock by (now apply Ht); cbn; (eexists; split; [reflexivity|]; unfold tells_stack; cbn [s_last_update s_resources s_url]; rewrite U; cbn;
          repeat split; try (eexists; split; [reflexivity|]; first [exact Hb|split; congruence]); try (destruct (Z.eq_dec t 0); [contradiction|reflexivity])).
    - destruct n, (String.eqb url ""); cbn; (eexists; split; [reflexivity|]; unfold tells_stack; cbn [s_last_update s_resources s_url]; rewrite U; cbn;
          repeat split; try (eexists; split; [reflexivity|]; first [exact Hb|split; congruence])).
  Qed.
  Lemma plugin_read p : fit_plugin p -> p_used p <> None ->
    exists o, read_plugin strptime (plugin_json fmt_time p) = Ok o /\ tells_plugin p o /\ attr o "last_used" = option_map CTime (p_used p).
  Proof.
    intros [H1 H2] Hu. unfold plugin_json, tells_plugin. destruct p as [nm kd ver size inst used]; cbn [p_name p_kind p_version p_size p_installed p_used] in *.
    destruct used as [t|]; [|easy]. destruct inst as [i|]; cbn; rewrite !Hclock by auto; cbn; (eexists; split; [reflexivity|]); repeat split.
  Qed.

  Lemma stacks_spec w : fit_world w ->
    fst (list_stacks strptime c w) = w /\
    ((exists k, snd (list_stacks strptime c w) = CliError k /\ ~ (forall a b, trouble a b = None)) \/
     exists l, snd (list_stacks strptime c w) = Got l /\ Forall2 (fun kv o => tells_stack (w_current w) (fst kv) (snd kv) o) (w_stacks w) l).
  Proof.
    intros Hw. unfold list_stacks. change [VStr "stack"; VStr "ls"; VStr "--json"] with (map VStr ["stack"; "ls"; "--json"]).
    destruct (trouble w (final_words ["stack"; "ls"; "--json"])) as [err|] eqn:Et.
    - destruct (ask_trouble _ _ _ Et) as (k & E). rewrite E. cbn. split; [reflexivity|]. left. exists k. split; [reflexivity|]. intros Hno. rewrite Hno in Et. discriminate.
    - destruct (ask _ _ _ (cli_stacks w Et)) as (out & E1 & E2).
      { constructor. apply Forall_map, Forall_forall. intros kv _. apply stack_plain. }
      rewrite E1. cbn [fst snd abind]. split; [reflexivity|]. rewrite E2. cbn [rbind items_of answer_of]. right.
      destruct (map_res_spec (fun kv o => tells_stack (w_current w) (fst kv) (snd kv) o) (read_stack strptime) (fun kv => stack_json fmt_time (w_current w) (fst kv) (snd kv)) (w_stacks w)) as (l & El & Hl).
      { intros [k s] Hin. apply stack_read. destruct Hw as (_ & Hw & _). exact (Hw _ _ Hin). }
      exists l. rewrite El. auto.
  Qed.
  Lemma plugins_spec w : fit_world w -> Forall (fun p => p_used p <> None) (w_plugins w) ->
    fst (list_plugins strptime c w) = w /\
    ((exists k, snd (list_plugins strptime c w) = CliError k /\ ~ (forall a b, trouble a b = None)) \/
     exists l, snd (list_plugins strptime c w) = Got l /\ Forall2 (fun p o => tells_plugin p o /\ attr o "last_used" = option_map CTime (p_used p)) (w_plugins w) l).
  Proof.
    intros Hw Hu. unfold list_plugins. change [VStr "plugin"; VStr "ls"; VStr "--json"] with (map VStr ["plugin"; "ls"; "--json"]).
    destruct (trouble w (final_words ["plugin"; "ls"; "--json"])) as [err|] eqn:Et.
    - destruct (ask_trouble _ _ _ Et) as (k & E). rewrite E. cbn. split; [reflexivity|]. left. exists k. split; [reflexivity|]. intros Hno. rewrite Hno in Et. discriminate.
    - destruct (ask _ _ _ (cli_plugins w Et)) as (out & E1 & E2).
      { constructor. apply Forall_map, Forall_forall. intros p _. apply plugin_plain. }
      rewrite E1. cbn [fst snd abind]. split; [reflexivity|]. rewrite E2. cbn [rbind items_of answer_of]. right.
      destruct (map_res_spec (fun p o => tells_plugin p o /\ attr o "last_used" = option_map CTime (p_used p)) (read_plugin strptime) (plugin_json fmt_time) (w_plugins w)) as (l & El & Hl).
      { intros p Hin. destruct Hw as (_ & _ & Hw). rewrite Forall_forall in Hw, Hu. apply plugin_read; auto. }
      exists l. rewrite El. auto.
  Qed.
End Questions.
