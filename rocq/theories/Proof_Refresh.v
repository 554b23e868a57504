(** Lemmas about getting the configuration of the last update back. *)
From Verif Require Import Base PyVal Model_Urn Model_Cmd Model_StackInit Model_Json Spec_Json Proof_Json Proof_Capture Model_WsConfig Spec_WsConfig Proof_WsConfig.
From Verif Require Import Model_Host Model_ConfigFile Spec_ConfigFile Proof_ConfigFile Model_Lock Model_Save Spec_Files Model_Refresh Spec_Refresh.
From Verif Require Model_Files Proof_Files.
Open Scope string_scope.
Open Scope list_scope.

Section Values.
  Variable to_json : pyval -> string.
  Variable of_json : string -> res pyval.
  Hypothesis Hjson : reads_back to_json of_json.
  (** Configurations that come from files. *)
  Definition settled (cfg : dict cvalue) : Prop := wf_dict cfg /\ Forall (fun kv => colons (fst kv) = 1 /\ stable to_json (snd kv)) cfg.
  Lemma unmarshal_plain y : plain_data y -> exists v, unmarshal_value to_json y = Ok v.
  Proof using. intros P. inversion P; subst; cbn [unmarshal_value]; try (eexists; reflexivity); destruct (is_secure_value _); eexists; reflexivity. Qed.
  Lemma load_settled f : forall acc, settled acc -> readable f -> exists cfg, load_from to_json acc f = Ok cfg /\ settled cfg.
  Proof using.
    induction f as [|[w y] f IH]; intros acc S R; cbn [load_from]; [exists acc; split; [reflexivity|exact S]|].
    destruct (R w y (or_introl eq_refl)) as [(k & Sk) Py]. destruct (unmarshal_plain y Py) as (v & E). rewrite E. cbn [rbind]. rewrite (spells_parse _ _ Sk).
    apply IH; [|intros w' y' I; apply R; now right]. destruct S as [W F]. split; [now apply wf_dset|]. apply Forall_forall. intros [k' v'] I.
    assert (K : (k' = k /\ v' = v) \/ In (k', v') acc).
    { clear -I. revert I. induction acc as [|[a x] acc IH]; cbn [dset]; [intros [[= -> ->]|[]]; auto|]. destruct (String.eqb_spec k a) as [->|].
      - intros [[= -> ->]|I]; [auto|right; now right].
      - intros [[= -> ->]|I]; [right; now left|]. destruct (IH I); [auto|right; now right]. }
    destruct K as [[-> ->]|K]; [|rewrite Forall_forall in F; now apply F]. cbn [fst snd]. split; [|exists y; auto]. apply spells_parse in Sk. now apply parse_key_colons in Sk.
  Qed.
  Lemma settled_nil : settled [].
  Proof using. split; constructor. Qed.
  Lemma save_settled cfg : settled cfg -> exists f, save_config of_json cfg = Ok f /\ load_config to_json f = Ok cfg.
  Proof using Hjson.
    intros [W F].
    assert (K : exists f, save_config of_json cfg = Ok f /\ Forall2 (fun ky kv => parse_key legacy_key (fst ky) = Some (fst kv) /\ unmarshal_value to_json (snd ky) = Ok (snd kv)) f cfg).
    { clear W. induction F as [|[k v] cfg [C St] _ IH]; [exists []; split; [reflexivity|constructor]|]. destruct IH as (f & E & Ef). cbn [fst snd] in *.
      destruct (marshal_ok to_json of_json Hjson v St) as (y & E1 & E2). exists ((k, y) :: f). cbn [save_config]. rewrite E1, E. cbn. split; [reflexivity|]. constructor; [|exact Ef]. cbn. split; [now apply parse_key_same|exact E2]. }
    destruct K as (f & E & Ef). exists f. split; [exact E|]. unfold load_config. now rewrite (load_from_ok to_json f cfg Ef []).
  Qed.
End Values.

Section Histories.
  Variables S V : Type.
  Variable has_resources : S -> bool.
  Variable to_json : pyval -> string.
  Variable of_json : string -> res pyval.
  Notation R := (record V).
  Notation act := (act (V := V) has_resources to_json of_json).
  Notation act_all := (act_all (V := V) has_resources to_json of_json).
  Notation Inv := (@Proof_Files.Inv S R).

  (** The state of a stack and its newest record. *)
  Definition newest (a : stacks S R) (n : string) (r : option S * R) : Prop := exists x h, a n = Some x /\ s_state x = fst r /\ s_history x = snd r :: h.

  Lemma act_inv w a t : Inv (w_bucket w) a t -> forall x, sound x -> going_on t (time_of x) ->
    exists a' t', Inv (w_bucket (fst (act w x))) a' t' /\ (forall ts, going_on t (time_of x ++ ts) -> going_on t' ts) /\
      (forall n r, spares n x -> newest a n r -> newest a' n r).
  Proof using.
    intros I x Sx G.
    assert (Cmd : forall e (c : Model_Files.command S R), working e -> proper (about c) -> going_on t [Model_Files.e_stamp e] ->
      exists a', Inv (fst (Model_Files.run_command has_resources e (w_bucket w) c)) a' (Model_Files.e_stamp e) /\ a' = fst (does has_resources a c)).
    { intros e c W Pn (L & C & Ns & _). apply Proof_Files.no_slash in Ns. pose proof (@Proof_Files.inv_step S R has_resources e (w_bucket w) a t c I W Pn Ns (conj L C)) as St.
      destruct (Model_Files.run_command has_resources e (w_bucket w) c) as [b ok]. destruct (does has_resources a c) as [a' ok']. destruct St as [_ I']. exists a'. auto. }
    destruct x as [fs|e n|e n ss v|e n]; cbn [time_of sound] in *.
    - exists a, t. split; [exact I|]. split; [auto|auto].
    - destruct Sx as [W Pn]. destruct (Cmd e (Model_Files.Create n) W Pn G) as (a' & I' & ->). eexists. exists (Model_Files.e_stamp e). split; [|split; [intros ts Gt; exact (proj2 (proj2 (proj2 Gt)))|]].
      + cbn [Model_Files.run_command] in I'. unfold Model_Refresh.act. destruct (Model_Files.create e (w_bucket w) n) as [b ok]. exact I'.
      + intros m r _ (x & h & E & Eh). cbn [does]. destruct (a n) as [y|] eqn:En; [exists x, h; auto|]. exists x, h. split; [|exact Eh]. cbn [fst]. unfold set. destruct (String.eqb_spec m n) as [->|]; [congruence|exact E].
    - destruct Sx as [W Pn]. unfold Model_Refresh.act, update_stack.
      assert (Skip : exists a' t', Inv (w_bucket w) a' t' /\ (forall ts, going_on t ([Model_Files.e_stamp e] ++ ts) -> going_on t' ts) /\ (forall m r, spares m (Updated e n ss v) -> newest a m r -> newest a' m r)).
      { destruct G as (L & C & Ns & _). exists a, (Model_Files.e_stamp e). split; [now apply (Proof_Files.inv_bound _ _ t); [split|]|]. split; [intros ts Gt; exact (proj2 (proj2 (proj2 Gt)))|auto]. }
      destruct (dget (w_files w) n) as [f|]; [|exact Skip]. destruct (let+ cfg := load_config to_json f in save_config of_json cfg) as [r|]; [|exact Skip].
      destruct (Cmd e (Model_Files.Update n ss (v, r)) W Pn G) as (a' & I' & ->). eexists. exists (Model_Files.e_stamp e). split; [|split; [intros ts Gt; exact (proj2 (proj2 (proj2 Gt)))|]].
      + cbn [Model_Files.run_command] in I'. destruct (Model_Files.update e (w_bucket w) n ss (v, r)) as [b ok]. exact I'.
      + intros m r' Sp (x & h & E & Eh). cbn [spares] in Sp. cbn [does]. destruct (a n) as [y|]; [|exists x, h; auto]. exists x, h. split; [|exact Eh]. cbn [fst]. unfold set. destruct (String.eqb_spec m n) as [->|]; [congruence|exact E].
    - destruct Sx as [W Pn]. destruct (Cmd e (Model_Files.Remove n) W Pn G) as (a' & I' & ->). eexists. exists (Model_Files.e_stamp e). split; [|split; [intros ts Gt; exact (proj2 (proj2 (proj2 Gt)))|]].
      + cbn [Model_Files.run_command] in I'. unfold Model_Refresh.act. destruct (Model_Files.remove has_resources e (w_bucket w) n) as [b ok]. exact I'.
      + intros m r Sp (x & h & E & Eh). cbn [spares] in Sp. cbn [does]. destruct (a n) as [y|]; [|exists x, h; auto].
        destruct (match s_state y with Some s => has_resources s | None => false end); exists x, h; (split; [|exact Eh]); cbn [fst]; [exact E|]. unfold set. destruct (String.eqb_spec m n) as [->|]; [congruence|exact E].
  Qed.
  Lemma going_prefix t l l' : going_on t (l ++ l') -> going_on t l.
  Proof using. revert t. induction l as [|x l IH]; intros t; cbn; [auto|]. intros (A & B & C & D). repeat split; auto. Qed.
  Lemma act_all_inv l : forall w a t ts, Inv (w_bucket w) a t -> Forall sound l -> going_on t (flat_map time_of l ++ ts) ->
    exists a' t', Inv (w_bucket (act_all w l)) a' t' /\ going_on t' ts /\ (forall n r, Forall (spares n) l -> newest a n r -> newest a' n r).
  Proof using.
    induction l as [|x l IH]; intros w a t ts I F G; [exists a, t; auto|]. inversion F as [|? ? Sx F' Q]; subst. cbn [flat_map] in G. rewrite <- app_assoc in G.
    destruct (act_inv w a t I x Sx (going_prefix _ _ _ G)) as (a1 & t1 & I1 & G1 & N1). destruct (IH _ a1 t1 ts I1 F' (G1 _ G)) as (a2 & t2 & I2 & G2 & N2).
    exists a2, t2. split; [exact I2|]. split; [exact G2|]. intros n r Fs N. inversion Fs; subst. auto.
  Qed.
  Lemma update_newest w a t e n ss v w1 f r : Inv (w_bucket w) a t -> sound (@Updated S V e n ss v) -> going_on t [Model_Files.e_stamp e] ->
    act w (Updated e n ss v) = (w1, true) -> dget (w_files w) n = Some f -> (let+ cfg := load_config to_json f in save_config of_json cfg) = Ok r ->
    exists a', Inv (w_bucket w1) a' (Model_Files.e_stamp e) /\ exists s, newest a' n (List.last (map Some ss) s, (v, r)).
  Proof using.
    intros I [W Pn] (L & C & Ns & _) E Ef Er. unfold Model_Refresh.act, update_stack in E. rewrite Ef, Er in E. apply Proof_Files.no_slash in Ns.
    pose proof (@Proof_Files.inv_step S R has_resources e (w_bucket w) a t (Model_Files.Update n ss (v, r)) I W Pn Ns (conj L C)) as St. cbn [Model_Files.run_command does] in St.
    destruct (Model_Files.update e (w_bucket w) n ss (v, r)) as [b ok]. injection E as <- ->. destruct (a n) as [x|] eqn:En; [|destruct St; discriminate]. destruct St as [_ I']. eexists. split; [exact I'|].
    exists (s_state x). eexists. eexists. unfold set. rewrite String.eqb_refl. repeat split; reflexivity.
  Qed.
End Histories.

Section Calls.
  Variables S V : Type.
  Variable to_json : pyval -> string.
  Variable of_json : string -> res pyval.
  Variable project : string.
  Variable print_json : pyval -> string.
  Variable order : dict pyval -> dict pyval.
  Variable enc : files -> string -> string -> string -> res string.
  Variable dec : string -> string -> res string.
  Variable e : Model_Files.env S.
  Notation c := (cli_refresh (V := V) to_json of_json project print_json order enc dec e).

  Lemma refresh_words (n : string) : exists fl, parse_flags ["force"; "non-interactive"] ["stack"] (skipn 2 (final_words ["config"; "refresh"; "--force"; "--stack"; n])) = Some (fl, []) /\
    flag_values fl "stack" = [n] /\ flag_given fl "force" = true /\ firstn 2 (final_words ["config"; "refresh"; "--force"; "--stack"; n]) = ["config"; "refresh"].
  Proof using. destruct (final_words_cases ["config"; "refresh"; "--force"; "--stack"; n]) as [-> | ->]; eexists; (split; [reflexivity|]); repeat split; reflexivity. Qed.
  Lemma refresh_runs w n cfg old f : Model_Files.get_stack e (w_bucket w) n <> None -> latest_configuration to_json w n = Ok cfg ->
    match dget (w_files w) n with Some g => load_config to_json g | None => Ok [] end = Ok old -> save_config of_json cfg = Ok f ->
    c w (final_words ["config"; "refresh"; "--force"; "--stack"; n]) = (mkWorld (dset (w_files w) n f) (w_bucket w), ("", "", 0%Z)).
  Proof using.
    intros G L O Sv. destruct (refresh_words n) as (fl & E1 & E2 & E3 & E4). rewrite <- (firstn_skipn 2 (final_words ["config"; "refresh"; "--force"; "--stack"; n])), E4.
    cbn [app]. unfold cli_refresh. rewrite E1. rewrite E2. destruct (Model_Files.get_stack e (w_bucket w) n); [|congruence]. rewrite L. cbn [rbind]. rewrite O. cbn [rbind]. rewrite Sv, E3. reflexivity.
  Qed.
  (** What is read depends only on the configuration in the file. *)
  Lemma all_runs w n f cfg : dget (w_files w) n = Some f -> load_config to_json f = Ok cfg ->
    c w (final_words (all_words n)) =
    (w, match shown_map to_json of_json (dec n) cfg with
        | Ok d => ((print_json (VDict (order (map (fun kv => (fst kv, entry_json (snd kv))) d))) ++ nl)%string, "", 0%Z)
        | Err (Exn _ msg) => ("", msg, 255%Z)
        end).
  Proof using.
    intros Ef El. destruct w as [fs b]. cbn [w_files] in Ef. unfold cli_refresh, all_words. destruct (final_words_cases ["config"; "--show-secrets"; "--json"; "--stack"; n]) as [-> | ->]; cbn [app].
    - unfold cli_files, on_file. cbn. rewrite Ef, El. destruct (shown_map to_json of_json (dec n) cfg) as [d|[k msg]]; reflexivity.
    - unfold cli_files, on_file. cbn. rewrite Ef, El. destruct (shown_map to_json of_json (dec n) cfg) as [d|[k msg]]; reflexivity.
  Qed.
  Lemma all_same w w' n f f' cfg : dget (w_files w) n = Some f -> load_config to_json f = Ok cfg -> dget (w_files w') n = Some f' -> load_config to_json f' = Ok cfg ->
    get_all_config c w n = (w, snd (get_all_config c w n)) /\ snd (get_all_config c w n) = snd (get_all_config c w' n).
  Proof using.
    intros E L E' L'. pose proof (all_runs w n f cfg E L) as R. pose proof (all_runs w' n f' cfg E' L') as R'.
    destruct (match shown_map to_json of_json (dec n) cfg with Ok d => _ | Err _ => _ end) as [[out err] code].
    unfold get_all_config. change [VStr "config"; VStr "--show-secrets"; VStr "--json"; VStr "--stack"; VStr n] with (map VStr (all_words n)).
    rewrite (command_words _ _ _ _ _ _ _ R), (command_words _ _ _ _ _ _ _ R'). split; reflexivity.
  Qed.
  Lemma request_same fs fs' f f' cfg info : dget fs (q_stack info) = Some f -> load_config to_json f = Ok cfg -> dget fs' (q_stack info) = Some f' -> load_config to_json f' = Ok cfg ->
    run_request to_json of_json dec fs info = run_request to_json of_json dec fs' info.
  Proof using. intros E L E' L'. unfold run_request, stack_configuration. now rewrite E, E', L, L'. Qed.
End Calls.
