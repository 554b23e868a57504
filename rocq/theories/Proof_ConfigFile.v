(** Lemmas about stack settings files. *)
From Verif Require Import Base PyVal Model_Urn Model_Cmd Model_StackInit Model_Json Spec_Json Proof_Json Proof_Capture Model_WsConfig Spec_WsConfig Proof_WsConfig Model_Host Model_ConfigFile Spec_ConfigFile.
Open Scope string_scope.
Open Scope list_scope.
Ltac inv H := inversion H; subst; clear H.

(* ------------------------------------------------------------------ *)
(** Keys. *)
Lemma colons_more a b : colons (a ++ b) = colons a + colons b.
Proof. exact (colons_app "" eq_refl a b). Qed.
Lemma split_first_app sep s a b : split_first sep s = Some (a, b) -> s = (a ++ sep ++ b)%string.
Proof.
  revert a b. induction s as [|c s IH]; intros a b H.
  - cbn [split_first] in H. destruct (String.prefix sep "") eqn:P; [|discriminate]. injection H as <- <-.
    destruct sep; [reflexivity|discriminate].
  - cbn [split_first] in H. destruct (String.prefix sep (String c s)) eqn:P.
    + injection H as <- <-. cbn [append]. clear IH. revert P. generalize (String c s). intros t. revert t.
      induction sep as [|d sep IH]; intros t P; [reflexivity|]. destruct t as [|e t]; [discriminate|]. cbn [String.prefix] in P.
      destruct (ascii_dec d e) as [<-|]; [|discriminate]. cbn. f_equal. now apply IH.
    + destruct (split_first sep s) as [[x y]|]; [|discriminate]. injection H as <- <-. cbn [append]. f_equal. now apply IH.
Qed.
Lemma parse_key_colons k k' : parse_key legacy_key k = Some k' -> colons k' = 1.
Proof.
  unfold parse_key. destruct (Nat.eqb_spec (colons k) 1) as [E|]; [now intros [= <-]|].
  destruct (Nat.eqb_spec (colons k) 2) as [E|]; [|discriminate]. unfold legacy_key.
  destruct (split_first ":config:" k) as [[a b]|] eqn:S; [|discriminate]. intros [= <-]. apply split_first_app in S. subst k.
  rewrite !colons_more in *. cbn in *. lia.
Qed.
Lemma parse_key_same k : colons k = 1 -> parse_key legacy_key k = Some k.
Proof. intros E. unfold parse_key. now rewrite E. Qed.
Lemma config_key_colons project key k : config_key legacy_key project key = Some k -> colons k = 1.
Proof. unfold config_key. destruct (Nat.eqb (colons key) 0); apply parse_key_colons. Qed.
Lemma split_first_old ns name : colons ns = 0 -> split_first ":config:" (ns ++ ":config:" ++ name) = Some (ns, name).
Proof.
  induction ns as [|c ns IH]; intros H.
  - cbn. destruct name; reflexivity.
  - cbn [colons] in H. destruct (Ascii.eqb_spec c ":") as [->|N]; [discriminate|]. cbn [append split_first String.prefix].
    destruct (ascii_dec ":" c) as [<-|]; [congruence|]. specialize (IH H). cbn [append] in IH. rewrite IH. reflexivity.
Qed.
Lemma spells_parse s k : spells s k -> parse_key legacy_key s = Some k.
Proof.
  intros [k' E|ns name E1 E2]; [now apply parse_key_same|].
  unfold parse_key, legacy_key. rewrite split_first_old by assumption. rewrite !colons_more, E1, E2. reflexivity.
Qed.

(* ------------------------------------------------------------------ *)
(** Data. *)
Lemma has_dict d : has_secure_value (VDict d) = match is_secure_value (VDict d) with Some _ => true | None => existsb (fun kv => has_secure_value (snd kv)) d end.
Proof.
  cbn [has_secure_value]. destruct (is_secure_value (VDict d)); [reflexivity|]. induction d as [|[k x] d IH]; [reflexivity|]. cbn [existsb snd]. now rewrite IH.
Qed.
Lemma has_list l : has_secure_value (VList l) = existsb has_secure_value l.
Proof. cbn [has_secure_value]. induction l as [|x l IH]; [reflexivity|]. cbn [existsb]. now rewrite IH. Qed.
Lemma is_secure_spec v s : is_secure_value v = Some s <-> v = VDict [("secure", VStr s)].
Proof.
  split; [|now intros ->]. destruct v; cbn [is_secure_value]; try discriminate. destruct d as [|[k x] [|]]; try discriminate; destruct x; try discriminate.
  destruct (String.eqb_spec k "secure") as [->|]; [|discriminate]. now intros [= ->].
Qed.
Lemma is_secure_none v : (forall c, v <> VDict [("secure", VStr c)]) -> is_secure_value v = None.
Proof. intros H. destruct (is_secure_value v) as [s|] eqn:E; [|reflexivity]. apply is_secure_spec in E. now apply H in E. Qed.
Lemma has_spec v : has_secure_value v = true <-> holds_secret v.
Proof.
  induction v using pyval_ind'; try (split; [discriminate|now inversion 1]).
  - rewrite has_list, existsb_exists. split.
    + intros (x & Hin & Hx). rewrite Forall_forall in H. apply (H_list _ x Hin). now apply H.
    + inversion 1; subst. exists x. split; [assumption|]. rewrite Forall_forall in H. now apply H.
  - rewrite has_dict. destruct (is_secure_value (VDict d)) as [s|] eqn:E.
    + apply is_secure_spec in E. rewrite E. split; [constructor|reflexivity].
    + rewrite existsb_exists. rewrite Forall_forall in H. split.
      * intros ([k x] & Hin & Hx). apply (H_dict _ k x Hin). now apply (H (k, x) Hin).
      * intros K. inversion K; subst; [discriminate|]. exists (k, x). split; [assumption|]. now apply (H (k, x)).
Qed.

Section Open.
  Variable dec : string -> res string.
  Definition decrypt_it (x : pyval) : res pyval :=
    match is_secure_value x with Some s => let+ t := dec s in Ok (VStr t) | None => decrypt_object dec x end.
  Lemma opened_plain v : forall o, opened dec v o -> plain_data v -> plain_data o.
  Proof.
    induction v using pyval_ind'; intros o H' Hp; inv H'; try constructor.
    - inversion Hp as [| | | |? Fp|]; subst. match goal with F : Forall2 _ l l' |- _ => rename F into F2 end. clear Hp.
      revert l' F2. induction l as [|x l IH]; intros l' F2; inv F2; constructor; inv H; inv Fp; eauto.
    - inversion Hp as [| | | | |? Nd Fp]; subst. match goal with F : Forall2 _ d d' |- _ => rename F into F2 end.
      replace (map fst d') with (map fst d); [assumption|]. clear -F2. induction F2 as [|? ? ? ? [E _]]; [reflexivity|]. cbn. now f_equal.
    - inversion Hp as [| | | | |? Nd Fp]; subst. match goal with F : Forall2 _ d d' |- _ => rename F into F2 end. clear -H F2 Fp.
      revert d' F2. induction d as [|x d IH]; intros d' F2; inversion F2 as [|? ? ? ? [E1 E2]]; subst; constructor; inv H; inv Fp; eauto.
  Qed.
  Lemma opened_it v : forall o, opened dec v o -> decrypt_it v = Ok o.
  Proof.
    induction v using pyval_ind'; intros o H'; inv H'; try reflexivity.
    - unfold decrypt_it. cbn [is_secure_value decrypt_object].
      match goal with |- (let+ l' := ?f l in _) = _ => assert (E : f l = Ok l'); [|now rewrite E] end.
      clear -H H1. revert l' H1. induction l as [|x l IH]; intros l' H1; inversion H1 as [|? y ? l2 Hx Hl]; subst; [reflexivity|].
      apply Forall_cons_iff in H as [Gx Gl]. fold (decrypt_it x). rewrite (Gx _ Hx). cbn [rbind]. rewrite (IH Gl _ Hl). reflexivity.
    - unfold decrypt_it. cbn. now rewrite H1.
    - unfold decrypt_it. rewrite is_secure_none by (intros c E; injection E as E; now apply (H1 c)). cbn [decrypt_object].
      match goal with |- (let+ l' := ?f d in _) = _ => assert (E : f d = Ok d'); [|now rewrite E] end.
      clear -H H2. revert d' H2. induction d as [|[k x] d IH]; intros d' H2; inversion H2 as [|? [k' y] ? d2 [E1 E2] Hd]; subst; [reflexivity|].
      apply Forall_cons_iff in H as [Gx Gl]. cbn [fst snd] in *. subst k'. fold (decrypt_it x). rewrite (Gx _ E2). cbn [rbind]. rewrite (IH Gl _ Hd). reflexivity.
  Qed.
  Lemma opened_same v : forall o, opened dec v o -> has_secure_value v = false -> o = v.
  Proof.
    induction v using pyval_ind'; intros o H' Hs; inv H'; try reflexivity.
    - rewrite has_list in Hs. f_equal. revert l' H1. induction l as [|x l IH]; intros l' H1; inversion H1 as [|? y ? l2 Gx Gl]; subst; [reflexivity|].
      apply Forall_cons_iff in H as [Ix Il]. cbn [existsb] in Hs. apply orb_false_iff in Hs as [Hx Hl]. f_equal; auto.
    - discriminate.
    - rewrite has_dict in Hs. rewrite is_secure_none in Hs by (intros c E; injection E as E; now apply (H1 c)). f_equal. clear H1.
      revert d' H2. induction d as [|[k x] d IH]; intros d' H2; inversion H2 as [|? [k' y] ? d2 [E1 E2] Gd]; subst; [reflexivity|].
      apply Forall_cons_iff in H as [Ix Il]. cbn [existsb fst snd] in *. apply orb_false_iff in Hs as [Hx Hl]. subst k'. f_equal; auto. f_equal. auto.
  Qed.
End Open.

(* ------------------------------------------------------------------ *)
(** Dictionaries of related values. *)
Section Related.
  Context {A B : Type}.
  Variable R : string * A -> string * B -> Prop.
  Hypothesis Rkey : forall a b, R a b -> fst a = fst b.
  Lemma rel_keys d e : Forall2 R d e -> dkeys d = dkeys e.
  Proof. induction 1 as [|a b d e H _ IH]; [reflexivity|]. unfold dkeys in *. cbn [map]. now rewrite (Rkey _ _ H), IH. Qed.
  Lemma rel_dget d e k : Forall2 R d e ->
    match dget d k with
    | Some v => exists w, dget e k = Some w /\ R (k, v) (k, w)
    | None => dget e k = None
    end.
  Proof.
    induction 1 as [|[a v] [b w] d e H _ IH]; [reflexivity|]. cbn [dget]. pose proof (Rkey _ _ H) as E. cbn [fst] in E. subst b.
    destruct (String.eqb_spec k a) as [->|]; [eauto|exact IH].
  Qed.
  Lemma rel_dset d e k v w : Forall2 R d e -> R (k, v) (k, w) -> Forall2 R (dset d k v) (dset e k w).
  Proof.
    intros H N. induction H as [|[a x] [b y] d e H F IH]; [now repeat constructor|]. cbn [dset]. pose proof (Rkey _ _ H) as E. cbn [fst] in E. subst b.
    destruct (String.eqb_spec k a) as [->|]; constructor; auto.
  Qed.
  Lemma rel_ddel d e k : Forall2 R d e -> Forall2 R (ddel d k) (ddel e k).
  Proof.
    intros H. induction H as [|[a x] [b y] d e H F IH]; [constructor|]. cbn [ddel]. pose proof (Rkey _ _ H) as E. cbn [fst] in E. subst b.
    destruct (String.eqb_spec k a) as [->|]; [exact IH|constructor; auto].
  Qed.
End Related.
Lemma dset_end {V} (d : dict V) k v : ~ In k (dkeys d) -> dset d k v = d ++ [(k, v)].
Proof.
  induction d as [|[a x] d IH]; intros N; [reflexivity|]. cbn [dset]. destruct (String.eqb_spec k a) as [->|]; [destruct N; now left|].
  cbn [app]. f_equal. apply IH. intros H. apply N. now right.
Qed.

Section Store.
  Variable to_json : pyval -> string.
  Variable of_json : string -> res pyval.
  Hypothesis Hjson : reads_back to_json of_json.
  Variable project : string.
  Variable print_json : pyval -> string.
  Variable order : dict pyval -> dict pyval.
  Variable enc : files -> string -> string -> string -> res string.
  Variable dec : string -> string -> res string.
  Variable trouble : files -> list string -> option string.
  Hypothesis Hcrypt : undoes dec enc.
  Local Notation load := (load_config to_json).
  Local Notation c := (cli_files to_json of_json project print_json order enc dec trouble).
  Local Notation c' := (cli_config project legacy_key print_json order (fun _ _ => None)).

  Definition stable (v : cvalue) : Prop := exists y, plain_data y /\ unmarshal_value to_json y = Ok v.
  Lemma marshal_ok v : stable v -> exists y, marshal_value of_json v = Ok y /\ unmarshal_value to_json y = Ok v.
  Proof using Hjson.
    intros (y & Hp & E). assert (K : v_object v = false -> exists y, marshal_value of_json v = Ok y /\ unmarshal_value to_json y = Ok v).
    { intros O. destruct v as [t s o]. cbn in O. subst o. unfold marshal_value. destruct s; cbn; eexists; split; reflexivity. }
    assert (D : forall x, structured x -> plain_data x -> unmarshal_value to_json x = Ok v -> is_secure_value x = None ->
      exists y, marshal_value of_json v = Ok y /\ unmarshal_value to_json y = Ok v).
    { intros x Hs Hx E1 E2. exists x. split; [|exact E1]. destruct x; try easy; cbn [unmarshal_value] in E1; rewrite E2 in E1; injection E1 as <-; apply Hjson, Hx. }
    destruct y; cbn [unmarshal_value] in E; try discriminate; try (injection E as <-; now apply K).
    - apply (D (VList l)); [exact I|exact Hp|exact E|reflexivity].
    - destruct (is_secure_value (VDict d)) as [s|] eqn:S.
      + injection E as <-. now apply K.
      + apply (D (VDict d)); auto; [exact I|]. cbn [unmarshal_value]. now rewrite S.
  Qed.
  Definition item (d : string -> res string) (a : string * cvalue) (b : string * entry) : Prop :=
    fst a = fst b /\ colons (fst a) = 1 /\ stable (snd a) /\ shown_entry to_json of_json d (snd a) = Ok (snd b) /\
    (forall o, e_object (snd b) = Some o -> plain_data o).
  Lemma item_key d a b : item d a b -> fst a = fst b. Proof. now intros []. Qed.
  Definition same_cfg d (vs : dict cvalue) (cfg : dict entry) : Prop := wf_dict vs /\ Forall2 (item d) vs cfg.
  Definition holds d (f : cfile) (cfg : dict entry) : Prop := exists vs, load f = Ok vs /\ same_cfg d vs cfg.
  Definition stands (st : files) (ast : configs) : Prop :=
    wf_dict st /\ Forall2 (fun f k => fst f = fst k /\ holds (dec (fst f)) (snd f) (snd k)) st ast.

  Lemma load_from_ok f vs : Forall2 (fun ky kv => parse_key legacy_key (fst ky) = Some (fst kv) /\ unmarshal_value to_json (snd ky) = Ok (snd kv)) f vs ->
    forall acc, wf_dict (acc ++ vs) -> load_from to_json acc f = Ok (acc ++ vs).
  Proof using.
    induction 1 as [|[s y] [k v] f vs [E1 E2] _ IH]; intros acc W; cbn [load_from]; [now rewrite app_nil_r|]. cbn [fst snd] in *. rewrite E2. cbn [rbind]. rewrite E1.
    unfold wf_dict, dkeys in W. rewrite map_app in W. cbn [map fst] in W. pose proof (NoDup_remove_2 _ _ _ W) as N.
    rewrite dset_end by (intros H; apply N, in_app_iff; now left).
    rewrite IH; [now rewrite <- app_assoc|]. unfold wf_dict, dkeys. rewrite <- app_assoc, map_app. exact W.
  Qed.
  Lemma save_ok d vs cfg : same_cfg d vs cfg -> exists f, save_config of_json vs = Ok f /\ load f = Ok vs.
  Proof using Hjson.
    intros [W F].
    assert (K : exists f, save_config of_json vs = Ok f /\
      Forall2 (fun ky kv => parse_key legacy_key (fst ky) = Some (fst kv) /\ unmarshal_value to_json (snd ky) = Ok (snd kv)) f vs).
    { clear W. induction F as [|[k v] b vs cfg (E1 & E2 & E3 & _) _ IH]; [exists []; split; [reflexivity|constructor]|].
      destruct IH as (f & Ef & Ff). cbn [fst snd] in *. destruct (marshal_ok _ E3) as (y & M & U). exists ((k, y) :: f). cbn [save_config]. rewrite M. cbn [rbind].
      rewrite Ef. split; [reflexivity|]. constructor; [|assumption]. split; [now apply parse_key_same|exact U]. }
    destruct K as (f & Ef & Ff). exists f. split; [exact Ef|]. exact (load_from_ok f vs Ff [] W).
  Qed.

  (** What a file says is what is loaded. *)
  Lemma says_shown d y e : says to_json d y e -> plain_data y ->
    exists v, unmarshal_value to_json y = Ok v /\ shown_entry to_json of_json d v = Ok e /\ (forall o, e_object e = Some o -> plain_data o).
  Proof using Hjson.
    intros H Hp. destruct H as [s|z|b| |c0 t E|v o b S N O B]; try (eexists; split; [reflexivity|]; split; [reflexivity|discriminate]).
    - eexists. split; [reflexivity|]. split; [|discriminate]. unfold shown_entry, value_of. cbn. now rewrite E.
    - exists (mkCvalue (to_json v) b true). pose proof (opened_plain _ _ _ O Hp) as Ho.
      assert (Bv : has_secure_value v = b).
      { destruct b; [apply has_spec, B; reflexivity|]. destruct (has_secure_value v) eqn:E; [|reflexivity]. apply has_spec in E. apply B in E. discriminate. }
      split; [|split].
      + destruct v; try easy; cbn [unmarshal_value]; rewrite (is_secure_none _ N), Bv; reflexivity.
      + unfold shown_entry, value_of. cbn [v_secure v_object v_text]. destruct b; cbn [negb].
        * rewrite (Hjson v Hp). cbn [rbind]. pose proof (opened_it _ _ _ O) as Ed. unfold decrypt_it in Ed. rewrite (is_secure_none _ N) in Ed. rewrite Ed. cbn [rbind].
          now rewrite (Hjson o Ho).
        * rewrite <- (opened_same _ _ _ O Bv). cbn [rbind]. now rewrite (Hjson o Ho).
      + intros o' [= <-]. exact Ho.
  Qed.
  Lemma configured_stands fs st : configured to_json dec fs st -> stands fs st.
  Proof using Hjson.
    intros [Hn F]. split; [exact Hn|]. clear Hn. induction F as [|[s f] [s' cfg] fs st (E & Nk & P & Fs) _ IH]; constructor; [|exact IH]. cbn [fst snd] in *. split; [exact E|].
    assert (K : exists vs, Forall2 (fun ky kv => parse_key legacy_key (fst ky) = Some (fst kv) /\ unmarshal_value to_json (snd ky) = Ok (snd kv)) f vs /\ Forall2 (item (dec s)) vs cfg).
    { clear Nk. induction Fs as [|[w y] [k e] f cfg [S Y] _ IHf]; [exists []; split; constructor|]. apply Forall_cons_iff in P as [Py P]. cbn [fst snd] in *.
      destruct (IHf P) as (vs & F1 & F2). destruct (says_shown _ _ _ Y Py) as (v & U & Sh & Po). exists ((k, v) :: vs). apply spells_parse in S. split; constructor; auto.
      split; [reflexivity|]. cbn [fst snd]. split; [now apply parse_key_colons in S|]. split; [now exists y|]. now split. }
    destruct K as (vs & F1 & F2). exists vs. assert (W : wf_dict vs) by (unfold wf_dict; rewrite (rel_keys _ (item_key (dec s)) _ _ F2); exact Nk).
    split; [exact (load_from_ok f vs F1 [] W)|]. now split.
  Qed.

  (** The commands. *)
  Lemma make_value_item st stack k value secret v : colons k = 1 -> make_value enc st stack k value secret = Ok v ->
    item (dec stack) (k, v) (k, mkEntry value secret None).
  Proof using Hcrypt.
    intros Hk E. split; [reflexivity|]. split; [exact Hk|]. cbn [fst snd]. split; [|split; [|discriminate]].
    - destruct secret; cbn [make_value] in E.
      + destruct (enc st stack k value) as [t|]; [|discriminate]. injection E as <-. exists (VDict [("secure", VStr t)]). split; [|reflexivity].
        constructor; [repeat constructor; easy|]. repeat constructor.
      + injection E as <-. exists (VStr value). split; [constructor|reflexivity].
    - destruct secret; cbn [make_value] in E.
      + destruct (enc st stack k value) as [t|] eqn:Et; [|discriminate]. injection E as <-. unfold shown_entry, value_of. cbn. now rewrite (Hcrypt _ _ _ _ _ Et).
      + injection E as <-. reflexivity.
  Qed.
  Lemma same_dset d vs cfg k v e : same_cfg d vs cfg -> item d (k, v) (k, e) -> same_cfg d (dset vs k v) (dset cfg k e).
  Proof using. intros [W F] I. split; [now apply wf_dset|]. apply (rel_dset _ (item_key d)); assumption. Qed.
  Lemma same_ddel d vs cfg k : same_cfg d vs cfg -> same_cfg d (ddel vs k) (ddel cfg k).
  Proof using. intros [W F]. split; [now apply wf_ddel|]. apply (rel_ddel _ (item_key d)); assumption. Qed.
  Lemma put_pairs_same st stack b pairs : forall vs cfg vs', same_cfg (dec stack) vs cfg -> put_pairs project enc st stack b pairs vs = Ok vs' ->
    exists cfg', set_pairs project legacy_key b pairs cfg = Some cfg' /\ same_cfg (dec stack) vs' cfg'.
  Proof using Hcrypt.
    induction pairs as [|p pairs IH]; intros vs cfg vs' S E; cbn [put_pairs] in E; [injection E as <-; now exists cfg|].
    cbn [set_pairs]. destruct (split_pair p) as [[key value]|]; [|discriminate]. destruct (config_key legacy_key project key) as [k|] eqn:Ek; [|discriminate].
    destruct (make_value enc st stack k value b) as [v|] eqn:Ev; [|discriminate]. cbn [rbind] in E.
    apply (IH _ (dset cfg k (mkEntry value b None))) in E; [exact E|]. apply same_dset; [exact S|]. eapply make_value_item; [|exact Ev]. now apply config_key_colons in Ek.
  Qed.
  Lemma remove_values_same d keys : forall vs cfg vs', same_cfg d vs cfg -> remove_values project keys vs = Ok vs' ->
    exists cfg', remove_keys project legacy_key keys cfg = Some cfg' /\ same_cfg d vs' cfg'.
  Proof using.
    induction keys as [|key keys IH]; intros vs cfg vs' S E; cbn [remove_values] in E; [injection E as <-; now exists cfg|].
    cbn [remove_keys]. destruct (config_key legacy_key project key) as [k|] eqn:Ek; [|discriminate].
    apply (IH _ (ddel cfg k)) in E; [exact E|]. now apply same_ddel.
  Qed.
  Lemma shown_map_same d vs cfg : Forall2 (item d) vs cfg -> shown_map to_json of_json d vs = Ok cfg.
  Proof using.
    induction 1 as [|[k v] [k' e] vs cfg (E1 & _ & _ & E2 & _) _ IH]; [reflexivity|]. cbn [fst snd] in *. subst k'. cbn [shown_map]. rewrite E2. cbn [rbind]. rewrite IH. reflexivity.
  Qed.

  (** [agrees st ast r r']: the command failed without effect, or it does the same on both. *)
  Definition agrees (st : files) (r : files * (string * string * Z)) (r' : configs * (string * string * Z)) : Prop :=
    (exists e, r = fails st e) \/ (stands (fst r) (fst r') /\ snd r = snd r' /\ exists out, snd r = (out, "", 0%Z)).
  Lemma agrees_failed st e r' : agrees st (failed st e) r'.
  Proof using. left. destruct e. eexists. reflexivity. Qed.
  Lemma agrees_on st ast fl f f' : stands st ast ->
    (forall stack vs cfg, dget ast stack = Some cfg -> same_cfg (dec stack) vs cfg -> agrees st (f stack vs) (f' stack cfg)) ->
    agrees st (on_file to_json st fl f) (on_stack ast fl f').
  Proof using.
    intros [W F] H. unfold on_file, on_stack. destruct (flag_values fl "stack") as [|stack [|]]; try (left; eexists; reflexivity).
    pose proof (rel_dget _ (fun a b H => proj1 H) _ _ stack F) as G. destruct (dget st stack) as [file|] eqn:E; [|left; eexists; reflexivity].
    destruct G as (cfg & Ec & _ & vs & Ev & S). cbn [fst snd] in *. rewrite Ec, Ev. now apply H.
  Qed.
  Lemma agrees_saved st ast stack r o : stands st ast -> In stack (dkeys ast) ->
    (forall vs, r = Ok vs -> exists cfg, o = Some cfg /\ same_cfg (dec stack) vs cfg) ->
    agrees st (saved of_json st stack r) (match o with Some cfg => (dset ast stack cfg, ("", "", 0%Z)) | None => refuse ast "error: invalid configuration key" end).
  Proof using Hjson.
    intros [W F] Hin H. unfold saved. destruct r as [vs|e]; [|apply agrees_failed]. destruct (H vs eq_refl) as (cfg & -> & S). unfold save.
    destruct (save_ok _ _ _ S) as (f & -> & L). right. split; [|split; [reflexivity|eexists; reflexivity]]. cbn [fst]. split; [now apply wf_dset|].
    apply (rel_dset _ (fun a b H => proj1 H)); [exact F|]. cbn [fst snd]. split; [reflexivity|]. exists vs. now split.
  Qed.
  Lemma agrees_refused st ast e : agrees st (fails st e) (refuse ast e).
  Proof using. left. now exists e. Qed.

  Lemma cli_agrees st ast args : stands st ast -> agrees st (c st args) (c' ast args).
  Proof using Hjson Hcrypt.
    intros St. unfold cli_files. destruct (trouble st args) as [err|]; [now left; exists err|]. unfold cli_config.
    assert (K : forall stack (cfg : dict entry), dget ast stack = Some cfg -> In stack (dkeys ast)) by (intros ? ? E; now apply dget_key in E).
    repeat match goal with
    | |- agrees _ (match ?x with _ => _ end) (match ?x with _ => _ end) =>
        lazymatch x with context [parse_flags] => fail | _ => destruct x; try (apply agrees_refused) end
    end.
    all: match goal with |- agrees _ (match parse_flags ?b ?t ?r with _ => _ end) _ => destruct (parse_flags b t r) as [[fl pos]|]; [|apply agrees_refused] end.
    all: destruct pos as [|key [|value [|]]]; try apply agrees_refused.
    all: apply agrees_on; [exact St|]; intros stack vs cfg Ecfg S.
    all: try match goal with |- agrees _ (if ?b then _ else _) (if ?b then _ else _) =>
      destruct b; [|apply agrees_refused]; rewrite (shown_map_same _ _ _ (proj2 S)); right; split; [exact St|]; split; [reflexivity|eexists; reflexivity] end.
    all: try match goal with |- agrees _ (saved _ _ _ (remove_values _ _ _)) _ =>
      apply agrees_saved; [exact St|now apply (K _ cfg)|]; intros vs' E'; now apply (remove_values_same _ _ _ _ _ S E') end.
    all: try match goal with |- agrees _ (match config_key _ _ _ with _ => _ end) _ =>
      destruct (config_key legacy_key project key) as [k|] eqn:Ek; [|apply agrees_refused] end.
    all: try match goal with |- agrees _ (saved _ _ _ (let+ v := make_value _ _ _ _ _ _ in _)) (_, ?r) =>
      apply (agrees_saved st ast stack _ (Some (dset cfg k (mkEntry value (flag_given fl "secret") None))) St (K _ cfg Ecfg)); intros vs' E';
      destruct (make_value enc st stack k value (flag_given fl "secret")) as [v|] eqn:Ev; [|discriminate]; injection E' as <-;
      eexists; split; [reflexivity|]; apply same_dset; [exact S|]; eapply make_value_item; [|exact Ev]; now apply config_key_colons in Ek end.
    all: try match goal with |- agrees _ (match dget ?w ?k with _ => _ end) _ =>
      pose proof (rel_dget _ (item_key (dec stack)) _ _ k (proj2 S)) as G; destruct (dget w k) as [v|];
      [destruct G as (e & Ee & _ & _ & _ & Sh & _); cbn [fst snd] in Sh; rewrite Ee, Sh; right; split; [exact St|]; split; [reflexivity|eexists; reflexivity]
      |left; eexists; reflexivity] end.
    all: destruct (put_pairs project enc st stack false (flag_values fl "plaintext") vs) as [vs1|e] eqn:E1; [|apply agrees_failed];
      destruct (put_pairs_same _ _ _ _ _ _ _ S E1) as (cfg1 & -> & S1); cbn [rbind];
      destruct (put_pairs project enc st stack true (flag_values fl "secret") vs1) as [vs2|e] eqn:E2; [|apply agrees_failed];
      destruct (put_pairs_same _ _ _ _ _ _ _ S1 E2) as (cfg2 & -> & S2);
      apply (agrees_saved st ast stack _ (Some cfg2) St (K _ cfg Ecfg)); intros vs' [= <-]; now exists cfg2.
  Qed.

  (** Commands of the Automation API. *)
  Lemma command_agrees st ast ws : stands st ast ->
    (exists k, command c st (map VStr ws) = (st, CliError k)) \/
    exists st' ast' out, command c st (map VStr ws) = (st', Got out) /\ command c' ast (map VStr ws) = (ast', Got out) /\ stands st' ast'.
  Proof using Hjson Hcrypt.
    intros St. destruct (cli_agrees st ast (final_words ws) St) as [(e & E)|(St' & E & out & Eo)].
    - left. unfold fails in E. rewrite (command_words _ _ _ _ _ _ _ E). eexists. reflexivity.
    - right. destruct (c st (final_words ws)) as [st' o'] eqn:E1. destruct (c' ast (final_words ws)) as [ast' o] eqn:E2. cbn [fst snd] in *. subst o o'.
      exists st', ast', (clean out). split; [apply (command_words _ _ _ _ _ _ _ E1)|]. split; [apply (command_words _ _ _ _ _ _ _ E2)|exact St'].
  Qed.
  Hypothesis Hproject : colons project = 0.
  Lemma make_agrees st ast a : stands st ast -> proper_call project a ->
    (exists k, make c st a = (st, CliError k)) \/
    exists st' cfg, dget ast (call_stack a) = Some cfg /\ make c st a = (st', Got tt) /\ stands st' (dset ast (call_stack a) (new_config project a cfg)).
  Proof using Hjson Hcrypt Hproject.
    intros St Hp. rewrite make_words. destruct (command_agrees st ast (call_words a) St) as [(k & E)|(st' & ast' & r & E1 & E2 & St')].
    - left. rewrite E. now exists k.
    - pose proof (make_spec project legacy_key print_json order (fun _ _ => None) Hproject a ast Hp) as M. rewrite make_words, E2 in M. rewrite E1.
      destruct M as [(k & M)|(cfg & Ec & M)]; [discriminate|]. injection M as M. subst ast'. right. exists st', cfg. split; [exact Ec|]. split; [reflexivity|]. exact St'.
  Qed.
  Lemma stands_fit st ast : stands st ast -> fit_state ast.
  Proof using.
    intros [W F]. split; [unfold wf_dict in W; now rewrite <- (rel_keys _ (fun a b H => proj1 H) _ _ F)|].
    intros stack cfg Hin. clear W. induction F as [|f [s k] st ast (E & vs & L & W & Fv) _ IH]; [easy|]. destruct Hin as [[= -> ->]|Hin]; [|now apply IH].
    cbn [fst snd] in *. split; [unfold wf_dict in W; now rewrite <- (rel_keys _ (item_key _) _ _ Fv)|].
    intros k e o Hin Ho. clear W L IH. induction Fv as [|a b vs cfg (_ & _ & _ & _ & Hb) _ IHv]; [easy|]. destruct Hin as [->|Hin]; [now apply Hb|now apply IHv].
  Qed.
  Lemma stands_keys st ast : stands st ast -> dkeys st = dkeys ast.
  Proof using. intros [_ F]. exact (rel_keys _ (fun a b H => proj1 H) _ _ F). Qed.

  Lemma files_history l : forall st ast m, Forall (proper_call project) l -> stands st ast -> same (memory_of ast) m ->
    let '(st', rs) := make_all c st l in
    exists ast', stands st' ast' /\ (forall stack, In stack (dkeys st') <-> In stack (dkeys st)) /\
    same (memory_of ast') (fold_left (expected project) (returned rs) m) /\ map fst rs = l /\
    Forall (fun ar => snd ar = Got tt \/ exists k, snd ar = CliError k) rs.
  Proof using Hjson Hcrypt Hproject.
    induction l as [|a l IH]; intros st ast m Hl St Hm; cbn [make_all].
    - exists ast. split; [exact St|]. split; [easy|]. split; [exact Hm|]. split; [reflexivity|constructor].
    - apply Forall_cons_iff in Hl as [Ha Hl]. destruct (make_agrees st ast a St Ha) as [(k & E)|(st1 & cfg & Hs & E & St1)]; rewrite E.
      + specialize (IH st ast m Hl St Hm). destruct (make_all c st l) as [st' rs]. destruct IH as (ast' & H1 & H2 & H3 & H4 & H5). exists ast'.
        split; [exact H1|]. split; [exact H2|]. split; [exact H3|]. split; [cbn; now f_equal|]. constructor; [right; now exists k|exact H5].
      + assert (Hm' : same (memory_of (dset ast (call_stack a) (new_config project a cfg))) (expected project m a)).
        { intros s k. rewrite (new_memory project a ast cfg Ha Hs). now apply expected_same. }
        specialize (IH _ _ _ Hl St1 Hm'). destruct (make_all c st1 l) as [st' rs]. destruct IH as (ast' & H1 & H2 & H3 & H4 & H5). exists ast'.
        split; [exact H1|]. split; [|split; [exact H3|split; [cbn; now f_equal|constructor; auto]]].
        intros s. rewrite H2, (stands_keys _ _ St1), (stands_keys _ _ St). now apply new_stacks.
  Qed.

  (** Reading. *)
  Lemma read_agrees {A} st ast ws (f : string -> answer A) : stands st ast ->
    (exists k, (let '(s, r) := command c st (map VStr ws) in (s, abind r f)) = (st, CliError k)) \/
    snd (let '(s, r) := command c st (map VStr ws) in (s, abind r f)) = snd (let '(s, r) := command c' ast (map VStr ws) in (s, abind r f)).
  Proof using Hjson Hcrypt.
    intros St. destruct (command_agrees st ast ws St) as [(k & ->)|(st' & ast' & r & -> & -> & _)]; [left; now exists k|now right].
  Qed.

  (* ---------------------------------------------------------------- *)
  (** What the engine sends. *)
  Lemma decrypt_map_same d vs cfg : Forall2 (item d) vs cfg ->
    decrypt_map to_json of_json d vs = Ok (map (fun ke => (fst ke, e_value (snd ke))) cfg) /\
    secure_keys vs = map fst (filter (fun ke => e_secret (snd ke)) cfg).
  Proof using.
    induction 1 as [|[k v] [k' e] vs cfg (E1 & _ & _ & E2 & _) _ [IH1 IH2]]; [now split|]. cbn [fst snd] in *. subst k'.
    assert (E : value_of to_json of_json d v = Ok (e_value e) /\ v_secure v = e_secret e).
    { unfold shown_entry in E2. destruct (value_of to_json of_json d v) as [raw|]; [|discriminate]. cbn [rbind] in E2.
      destruct (v_object v); [destruct (of_json raw) as [o|]; [|discriminate]|]; injection E2 as <-; now split. }
    destruct E as [Ev Es]. split.
    - cbn [decrypt_map map fst snd]. rewrite Ev. cbn [rbind]. rewrite IH1. reflexivity.
    - unfold secure_keys in *. cbn [filter snd]. rewrite Es. destruct (e_secret e); cbn [map fst]; now rewrite IH2.
  Qed.
  Lemma decrypt_map_panic d d' vs : has_secure vs = false -> decrypt_map to_json of_json d vs = decrypt_map to_json of_json d' vs.
  Proof using.
    induction vs as [|[k v] vs IH]; intros H; [reflexivity|]. unfold has_secure in *. cbn [existsb snd] in H. apply orb_false_iff in H as [Hv H].
    cbn [decrypt_map]. unfold value_of. rewrite Hv. cbn [negb rbind]. now rewrite IH.
  Qed.
  Lemma request_ok st ast info cfg : stands st ast -> dget ast (q_stack info) = Some cfg ->
    run_request to_json of_json dec st info =
    Ok (mkRequest (q_project info) (q_stack info) (q_pwd info) (q_program info) (q_args info) (map (fun ke => (fst ke, e_value (snd ke))) cfg) (q_dry info)
          (q_parallel info) (q_monitor info) (map fst (filter (fun ke => e_secret (snd ke)) cfg)) (q_organization info)).
  Proof using.
    intros [W F] E. unfold run_request. pose proof (rel_dget _ (fun a b H => proj1 H) _ _ (q_stack info) F) as G.
    destruct (dget st (q_stack info)) as [f|]; [|congruence]. destruct G as (cfg' & Ec & _ & vs & L & Wv & Fv). cbn [fst snd] in *.
    assert (cfg' = cfg) by congruence. subst cfg'. unfold stack_configuration. rewrite L. cbn [rbind fst snd]. destruct (decrypt_map_same _ _ _ Fv) as [D K].
    assert (P : decrypt_map to_json of_json (if has_secure vs then dec (q_stack info) else fun _ => Err (Exn "panic" "attempt to decrypt value")) vs
      = decrypt_map to_json of_json (dec (q_stack info)) vs).
    { destruct (has_secure vs) eqn:Hs; [reflexivity|]. now apply decrypt_map_panic. }
    rewrite P, D, K. reflexivity.
  Qed.
End Store.

(* ------------------------------------------------------------------ *)
(** C104: what calls do to the files. *)
Section Puts.
  Variable to_json : pyval -> string.
  Variable of_json : string -> res pyval.
  Variable project : string.
  Variable print_json : pyval -> string.
  Variable order : dict pyval -> dict pyval.
  Variable enc : files -> string -> string -> string -> res string.
  Variable dec : string -> string -> res string.
  Variable trouble : files -> list string -> option string.
  Hypothesis Hproject : colons project = 0.
  Local Notation c := (cli_files to_json of_json project print_json order enc dec trouble).

  Fixpoint puts (st : files) (stack : string) (l : dict (string * bool)) (cfg : dict cvalue) : res (dict cvalue) :=
    match l with
    | [] => Ok cfg
    | (key, (value, secret)) :: l' =>
        let k := full_key project key in
        let+ v := make_value enc st stack k value secret in puts st stack l' (dset cfg k v)
    end.
  Definition of_secrecy (b : bool) (l : dict (string * bool)) := filter (fun kv => Bool.eqb (snd (snd kv)) b) l.
  Definition new_values (st : files) (a : call) (cfg : dict cvalue) : res (dict cvalue) :=
    match a with
    | SetConfig stack key value secret =>
        let+ v := make_value enc st stack (full_key project key) value secret in Ok (dset cfg (full_key project key) v)
    | SetAllConfig stack config => let+ cfg1 := puts st stack (of_secrecy false config) cfg in puts st stack (of_secrecy true config) cfg1
    | RemoveConfig _ key => Ok (ddel cfg (full_key project key))
    | RemoveAllConfig _ keys => Ok (fold_left (fun d key => ddel d (full_key project key)) keys cfg)
    end.
  Lemma put_pairs_ok st stack b l : (forall kv, In kv l -> proper_map_key (fst kv) /\ snd (snd kv) = b) -> forall cfg,
    put_pairs project enc st stack b (map (fun kv => (fst kv ++ "=" ++ fst (snd kv))%string) l) cfg = puts st stack l cfg.
  Proof using Hproject.
    induction l as [|[k [v s]] l IH]; intros H cfg; [reflexivity|]. cbn [map fst snd put_pairs puts]. destruct (H _ (or_introl eq_refl)) as [Hk Hs].
    cbn [fst snd] in Hk, Hs. subst s. rewrite split_pair_ok by assumption. rewrite config_key_ok by (assumption || apply Hk).
    destruct (make_value enc st stack (full_key project k) v b); [|reflexivity]. cbn [rbind]. apply IH. intros kv Hin. apply H. now right.
  Qed.
  Lemma remove_values_ok keys : (forall key, In key keys -> proper_key key) -> forall cfg,
    remove_values project keys cfg = Ok (fold_left (fun d key => ddel d (full_key project key)) keys cfg).
  Proof using Hproject.
    induction keys as [|k keys IH]; intros H cfg; [reflexivity|]. cbn [remove_values fold_left].
    rewrite config_key_ok by (assumption || (apply H; now left)). apply IH. intros key Hk. apply H. now right.
  Qed.

  Lemma files_call a st : proper_call project a -> trouble st (final_words (call_words a)) = None ->
    c st (final_words (call_words a)) =
    match dget st (call_stack a) with
    | Some f => match load_config to_json f with
                | Ok cfg => saved of_json st (call_stack a) (new_values st a cfg)
                | Err e => failed st e
                end
    | None => fails st ("error: no stack named '" ++ call_stack a ++ "' found")%string
    end.
  Proof using Hproject.
    intros Hp Ht. unfold cli_files. rewrite Ht. clear Ht. destruct a as [stack key value secret|stack config|stack key|stack keys]; cbn [proper_call call_stack] in *.
    - assert (E : final_words (call_words (SetConfig stack key value secret)) = call_words (SetConfig stack key value secret)).
      { unfold final_words. replace (smem "--non-interactive" (call_words (SetConfig stack key value secret))) with true; [reflexivity|].
        symmetry. apply smem_In. cbn. tauto. }
      rewrite E. unfold call_words. cbv iota beta.
      assert (P : parse_flags ["secret"; "plaintext"; "non-interactive"] ["stack"] [key; secret_arg secret; "--stack"; stack; "--non-interactive"; "--"; value]
        = Some ([(if secret then "secret" else "plaintext", ""); ("stack", stack); ("non-interactive", "")], [key; value])).
      { rewrite parse_pos by now apply not_flag. destruct secret; reflexivity. }
      rewrite P. cbv iota beta. unfold on_file.
      replace (flag_values [(if secret then "secret" else "plaintext", ""); ("stack", stack); ("non-interactive", "")] "stack") with [stack] by (destruct secret; reflexivity).
      cbv iota. destruct (dget st stack) as [f|]; [|reflexivity]. destruct (load_config to_json f) as [cfg|e]; [|reflexivity]. rewrite config_key_ok by (assumption || apply Hp).
      destruct secret; reflexivity.
    - destruct Hp as [Hk Hn].
      assert (P : exists tail ni, final_words (call_words (SetAllConfig stack config)) = "config" :: "set-all" :: "--stack" :: stack :: flat_map pair_words config ++ tail
        /\ parse_flags ["non-interactive"] ["stack"; "secret"; "plaintext"] tail = Some (ni, [])
        /\ flag_values ni "stack" = [] /\ flag_values ni "secret" = [] /\ flag_values ni "plaintext" = []).
      { destruct (final_words_cases (call_words (SetAllConfig stack config))) as [-> | ->].
        - exists [], []. cbn [call_words]. rewrite app_nil_r. repeat split.
        - exists ["--non-interactive"], [("non-interactive", "")]. cbn [call_words app]. repeat split. }
      destruct P as (tail & ni & -> & Et & E1 & E2 & E3). cbv iota beta.
      assert (P : parse_flags ["non-interactive"] ["stack"; "secret"; "plaintext"] ("--stack" :: stack :: flat_map pair_words config ++ tail)
        = Some (("stack", stack) :: map pair_flag config ++ ni, [])).
      { cbn -[parse_flags app]. cbn [parse_flags]. cbn -[parse_flags app]. now rewrite (parse_pairs config tail ni []). }
      rewrite P. cbv iota beta. unfold on_file.
      change (("stack", stack) :: map pair_flag config ++ ni) with ([("stack", stack)] ++ map pair_flag config ++ ni). rewrite !values_app, values_pairs_stack, E1, E2, E3, !app_nil_r.
      pose proof (values_pairs config true) as V1. pose proof (values_pairs config false) as V2. cbv iota in V1, V2.
      change (flag_values [("stack", stack)] "stack") with [stack]. change (flag_values [("stack", stack)] "secret") with (@nil string).
      change (flag_values [("stack", stack)] "plaintext") with (@nil string). cbn [app]. cbv iota.
      destruct (dget st stack) as [f|]; [|reflexivity]. destruct (load_config to_json f) as [cfg|e]; [|reflexivity]. rewrite V1, V2.
      assert (K : forall b kv, In kv (of_secrecy b config) -> proper_map_key (fst kv) /\ snd (snd kv) = b).
      { intros b [k x] Hin. apply filter_In in Hin as [Hin Hb]. split; [exact (Hk _ _ Hin)|]. now apply Bool.eqb_prop in Hb. }
      unfold new_values. rewrite put_pairs_ok by apply (K false). fold (of_secrecy false config). destruct (puts st stack (of_secrecy false config) cfg) as [cfg1|e]; [|reflexivity]. cbn [rbind].
      rewrite put_pairs_ok by apply (K true). reflexivity.
    - assert (P : exists tail ni, final_words (call_words (RemoveConfig stack key)) = "config" :: "rm" :: key :: "--stack" :: stack :: tail
        /\ parse_flags ["non-interactive"] ["stack"] tail = Some (ni, []) /\ flag_values ni "stack" = []).
      { destruct (final_words_cases (call_words (RemoveConfig stack key))) as [-> | ->].
        - exists [], []. repeat split.
        - exists ["--non-interactive"], [("non-interactive", "")]. repeat split. }
      destruct P as (tail & ni & -> & Et & E1). cbv iota beta.
      assert (P : parse_flags ["non-interactive"] ["stack"] (key :: "--stack" :: stack :: tail) = Some (("stack", stack) :: ni, [key])).
      { rewrite parse_pos by now apply not_flag. cbn -[parse_flags]. cbn [parse_flags]. cbn -[parse_flags]. now rewrite Et. }
      rewrite P. cbv iota beta. unfold on_file. change (("stack", stack) :: ni) with ([("stack", stack)] ++ ni). rewrite values_app, E1.
      change (flag_values [("stack", stack)] "stack" ++ []) with [stack]. cbv iota.
      destruct (dget st stack) as [f|]; [|reflexivity]. destruct (load_config to_json f) as [cfg|e]; [|reflexivity]. rewrite remove_values_ok; [reflexivity|]. intros k [<-|[]]. exact Hp.
    - destruct Hp as [Hne Hk].
      assert (P : exists tail ni, final_words (call_words (RemoveAllConfig stack keys)) = "config" :: "rm-all" :: "--stack" :: stack :: keys ++ tail
        /\ parse_flags ["non-interactive"] ["stack"] tail = Some (ni, []) /\ flag_values ni "stack" = []).
      { destruct (final_words_cases (call_words (RemoveAllConfig stack keys))) as [-> | ->].
        - exists [], []. cbn [call_words]. rewrite app_nil_r. repeat split.
        - exists ["--non-interactive"], [("non-interactive", "")]. cbn [call_words app]. repeat split. }
      destruct P as (tail & ni & -> & Et & E1). cbv iota beta.
      assert (P : parse_flags ["non-interactive"] ["stack"] ("--stack" :: stack :: keys ++ tail) = Some (("stack", stack) :: ni, keys)).
      { cbn -[parse_flags app]. cbn [parse_flags]. cbn -[parse_flags app].
        rewrite (parse_positionals _ _ keys tail ni []); [now rewrite app_nil_r|intros k Hin; now apply not_flag, Hk|exact Et]. }
      rewrite P. cbv iota beta. destruct keys as [|key keys]; [easy|]. unfold on_file. change (("stack", stack) :: ni) with ([("stack", stack)] ++ ni). rewrite values_app, E1.
      change (flag_values [("stack", stack)] "stack" ++ []) with [stack]. cbv iota.
      destruct (dget st stack) as [f|]; [|reflexivity]. destruct (load_config to_json f) as [cfg|e]; [|reflexivity]. rewrite remove_values_ok; [reflexivity|exact Hk].
  Qed.

  Hypothesis Hblind : forall st stack key t t', enc st stack key t = enc st stack key t'.
  Hypothesis Htrouble : forall st args args', trouble st args = trouble st args'.
  Local Notation alike := (fun a b : string * (string * bool) => fst a = fst b /\ snd (snd a) = snd (snd b) /\ (snd (snd a) = false -> fst (snd a) = fst (snd b))).
  Lemma make_value_alike st stack k v v' b : (b = false -> v = v') -> make_value enc st stack k v b = make_value enc st stack k v' b.
  Proof using Hblind. intros H. destruct b; cbn [make_value]; [now rewrite (Hblind st stack k v v')|now rewrite H]. Qed.
  Lemma puts_alike st stack l l' : Forall2 alike l l' -> forall cfg, puts st stack l cfg = puts st stack l' cfg.
  Proof using Hblind.
    induction 1 as [|[k [v b]] [k' [v' b']] l l' (E1 & E2 & E3) _ IH]; intros cfg; [reflexivity|]. cbn [fst snd] in *. subst k' b'. cbn [puts].
    rewrite (make_value_alike _ _ _ v v' b E3). destruct (make_value enc st stack (full_key project k) v' b); [|reflexivity]. cbn [rbind]. apply IH.
  Qed.
  Lemma secrecy_alike b l l' : Forall2 alike l l' -> Forall2 alike (of_secrecy b l) (of_secrecy b l').
  Proof using.
    unfold of_secrecy. induction 1 as [|x y l l' (E1 & E2 & E3) _ IH]; [constructor|]. cbn [filter]. rewrite <- E2.
    destruct (Bool.eqb (snd (snd x)) b); [constructor; auto|exact IH].
  Qed.
  Lemma new_values_alike st a a' cfg : alike_call a a' -> call_stack a = call_stack a' /\ new_values st a cfg = new_values st a' cfg.
  Proof using Hblind.
    intros [stack key v v'|stack l l' H|b]; [| |now split].
    - split; [reflexivity|]. cbn [new_values]. now rewrite (make_value_alike st stack _ v v' true).
    - split; [reflexivity|]. cbn [new_values]. rewrite (puts_alike _ _ _ _ (secrecy_alike false _ _ H)).
      destruct (puts st stack (of_secrecy false l') cfg); [|reflexivity]. cbn [rbind]. apply puts_alike, secrecy_alike, H.
  Qed.
  Lemma cli_alike st a a' : alike_call a a' -> proper_call project a -> proper_call project a' ->
    c st (final_words (call_words a)) = c st (final_words (call_words a')).
  Proof using Hproject Hblind Htrouble.
    intros H P P'. destruct (trouble st (final_words (call_words a))) as [e|] eqn:T.
    - unfold cli_files. rewrite <- (Htrouble st (final_words (call_words a)) (final_words (call_words a'))), T. reflexivity.
    - rewrite !files_call; [|assumption|now rewrite <- (Htrouble st (final_words (call_words a)))|assumption|assumption].
      destruct (new_values_alike st a a' [] H) as [<- _]. destruct (dget st (call_stack a)) as [f|]; [|reflexivity].
      destruct (load_config to_json f) as [cfg|]; [|reflexivity]. now rewrite (proj2 (new_values_alike st a a' cfg H)).
  Qed.
  Lemma make_alike st a a' : alike_call a a' -> proper_call project a -> proper_call project a' -> make c st a = make c st a'.
  Proof using Hproject Hblind Htrouble.
    intros H P P'. rewrite !make_words. destruct (c st (final_words (call_words a))) as [st' [[out err] code]] eqn:E.
    rewrite (command_words _ _ _ _ _ _ _ E). rewrite (cli_alike st a a' H P P') in E. now rewrite (command_words _ _ _ _ _ _ _ E).
  Qed.
  Lemma make_all_alike l l' : Forall2 alike_call l l' -> Forall (proper_call project) l -> Forall (proper_call project) l' -> forall st,
    fst (make_all c st l) = fst (make_all c st l') /\ map snd (snd (make_all c st l)) = map snd (snd (make_all c st l')).
  Proof using Hproject Hblind Htrouble.
    induction 1 as [|a a' l l' H _ IH]; intros P P' st; [now split|]. apply Forall_cons_iff in P as [Pa P]. apply Forall_cons_iff in P' as [Pa' P'].
    cbn [make_all]. rewrite (make_alike st a a' H Pa Pa'). destruct (make c st a') as [st1 r]. specialize (IH P P' st1).
    destruct (make_all c st1 l) as [s1 r1]. destruct (make_all c st1 l') as [s2 r2]. cbn [fst snd map] in *. destruct IH as [-> ->]. now split.
  Qed.
End Puts.
