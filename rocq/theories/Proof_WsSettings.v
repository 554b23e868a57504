From Verif Require Import Base PyVal Model_Urn Model_WsSettings Spec_WsSettings Proof_Cmd.
Open Scope string_scope.

Lemma dset_new {V} (d : dict V) k v : ~ In k (dkeys d) -> dset d k v = (d ++ [(k, v)])%list.
Proof.
  induction d as [|[k' v'] d IH]; intros H; simpl; [reflexivity|]. destruct (String.eqb_spec k k') as [->|N]; [exfalso; apply H; now left|].
  rewrite IH; [reflexivity|]. intros K. apply H. now right.
Qed.
Lemma deser_config_kept c : forall acc : dict cval, (forall k v, In (k, v) c -> kept_value v) -> NoDup (dkeys (acc ++ c)%list) ->
  deser_config (map (fun kv => (fst kv, ser_cval (snd kv))) c) acc = Ok (acc ++ c)%list.
Proof.
  induction c as [|[k v] c IH]; intros acc H N; cbn [map deser_config fst snd]; [now rewrite app_nil_r|].
  assert (E : deser_cval (ser_cval v) = Ok (Some v)).
  { assert (K := H k v (or_introl eq_refl)). destruct v as [s|v]; [reflexivity|]. destruct v; try contradiction. reflexivity. }
  rewrite E. unfold dkeys in N. rewrite map_app in N. cbn [map fst] in N.
  rewrite dset_new; [|apply NoDup_remove_2 in N; intros K; apply N; apply in_or_app; left; exact K].
  rewrite IH; [now rewrite <- app_assoc|intros k' v' K; apply (H k'); now right|].
  unfold dkeys. rewrite <- app_assoc, !map_app. exact N.
Qed.

Lemma deser_config_vals c : forall acc r k x, deser_config c acc = Ok r -> In (k, x) r -> (In (k, x) acc \/ exists v, In (k, v) c /\ deser_cval v = Ok (Some x)).
Proof.
  assert (D : forall (d : dict cval) k v k' x, In (k', x) (dset d k v) -> In (k', x) d \/ (k' = k /\ x = v)).
  { induction d as [|[a b] d IH]; intros k v k' x H; simpl in H.
    - destruct H as [[= <- <-]|[]]; auto.
    - destruct (String.eqb_spec k a) as [->|N]; destruct H as [[= <- <-]|H]; auto; [left; now right|left; now left|].
      apply IH in H as [H|H]; auto. left. now right. }
  induction c as [|[k v] c IH]; intros acc r k' x H Hr; cbn [deser_config] in *; [injection H as <-; auto|].
  destruct (deser_cval v) as [[y|]|e] eqn:E; [| |discriminate].
  - destruct (IH _ _ _ _ H Hr) as [K|(w & K & Ew)].
    + apply D in K as [K|[-> ->]]; [auto|]. right. exists v. split; [now left|exact E].
    + right. exists w. split; [now right|exact Ew].
  - destruct (IH _ _ _ _ H Hr) as [K|(w & K & Ew)]; auto. right. exists w. split; [now right|exact Ew].
Qed.
Lemma deser_config_back c : NoDup (dkeys c) -> deser_config (map (fun kv => (fst kv, ser_cval (snd kv))) c) [] = Ok c -> forall k v, In (k, v) c -> kept_value v.
Proof.
  intros N H k v Hk. destruct (deser_config_vals _ _ _ _ _ H Hk) as [[]|(w & Hw & Ew)].
  apply in_map_iff in Hw as ([k' v'] & E & Hw). cbn [fst snd] in E. injection E as -> <-.
  assert (v' = v) as ->.
  { apply (In_dget _ _ _ N) in Hw. apply (In_dget _ _ _ N) in Hk. congruence. }
  destruct v as [s|v]; [exact I|]. destruct v; cbn [ser_cval deser_cval kept_value] in *; try discriminate; auto.
  - destruct (existsb _ _); discriminate.
  - destruct (dmem d "secure"); [|discriminate]. destruct d as [|[a b] [|? ?]]; try discriminate; destruct b; discriminate.
Qed.

(** Keys of the saved data. *)
Lemma get_entry k j o rest : dget (str_entry j o ++ rest)%list k = (if String.eqb k j then match dget (str_entry j o) j with Some v => Some v | None => dget rest k end else dget rest k).
Proof.
  unfold str_entry. destruct o as [[|c s]|]; cbn [nonempty app dget].
  - destruct (String.eqb k j); reflexivity.
  - rewrite String.eqb_refl. reflexivity.
  - destruct (String.eqb k j); reflexivity.
Qed.
Definition kept_str (o : option string) : option string := if nonempty o then o else None.
Lemma str_entry_get k o : str_of (dget (str_entry k o) k) = kept_str o.
Proof. destruct o as [[|c s]|]; try reflexivity. cbn. now rewrite String.eqb_refl. Qed.
Lemma str_entry_none k o : dget (str_entry k o) k = None -> kept_str o = None.
Proof. destruct o as [[|c s]|]; try reflexivity. cbn. now rewrite String.eqb_refl. Qed.

Definition saved_config (s : stack_settings) : dict pyval :=
  match ss_config s with Some ((_ :: _) as c) => [("config", VDict (map (fun kv => (fst kv, ser_cval (snd kv))) c))] | _ => [] end.
Lemma saved_config_other s k : k <> "config" -> dget (saved_config s) k = None.
Proof. intros H. unfold saved_config. destruct (ss_config s) as [[|x c]|]; try reflexivity. cbn [dget]. apply String.eqb_neq in H. now rewrite H. Qed.

Lemma deserialize_serialize s : deserialize_settings (serialize_settings s) =
  let fin c := Ok (mkStackSettings (kept_str (ss_provider s)) (kept_str (ss_key s)) (kept_str (ss_salt s)) c) in
  match ss_config s with
  | Some ((_ :: _) as c) => match deser_config (map (fun kv => (fst kv, ser_cval (snd kv))) c) [] with Ok c' => fin (Some c') | Err e => Err e end
  | _ => fin None
  end.
Proof.
  pose (d := (str_entry "secretsprovider" (ss_provider s) ++ str_entry "encryptedkey" (ss_key s) ++ str_entry "encryptionsalt" (ss_salt s) ++ saved_config s)%list).
  assert (E1 : str_of (dget d "secretsprovider") = kept_str (ss_provider s)).
  { unfold d. rewrite get_entry. cbn [String.eqb Ascii.eqb Bool.eqb]. destruct (dget (str_entry "secretsprovider" _) _) eqn:E; [rewrite <- E; apply str_entry_get|].
    rewrite !get_entry. cbn [String.eqb Ascii.eqb Bool.eqb]. rewrite saved_config_other by discriminate. symmetry. now apply (str_entry_none "secretsprovider"). }
  assert (E2 : str_of (dget d "encryptedkey") = kept_str (ss_key s)).
  { unfold d. rewrite !get_entry. cbn [String.eqb Ascii.eqb Bool.eqb]. destruct (dget (str_entry "encryptedkey" _) _) eqn:E; [rewrite <- E; apply str_entry_get|].
    rewrite saved_config_other by discriminate. symmetry. now apply (str_entry_none "encryptedkey"). }
  assert (E3 : str_of (dget d "encryptionsalt") = kept_str (ss_salt s)).
  { unfold d. rewrite !get_entry. cbn [String.eqb Ascii.eqb Bool.eqb]. destruct (dget (str_entry "encryptionsalt" _) _) eqn:E; [rewrite <- E; apply str_entry_get|].
    rewrite saved_config_other by discriminate. symmetry. now apply (str_entry_none "encryptionsalt"). }
  assert (E4 : dget d "config" = dget (saved_config s) "config").
  { unfold d. rewrite !get_entry. reflexivity. }
  change (serialize_settings s) with (VDict d). unfold deserialize_settings. cbv zeta. rewrite E1, E2, E3, E4. unfold saved_config. destruct (ss_config s) as [[|x c]|]; reflexivity.
Qed.

Lemma kept_str_id o : kept_str o = o <-> kept_string o.
Proof. unfold kept_str, kept_string. destruct o as [[|c s]|]; cbn [nonempty]; split; congruence. Qed.
Lemma settings_round s : wf_settings s -> (deserialize_settings (serialize_settings s) = Ok s <-> kept s).
Proof.
  intros W. rewrite deserialize_serialize. destruct s as [p k t c]. unfold kept, wf_settings in *. cbn [ss_provider ss_key ss_salt ss_config] in *.
  rewrite <- !kept_str_id. destruct c as [[|x c]|]; cbn [kept_config].
  - split; [discriminate|intros (_ & _ & _ & H & _); now elim H].
  - split.
    + destruct (deser_config _ []) as [c'|e] eqn:E; [|discriminate]. cbv zeta. intros H. injection H as -> -> -> ->.
      repeat split; auto; [discriminate|]. now apply deser_config_back.
    + intros (-> & -> & -> & _ & H). now rewrite (deser_config_kept (x :: c) []).
  - cbv zeta. split; [intros H; injection H as -> -> ->; auto|intros (-> & -> & -> & _); reflexivity].
Qed.

(* ------------------------------------------------------------------ *)
(** Files. *)
Lemma dmem_dset {V} (d : dict V) k v k' : dmem (dset d k v) k' = (String.eqb k' k || dmem d k').
Proof. unfold dmem. rewrite dget_dset. now destruct (String.eqb k' k). Qed.
Lemma app_inj_l (a b c : string) : a ++ b = a ++ c -> b = c.
Proof. induction a; simpl; intros H; [exact H|]. injection H. auto. Qed.
Lemma found_ext_saved fs base v : let e := ext_or_yaml (found_ext fs base) in found_ext (dset fs (base ++ e) v) base = Some e.
Proof.
  unfold found_ext, setting_extensions. cbn [find]. rewrite !dmem_dset.
  assert (Q : forall x y, String.eqb (base ++ x) (base ++ y) = String.eqb x y).
  { intros x y. destruct (String.eqb_spec x y) as [->|N]; [apply String.eqb_refl|]. apply String.eqb_neq. intros K. apply N. now apply app_inj_l in K. }
  destruct (dmem fs (base ++ ".yaml")); cbn [ext_or_yaml]; rewrite !Q; [reflexivity|].
  destruct (dmem fs (base ++ ".yml")); cbn [ext_or_yaml]; [reflexivity|].
  destruct (dmem fs (base ++ ".json")); reflexivity.
Qed.
Lemma load_saved fs name s : load_stack_settings (save_stack_settings fs name s) name = deserialize_settings (serialize_settings s).
Proof.
  unfold load_stack_settings, save_stack_settings. rewrite found_ext_saved, dget_dset, String.eqb_refl. reflexivity.
Qed.

(** File names. *)
Lemma length_app_s (a b : string) : String.length (a ++ b) = String.length a + String.length b.
Proof. induction a; simpl; auto. Qed.
Lemma app_inj_len (a b c d : string) : a ++ b = c ++ d -> String.length b = String.length d -> a = c /\ b = d.
Proof.
  revert c. induction a as [|x a IH]; intros [|y c] H L; simpl in H.
  - auto.
  - subst b. simpl in L. rewrite length_app_s in L. lia.
  - subst d. simpl in L. rewrite length_app_s in L. lia.
  - injection H as -> H. apply IH in H as [-> ->]; auto.
Qed.
Lemma app_snoc_last a c b d : a ++ String c "" = b ++ String d "" -> c = d.
Proof. intros H. apply app_inj_len in H as [_ H]; [congruence|reflexivity]. Qed.
Lemma ext_apart a b e f : In e setting_extensions -> In f setting_extensions -> a ++ e = b ++ f -> a = b /\ e = f.
Proof.
  intros He Hf H.
  assert (D : forall a b, a ++ ".yaml" <> b ++ ".yml").
  { clear. intros a b H. change ".yaml" with (".y" ++ "aml") in H. change ".yml" with (".y" ++ "ml") in H. rewrite <- !app_assoc_s in H.
    assert (K := H). change "aml" with ("a" ++ "ml") in K. rewrite <- !app_assoc_s in K. apply app_inj_len in K as [K _]; [|reflexivity].
    change ((a ++ ".y") ++ "a" = b ++ "." ++ "y") in K. rewrite <- app_assoc_s in K. apply (app_snoc_last _ "a" _ "y") in K. discriminate. }
  assert (J : forall a b, a ++ ".json" <> b ++ ".yaml").
  { clear. intros a b H. apply app_inj_len in H as [_ H]; [discriminate|reflexivity]. }
  assert (J2 : forall a b, a ++ ".json" <> b ++ ".yml").
  { clear. intros a b H. change ".json" with (".jso" ++ "n") in H. change ".yml" with (".ym" ++ "l") in H. rewrite <- !app_assoc_s in H.
    apply (app_snoc_last _ "n" _ "l") in H. discriminate. }
  cbn [setting_extensions In] in He, Hf.
  destruct He as [<-|[<-|[<-|[]]]], Hf as [<-|[<-|[<-|[]]]];
    try (apply app_inj_len in H as [-> _]; [split; reflexivity|reflexivity]);
    exfalso; first [now apply D in H|now apply J in H|now apply J2 in H|now symmetry in H; apply D in H|now symmetry in H; apply J in H|now symmetry in H; apply J2 in H].
Qed.

Lemma ext_or_yaml_in fs base : In (ext_or_yaml (found_ext fs base)) setting_extensions.
Proof. unfold found_ext. destruct (find _ _) eqn:E; [now apply find_some in E as [E _]|now left]. Qed.
Lemma found_ext_other fs base base' e v : In e setting_extensions -> base <> base' -> found_ext (dset fs (base ++ e) v) base' = found_ext fs base'.
Proof.
  intros He N. unfold found_ext. assert (Q : forall x, In x setting_extensions -> dmem (dset fs (base ++ e) v) (base' ++ x) = dmem fs (base' ++ x)).
  { intros x Hx. rewrite dmem_dset. destruct (String.eqb_spec (base' ++ x) (base ++ e)) as [K|K]; [|reflexivity].
    apply ext_apart in K as [K _]; auto. congruence. }
  cbn [find setting_extensions]. rewrite !Q by (cbn [In setting_extensions]; tauto). reflexivity.
Qed.
Lemma get_other (fs : files) base base' e v x : In e setting_extensions -> In x setting_extensions -> base <> base' -> dget (dset fs (base ++ e) v) (base' ++ x) = dget fs (base' ++ x).
Proof.
  intros He Hx N. rewrite dget_dset. destruct (String.eqb_spec (base' ++ x) (base ++ e)) as [K|K]; [|reflexivity].
  apply ext_apart in K as [K _]; auto. congruence.
Qed.
Lemma load_other fs n m s : get_stack_settings_name n <> get_stack_settings_name m ->
  load_stack_settings (save_stack_settings fs n s) m = load_stack_settings fs m.
Proof.
  intros N. assert (B : stack_base n <> stack_base m) by (unfold stack_base; intros K; apply app_inj_l in K; contradiction).
  unfold load_stack_settings, save_stack_settings. rewrite found_ext_other by (auto using ext_or_yaml_in).
  destruct (found_ext fs (stack_base m)) as [e|] eqn:E; [|reflexivity]. apply find_some in E as [E _].
  rewrite get_other by (auto using ext_or_yaml_in). reflexivity.
Qed.
Lemma base_project n : stack_base n <> "Pulumi".
Proof. unfold stack_base. intros K. change "Pulumi" with ("Pulumi" ++ "") in K. change "Pulumi." with ("Pulumi" ++ ".") in K. rewrite app_assoc_s in K. apply app_inj_l in K. discriminate. Qed.
Lemma load_project_other fs n s : load_project_settings (save_stack_settings fs n s) = load_project_settings fs.
Proof.
  unfold load_project_settings, save_stack_settings. rewrite found_ext_other by (auto using ext_or_yaml_in, base_project).
  destruct (found_ext fs "Pulumi") as [e|] eqn:E; [|reflexivity]. apply find_some in E as [E _].
  rewrite get_other by (auto using ext_or_yaml_in, base_project). reflexivity.
Qed.

Lemma split1_free c s : free_of c s -> split1 c s = (s, []).
Proof.
  induction s as [|d s IH]; simpl; [reflexivity|]. intros [H1 H2]. rewrite (IH H2). apply Ascii.eqb_neq in H1. now rewrite H1.
Qed.
Lemma split1_last c q a : free_of c a -> let p := split1 c (q ++ String c a) in snd p <> [] /\ last (snd p) "" = a.
Proof.
  intros H. induction q as [|d q IH]; simpl.
  - rewrite Ascii.eqb_refl, (split1_free _ _ H). split; [discriminate|reflexivity].
  - destruct IH as [I1 I2]. destruct (Ascii.eqb d c); cbn [snd]; [|auto]. split; [discriminate|]. simpl. destruct (snd (split1 c (q ++ String c a))) eqn:E; [contradiction|exact I2].
Qed.
Lemma component_name name a : last_component name a -> get_stack_settings_name name = a.
Proof.
  intros [H [->|(q & ->)]]; unfold get_stack_settings_name, slast, split_c.
  - now rewrite (split1_free _ _ H).
  - change ("/" ++ a) with (String "/" a). destruct (split1_last _ q a H) as [I1 I2].
    destruct (snd (split1 "/" (q ++ String "/" a))) eqn:E; [contradiction|exact I2].
Qed.

(* ------------------------------------------------------------------ *)
(** Projects. *)
Lemma plain_all_app a b : plain_all (a ++ b)%list = match plain_all a, plain_all b with Some x, Some y => Some (x ++ y)%list | _, _ => None end.
Proof.
  induction a as [|[k p] a IH]; simpl; [now destruct (plain_all b)|]. rewrite IH. destruct (plain p), (plain_all a), (plain_all b); reflexivity.
Qed.
Definition opt_plain (k : string) (o : option string) : dict pyval := match o with Some s => [(k, VStr s)] | None => [] end.
Lemma plain_opt k o : plain_all (opt_str k o) = Some (opt_plain k o).
Proof. now destruct o. Qed.
Lemma opt_get k j o rest : dget (opt_plain j o ++ rest)%list k = (if String.eqb k j then match o with Some s => Some (VStr s) | None => dget rest k end else dget rest k).
Proof. destruct o; cbn [opt_plain app dget]; destruct (String.eqb k j); reflexivity. Qed.
Lemma known_app a b : known_keys (a ++ b)%list = known_keys a && known_keys b.
Proof. apply forallb_app. Qed.
Lemma known_opt k o : existsb (String.eqb k) project_fields = true -> known_keys (opt_plain k o) = true.
Proof. intros H. destruct o; cbn [opt_plain known_keys forallb fst]; [now rewrite H|reflexivity]. Qed.

Lemma project_round fs p : strings_only p -> runtime_ok (pj_runtime p) = true ->
  snd (save_project_settings fs p) = None /\ load_project_settings (fst (save_project_settings fs p)) = Ok p.
Proof.
  intros ((r & Hr) & Ht & Hb) Hok. destruct p as [n rt m de au we li co te ba]. cbn [pj_runtime pj_template pj_backend] in *. subst rt te ba.
  set (d := ([("name", VStr n); ("runtime", VStr r)] ++ opt_plain "main" m ++ opt_plain "description" de ++ opt_plain "author" au ++ opt_plain "website" we ++
    opt_plain "license" li ++ opt_plain "config" co)%list).
  assert (W : plain_all (writable_settings (mkProject n (PStr r) m de au we li co None None)) = Some d).
  { unfold writable_settings. cbn [pj_name pj_runtime pj_main pj_description pj_author pj_website pj_license pj_config pj_template pj_backend opt_obj].
    rewrite !plain_all_app, !plain_opt. cbn [plain_all plain]. rewrite !app_nil_r. reflexivity. }
  assert (G : make_project d = Ok (mkProject n (PStr r) m de au we li co None None)).
  { unfold make_project. assert (K : known_keys d = true) by (unfold d; rewrite !known_app, !known_opt by reflexivity; reflexivity).
    rewrite K. change (dget d "name") with (Some (VStr n)). change (dget d "runtime") with (Some (VStr r)). cbn iota beta. rewrite Hok.
    assert (Z : forall (o : option string), str_of (match o with Some s => Some (VStr s) | None => None end) = o) by (intros []; reflexivity).
    unfold d. cbn [app]. cbn [dget String.eqb Ascii.eqb Bool.eqb].
    rewrite <- (app_nil_r (opt_plain "config" co)). rewrite !opt_get. cbn [String.eqb Ascii.eqb Bool.eqb dget]. rewrite !Z. reflexivity. }
  unfold save_project_settings. rewrite W. split; [reflexivity|]. cbn [fst]. unfold load_project_settings.
  rewrite (found_ext_saved fs "Pulumi" (Data (VDict d))), dget_dset, String.eqb_refl. exact G.
Qed.
Lemma load_stack_project fs p n : load_stack_settings (fst (save_project_settings fs p)) n = load_stack_settings fs n.
Proof.
  assert (H : exists v, fst (save_project_settings fs p) = dset fs ("Pulumi" ++ ext_or_yaml (found_ext fs "Pulumi")) v).
  { unfold save_project_settings. destruct (plain_all _); [eexists; reflexivity|]. destruct (String.eqb _ _); eexists; reflexivity. }
  destruct H as (v & ->). assert (B : "Pulumi" <> stack_base n) by (intros K; symmetry in K; now apply base_project in K).
  unfold load_stack_settings. rewrite found_ext_other by (auto using ext_or_yaml_in).
  destruct (found_ext fs (stack_base n)) as [e|] eqn:E; [|reflexivity]. apply find_some in E as [E _].
  rewrite get_other by (auto using ext_or_yaml_in). reflexivity.
Qed.
