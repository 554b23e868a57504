(** Proofs: starting a program and reporting its end (C83-C85). *)
From Coq Require Import DecimalString DecimalPos.
From Verif Require Import Base PyVal Model_Argv Model_Json Spec_Json Proof_Json Model_Config Spec_Config Proof_Config
  Model_Settings Model_RpcManager Spec_RpcManager Proof_RpcManager Model_Host Spec_Host.
Open Scope string_scope.
Open Scope list_scope.

(* ------------------------------------------------------------------ *)
(** Arguments. *)

(** A text that [argparse] takes as an argument. *)
Definition is_arg (s : string) : Prop := parse_optional s = TArg s /\ String.eqb s "--" = false.
Lemma plain_arg s : plain s -> is_arg s.
Proof.
  intros H. split.
  - destruct s as [|c s]; [reflexivity|]. cbn [parse_optional].
    destruct (Ascii.eqb_spec c "-") as [->|N]; [now destruct (H s)|reflexivity].
  - apply String.eqb_neq. intros ->. now apply (H "-").
Qed.
Lemma plain_tokens l : Forall plain l -> tokens l = map TArg l.
Proof.
  induction 1 as [|s l Hs Hl IH]; [reflexivity|]. destruct (plain_arg s Hs) as [H1 H2].
  cbn [tokens map]. rewrite H1, H2. now f_equal.
Qed.

(** Numbers. *)
Lemma digits_all d : all_chars digit (NilEmpty.string_of_uint d) = true.
Proof. induction d; cbn; auto. Qed.
Lemma digits_not d c : digit c = false -> contains_char c (NilEmpty.string_of_uint d) = false.
Proof.
  intros Hc. induction d; cbn [NilEmpty.string_of_uint contains_char]; auto; rewrite IHd, orb_false_r;
    match goal with |- Ascii.eqb ?x c = false => destruct (Ascii.eqb_spec x c) as [<-|]; auto; discriminate end.
Qed.
Lemma split_none s : contains_char "=" s = false -> split_equals s = (s, None).
Proof.
  induction s as [|c s IH]; cbn; auto. intros H. apply orb_false_iff in H as [H1 H2]. rewrite H1, IH by auto. reflexivity.
Qed.
Lemma negative_arg d : d <> Decimal.Nil -> is_arg (String "-" (NilEmpty.string_of_uint d)).
Proof.
  intros Hd. pose proof (digits_all d) as Ha. pose proof (digits_not d "=" eq_refl) as He.
  assert (Hc : exists c t, NilEmpty.string_of_uint d = String c t /\ digit c = true).
  { destruct d; [congruence| | | | | | | | | |]; eexists _, _; split; reflexivity. }
  destruct Hc as (c & t & E & Hc). rewrite E in *.
  assert (Hm : Ascii.eqb "-" c = false) by (destruct (Ascii.eqb_spec "-" c) as [<-|]; [discriminate|reflexivity]).
  assert (Hh : Ascii.eqb "h" c = false) by (destruct (Ascii.eqb_spec "h" c) as [<-|]; [discriminate|reflexivity]).
  assert (Hm' : Ascii.eqb c "-" = false) by (now rewrite Ascii.eqb_sym).
  assert (Hh' : Ascii.eqb c "h" = false) by (now rewrite Ascii.eqb_sym).
  split; [|cbn; now rewrite Hm'].
  cbn [parse_optional negb].
  replace (Ascii.eqb "-" "-") with true by reflexivity. cbn [negb].
  replace (smem (String "-" (String c t)) long_options) with false
    by (cbn [smem long_options existsb String.eqb]; cbn; rewrite ?Hm', ?Hm; reflexivity).
  replace (String.eqb (String "-" (String c t)) "-h") with false by (cbn; now rewrite Hh').
  cbn [orb]. replace (String.eqb (String c t) "") with false by reflexivity.
  rewrite split_none by (cbn [contains_char]; rewrite orb_false_l || idtac; exact He).
  cbn [String.prefix]. 
  replace (ascii_dec "-" "-") with (@left ("-"%char = "-"%char) ("-"%char <> "-"%char) eq_refl) by (destruct (ascii_dec "-" "-"); [f_equal; apply Eqdep_dec.UIP_dec, ascii_dec|congruence]).
  destruct (ascii_dec "-" c) as [<-|_]; [discriminate|].
  destruct (ascii_dec "h" c) as [<-|_]; [discriminate|].
  unfold number_like. rewrite Ha. reflexivity.
Qed.
Lemma number_arg z : is_arg (str_int z).
Proof.
  unfold str_int. destruct z as [|p|p]; cbn [Z.to_int NilEmpty.string_of_int].
  - apply plain_arg. intros rest. discriminate.
  - apply plain_arg. intros rest. destruct (Pos.to_uint p); discriminate.
  - apply negative_arg. apply Unsigned.to_uint_nonnil.
Qed.

(** One option. *)
Definition opt_set (o : dict string) (k v : string) : dict string := if String.eqb v "" then o else dset o k v.
Definition ambiguous (l : list string) : bool := existsb (fun t => match t with TAmbiguous => true | _ => false end) (tokens l).
Definition is_opt (k : string) : Prop := parse_optional ("--" ++ k) = TOpt ("--" ++ k) None /\ String.eqb ("--" ++ k) "--" = false.
Lemma one_option k v o l : is_opt k -> is_arg v ->
  parse_tokens (tokens (maybe_append k v ++ l)) [] (mkParsed o None false)
  = parse_tokens (tokens l) [] (mkParsed (opt_set o ("--" ++ k)%string v) None false).
Proof.
  intros [K1 K2] [V1 V2]. unfold maybe_append, opt_set. destruct (String.eqb v ""); [reflexivity|].
  cbn [app tokens]. rewrite K1, K2, V1, V2. reflexivity.
Qed.
Lemma one_ambiguous k v l : is_opt k -> is_arg v -> ambiguous (maybe_append k v ++ l) = ambiguous l.
Proof.
  intros [K1 K2] [V1 V2]. unfold maybe_append, ambiguous. destruct (String.eqb v ""); [reflexivity|].
  cbn [app tokens]. rewrite K1, K2, V1, V2. reflexivity.
Qed.
Lemma args_run l : forall run a, parse_tokens (map TArg l) run a = parse_tokens [] (run ++ map (pair false) l) a.
Proof.
  induction l as [|s l IH]; intros run a; [cbn [map]; now rewrite app_nil_r|].
  cbn [map]. cbn [parse_tokens]. rewrite IH. now rewrite <- app_assoc.
Qed.
Lemma dashes_none l : Forall plain l -> remove_dashes l = l.
Proof.
  induction 1 as [|s l Hs Hl IH]; [reflexivity|]. cbn [remove_dashes]. destruct (plain_arg s Hs) as [_ ->]. now f_equal.
Qed.
Lemma args_ambiguous l : Forall plain l -> ambiguous l = false.
Proof. intros H. unfold ambiguous. rewrite plain_tokens by auto. clear H. induction l; auto. Qed.

(** The arguments that the host passes. *)
Definition given_options (h : host) (r : request) : dict string :=
  let o := opt_set [] "--monitor" (q_monitor r) in
  let o := opt_set o "--engine" (h_engine h) in
  let o := opt_set o "--project" (q_project r) in
  let o := opt_set o "--stack" (q_stack r) in
  let o := opt_set o "--pwd" (q_pwd r) in
  let o := opt_set o "--dry_run" (if q_dry r then "true" else "false") in
  let o := opt_set o "--parallel" (str_int (q_parallel r)) in
  let o := opt_set o "--tracing" (h_tracing h) in
  opt_set o "--organization" (q_organization r).
Definition program_of (r : request) : string := if String.eqb (q_program r) "" then "." else q_program r.
Lemma parse_given h r :
  Forall plain [q_monitor r; h_engine h; q_project r; q_stack r; q_pwd r; h_tracing h; q_organization r] ->
  Forall plain (q_program r :: q_args r) ->
  parse_args (construct_arguments h r) = Parsed (given_options h r) (program_of r) (q_args r).
Proof.
  intros H1 H2. inversion H2 as [|x l Hp Ha]; subst.
  assert (Hp' : plain (program_of r)) by (unfold program_of; destruct (String.eqb _ ""); [intros rest; discriminate|assumption]).
  assert (Hd : is_arg (if q_dry r then "true" else "false")) by (apply plain_arg; destruct (q_dry r); intros rest; discriminate).
  repeat match goal with H : Forall plain (_ :: _) |- _ => inversion H; clear H; subst end.
  unfold parse_args, construct_arguments. fold (program_of r).
  match goal with |- context [existsb ?f (tokens ?l)] => replace (existsb f (tokens l)) with false end.
  - repeat (rewrite one_option; [|split; reflexivity|auto using plain_arg, number_arg]).
    cbn [app]. rewrite plain_tokens by auto. rewrite args_run. cbn [app map parse_tokens consume_positionals a_positional a_options a_extra].
    destruct (q_args r) as [|s l] eqn:E; [reflexivity|].
    cbn [map]. cbn [parse_tokens a_positional a_extra a_options]. cbn [map snd].
    rewrite map_map. cbn [snd]. rewrite map_id. rewrite dashes_none by auto. reflexivity.
  - symmetry. change (ambiguous (construct_arguments h r) = false). unfold construct_arguments. fold (program_of r).
    repeat (rewrite one_ambiguous; [|split; reflexivity|auto using plain_arg, number_arg]).
    apply args_ambiguous. constructor; auto.
Qed.

(* ------------------------------------------------------------------ *)
(** The environment. *)
Lemma dupdate_app {A} (d : dict A) l1 l2 : dupdate d (l1 ++ l2) = dupdate (dupdate d l1) l2.
Proof. unfold dupdate. apply fold_left_app. Qed.
Lemma dupdate_out {A} (l : list (string * A)) k : ~ In k (map fst l) -> forall d, dget (dupdate d l) k = dget d k.
Proof.
  induction l as [|[k1 v1] l IH]; intros H d; [reflexivity|]. cbn [map fst] in H.
  change (dupdate d ((k1, v1) :: l)) with (dupdate (dset d k1 v1) l). rewrite IH by (intros K; apply H; now right).
  rewrite dget_dset. destruct (String.eqb_spec k k1) as [->|]; [exfalso; apply H; now left|]. reflexivity.
Qed.
Lemma last_dget l k o : last_value l k o -> dget (dupdate [] l) k = o.
Proof.
  intros [l1 v l2 -> H|H].
  - rewrite dupdate_app. change (dupdate ?d ((k, v) :: l2)) with (dupdate (dset d k v) l2).
    rewrite dupdate_out by auto. rewrite dget_dset. now rewrite String.eqb_refl.
  - now rewrite dupdate_out.
Qed.
Lemma last_exists l k : exists o, last_value l k o.
Proof.
  induction l as [|[k1 v1] l (o & IH)] using rev_ind; [exists None; constructor; easy|].
  destruct (String.eqb_spec k k1) as [->|N].
  - exists (Some v1). apply (Lv_some _ _ l v1 []); [reflexivity|easy].
  - exists o. destruct IH as [l1 v l2 -> H|H].
    + apply (Lv_some _ _ l1 v (l2 ++ [(k1, v1)])); [now rewrite <- app_assoc|].
      rewrite map_app, in_app_iff. cbn. intros [K|[K|[]]]; auto.
    + constructor. rewrite map_app, in_app_iff. cbn. intros [K|[K|[]]]; auto.
Qed.

(** Names that differ in case. *)
Lemma lower_small c : small c (lower c).
Proof.
  unfold small, lower, in_range. pose proof (nat_ascii_bounded c) as Hb.
  change (nat_of_ascii "A") with 65. change (nat_of_ascii "Z") with 90.
  destruct (Nat.leb_spec 65 (nat_of_ascii c)), (Nat.leb_spec (nat_of_ascii c) 90); cbn [andb]; try (right; split; [lia|reflexivity]).
  left. split; [lia|]. now rewrite nat_ascii_embedding by lia.
Qed.
Lemma small_unique c d d' : small c d -> small c d' -> d = d'.
Proof.
  intros [[A B]|[A B]] [[A' B']|[A' B']]; try tauto; try congruence.
  rewrite <- (ascii_nat_embedding d), <- (ascii_nat_embedding d'). congruence.
Qed.
Lemma fold_letters a b : equal_fold a b = true <-> same_letters a b.
Proof.
  split.
  - revert b. induction a as [|x a IH]; intros [|y b]; cbn; try discriminate.
    + intros _. exists []. split; constructor.
    + intros H. apply andb_true_iff in H as [H1 H2]. apply Ascii.eqb_eq in H1.
      destruct (IH _ H2) as (l & A & B). exists (lower x :: l). cbn [list_ascii_of_string]. split; constructor; auto using lower_small.
      rewrite H1. apply lower_small.
  - intros (l & A & B). revert b l A B. induction a as [|x a IH]; intros [|y b] l A B; cbn [list_ascii_of_string] in *.
    + reflexivity.
    + inversion A; subst; inversion B.
    + inversion B; subst; inversion A.
    + inversion A as [|? d ? l' A1 A2]; subst. inversion B as [|? d' ? l'' B1 B2]; subst. cbn [equal_fold].
      rewrite (IH b l') by auto. rewrite (small_unique _ _ _ (lower_small x) A1), (small_unique _ _ _ (lower_small y) B1).
      now rewrite Ascii.eqb_refl.
Qed.

Lemma last_map f g l k o :
  (forall v, f (k, v) = [(k, g v)]) -> (forall k' v, k' <> k -> ~ In k (map fst (f (k', v)))) ->
  last_value l k o -> last_value (flat_map f l) k (option_map g o).
Proof.
  intros Hf Hn H.
  assert (No : forall l, ~ In k (map fst l) -> ~ In k (map fst (flat_map f l))).
  { clear l H. induction l as [|[k' v'] l IH]; cbn [map flat_map fst In]; intros H; auto.
    rewrite map_app, in_app_iff. intros [K|K]; [|tauto]. apply (Hn k' v'); auto. }
  destruct H as [l1 v l2 -> H|H]; cbn [option_map].
  - rewrite flat_map_app. cbn [flat_map]. rewrite Hf. apply (Lv_some _ _ (flat_map f l1) (g v) (flat_map f l2)); auto.
  - constructor. auto.
Qed.
Definition activated (dir : string) (kv : string * string) : list (string * string) :=
  if equal_fold (fst kv) "PATH" then [(fst kv, (venv_bin dir ++ ":" ++ snd kv)%string)]
  else if equal_fold (fst kv) "PYTHONHOME" then [] else [kv].
Lemma activate_map env dir :
  activate env dir = (flat_map (activated dir) env, existsb (fun kv => equal_fold (fst kv) "PATH") env).
Proof.
  induction env as [|[k v] env IH]; [reflexivity|]. cbn [activate flat_map existsb fst]. rewrite IH.
  assert (E : activated dir (k, v) = if equal_fold k "PATH" then [(k, (venv_bin dir ++ ":" ++ v)%string)]
    else if equal_fold k "PYTHONHOME" then [] else [(k, v)]) by reflexivity. rewrite E.
  destruct (equal_fold k "PATH"); [reflexivity|]. destruct (equal_fold k "PYTHONHOME"); reflexivity.
Qed.
Lemma forall2_length {A B} (R : A -> B -> Prop) l l' : Forall2 R l l' -> length l = length l'.
Proof. induction 1; cbn; congruence. Qed.
Lemma activated_key dir k' v k : In k (map fst (activated dir (k', v))) -> k = k' /\ equal_fold k' "PYTHONHOME" = false.
Proof.
  unfold activated. cbn [fst snd]. destruct (equal_fold k' "PATH") eqn:E.
  - cbn. intros [<-|[]]. split; [reflexivity|]. destruct (equal_fold k' "PYTHONHOME") eqn:F; [|reflexivity].
    apply fold_letters in E, F. destruct E as (l & E1 & E2), F as (l' & F1 & F2).
    apply forall2_length in E1, E2, F1, F2. cbn in *. congruence.
  - destruct (equal_fold k' "PYTHONHOME") eqn:F; cbn; [easy|]. intros [<-|[]]. auto.
Qed.

Lemma last_snoc_other l k o k' v : k <> k' -> last_value l k o -> last_value (l ++ [(k', v)]) k o.
Proof.
  intros N [l1 x l2 -> H|H].
  - apply (Lv_some _ _ l1 x (l2 ++ [(k', v)])); [now rewrite <- app_assoc|].
    rewrite map_app, in_app_iff. cbn. intros [K|[K|[]]]; auto.
  - constructor. rewrite map_app, in_app_iff. cbn. intros [K|[K|[]]]; auto.
Qed.
Lemma last_snoc l k v : last_value (l ++ [(k, v)]) k (Some v).
Proof. now apply (Lv_some _ _ l v []). Qed.

Lemma activate_path env dir o : last_value env "PATH" o ->
  (In "PATH" (map fst env) \/ forall k, In k (map fst env) -> ~ same_letters k "PATH") ->
  last_value (activate_virtualenv env dir) "PATH"
    (Some (venv_bin dir ++ match o with Some v => ":" ++ v | None => "" end)%string).
Proof.
  intros Ho Hc. unfold activate_virtualenv. rewrite activate_map.
  assert (Hm : last_value (flat_map (activated dir) env) "PATH" (option_map (fun v => (venv_bin dir ++ ":" ++ v)%string) o)).
  { apply last_map; auto. intros k' v N K. apply activated_key in K. intuition congruence. }
  destruct (existsb (fun kv => equal_fold (fst kv) "PATH") env) eqn:E.
  - destruct Ho as [l1 v l2 -> H|H].
    + exact Hm.
    + exfalso. apply existsb_exists in E as ([k v] & K1 & K2). cbn in K2. apply fold_letters in K2.
      destruct Hc as [Hc|Hc]; [tauto|]. apply (Hc k); [|exact K2]. apply in_map_iff. now exists (k, v).
  - destruct Ho as [l1 v l2 -> H|H].
    + rewrite existsb_app in E. cbn [existsb fst] in E. cbn in E. apply orb_false_iff in E as [_ E]. discriminate.
    + cbn [option_map] in Hm. rewrite sapp_nil. apply last_snoc.
Qed.
Lemma activate_home env dir : ~ In "PYTHONHOME" (map fst (activate_virtualenv env dir)).
Proof.
  unfold activate_virtualenv. rewrite activate_map.
  assert (H : ~ In "PYTHONHOME" (map fst (flat_map (activated dir) env))).
  { induction env as [|[k v] env IH]; cbn [flat_map]; [easy|]. rewrite map_app, in_app_iff. intros [K|K]; [|tauto].
    apply activated_key in K as [<- K]. discriminate. }
  destruct (existsb _ env); [exact H|]. rewrite map_app, in_app_iff. cbn. intuition discriminate.
Qed.
Lemma activate_others env dir k o : ~ same_letters k "PATH" -> ~ same_letters k "PYTHONHOME" ->
  last_value env k o -> last_value (activate_virtualenv env dir) k o.
Proof.
  intros N1 N2 H. unfold activate_virtualenv. rewrite activate_map.
  assert (E1 : equal_fold k "PATH" = false) by (destruct (equal_fold k "PATH") eqn:E; auto; apply fold_letters in E; tauto).
  assert (E2 : equal_fold k "PYTHONHOME" = false) by (destruct (equal_fold k "PYTHONHOME") eqn:E; auto; apply fold_letters in E; tauto).
  assert (Hm : last_value (flat_map (activated dir) env) k o).
  { replace o with (option_map (fun v : string => v) o) by (destruct o; reflexivity). apply last_map; auto.
    - intros v. unfold activated. cbn [fst snd]. now rewrite E1, E2.
    - intros k' v N K. apply activated_key in K. intuition congruence. }
  destruct (existsb _ env); [exact Hm|]. apply last_snoc_other; [|exact Hm]. intros ->. discriminate.
Qed.

(** The variables that the program is started with. *)
Definition base_env (environ : list (string * string)) (h : host) : list (string * string) :=
  if String.eqb (h_virtualenv h) "" then environ else activate_virtualenv environ (h_virtualenv h).
Lemma keys_text r : String.eqb (construct_secret_keys r) "" = false.
Proof. unfold construct_secret_keys. destruct (q_secret_keys r); reflexivity. Qed.
Lemma config_text r : String.eqb (construct_config r) "" = match q_config r with [] => true | _ => false end.
Proof. unfold construct_config. destruct (q_config r); reflexivity. Qed.
Lemma env_others environ h r k o : k <> "PULUMI_CONFIG" -> k <> "PULUMI_CONFIG_SECRET_KEYS" ->
  last_value (base_env environ h) k o -> dget (p_env (spawn environ h r)) k = o.
Proof.
  intros N1 N2 H. cbn [p_env spawn]. rewrite keys_text. fold (base_env environ h). apply last_dget. apply last_snoc_other; auto.
  destruct (String.eqb (construct_config r) ""); auto. apply last_snoc_other; auto.
Qed.
Lemma env_keys environ h r : dget (p_env (spawn environ h r)) "PULUMI_CONFIG_SECRET_KEYS" = Some (construct_secret_keys r).
Proof. cbn [p_env spawn]. rewrite keys_text. apply last_dget, last_snoc. Qed.
Lemma env_config environ h r : q_config r <> [] -> dget (p_env (spawn environ h r)) "PULUMI_CONFIG" = Some (construct_config r).
Proof.
  intros H. cbn [p_env spawn]. rewrite keys_text, config_text. apply last_dget. apply last_snoc_other; [discriminate|].
  destruct (q_config r); [congruence|]. apply last_snoc.
Qed.
Lemma base_none environ h k : k <> "PATH" -> ~ In k (map fst environ) -> last_value (base_env environ h) k None.
Proof.
  intros N H. unfold base_env. destruct (String.eqb (h_virtualenv h) ""); [now constructor|].
  constructor. unfold activate_virtualenv. rewrite activate_map. intros K.
  assert (J : In k (map fst (flat_map (activated (h_virtualenv h)) environ))).
  { destruct (existsb _ environ); [exact K|]. rewrite map_app, in_app_iff in K. cbn in K. intuition congruence. }
  clear K. induction environ as [|[k' v] l IH]; cbn [flat_map map fst In] in *; [easy|].
  rewrite map_app, in_app_iff in J. destruct J as [J|J]; [|tauto]. apply activated_key in J as [-> _]. tauto.
Qed.

(* ------------------------------------------------------------------ *)
(** The texts that the host writes. *)
Lemma go_character c : character (nat_of_ascii c) (go_escape c).
Proof.
  unfold go_escape. pose proof (nat_ascii_bounded c) as Hb.
  destruct (Nat.eqb_spec (nat_of_ascii c) 34) as [->|N1]; [constructor|].
  destruct (Nat.eqb_spec (nat_of_ascii c) 92) as [->|N2]; [constructor|].
  destruct (Nat.eqb_spec (nat_of_ascii c) 10) as [->|N3]; [constructor|].
  destruct (Nat.eqb_spec (nat_of_ascii c) 13) as [->|N4]; [constructor|].
  destruct (Nat.eqb_spec (nat_of_ascii c) 9) as [->|N5]; [constructor|].
  destruct (Nat.ltb (nat_of_ascii c) 32 || Nat.eqb (nat_of_ascii c) 60 || Nat.eqb (nat_of_ascii c) 62 || Nat.eqb (nat_of_ascii c) 38) eqn:E.
  - rewrite (Nat.div_mod (nat_of_ascii c) 16) at 1 by lia.
    apply (C_u (nat_of_ascii c / 16) (nat_of_ascii c mod 16) (String (hex_digit (nat_of_ascii c / 16)) "") (String (hex_digit (nat_of_ascii c mod 16)) ""));
      apply hex_digit_hexes; [apply Nat.div_lt_upper_bound; lia|apply Nat.mod_upper_bound; lia].
  - apply orb_false_iff in E as [E _]. apply orb_false_iff in E as [E _]. apply orb_false_iff in E as [E _]. apply Nat.ltb_ge in E.
    rewrite <- (ascii_nat_embedding c) at 2. apply C_itself; lia.
Qed.
Lemma go_quoted_text s : string_text s (go_quoted s).
Proof.
  exists (go_escapes s). split; [|reflexivity]. induction s as [|c s IH]; [constructor|].
  cbn [go_escapes]. rewrite <- (ascii_nat_embedding c) at 1. constructor; [apply go_character|exact IH].
Qed.
Lemma go_elements l : l <> [] -> elements (map VStr l) (go_commas (map go_quoted l)).
Proof.
  induction l as [|s l IH]; intros H; [easy|]. clear H. destruct l as [|s' l].
  - cbn [map go_commas]. rewrite <- (sapp_nil (go_quoted s)). apply (E_one "" _ _ ""); try constructor. apply go_quoted_text.
  - cbn [map] in *. change (go_commas (go_quoted s :: go_quoted s' :: map go_quoted l)) with (go_quoted s ++ "," ++ go_commas (go_quoted s' :: map go_quoted l))%string.
    apply (E_more "" _ _ ""); try constructor; [apply go_quoted_text|]. apply IH. discriminate.
Qed.
Definition go_pair (kv : string * string) : string := (go_quoted (fst kv) ++ ":" ++ go_quoted (snd kv))%string.
Definition str_pair (kv : string * string) : string * pyval := (fst kv, VStr (snd kv)).
Lemma go_members d : d <> [] -> members (map str_pair d) (go_commas (map go_pair d)).
Proof.
  induction d as [|[k v] d IH]; intros H; [easy|]. clear H. destruct d as [|kv' d].
  - cbn [map go_commas]. unfold go_pair, str_pair. cbn [fst snd]. rewrite <- (sapp_nil (go_quoted v)).
    apply (M_one "" k (go_quoted k) "" "" (VStr v) (go_quoted v) ""); try constructor; apply go_quoted_text.
  - cbn [map] in *. change (go_commas (go_pair (k, v) :: go_pair kv' :: map go_pair d)) with (go_pair (k, v) ++ "," ++ go_commas (go_pair kv' :: map go_pair d))%string.
    unfold go_pair at 1, str_pair at 1. cbn [fst snd]. rewrite !sapp_assoc.
    apply (M_more "" k (go_quoted k) "" "" (VStr v) (go_quoted v) ""); try constructor; [apply go_quoted_text|apply go_quoted_text|].
    apply IH. discriminate.
Qed.
Lemma config_loads r : q_config r <> [] -> NoDup (map fst (q_config r)) -> loads (construct_config r) = Ok (VDict (map str_pair (q_config r))).
Proof.
  intros H Hn. apply loads_document.
  - apply text_document. unfold construct_config. destruct (q_config r) as [|kv d] eqn:E; [congruence|]. rewrite <- E in *.
    apply T_object. apply go_members. exact H.
  - constructor; [|apply Forall_map, Forall_forall; intros; constructor]. now rewrite map_map.
Qed.
Lemma keys_loads r : loads (construct_secret_keys r) = Ok (VList (map VStr (q_secret_keys r))).
Proof.
  apply loads_document.
  - apply text_document. unfold construct_secret_keys. destruct (q_secret_keys r) as [|k l] eqn:E; [apply (T_array0 ""); constructor|]. rewrite <- E in *.
    apply T_array. apply go_elements. congruence.
  - constructor. apply Forall_map, Forall_forall. intros. constructor.
Qed.
Lemma all_str_map l : all_str (map VStr l) = Ok l.
Proof. induction l as [|s l IH]; [reflexivity|]. cbn [map all_str]. now rewrite IH. Qed.
Lemma dget_str d k : dget (map str_pair d) k = option_map VStr (dget d k).
Proof. induction d as [|[k' v] d IH]; [reflexivity|]. cbn. destruct (String.eqb k k'); auto. Qed.

(* ------------------------------------------------------------------ *)
(** C83. *)
Lemma opt_set_dget o k v k' : dget (opt_set o k v) k' = if String.eqb k' k then (if String.eqb v "" then dget o k' else Some v) else dget o k'.
Proof. unfold opt_set. destruct (String.eqb v ""); [now destruct (String.eqb k' k)|]. apply dget_dset. Qed.
Lemma setting_opt s : setting s (opt_value (if String.eqb s "" then None else Some s)).
Proof. destruct (String.eqb_spec s "") as [->|N]; [left|right]; auto. Qed.
Lemma str_int_nonempty z : String.eqb (str_int z) "" = false.
Proof. destruct (str_int_cons z) as (c & s & ->). reflexivity. Qed.
Lemma int_text z : py_int_text (str_int z) = Ok z.
Proof. unfold py_int_text, str_int. rewrite NilEmpty.isi, DecimalZ.of_to. reflexivity. Qed.

(** The configuration that the program finds. *)
Definition config_of (r : request) : cstate := mkCS [[]; map str_pair (q_config r)] [mkCtx 1 (q_secret_keys r)].
Lemma read_config environ h r : NoDup (map fst (q_config r)) -> (q_config r <> [] \/ ~ In "PULUMI_CONFIG" (map fst environ)) ->
  exists text, read_env (p_env (spawn environ h r)) "PULUMI_CONFIG" (VDict []) = Ok (VDict text) /\
    get_config_env exec_builtins (p_env (spawn environ h r)) = Ok (VDict text) /\ text = map str_pair (q_config r).
Proof.
  intros Hn Hc. exists (map str_pair (q_config r)). unfold read_env, get_config_env.
  destruct (q_config r) as [|kv d] eqn:E.
  - destruct Hc as [|Hc]; [congruence|].
    assert (H : dget (p_env (spawn environ h r)) "PULUMI_CONFIG" = None).
    { cbn [p_env spawn]. rewrite keys_text, config_text, E. fold (base_env environ h). apply last_dget. apply last_snoc_other; [discriminate|].
      apply base_none; [discriminate|assumption]. }
    rewrite H. auto.
  - rewrite env_config by congruence. rewrite <- E in *. cbn [py_loads exec_builtins]. rewrite config_loads; [auto|congruence|auto].
Qed.
Lemma variable_not_config k : get_config_env_key k <> "PULUMI_CONFIG".
Proof. unfold get_config_env_key. destruct (env_scrub k); discriminate. Qed.

Lemma run_view legacy chdir environ h r :
  Forall plain [q_monitor r; h_engine h; q_project r; q_stack r; q_pwd r; h_tracing h; q_organization r] ->
  Forall plain (q_program r :: q_args r) ->
  NoDup (map fst (q_config r)) ->
  (q_pwd r = "" \/ chdir (q_pwd r) = true) ->
  (q_config r <> [] \/ ~ In "PULUMI_CONFIG" (map fst environ)) ->
  exists w, exec_start legacy chdir (spawn environ h r) = Starts w /\ w_config w = config_of r /\ asked environ h r w /\ nothing_else environ r w.
Proof.
  intros H1 H2 Hn Hp Hc.
  destruct (read_config environ h r Hn Hc) as (t & R1 & R2 & ->).
  assert (R3 : read_env (p_env (spawn environ h r)) "PULUMI_CONFIG_SECRET_KEYS" (VList []) = Ok (VList (map VStr (q_secret_keys r)))).
  { unfold read_env. rewrite env_keys. apply keys_loads. }
  assert (R4 : set_parsed (VDict (map str_pair (q_config r))) (VList (map VStr (q_secret_keys r))) = Ok (config_of r)).
  { cbn [set_parsed]. rewrite all_str_map. cbn [rbind]. unfold config_of. repeat f_equal.
    change (fold_left _ ?l []) with (dupdate [] l). rewrite dupdate_same; [reflexivity| |easy]. now rewrite map_map. }
  set (env := p_env (spawn environ h r)) in *.
  unfold exec_start. change (p_argv (spawn environ h r)) with (construct_arguments h r). fold env. rewrite parse_given by auto.
  rewrite R1. cbn [rbind]. rewrite R3. cbn [rbind]. rewrite R4. cbn [rbind].
  unfold given_options. repeat (rewrite opt_set_dget; cbn [String.eqb Ascii.eqb Bool.eqb]).
  rewrite !str_int_nonempty. cbn [dget]. rewrite int_text. cbn [rbind].
  replace (match (if String.eqb (q_pwd r) "" then None else Some (q_pwd r)) with
           | Some d => if chdir d then Ok tt else Err (Exn "FileNotFoundError" d) | None => Ok tt end) with (Ok tt).
  2: { destruct (String.eqb_spec (q_pwd r) "") as [|N]; [reflexivity|]. destruct Hp as [Hp|Hp]; [congruence|]. now rewrite Hp. }
  cbn [rbind]. eexists. split; [reflexivity|]. split; [reflexivity|]. split.
  - split; cbn [w_settings w_config w_env w_program w_argv w_chdir].
    + apply setting_opt.
    + apply setting_opt.
    + apply setting_opt.
    + apply setting_opt.
    + change (setting (h_engine h) (match (if String.eqb (h_engine h) "" then None else Some (h_engine h)) with
        | Some s => if String.eqb s "" then VNone else VStr s | None => VNone end)).
      destruct (String.eqb_spec (h_engine h) "") as [E|N]; [now left|]. right. split; auto.
      destruct (String.eqb_spec (h_engine h) ""); congruence.
    + reflexivity.
    + destruct (q_dry r); reflexivity.
    + unfold program_of. destruct (String.eqb_spec (q_program r) ""); auto.
    + reflexivity.
    + destruct (String.eqb_spec (q_pwd r) ""); auto.
    + intros k v E. unfold get_config. change (dict_at (config_of r) (c_loc (ctx_at (config_of r) 0))) with (map str_pair (q_config r)).
      rewrite dget_str, E. reflexivity.
    + intros k. unfold is_config_secret. change (c_secrets (ctx_at (config_of r) 0)) with (q_secret_keys r). apply smem_In.
  - intros k e N V K S. cbn [w_env w_config]. apply variable_spec in V. subst e. unfold get_config.
    change (dict_at (config_of r) (c_loc (ctx_at (config_of r) 0))) with (map str_pair (q_config r)).
    assert (D : dget (map str_pair (q_config r)) k = None) by (rewrite dget_str; rewrite (proj2 (dget_None _ _)) by auto; reflexivity).
    rewrite D. unfold env. rewrite (env_others environ h r _ None).
    + unfold env in R2. rewrite R2. cbn [rbind bag_lookup]. now rewrite D.
    + apply variable_not_config.
    + exact S.
    + apply base_none; [|exact K]. unfold get_config_env_key. discriminate.
Qed.
Lemma run_ok legacy chdir environ h r :
  Forall plain [q_monitor r; h_engine h; q_project r; q_stack r; q_pwd r; h_tracing h; q_organization r] ->
  Forall plain (q_program r :: q_args r) ->
  NoDup (map fst (q_config r)) ->
  (q_pwd r = "" \/ chdir (q_pwd r) = true) ->
  (q_config r <> [] \/ ~ In "PULUMI_CONFIG" (map fst environ)) ->
  exists w, exec_start legacy chdir (spawn environ h r) = Starts w /\ asked environ h r w /\ nothing_else environ r w.
Proof. intros H1 H2 Hn Hp Hc. destruct (run_view legacy chdir environ h r H1 H2 Hn Hp Hc) as (w & S & _ & A & N). exists w. auto. Qed.

(* ------------------------------------------------------------------ *)
(** C84. *)
Definition good_exit (e : ending) : Prop := forall n, e = Exited (AInt n) -> (0 <= n < 256)%Z /\ n <> 32%Z.
Lemma respond_success s : success (respond s) <-> s = Code 0.
Proof.
  unfold success, respond. destruct s as [n|].
  - destruct (Z.eqb_spec n 0) as [->|N]; [cbn; tauto|].
    destruct (Z.eqb_spec n 32) as [->|N2]; cbn; (split; [intros [H1 H2]; discriminate|intros H; congruence]).
  - cbn. split; [intros []|]; discriminate.
Qed.
Lemma end_code e : good_exit e -> fst (exec_end e) = Code 0 <-> ended_well e.
Proof.
  intros H. unfold ended_well. destruct e as [|[cls m]|[|n|t]|]; cbn.
  - tauto.
  - destruct (String.eqb cls "RunError"); cbn; split; intros K; try discriminate; intuition discriminate.
  - tauto.
  - destruct (H n eq_refl) as [Hn _]. rewrite Z.mod_small by auto. split; intros K.
    + injection K as ->. auto.
    + destruct K as [K|[K|K]]; congruence.
  - split; intros K; [discriminate|intuition discriminate].
  - split; intros K; [discriminate|intuition discriminate].
Qed.
Lemma response_error s : ~ success (respond s) -> e_bail (respond s) = false -> e_error (respond s) <> "".
Proof. unfold success. intros H B E. tauto. Qed.
Lemma start_code legacy chdir p n : exec_start legacy chdir p = Exits n -> n = 2%Z \/ n = 0%Z.
Proof.
  unfold exec_start. destruct (parse_args (p_argv p)) as [| |o g l]; intros H.
  - injection H as <-. auto.
  - injection H as <-. auto.
  - match type of H with match ?x with _ => _ end = _ => destruct x; discriminate end.
Qed.
Lemma end_reported s' w (e : ending) :
  wait_ends s' -> good_exit e ->
  exists e', run_pulumi_func (m_phase s') e = Some e' /\
    (e' = e \/ exists x, e' = Raised x /\ ((exists i, failed s' i x) \/ m_phase s' = PTaskRaised x)) /\
    (success (respond (fst (exec_run (Starts w) e'))) <->
       (forall i, started s' i -> succeeded s' i) /\ (forall x, m_phase s' <> PTaskRaised x) /\ ended_well e) /\
    (forall cls m, e' = Raised (Exn cls m) -> exists before, In (Logged (before ++ m)) (snd (exec_run (Starts w) e'))) /\
    (e_bail (respond (fst (exec_run (Starts w) e'))) = true -> exists t, In (Logged t) (snd (exec_run (Starts w) e'))).
Proof.
  intros (s & R & St & N1 & N2 & N3 & E) G. cbn [exec_run].
  assert (R' : reachable true s') by (unfold reachable in *; apply Operators_Properties.clos_rt_rt1n; eapply rt_trans; [apply Operators_Properties.clos_rt1n_rt; exact R|now apply rt_step]).
  assert (Msg : forall e' cls m, e' = Raised (Exn cls m) -> exists before, In (Logged (before ++ m)) (snd (exec_end e'))).
  { intros e' cls m ->. cbn [exec_end]. destruct (String.eqb cls "RunError"); [exists ""|exists "Program failed with an unhandled exception:"]; left; reflexivity. }
  assert (Bail : forall e', good_exit e' -> e_bail (respond (fst (exec_end e'))) = true -> exists t, In (Logged t) (snd (exec_end e'))).
  { intros [|[cls m]|[|n|t]|] Ge; cbn; try discriminate.
    - destruct (String.eqb cls "RunError"); cbn; eauto.
    - destruct (Ge n eq_refl) as [B1 B2]. rewrite Z.mod_small by auto. destruct (Z.eqb n 0); [discriminate|].
      destruct (Z.eqb_spec n 32); [congruence|]. discriminate. }
  assert (Bad : forall x, success (respond (fst (exec_end (Raised x)))) -> False).
  { intros x H. apply respond_success in H. apply end_code in H; [|intros n; discriminate]. destruct H as [H|[H|H]]; discriminate. }
  destruct E as [(x & E)|[(x & E)|E]]; rewrite E; cbn [run_pulumi_func]; eexists; (split; [reflexivity|]).
  - destruct (raised_ok true s' x R' E) as (i & F). split; [right; eauto|]. split; [|split; [eauto|apply Bail; intros n; discriminate]].
    split; [intros H; now destruct (Bad x)|]. intros (H & _). exfalso.
    assert (Hi : started s' i) by (unfold started; apply nth_error_Some; unfold failed, ended in F; congruence).
    destruct (H i Hi) as (v & Hv). unfold failed, ended in *. congruence.
  - split; [right; eauto|]. split; [|split; [eauto|apply Bail; intros n; discriminate]].
    split; [intros H; now destruct (Bad x)|]. intros (_ & H & _). now destruct (H x).
  - split; [auto|]. split; [|split; [eauto|now apply Bail]].
    rewrite respond_success, end_code by auto. split; [|tauto].
    intros H. split; [exact (wait_ok true s s' R St N3 E)|]. split; [discriminate|exact H].
Qed.

(* ------------------------------------------------------------------ *)
(** C85. *)
Lemma virtualenv_ok environ h r :
  h_virtualenv h <> "" ->
  p_python (spawn environ h r) = Some (h_virtualenv h ++ "/bin/python")%string /\
  (forall old, last_value environ "PATH" old ->
     In "PATH" (map fst environ) \/ (forall k, In k (map fst environ) -> ~ same_letters k "PATH") ->
     dget (p_env (spawn environ h r)) "PATH" =
       Some (h_virtualenv h ++ "/bin" ++ match old with Some v => ":" ++ v | None => "" end)%string) /\
  dget (p_env (spawn environ h r)) "PYTHONHOME" = None /\
  (forall k v, ~ same_letters k "PATH" -> ~ same_letters k "PYTHONHOME" ->
     k <> "PULUMI_CONFIG" -> k <> "PULUMI_CONFIG_SECRET_KEYS" ->
     last_value environ k v -> dget (p_env (spawn environ h r)) k = v).
Proof.
  intros N. apply String.eqb_neq in N.
  assert (B : base_env environ h = activate_virtualenv environ (h_virtualenv h)) by (unfold base_env; now rewrite N).
  split; [|split; [|split]].
  - cbn [spawn p_python]. rewrite N. unfold venv_bin. now rewrite sapp_assoc.
  - intros old Ho Hc. apply env_others; [discriminate|discriminate|]. rewrite B. rewrite <- sapp_assoc. now apply activate_path.
  - apply env_others; [discriminate|discriminate|]. rewrite B. constructor. apply activate_home.
  - intros k v N1 N2 N3 N4 H. apply env_others; auto. rewrite B. now apply activate_others.
Qed.
Lemma no_virtualenv_ok environ h r :
  h_virtualenv h = "" ->
  p_python (spawn environ h r) = None /\
  (forall k v, k <> "PULUMI_CONFIG" -> k <> "PULUMI_CONFIG_SECRET_KEYS" ->
     last_value environ k v -> dget (p_env (spawn environ h r)) k = v).
Proof.
  intros E. split; [cbn [spawn p_python]; now rewrite E|]. intros k v N1 N2 H. apply env_others; auto. unfold base_env. now rewrite E.
Qed.
