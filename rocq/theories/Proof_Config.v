(** Proofs about configuration. *)
From Verif Require Import Base PyVal Model_Output Model_Config Spec_Output Spec_Config Proof_FromInput.
Open Scope string_scope.

(* ------------------------------------------------------------------ *)
(** JSON data in a secret Output. *)
Lemma json_ind' (P : pyval -> Prop) :
  P VNone -> (forall b, P (VBool b)) -> (forall z, P (VNum z)) -> (forall s, P (VStr s)) ->
  (forall l, Forall json l -> Forall P l -> P (VList l)) ->
  (forall d, Forall (fun kv : string * pyval => json (snd kv)) d ->
             Forall (fun kv => P (snd kv)) d -> P (VDict d)) ->
  forall v, json v -> P v.
Proof.
  intros H1 H2 H3 H4 H5 H6.
  fix go 2. intros v [| | | |l F|d F]; auto.
  - apply H5; [exact F|]. revert l F. fix gl 2. intros l [|x l' Hx F]; constructor; [now apply go|now apply gl].
  - apply H6; [exact F|]. revert d F. fix gl 2. intros l [|x l' Hx F]; constructor; [now apply go|now apply gl].
Qed.

Lemma concat_nils {A B} (L : list A) : concat (map (fun _ => @nil B) L) = [].
Proof. induction L; simpl; auto. Qed.
Lemma forallb_trues {A} (L : list A) : forallb (fun b => b) (map (fun _ => true) L) = true.
Proof. induction L; simpl; auto. Qed.
Lemma existsb_falses {A} (L : list A) : existsb (fun b => b) (map (fun _ => false) L) = false.
Proof. induction L; simpl; auto. Qed.

Lemma json_from_input dry v : json v -> has_info (from_input dry v) (mkInfo [] v true false).
Proof.
  revert v. apply json_ind'.
  1-4: intros; split; [split; [|split; [|split]]|]; reflexivity.
  - intros l _ F. destruct l as [|x l]; [split; [split; [|split; [|split]]|]; reflexivity|].
    set (L := x :: l) in *. change (from_input dry (VList L)) with (all_list (map (from_input dry) L)). clearbody L.
    assert (A : Forall2 has_info (map (from_input dry) L) (map (fun v => mkInfo [] v true false) L)).
    { induction F; simpl; auto. }
    apply all_list_info in A. rewrite !map_map in A. simpl in A.
    rewrite map_id, concat_nils, forallb_trues, existsb_falses in A. exact A.
  - intros l _ F. destruct l as [|x l]; [split; [split; [|split; [|split]]|]; reflexivity|].
    set (L := x :: l) in *.
    change (from_input dry (VDict L)) with (all_dict (map (fun kv => (fst kv, from_input dry (snd kv))) L)). clearbody L.
    assert (A : Forall2 has_info (map snd (map (fun kv => (fst kv, from_input dry (snd kv))) L))
                  (map (fun kv => mkInfo [] (snd kv) true false) L)).
    { induction F; simpl; auto. }
    apply all_dict_info in A. rewrite !map_map in A. simpl in A.
    replace (combine (map (fun x => fst x) L) (map (fun x => snd x) L)) with L in A
      by (clear; induction L as [|[a b] L IH]; simpl; congruence).
    rewrite concat_nils, forallb_trues, existsb_falses in A. exact A.
Qed.

Lemma json_secret dry v : json v -> settled (secret dry v) [] v true true.
Proof.
  intros J. destruct (json_from_input dry v J) as ((A & B & C & D) & E). simpl in *.
  unfold settled, secret, new_output; simpl. rewrite A, B, C. simpl. rewrite E by auto. auto.
Qed.

(* ------------------------------------------------------------------ *)
(** Environment variables. *)
Lemma ascii_small (c : ascii) : nat_of_ascii c < 256.
Proof. destruct c as [[] [] [] [] [] [] [] []]; compute; lia. Qed.

Lemma var_char_spec c d : var_char c d <-> d = env_char c.
Proof.
  assert (H : var_char c (env_char c)).
  { unfold env_char. set (n := nat_of_ascii c).
    destruct (Ascii.eqb_spec c "_"%char) as [->|N]; cbn [orb].
    - apply vc_same. auto.
    - destruct (Nat.leb 65 n && Nat.leb n 90) eqn:E1; cbn [orb].
      { apply andb_prop in E1 as [A B]. apply Nat.leb_le in A, B. apply vc_same. left.
        unfold in_range. fold n. change (nat_of_ascii "A") with 65. change (nat_of_ascii "Z") with 90. lia. }
      destruct (Nat.leb 48 n && Nat.leb n 57) eqn:E2.
      { apply andb_prop in E2 as [A B]. apply Nat.leb_le in A, B. apply vc_same. right; left.
        unfold in_range. fold n. change (nat_of_ascii "0") with 48. change (nat_of_ascii "9") with 57. lia. }
      destruct (Nat.leb 97 n && Nat.leb n 122) eqn:E3.
      { apply andb_prop in E3 as [A B]. apply Nat.leb_le in A, B. apply vc_small.
        - unfold in_range. fold n. change (nat_of_ascii "a") with 97. change (nat_of_ascii "z") with 122. lia.
        - rewrite nat_ascii_embedding by lia. fold n. lia. }
      apply andb_false_iff in E1, E2, E3. rewrite !Nat.leb_gt in *.
      apply vc_other; unfold in_range; fold n;
        [change (nat_of_ascii "A") with 65; change (nat_of_ascii "Z") with 90
        |change (nat_of_ascii "0") with 48; change (nat_of_ascii "9") with 57
        |change (nat_of_ascii "a") with 97; change (nat_of_ascii "z") with 122]; lia. }
  split; [|now intros ->].
  assert (U : forall c d e, var_char c d -> var_char c e -> d = e).
  { clear. unfold in_range.
    assert (Und : forall c, c = "_"%char -> nat_of_ascii c = 95) by now intros ? ->.
    intros c d e [S|d' S Q|S1 S2 S3] [S'|e' S' Q'|S1' S2' S3']; unfold in_range in *; auto;
      change (nat_of_ascii "A") with 65 in *; change (nat_of_ascii "Z") with 90 in *;
      change (nat_of_ascii "0") with 48 in *; change (nat_of_ascii "9") with 57 in *;
      change (nat_of_ascii "a") with 97 in *; change (nat_of_ascii "z") with 122 in *.
    - destruct S as [S|[S|S]]; [lia|lia|rewrite (Und _ S) in *; lia].
    - destruct S as [S|[S|S]]; [lia|lia|auto].
    - destruct S' as [S'|[S'|S']]; [lia|lia|rewrite (Und _ S') in *; lia].
    - rewrite <- (ascii_nat_embedding d'), <- (ascii_nat_embedding e'). f_equal. lia.
    - lia.
    - destruct S' as [S'|[S'|S']]; [lia|lia|auto].
    - lia. }
  intros V. eauto.
Qed.

Lemma scrub_chars k : list_ascii_of_string (env_scrub k) = map env_char (list_ascii_of_string k).
Proof. induction k; simpl; congruence. Qed.

Lemma variable_spec k e : variable k e <-> e = get_config_env_key k.
Proof.
  unfold variable, get_config_env_key. split.
  - intros (l & -> & F). f_equal.
    rewrite <- (string_of_list_ascii_of_string (env_scrub k)), scrub_chars. f_equal.
    induction F as [|c d cs ds V F IH]; simpl; [reflexivity|].
    apply var_char_spec in V. congruence.
  - intros ->. exists (list_ascii_of_string (env_scrub k)).
    rewrite string_of_list_ascii_of_string. split; [reflexivity|].
    rewrite scrub_chars. induction (list_ascii_of_string k); simpl; constructor; auto.
    now apply var_char_spec.
Qed.

(* ------------------------------------------------------------------ *)
(** Lookup. *)
Section Lookup.
  Variables (B : builtins) (env : dict string) (s : cstate) (c : nat).

  Lemma no_variable k : (forall e, variable k e -> ~ In e (dkeys env)) -> dget env (get_config_env_key k) = None.
  Proof. intros H. apply dget_None, H. now apply variable_spec. Qed.

  Lemma lookup_found k v : found (set_values s c) env (py_loads B) k v -> get_config B env s c k = Ok v.
  Proof.
    unfold get_config, set_values. intros [v' H|e t H V E|t d v' H V E L D].
    - now rewrite H.
    - apply dget_None in H. rewrite H. apply variable_spec in V as ->. now rewrite E.
    - apply dget_None in H. rewrite H, (no_variable _ V). unfold get_config_env. rewrite E, L. simpl. now rewrite D.
  Qed.

  Lemma lookup_absent k : absent (set_values s c) env (py_loads B) k -> get_config B env s c k = Ok VNone.
  Proof.
    unfold get_config, set_values. intros [H V E|t d H V E L D|t H V E L]; apply dget_None in H; rewrite H, (no_variable _ V);
      unfold get_config_env.
    - apply dget_None in E. now rewrite E.
    - rewrite E, L. simpl. apply dget_None in D. now rewrite D.
    - rewrite E, L. reflexivity.
  Qed.
End Lookup.

Lemma none_dec v : {v = VNone} + {is_none v = false}.
Proof. destruct v; auto. Qed.

Definition raw (B : builtins) (env : dict string) (s : cstate) (c : nat) (name key : string) (kd : kind) : res pyval :=
  match kd with
  | KText => raw_get B env s c name key
  | KBool => raw_bool B env s c name key
  | KInt => raw_int B env s c name key
  | KFloat => raw_float B env s c name key
  | KObject => raw_object B env s c name key
  end.

Section Getters.
  Variables (B : builtins) (env : dict string) (dry : bool) (s : cstate) (c : nat) (name key : string).
  Let fk := name ++ ":" ++ key.

  Lemma raw_none kd : get_config B env s c fk = Ok VNone -> raw B env s c name key kd = Ok VNone.
  Proof.
    intros G. destruct kd; simpl; unfold raw_bool, raw_int, raw_float, raw_object, raw_get, full_key; fold fk; rewrite G; reflexivity.
  Qed.

  Lemma raw_parsed kd v x : get_config B env s c fk = Ok v -> is_none v = false -> parses B v kd x ->
    raw B env s c name key kd = Ok x.
  Proof.
    intros G N [|[->| ->]|[->| ->]|x' E|x' E|x' E]; simpl;
      unfold raw_bool, raw_int, raw_float, raw_object, raw_get, full_key; fold fk; rewrite G; simpl; try rewrite N; try rewrite E; reflexivity.
  Qed.

  Lemma raw_ill kd v : get_config B env s c fk = Ok v -> is_none v = false -> (forall x, ~ parses B v kd x) ->
    raises "ConfigTypeError" (raw B env s c name key kd).
  Proof.
    intros G N P. unfold raises. destruct kd; simpl;
      unfold raw_bool, raw_int, raw_float, raw_object, raw_get, full_key; fold fk; rewrite G; simpl.
    - destruct (P v). constructor.
    - destruct v; try discriminate N; try (unfold type_error; eauto; fail).
      cbn [smem].
      destruct (String.eqb_spec s0 "true") as [->|T1]; [destruct (P (VBool true)); constructor; auto|].
      destruct (String.eqb_spec s0 "True") as [->|T2]; [destruct (P (VBool true)); constructor; auto|].
      destruct (String.eqb_spec s0 "false") as [->|T3]; [destruct (P (VBool false)); constructor; auto|].
      destruct (String.eqb_spec s0 "False") as [->|T4]; [destruct (P (VBool false)); constructor; auto|].
      unfold type_error; eauto.
    - rewrite N. destruct (py_int B v) eqn:E; [destruct (P a); now constructor|unfold type_error; eauto].
    - rewrite N. destruct (py_float B v) eqn:E; [destruct (P a); now constructor|unfold type_error; eauto].
    - rewrite N. destruct (py_loads B v) eqn:E; [destruct (P a); now constructor|unfold type_error; eauto].
  Qed.

  Lemma families_ok kd x default : raw B env s c name key kd = Ok x -> is_none x = false ->
    getter B env s c name key kd default = Ok x /\ requirer B env s c name key kd = Ok x /\
    (json x -> secret_value (secret_getter B env dry s c name key kd default) x /\
               secret_value (secret_requirer B env dry s c name key kd) x).
  Proof.
    intros R N. assert (S : json x -> secret_value (Ok (secret_of dry x)) x).
    { intros J. exists (secret dry x). split; [reflexivity|now apply json_secret]. }
    destruct kd; simpl in *;
      unfold get, get_bool, get_int, get_float, get_object, require, require_bool, require_int, require_float, require_object,
        get_secret, get_secret_bool, get_secret_int, get_secret_float, get_secret_object,
        require_secret, require_secret_bool, require_secret_int, require_secret_float, require_secret_object,
        or_default, present, secret_or_none; rewrite R; simpl; rewrite N; simpl; try rewrite N; auto.
  Qed.

  Lemma families_none kd default : raw B env s c name key kd = Ok VNone ->
    getter B env s c name key kd default = Ok default /\
    raises "ConfigMissingError" (requirer B env s c name key kd) /\
    raises "ConfigMissingError" (secret_requirer B env dry s c name key kd) /\
    (kd = KText \/ default = VNone -> secret_getter B env dry s c name key kd default = Ok VNone) /\
    (kd <> KText -> default <> VNone -> json default -> secret_value (secret_getter B env dry s c name key kd default) default).
  Proof.
    intros R. assert (S : json default -> secret_value (Ok (secret_of dry default)) default).
    { intros J. exists (secret dry default). split; [reflexivity|now apply json_secret]. }
    assert (M : raises (A := pyval) "ConfigMissingError" (Err (missing_error (full_key name key)))) by (unfold raises, missing_error; eauto).
    destruct kd; simpl in *;
      unfold get, get_bool, get_int, get_float, get_object, require, require_bool, require_int, require_float, require_object,
        get_secret, get_secret_bool, get_secret_int, get_secret_float, get_secret_object,
        require_secret, require_secret_bool, require_secret_int, require_secret_float, require_secret_object,
        or_default, present, secret_or_none; rewrite R; simpl; repeat split; auto;
      try (intros [H| ->]; [discriminate|reflexivity]); try congruence;
      intros _ D J; destruct (none_dec default) as [->|E]; try congruence; rewrite E; auto.
  Qed.

  Lemma families_ill kd default : raises "ConfigTypeError" (raw B env s c name key kd) ->
    raises "ConfigTypeError" (getter B env s c name key kd default) /\
    raises "ConfigTypeError" (requirer B env s c name key kd) /\
    raises "ConfigTypeError" (secret_getter B env dry s c name key kd default) /\
    raises "ConfigTypeError" (secret_requirer B env dry s c name key kd).
  Proof.
    intros [m R]. unfold raises. destruct kd; simpl in *;
      unfold get, get_bool, get_int, get_float, get_object, require, require_bool, require_int, require_float, require_object,
        get_secret, get_secret_bool, get_secret_int, get_secret_float, get_secret_object,
        require_secret, require_secret_bool, require_secret_int, require_secret_float, require_secret_object; rewrite R; simpl; (split; [|split; [|split]]); eexists; reflexivity.
  Qed.
End Getters.

(* ------------------------------------------------------------------ *)
(** Histories. *)
Lemma upd_length {A} (l : list A) n x : length (upd l n x) = length l.
Proof. revert n. induction l; intros [|n]; simpl; auto. Qed.
Lemma nth_upd_same {A} (l : list A) n x d : n < length l -> nth n (upd l n x) d = x.
Proof. revert n. induction l; intros [|n] H; simpl in *; try lia; auto. apply IHl. lia. Qed.
Lemma nth_upd_other {A} (l : list A) n m x d : n <> m -> nth m (upd l n x) d = nth m l d.
Proof. revert n m. induction l; intros [|n] [|m] H; simpl in *; try lia; auto. Qed.

(** All places are allocated. *)
Definition allocated (s : cstate) : Prop :=
  0 < length (s_heap s) /\ forall c, c_loc (ctx_at s c) < length (s_heap s).

Lemma ctx_at_app s c x h : ctx_at (mkCS h (s_ctxs s ++ [x])%list) c =
  if Nat.ltb c (length (s_ctxs s)) then ctx_at s c else if Nat.eqb c (length (s_ctxs s)) then x else default_ctx.
Proof.
  unfold ctx_at; simpl. destruct (Nat.ltb_spec c (length (s_ctxs s))) as [H|H].
  - now apply app_nth1.
  - rewrite app_nth2 by lia. destruct (Nat.eqb_spec c (length (s_ctxs s))) as [->|E].
    + now rewrite Nat.sub_diag.
    + destruct (c - length (s_ctxs s)) as [|n] eqn:Q; [lia|]. simpl. now destruct n.
Qed.

Lemma ctx_at_upd s c x h c' : c < length (s_ctxs s) ->
  ctx_at (mkCS h (upd (s_ctxs s) c x)) c' = if Nat.eqb c' c then x else ctx_at s c'.
Proof.
  intros H. unfold ctx_at; simpl. destruct (Nat.eqb_spec c' c) as [->|E].
  - now apply nth_upd_same.
  - apply nth_upd_other. auto.
Qed.

Lemma step_allocated s o : allocated s -> allocated (cstep s o).
Proof.
  intros [P A]. destruct o as [c k v|c m l| |c]; simpl;
    try (destruct (Nat.ltb_spec c (length (s_ctxs s))) as [L|L]; [|split; assumption]).
  - split; simpl; rewrite upd_length; auto.
  - split; cbn [s_heap set_all_config]; unfold set_all_config; cbn [s_heap]; rewrite app_length; simpl; [lia|].
    intros c'. rewrite ctx_at_upd by auto. destruct (Nat.eqb c' c); simpl; [lia|]. specialize (A c'). lia.
  - split; [exact P|]. intros c'. unfold new_ctx. rewrite ctx_at_app. cbn [s_heap].
    destruct (Nat.ltb c' _); auto. destruct (Nat.eqb c' _); simpl; auto.
  - split; [exact P|]. intros c'. unfold copy_ctx. rewrite ctx_at_app. cbn [s_heap].
    destruct (Nat.ltb c' _); auto. destruct (Nat.eqb c' _); simpl; auto.
Qed.

Lemma run_allocated h s : allocated s -> allocated (crun s h).
Proof. revert s. induction h; intros s A; simpl; auto. apply IHh. now apply step_allocated. Qed.

Lemma init_allocated : allocated cinit.
Proof. split; simpl; [lia|]. intros [|[|c]]; simpl; lia. Qed.

(** Context [c] alone refers to its dict. *)
Record owns (s : cstate) (c : nat) (l : nat) (d : dict pyval) (ss : list string) : Prop := mkOwns {
  ow_c : c < length (s_ctxs s);
  ow_ctx : ctx_at s c = mkCtx l ss;
  ow_pos : 0 < l < length (s_heap s);
  ow_d : dict_at s l = d;
  ow_alloc : allocated s;
  ow_only : forall c', c' <> c -> c_loc (ctx_at s c') <> l }.

Lemma owns_step s c l d ss o : owns s c l d ss -> elsewhere c o -> owns (cstep s o) c l d ss.
Proof.
  intros [Hc Hx Hl Hd Ha Ho] E.
  assert (Ha' : allocated (cstep s o)) by now apply step_allocated.
  destruct o as [c' k v|c' m' l'| |c']; simpl in E; cbn [cstep] in *;
    try (destruct (Nat.ltb_spec c' (length (s_ctxs s))) as [L|L]; [|now constructor]).
  - unfold set_config in *. constructor; auto; cbn [s_heap s_ctxs] in *.
    + now rewrite upd_length.
    + unfold dict_at; cbn [s_heap]. rewrite nth_upd_other; [exact Hd|]. now apply Ho.
  - unfold set_all_config in *. constructor; auto; cbn [s_heap s_ctxs] in *.
    + now rewrite upd_length.
    + rewrite ctx_at_upd by auto. destruct (Nat.eqb_spec c c'); [congruence|exact Hx].
    + rewrite app_length. simpl. lia.
    + unfold dict_at; cbn [s_heap]. rewrite app_nth1 by lia. exact Hd.
    + intros c2 N. rewrite ctx_at_upd by auto. destruct (Nat.eqb_spec c2 c') as [->|_]; simpl; [lia|auto].
  - unfold new_ctx in *. constructor; auto; cbn [s_heap s_ctxs] in *.
    + rewrite app_length; simpl; lia.
    + rewrite ctx_at_app. destruct (Nat.ltb_spec c (length (s_ctxs s))); [exact Hx|lia].
    + intros c2 N. rewrite ctx_at_app. destruct (Nat.ltb c2 _); [auto|]. destruct (Nat.eqb c2 _); simpl; lia.
  - unfold copy_ctx in *. constructor; auto; cbn [s_heap s_ctxs] in *.
    + rewrite app_length; simpl; lia.
    + rewrite ctx_at_app. destruct (Nat.ltb_spec c (length (s_ctxs s))); [exact Hx|lia].
    + intros c2 N. rewrite ctx_at_app. destruct (Nat.ltb c2 _); [auto|]. destruct (Nat.eqb c2 _); simpl; auto; lia.
Qed.

Lemma owns_run h s c l d ss : owns s c l d ss -> Forall (elsewhere c) h -> owns (crun s h) c l d ss.
Proof.
  intros O F. revert s O. induction F; intros s O; simpl; auto. apply IHF. now apply owns_step.
Qed.

Lemma copy_values m acc : fold_left (fun acc kv => dset acc (fst kv) (VStr (snd kv))) m acc = dupdate acc (as_values m).
Proof. unfold dupdate, as_values. revert acc. induction m as [|kv m IH]; intros acc; simpl; auto. Qed.

Lemma as_values_keys m : dkeys (as_values m) = dkeys m.
Proof. unfold dkeys, as_values. rewrite map_map. reflexivity. Qed.

Lemma set_all_owns s c m l : allocated s -> c < length (s_ctxs s) ->
  owns (set_all_config s c m l) c (length (s_heap s)) (dupdate [] (as_values m))
    (match l with Some ss => ss | None => c_secrets (ctx_at s c) end).
Proof.
  intros A L. assert (A' := step_allocated s (OpSetAll c m l) A). simpl in A'.
  destruct (Nat.ltb_spec c (length (s_ctxs s))); [|lia].
  unfold set_all_config in *. constructor; auto; cbn [s_heap s_ctxs].
  - now rewrite upd_length.
  - rewrite ctx_at_upd by auto. now rewrite Nat.eqb_refl.
  - rewrite app_length; simpl. destruct A. lia.
  - unfold dict_at; cbn [s_heap]. rewrite app_nth2, Nat.sub_diag by lia. simpl. apply copy_values.
  - intros c' N. rewrite ctx_at_upd by auto. destruct (Nat.eqb_spec c' c); [congruence|].
    destruct A as [_ A]. specialize (A c'). lia.
Qed.

(** Only the contents of the dict matter. *)
Lemma found_ext m m' env loads k v : (dget m k = dget m' k) -> found m env loads k v -> found m' env loads k v.
Proof.
  intros E F. assert (I : ~ In k (dkeys m) -> ~ In k (dkeys m')) by (rewrite <- !dget_None; congruence).
  destruct F; [apply fd_set; congruence|eapply fd_var; eauto|eapply fd_bag; eauto].
Qed.
Lemma absent_ext m m' env loads k : (dget m k = dget m' k) -> absent m env loads k -> absent m' env loads k.
Proof.
  intros E F. assert (I : ~ In k (dkeys m) -> ~ In k (dkeys m')) by (rewrite <- !dget_None; congruence).
  destruct F; [apply ab_no_bag|eapply ab_bag|eapply ab_null]; eauto.
Qed.

Lemma dget_copy m k : wf_dict m -> dget (dupdate [] (as_values m)) k = dget (as_values m) k.
Proof.
  intros W. rewrite dget_dupdate by (unfold wf_dict; now rewrite as_values_keys).
  destruct (dget (as_values m) k); reflexivity.
Qed.

Lemma crun_app s h1 h2 : crun s (h1 ++ h2)%list = crun (crun s h1) h2.
Proof. apply fold_left_app. Qed.

Lemma replace_all h h2 c m l B env k :
  c < length (s_ctxs (crun cinit h)) -> wf_dict m -> Forall (elsewhere c) h2 ->
  let s' := crun cinit (h ++ OpSetAll c m l :: h2)%list in
  (forall v, found (as_values m) env (py_loads B) k v -> get_config B env s' c k = Ok v) /\
  (absent (as_values m) env (py_loads B) k -> get_config B env s' c k = Ok VNone) /\
  (is_config_secret s' c k = true <->
   match l with Some ss => In k ss | None => is_config_secret (crun cinit h) c k = true end).
Proof.
  intros L W F s'. assert (A := run_allocated h cinit init_allocated).
  assert (Es : s' = crun (set_all_config (crun cinit h) c m l) h2).
  { unfold s'. rewrite crun_app. change (crun (cstep (crun cinit h) (OpSetAll c m l)) h2 = crun (set_all_config (crun cinit h) c m l) h2).
    f_equal. cbn [cstep]. destruct (Nat.ltb_spec c (length (s_ctxs (crun cinit h)))) as [_|]; [reflexivity|lia]. }
  clearbody s'.
  pose proof (owns_run h2 _ _ _ _ _ (set_all_owns _ c m l A L) F) as O. rewrite <- Es in O.
  destruct O as [Oc Ox Ol Od Oa Oo].
  assert (V : dget (set_values s' c) k = dget (as_values m) k).
  { unfold set_values. rewrite Ox. cbn [c_loc]. rewrite Od. now apply dget_copy. }
  split; [|split].
  - intros v Hf. apply lookup_found. eapply found_ext; [symmetry; exact V|exact Hf].
  - intros Hf. apply lookup_absent. eapply absent_ext; [symmetry; exact V|exact Hf].
  - unfold is_config_secret. rewrite Ox. cbn [c_secrets]. destruct l; [apply smem_In|reflexivity].
Qed.

Lemma set_one h c k v : c < length (s_ctxs (crun cinit h)) ->
  let s := crun cinit h in
  let s' := crun cinit (h ++ [OpSet c k v])%list in
  (forall B env, get_config B env s' c k = Ok v) /\
  (forall B env k', k' <> k -> get_config B env s' c k' = get_config B env s c k') /\
  (forall k', is_config_secret s' c k' = is_config_secret s c k').
Proof.
  intros L s s'. assert (A := run_allocated h cinit init_allocated). fold s in A, L.
  assert (Es : s' = set_config s c k v).
  { unfold s'. rewrite crun_app. cbn [crun fold_left cstep]. fold s.
    destruct (Nat.ltb_spec c (length (s_ctxs s))) as [_|]; [reflexivity|lia]. }
  rewrite Es. clear Es s'.
  assert (D : forall k', dget (dict_at (set_config s c k v) (c_loc (ctx_at (set_config s c k v) c))) k' =
                         if String.eqb k' k then Some v else dget (dict_at s (c_loc (ctx_at s c))) k').
  { intros k'. unfold set_config, dict_at, ctx_at; cbn [s_heap s_ctxs]. fold (ctx_at s c).
    rewrite nth_upd_same by apply A. fold (dict_at s (c_loc (ctx_at s c))). now rewrite dget_dset. }
  repeat split.
  - intros B env. unfold get_config. now rewrite D, String.eqb_refl.
  - intros B env k' N. unfold get_config. rewrite D. apply String.eqb_neq in N. now rewrite N.
Qed.

(* ------------------------------------------------------------------ *)
(** Keys. *)
Lemma sapp_inj_tail (a b x : string) : a ++ x = b ++ x -> a = b.
Proof.
  revert b. induction a as [|ch a IH]; intros [|ch' b] H; simpl in *; auto.
  - exfalso. assert (E : String.length x = String.length (String ch' (b ++ x))) by now rewrite <- H.
    simpl in E.
    assert (Q : forall u w, String.length (u ++ w) = String.length u + String.length w)
      by (clear; induction u; simpl; auto). rewrite Q in E. lia.
  - exfalso. assert (E : String.length x = String.length (String ch (a ++ x))) by now rewrite H.
    assert (Q : forall u w, String.length (u ++ w) = String.length u + String.length w)
      by (clear; induction u; simpl; auto). simpl in E. rewrite Q in E. lia.
  - injection H as -> H. f_equal. auto.
Qed.

Lemma string_eq_chars a b : list_ascii_of_string a = list_ascii_of_string b -> a = b.
Proof.
  intros H. now rewrite <- (string_of_list_ascii_of_string a), <- (string_of_list_ascii_of_string b), H.
Qed.

Lemma same_variable k1 k2 :
  (exists e, variable k1 e /\ variable k2 e) <->
  Forall2 (fun a b => exists d, var_char a d /\ var_char b d) (list_ascii_of_string k1) (list_ascii_of_string k2).
Proof.
  assert (S : (exists e, variable k1 e /\ variable k2 e) <-> env_scrub k1 = env_scrub k2).
  { split.
    - intros (e & V1 & V2). apply variable_spec in V1, V2. unfold get_config_env_key in *. rewrite V1 in V2.
      simpl in V2. now injection V2.
    - intros E. exists (get_config_env_key k1). split; apply variable_spec; auto.
      unfold get_config_env_key. congruence. }
  rewrite S. clear S. revert k2. induction k1 as [|a k1 IH]; intros [|b k2]; simpl.
  - split; constructor.
  - split; [discriminate|]. intros H; inversion H.
  - split; [discriminate|]. intros H; inversion H.
  - split.
    + intros [= E H]. constructor; [|now apply IH].
      exists (env_char a). split; apply var_char_spec; auto.
    + intros H. inversion H as [|? ? ? ? (d & V1 & V2) F]; subst. apply var_char_spec in V1, V2.
      f_equal; [congruence|]. now apply IH.
Qed.

Lemma plain_same k1 k2 e : plain_key k1 -> plain_key k2 -> variable k1 e -> variable k2 e -> k1 = k2.
Proof.
  unfold plain_key. intros P1 P2 V1 V2. assert (S : exists e, variable k1 e /\ variable k2 e) by eauto.
  apply same_variable in S. apply string_eq_chars.
  induction S as [|a b la lb (d & Va & Vb) S IH]; [reflexivity|].
  inversion P1 as [|? ? Pa P1']; subst. inversion P2 as [|? ? Pb P2']; subst. f_equal; [|auto].
  clear - Va Vb Pa Pb.
  assert (Col : forall c, c = ":"%char -> nat_of_ascii c = 58) by now intros ? ->.
  assert (Und : forall c, c = "_"%char -> nat_of_ascii c = 95) by now intros ? ->.
  assert (Small : forall c d, in_range "a" "z" c \/ in_range "0" "9" c \/ c = ":"%char -> var_char c d ->
    (nat_of_ascii c = nat_of_ascii d + 32 /\ 65 <= nat_of_ascii d <= 90) \/
    (c = d /\ 48 <= nat_of_ascii d <= 57) \/ (c = ":"%char /\ nat_of_ascii d = 95)).
  { clear - Col Und. unfold in_range. intros c d P V. destruct V as [S|d S E|S1 S2 S3]; unfold in_range in *;
      change (nat_of_ascii "A") with 65 in *; change (nat_of_ascii "Z") with 90 in *;
      change (nat_of_ascii "0") with 48 in *; change (nat_of_ascii "9") with 57 in *;
      change (nat_of_ascii "a") with 97 in *; change (nat_of_ascii "z") with 122 in *.
    - destruct S as [S|[S|S]]; [|right; left; auto|rewrite (Und _ S) in *].
      + destruct P as [P|[P|P]]; [lia|lia|rewrite (Col _ P) in S; lia].
      + destruct P as [P|[P|P]]; [lia|lia|]. rewrite S in P. discriminate.
    - left. lia.
    - destruct P as [P|[P|P]]; [lia|lia|]. right; right. auto. }
  destruct (Small _ _ Pa Va) as [A|[A|A]], (Small _ _ Pb Vb) as [B|[B|B]]; try lia.
  - rewrite <- (ascii_nat_embedding a), <- (ascii_nat_embedding b). f_equal. lia.
  - destruct A as [-> _], B as [-> _]. reflexivity.
  - destruct A as [-> _], B as [-> _]. reflexivity.
Qed.

Lemma getter_ext B env s s' c name key kd default :
  get_config B env s' c (full_key name key) = get_config B env s c (full_key name key) ->
  getter B env s' c name key kd default = getter B env s c name key kd default.
Proof.
  intros E. destruct kd; simpl; unfold get, get_bool, get_int, get_float, get_object,
    raw_bool, raw_int, raw_float, raw_object, raw_get; now rewrite E.
Qed.
