(** Lemmas about opening stacks. *)
From Verif Require Import Base PyVal Model_Urn Model_WsSettings Spec_WsSettings Proof_WsSettings Model_WsOpen Spec_WsOpen.
Open Scope string_scope.

Lemma nth_set {A} (l : list A) r x d : r < length l -> nth r (set_nth l r x) d = x.
Proof. revert r. induction l as [|y l IH]; intros [|r] H; cbn in *; try lia; [reflexivity|]. apply IH. lia. Qed.
Lemma nth_set_other {A} (l : list A) r r' x d : r <> r' -> nth r' (set_nth l r x) d = nth r' l d.
Proof. revert r r'. induction l as [|y l IH]; intros [|r] [|r'] H; cbn; try easy. apply IH. lia. Qed.
Lemma set_length {A} (l : list A) r x : length (set_nth l r x) = length l.
Proof. revert r. induction l as [|y l IH]; intros [|r]; cbn; auto. Qed.

Lemma has_component name : exists a, last_component name a.
Proof.
  induction name as [|c s (a & Hf & H)]; [exists ""; split; [exact I|now left]|]. destruct H as [->|(q & ->)].
  - destruct (Ascii.eqb_spec c "/") as [->|Hn].
    + exists a. split; [exact Hf|]. right. now exists "".
    + exists (String c a). split; [now split|now left].
  - exists a. split; [exact Hf|]. right. now exists (String c q).
Qed.
Lemma component_is name : last_component name (get_stack_settings_name name).
Proof. destruct (has_component name) as [a H]. rewrite (component_name _ _ H). exact H. Qed.

(** Saving the settings of stacks. *)
Lemma save_stacks_project l : forall fs, load_project_settings (save_stacks fs (Some l)) = load_project_settings fs.
Proof.
  cbn. induction l as [|[n s] l IH]; intros fs; [reflexivity|]. cbn [fold_left fst snd]. rewrite IH. apply load_project_other.
Qed.
Lemma save_stacks_other l : forall fs name, (forall n s, In (n, s) l -> get_stack_settings_name n <> get_stack_settings_name name) ->
  load_stack_settings (save_stacks fs (Some l)) name = load_stack_settings fs name.
Proof.
  cbn. induction l as [|[n s] l IH]; intros fs name H; [reflexivity|]. cbn [fold_left fst snd]. rewrite IH.
  - apply load_other. apply (H n s). now left.
  - intros n' s' Hi. apply (H n' s'). now right.
Qed.
Lemma same_component n m fs : get_stack_settings_name n = get_stack_settings_name m -> load_stack_settings fs n = load_stack_settings fs m.
Proof. intros E. unfold load_stack_settings, stack_base. now rewrite E. Qed.
Lemma save_stacks_loads l : (forall n s n' s', In (n, s) l -> In (n', s') l -> get_stack_settings_name n = get_stack_settings_name n' -> (n, s) = (n', s')) ->
  (forall n s, In (n, s) l -> wf_settings s /\ kept s) ->
  forall fs name s, In (name, s) l -> load_stack_settings (save_stacks fs (Some l)) name = Ok s.
Proof.
  intros Hu Hk. assert (G : forall l', incl l' l -> forall fs name s, In (name, s) l -> (In (name, s) l' \/ load_stack_settings fs name = Ok s) ->
    load_stack_settings (save_stacks fs (Some l')) name = Ok s).
  { induction l' as [|[n t] l' IH]; intros Hi fs name s Hl H; [destruct H as [[]|H]; exact H|].
    change (save_stacks fs (Some ((n, t) :: l'))) with (save_stacks (save_stack_settings fs n t) (Some l')).
    apply IH; [intros x Hx; apply Hi; now right|exact Hl|]. destruct H as [[[= <- <-]|H]|H].
    - right. rewrite load_saved. apply settings_round; apply (Hk n t); exact Hl.
    - now left.
    - destruct (string_dec (get_stack_settings_name n) (get_stack_settings_name name)) as [E|E].
      + assert (X : (n, t) = (name, s)) by (apply Hu; auto; apply Hi; now left). injection X as -> ->. right.
        rewrite load_saved. apply settings_round; apply (Hk name s); exact Hl.
      + right. rewrite load_other; auto. }
  intros fs name s H. apply G; [apply incl_refl|exact H|now left].
Qed.

(** Other files. *)
Definition stays (fs fs' : files) : Prop := forall file, (forall x, file <> "Pulumi" ++ x) -> dget fs' file = dget fs file.
Lemma save_project_stays fs p : stays fs (fst (save_project_settings fs p)).
Proof.
  intros file H. unfold save_project_settings. destruct (plain_all (writable_settings p)) as [d|]; [|destruct (String.eqb _ ".json")]; cbn [fst];
    rewrite dget_dset; (destruct (String.eqb_spec file ("Pulumi" ++ ext_or_yaml (found_ext fs "Pulumi"))) as [E|]; [now apply H in E|reflexivity]).
Qed.
Lemma save_stack_stays fs n s : stays fs (save_stack_settings fs n s).
Proof.
  intros file H. unfold save_stack_settings. rewrite dget_dset. destruct (String.eqb_spec file (stack_base n ++ ext_or_yaml (found_ext fs (stack_base n)))) as [E|]; [|reflexivity].
  unfold stack_base in E. apply (H ("." ++ get_stack_settings_name n ++ ext_or_yaml (found_ext fs (stack_base n)))) in E as [].
Qed.
Lemma save_stacks_stays o fs : stays fs (save_stacks fs o).
Proof.
  destruct o as [l|]; [|intros file _; reflexivity]. cbn. revert fs. induction l as [|[n s] l IH]; intros fs file H; [reflexivity|]. cbn [fold_left fst snd].
  rewrite (IH _ file H). now apply save_stack_stays.
Qed.

Section Open.
  Variable cwd : string.
  Variable temp : dict files -> string.
  Variable check : string -> option (dict string) -> res unit.
  Notation local_workspace := (local_workspace temp check).
  Notation inline_options := (inline_options cwd).
  Notation open_stack := (open_stack cwd temp check).
  Notation open_stacks := (open_stacks cwd temp check).

  (** What options keep in every history. *)
  Definition descends (o o' : options) : Prop :=
    o_home o' = o_home o /\ o_env o' = o_env o /\ o_provider o' = o_provider o /\ o_stacks o' = o_stacks o /\
    (forall p, o_project o = Some p -> o_project o' = Some p).
  Lemma descends_refl o : descends o o.
  Proof. repeat split; auto. Qed.
  Lemma descends_trans a b c : descends a b -> descends b c -> descends a c.
  Proof. intros (A1 & A2 & A3 & A4 & A5) (B1 & B2 & B3 & B4 & B5). repeat split; try congruence. auto. Qed.
  Lemma inline_descends dirs o p n : descends o (fst (inline_options dirs o p n)).
  Proof.
    unfold inline_options. destruct (o_project o) as [q|] eqn:E; [cbn; repeat split; auto; cbn; congruence|].
    destruct (o_dir o) as [[|a d]|]; [repeat split; auto; cbn; congruence| |repeat split; auto; cbn; congruence].
    destruct (dget dirs (String a d)) as [fs|]; [|repeat split; auto; cbn; congruence].
    destruct (load_project_settings fs) as [?|[c m]]; [|destruct (String.eqb c "FileNotFoundError")]; repeat split; auto; cbn; congruence.
  Qed.
  Lemma local_descends o d : descends o (local_options o d).
  Proof. repeat split; auto. Qed.

  Lemma open_options m c r : nth r (m_options (fst (open_stack m c))) no_options = nth r (m_options m) no_options \/
    c_options c = Some r /\ descends (nth r (m_options m) no_options) (nth r (m_options (fst (open_stack m c))) no_options).
  Proof.
    assert (K : forall o', descends (match c_options c with Some r => nth r (m_options m) no_options | None => no_options end) o' ->
      let l := match c_options c with Some r => set_nth (m_options m) r o' | None => m_options m end in
      nth r l no_options = nth r (m_options m) no_options \/ c_options c = Some r /\ descends (nth r (m_options m) no_options) (nth r l no_options)).
    { intros o' Hd. destruct (c_options c) as [r0|]; [|now left]. cbn. destruct (Nat.eq_dec r0 r) as [->|Hn]; [|left; now apply nth_set_other].
      right. split; [reflexivity|]. destruct (Nat.lt_ge_cases r (length (m_options m))) as [H|H].
      - now rewrite nth_set.
      - rewrite !nth_overflow; [apply descends_refl|now rewrite ?set_length|now rewrite ?set_length]. }
    unfold open_stack. destruct (c_program c) as [p|], (c_project c) as [n|].
    2-4: destruct (c_dir c) as [d|]; [|now left]; destruct (local_workspace _ _) as [dirs w]; cbn [fst m_options]; apply K, local_descends.
    pose proof (inline_descends (m_dirs m) (match c_options c with Some r => nth r (m_options m) no_options | None => no_options end) p n) as D.
    destruct (inline_options _ _ p n) as [o' [e|]]; cbn [fst] in D.
    - cbn [fst m_options]. now apply K.
    - destruct (local_workspace _ _) as [dirs w]. cbn [fst m_options]. now apply K.
  Qed.
  Lemma history_options before : forall m r, descends (nth r (m_options m) no_options) (nth r (m_options (open_stacks m before)) no_options) /\
    (~ In (Some r) (map c_options before) -> nth r (m_options (open_stacks m before)) no_options = nth r (m_options m) no_options).
  Proof.
    induction before as [|c before IH]; intros m r; [split; [apply descends_refl|reflexivity]|].
    change (open_stacks m (c :: before)) with (open_stacks (fst (open_stack m c)) before). destruct (IH (fst (open_stack m c)) r) as [I1 I2].
    destruct (open_options m c r) as [E|[E D]].
    - rewrite E in I1, I2. split; [exact I1|]. intros Hn. apply I2. intros Hi. apply Hn. now right.
    - split; [eapply descends_trans; eauto|]. intros Hn. exfalso. apply Hn. left. exact E.
  Qed.

  (** A workspace. *)
  Definition chosen (dirs : dict files) (o : options) : string := match o_dir o with Some ((String _ _) as d) => d | _ => temp dirs end.
  Lemma workspace_spec dirs o dirs' ws : (forall p, o_project o = Some p -> strings_only p /\ runtime_ok (pj_runtime p) = true) ->
    local_workspace dirs o = (dirs', Ok ws) ->
    ws_dir ws = chosen dirs o /\ ws_program ws = o_program o /\ ws_home ws = o_home o /\ ws_provider ws = o_provider o /\
    ws_env ws = match o_env o with Some d => d | None => [] end /\
    (forall d, d <> ws_dir ws -> dget dirs' d = dget dirs d) /\
    exists fs fs1, dget (match o_dir o with Some (String _ _) => dirs | _ => dset dirs (temp dirs) [] end) (chosen dirs o) = Some fs /\
      dget dirs' (ws_dir ws) = Some (save_stacks fs1 (o_stacks o)) /\
      match o_project o with Some p => load_project_settings fs1 = Ok p | None => fs1 = fs end /\
      (forall name, load_stack_settings fs1 name = load_stack_settings fs name) /\ stays fs fs1.
  Proof.
    intros Hp. unfold local_workspace.
    assert (E : (match o_dir o with Some ((String _ _) as d) => (dirs, d) | _ => (dset dirs (temp dirs) [], temp dirs) end)
      = (match o_dir o with Some (String _ _) => dirs | _ => dset dirs (temp dirs) [] end, chosen dirs o)).
    { unfold chosen. destruct (o_dir o) as [[|]|]; reflexivity. }
    unfold Model_WsOpen.local_workspace. rewrite E. clear E. set (dirs1 := match o_dir o with Some (String _ _) => dirs | _ => dset dirs (temp dirs) [] end).
    assert (Ho : forall d, d <> chosen dirs o -> dget dirs1 d = dget dirs d).
    { intros d Hd. unfold dirs1, chosen in *. destruct (o_dir o) as [[|a s]|]; try reflexivity; rewrite dget_dset; apply String.eqb_neq in Hd; now rewrite Hd. }
    destruct (dget dirs1 (chosen dirs o)) as [fs|] eqn:Ef; [|discriminate]. destruct (check (chosen dirs o) (o_env o)) as [|e]; [|discriminate].
    assert (Hs : exists fs1, (match o_project o with Some p => save_project_settings fs p | None => (fs, None) end) = (fs1, None) /\
      match o_project o with Some p => load_project_settings fs1 = Ok p | None => fs1 = fs end /\
      (forall name, load_stack_settings fs1 name = load_stack_settings fs name) /\ stays fs fs1).
    { destruct (o_project o) as [p|]; [|exists fs; repeat split]. destruct (Hp p eq_refl) as [S1 S2]. destruct (project_round fs p S1 S2) as [R1 R2].
      pose proof (fun n => load_stack_project fs p n) as R3. pose proof (save_project_stays fs p) as R4.
      destruct (save_project_settings fs p) as [fs1 e]. cbn in *. subst e. exists fs1. auto. }
    destruct Hs as (fs1 & -> & Hs). intros [= <- <-]. cbn [ws_dir ws_home ws_program ws_env ws_provider]. repeat split; auto.
    - intros d Hd. rewrite dget_dset. pose proof Hd as Hd2. apply String.eqb_neq in Hd2. rewrite Hd2. now apply Ho.
    - exists fs, fs1. split; [reflexivity|]. split; [|exact Hs]. now rewrite dget_dset, String.eqb_refl.
  Qed.

  Hypothesis Htemp : forall dirs, ~ In (temp dirs) (dkeys dirs) /\ temp dirs <> "".
  Lemma chosen_given dirs o d : given (o_dir o) d -> chosen dirs o = d.
  Proof. intros [E Hn]. unfold chosen. rewrite E. destruct d; [easy|reflexivity]. Qed.
  Lemma chosen_new dirs o : (forall d, ~ given (o_dir o) d) -> ~ In (chosen dirs o) (dkeys dirs).
  Proof.
    intros H. unfold chosen. destruct (o_dir o) as [[|a d]|]; try apply Htemp. exfalso. apply (H (String a d)). split; [reflexivity|discriminate].
  Qed.
  Lemma no_project_load dirs d fs : no_project dirs d -> dget dirs d = Some fs -> exists m, load_project_settings fs = Err (Exn "FileNotFoundError" m).
  Proof.
    intros H E. unfold load_project_settings. assert (F : found_ext fs "Pulumi" = None).
    { unfold found_ext. destruct (find _ setting_extensions) as [e|] eqn:Ef; [|reflexivity]. apply find_some in Ef as [Hi Hm]. exfalso.
      apply (H fs e E Hi). unfold dmem in Hm. destruct (dget fs ("Pulumi" ++ e)) eqn:Eg; [|discriminate]. now apply dget_key in Eg. }
    rewrite F. eexists. reflexivity.
  Qed.
  Lemma inline_cases dirs o p n o' : inline_options dirs o p n = (o', None) ->
    o_dir o' = o_dir o /\ o_program o' = Some p /\
    ((exists q, o_project o = Some q /\ o_project o' = Some q) \/
     (o_project o = None /\ o_project o' = Some (mkProject n (PStr "python") (Some cwd) None None None None None None None) /\ forall q, ~ project_in dirs (chosen dirs o) q) \/
     (o_project o = None /\ o_project o' = None /\ ~ no_project dirs (chosen dirs o))).
  Proof.
    unfold inline_options, chosen. destruct (o_project o) as [q|] eqn:E.
    - intros [= <-]. cbn. repeat split; auto. left. exists q. auto.
    - assert (New : forall q, ~ project_in dirs (temp dirs) q).
      { intros q (fs & H & _). apply dget_key in H. now apply (proj1 (Htemp dirs)). }
      destruct (o_dir o) as [[|a d]|] eqn:Ed.
      + intros [= <-]. cbn. split; [first [exact Ed|reflexivity]|]. repeat split; auto.
      + destruct (dget dirs (String a d)) as [fs|] eqn:Ef.
        * destruct (load_project_settings fs) as [q|[c m]] eqn:El.
          -- intros [= <-]. cbn. split; [first [exact Ed|reflexivity]|]. split; [reflexivity|]. right. right. repeat split; auto.
             intros H. destruct (no_project_load _ _ _ H Ef) as [m Em]. congruence.
          -- destruct (String.eqb_spec c "FileNotFoundError") as [->|]; [|discriminate]. intros [= <-]. cbn. split; [first [exact Ed|reflexivity]|]. split; [reflexivity|].
             right. left. repeat split; auto. intros q (fs' & E1 & E2). congruence.
        * intros [= <-]. cbn. split; [first [exact Ed|reflexivity]|]. split; [reflexivity|]. right. left. repeat split; auto. intros q (fs' & E1 & E2). congruence.
      + intros [= <-]. cbn. split; [first [exact Ed|reflexivity]|]. repeat split; auto.
  Qed.
  Lemma savable_project o p : savable o -> o_project o = Some p -> strings_only p /\ runtime_ok (pj_runtime p) = true.
  Proof.
    intros [H _] E. destruct (H p E) as (H1 & r & H2 & H3). split; [exact H1|]. rewrite H2. unfold runtime_ok. apply existsb_exists. exists r. split; [exact H3|apply String.eqb_refl].
  Qed.
  Lemma savable_stacks o l : savable o -> o_stacks o = Some l -> forall fs name s, In (name, s) l -> load_stack_settings (save_stacks fs (Some l)) name = Ok s.
  Proof.
    intros [_ H] E. destruct (H l E) as [H1 H2]. apply save_stacks_loads; [|exact H2]. intros n s n' s' Hi Hi' En.
    apply (H1 n s n' s' (get_stack_settings_name n)); auto; [apply component_is|rewrite En; apply component_is].
  Qed.
  Lemma saved_project fs o : load_project_settings (save_stacks fs o) = load_project_settings fs.
  Proof. destruct o as [l|]; [apply save_stacks_project|reflexivity]. Qed.

  (** One call, with the options there are. *)
  Lemma open_spec m c ws : let o := match c_options c with Some r => nth r (m_options m) no_options | None => no_options end in
    savable o -> c_dir c <> Some "" -> snd (open_stack m c) = Ok ws -> as_asked cwd o (m_dirs m) c (m_dirs (fst (open_stack m c))) ws.
  Proof.
    intros o Hs Hd.
    assert (K : forall o' dirs', descends o o' -> savable o' -> local_workspace (m_dirs m) o' = (dirs', Ok ws) ->
      (forall p n, c_program c = Some p -> c_project c = Some n -> o_program o' = Some p /\ o_dir o' = o_dir o /\
         (o_project o = None -> (o_project o' = Some (mkProject n (PStr "python") (Some cwd) None None None None None None None) /\ forall q, ~ project_in (m_dirs m) (chosen (m_dirs m) o) q)
            \/ (o_project o' = None /\ ~ no_project (m_dirs m) (chosen (m_dirs m) o)))) ->
      (forall d, (c_program c = None \/ c_project c = None) -> c_dir c = Some d -> o_dir o' = Some d /\ o_program o' = o_program o /\ o_project o' = o_project o) ->
      ((exists p n, c_program c = Some p /\ c_project c = Some n) \/ exists d, (c_program c = None \/ c_project c = None) /\ c_dir c = Some d) ->
      as_asked cwd o (m_dirs m) c dirs' ws).
    { intros o' dirs' (D1 & D2 & D3 & D4 & D5) Hs' E HI HL HC.
      destruct (workspace_spec _ _ _ _ (fun p => savable_project o' p Hs') E) as (W1 & W2 & W3 & W4 & W5 & W6 & fs & fs1 & F1 & F2 & F3 & F4 & F5).
      assert (Same : forall fs', dget (m_dirs m) (ws_dir ws) = Some fs' -> fs' = fs).
      { intros fs' E1. unfold chosen in *. destruct (o_dir o') as [[|a d]|].
        - rewrite W1 in E1. apply dget_key in E1. now apply (proj1 (Htemp (m_dirs m))) in E1.
        - rewrite W1 in E1. congruence.
        - rewrite W1 in E1. apply dget_key in E1. now apply (proj1 (Htemp (m_dirs m))) in E1. }
      assert (There : forall q, o_project o' = None -> project_in (m_dirs m) (ws_dir ws) q -> project_in dirs' (ws_dir ws) q).
      { intros q Eq (fs' & E1 & E2). rewrite Eq in F3. subst fs1. exists (save_stacks fs (o_stacks o')). split; [exact F2|]. rewrite saved_project.
        rewrite <- (Same _ E1). exact E2. }
      assert (Now : forall q, o_project o' = Some q -> project_in dirs' (ws_dir ws) q).
      { intros q Eq. rewrite Eq in F3. exists (save_stacks fs1 (o_stacks o')). split; [exact F2|]. now rewrite saved_project. }
      assert (Dir : forall p n, c_program c = Some p -> c_project c = Some n -> ws_dir ws = chosen (m_dirs m) o).
      { intros p n E1 E2. destruct (HI p n E1 E2) as (_ & Eo & _). rewrite W1. unfold chosen. now rewrite Eo. }
      constructor.
      - intros p n E1 E2. rewrite W2. apply (HI p n E1 E2).
      - intros p n E1 E2. rewrite (Dir p n E1 E2). split; [intros d Hg; now apply chosen_given|apply chosen_new].
      - intros d E1 E2. destruct (HL d E1 E2) as (L1 & L2 & L3). split; [|congruence]. rewrite W1. apply chosen_given. split; [exact L1|congruence].
      - intros q Eq. apply Now. now apply D5.
      - intros q Eq Hq. destruct HC as [(p & n & E1 & E2)|(d & E1 & E2)].
        + destruct (HI p n E1 E2) as (_ & _ & H). destruct (H Eq) as [[_ H1]|[H1 _]]; [|now apply There].
          rewrite (Dir p n E1 E2) in Hq. now apply H1 in Hq.
        + destruct (HL d E1 E2) as (_ & _ & L3). apply There; [congruence|exact Hq].
      - intros p n E1 E2 Eq Hn. destruct (HI p n E1 E2) as (_ & _ & H). rewrite (Dir p n E1 E2) in Hn. destruct (H Eq) as [[H1 _]|[_ H1]]; [now apply Now|contradiction].
      - intros l name s El Hi. exists (save_stacks fs1 (o_stacks o')). split; [exact F2|]. rewrite D4, El. now apply (savable_stacks o).
      - intros fs' name E1 Hn. exists (save_stacks fs1 (o_stacks o')). split; [exact F2|]. rewrite (Same _ E1), <- (F4 name), D4.
        destruct (o_stacks o) as [l|]; [|reflexivity]. apply save_stacks_other. intros n s Hi En.
        apply (Hn l n s (get_stack_settings_name n) eq_refl Hi); [apply component_is|rewrite En; apply component_is].
      - intros fs' file E1 Hf. exists (save_stacks fs1 (o_stacks o')). split; [exact F2|]. rewrite (Same _ E1), (save_stacks_stays _ _ _ Hf). now apply F5.
      - rewrite <- D1, <- D2, <- D3. auto.
      - exact W6. }
    unfold open_stack. fold o. destruct (c_program c) as [p|] eqn:Ep, (c_project c) as [n|] eqn:En.
    2-4: destruct (c_dir c) as [d|] eqn:Ed; [|discriminate]; destruct (local_workspace (m_dirs m) (local_options o d)) as [dirs' w] eqn:E; cbn [fst snd m_dirs];
      intros ->; apply (K _ _ (local_descends o d)); [exact Hs|exact E|intros; congruence|intros d0 _ [= ->]; auto|right; exists d; auto].
    pose proof (inline_descends (m_dirs m) o p n) as D. destruct (inline_options (m_dirs m) o p n) as [o' [e|]] eqn:Ei; [discriminate|]. cbn [fst] in D.
    destruct (inline_cases _ _ _ _ _ Ei) as (I1 & I2 & I3). destruct (local_workspace (m_dirs m) o') as [dirs' w] eqn:E. cbn [fst snd m_dirs]. intros ->.
    apply (K _ _ D); [|exact E| |intros d [|]; congruence|left; eauto].
    - destruct D as (D1 & D2 & D3 & D4 & D5). destruct Hs as [S1 S2]. split; [|rewrite D4; exact S2]. intros q Eq. destruct I3 as [(q' & J1 & J2)|[(J1 & J2 & _)|(J1 & J2 & _)]].
      + apply S1. congruence.
      + rewrite J2 in Eq. injection Eq as <-. split; [repeat split; cbn; eauto|]. exists "python". split; [reflexivity|]. cbn. tauto.
      + congruence.
    - intros p0 n0 [= <-] [= <-]. repeat split; auto. intros Eq. destruct I3 as [(q' & J1 & J2)|[(J1 & J2 & J3)|(J1 & J2 & J3)]]; [congruence|left; auto|right; auto].
  Qed.
End Open.
