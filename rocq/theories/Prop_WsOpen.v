(** C80: opening stacks. *)
From Verif Require Import Base PyVal Model_WsSettings Spec_WsSettings Proof_WsSettings Model_WsOpen Spec_WsOpen Proof_WsOpen.
Open Scope string_scope.

(** C80.  Whatever stacks were opened before, and with which options: a stack that is opened has the
    program, directory, project and settings of its own arguments and options as the user wrote
    them, and no other directory changes.
    Partial: the options object was not passed to an earlier call, and the directory is not the
    empty string. *)
Theorem C80_first_use_partial : forall cwd temp check m before c ws,
  (forall dirs, ~ In (temp dirs) (dkeys dirs) /\ temp dirs <> "") ->
  let o := match c_options c with Some r => nth r (m_options m) (mkOptions None None None None None None None) | None => mkOptions None None None None None None None end in
  let m1 := open_stacks cwd temp check m before in
  savable o -> (c_options c = None \/ ~ In (c_options c) (map c_options before)) -> c_dir c <> Some "" ->
  snd (open_stack cwd temp check m1 c) = Ok ws ->
  as_asked cwd o (m_dirs m1) c (m_dirs (fst (open_stack cwd temp check m1 c))) ws.
Proof.
  intros cwd temp check m before c ws Ht o m1 Hs Hn Hd E.
  assert (Eo : match c_options c with Some r => nth r (m_options m1) no_options | None => no_options end = o).
  { unfold o, m1. destruct (c_options c) as [r|]; [|reflexivity]. apply history_options. destruct Hn as [|Hn]; [discriminate|exact Hn]. }
  pose proof (open_spec cwd temp check Ht m1 c ws) as K. cbn zeta in K. rewrite Eo in K. now apply K.
Qed.
Print Assumptions C80_first_use_partial.

(** With options that earlier calls used, a stack still has its own program if it is inline, its own
    directory if it is local, and what the user wrote in the options. *)
Theorem C80_reuse_partial : forall cwd temp check m before c r ws,
  (forall dirs, ~ In (temp dirs) (dkeys dirs) /\ temp dirs <> "") ->
  let o := nth r (m_options m) (mkOptions None None None None None None None) in
  let m1 := open_stacks cwd temp check m before in
  c_options c = Some r -> savable (nth r (m_options m1) (mkOptions None None None None None None None)) -> c_dir c <> Some "" ->
  snd (open_stack cwd temp check m1 c) = Ok ws ->
  let dirs' := m_dirs (fst (open_stack cwd temp check m1 c)) in
  (forall p n, c_program c = Some p -> c_project c = Some n -> ws_program ws = Some p) /\
  (forall d, (c_program c = None \/ c_project c = None) -> c_dir c = Some d -> ws_dir ws = d) /\
  (forall p, o_project o = Some p -> project_in dirs' (ws_dir ws) p) /\
  (forall l name s, o_stacks o = Some l -> In (name, s) l -> exists fs, dget dirs' (ws_dir ws) = Some fs /\ load_stack_settings fs name = Ok s) /\
  ws_home ws = o_home o /\ ws_provider ws = o_provider o /\ ws_env ws = match o_env o with Some d => d | None => [] end /\
  (forall d, d <> ws_dir ws -> dget dirs' d = dget (m_dirs m1) d).
Proof.
  intros cwd temp check m before c r ws Ht o m1 Hr Hs Hd E dirs'.
  pose proof (open_spec cwd temp check Ht m1 c ws) as K. cbn zeta in K. rewrite Hr in K. specialize (K Hs Hd E).
  change no_options with (mkOptions None None None None None None None) in K.
  destruct (proj1 (history_options cwd temp check before m r)) as (D1 & D2 & D3 & D4 & D5). 
  change no_options with (mkOptions None None None None None None None) in D1, D2, D3, D4, D5. fold o m1 in D1, D2, D3, D4, D5.
  destruct K as [A1 A2 A3 A4 A5 A6 A7 B1 B2 (A8 & A9 & A10) A11]. fold dirs' in A4, A7, A11.
  split; [exact A1|]. split; [intros d H1 H2; now apply (A3 d)|]. split; [intros p Hp; now apply A4, D5|].
  split; [intros l name s Hl; apply A7; congruence|]. split; [congruence|]. split; [congruence|]. split; [rewrite A10; now rewrite D2|exact A11].
Qed.
Print Assumptions C80_reuse_partial.

(** The property as stated is false, for all programs and names.  An options object remembers the
    call it was passed to: the next inline stack gets the first one's project, and a local
    stack gets the inline program, and its project file is overwritten. *)
Theorem C80_reuse_refuted : forall cwd temp check dirs p1 p2 n1 n2,
  (forall dirs, ~ In (temp dirs) (dkeys dirs) /\ temp dirs <> "") -> (forall d e, check d e = Ok tt) ->
  let m := mkMemory [mkOptions None None None None None None None] dirs in
  let first := fst (open_stack cwd temp check m (mkCall (Some n1) (Some p1) None (Some 0))) in
  let remembered := mkProject n1 (PStr "python") (Some cwd) None None None None None None None in
  m_options first = [mkOptions None None (Some p1) None None (Some remembered) None] /\
  (let second := open_stack cwd temp check first (mkCall (Some n2) (Some p2) None (Some 0)) in
   exists ws, snd second = Ok ws /\ ~ In (ws_dir ws) (dkeys (m_dirs first)) /\ project_in (m_dirs (fst second)) (ws_dir ws) remembered) /\
  (forall d fs q, d <> "" -> dget dirs d = Some fs -> load_project_settings fs = Ok q ->
   let second := open_stack cwd temp check first (mkCall None None (Some d) (Some 0)) in
   exists ws, snd second = Ok ws /\ ws_dir ws = d /\ ws_program ws = Some p1 /\ project_in (m_dirs (fst second)) d remembered).
Proof.
  intros cwd temp check dirs p1 p2 n1 n2 Ht Hc m first remembered.
  assert (R1 : strings_only remembered) by (repeat split; cbn; eauto).
  assert (Rs : forall fs, exists fs1, save_project_settings fs remembered = (fs1, None) /\ load_project_settings fs1 = Ok remembered).
  { intros fs. destruct (project_round fs remembered R1 eq_refl) as [E1 E2]. destruct (save_project_settings fs remembered) as [fs1 e]. cbn in *. subst e. exists fs1. auto. }
  destruct (Rs []) as (fs0 & S0 & L0).
  assert (F : first = mkMemory [mkOptions None None (Some p1) None None (Some remembered) None] (dset (dset dirs (temp dirs) []) (temp dirs) fs0)).
  { unfold first, open_stack. cbn [c_program c_project c_options nth m m_options m_dirs inline_options o_project o_dir o_home o_env o_provider o_stacks].
    unfold local_workspace. cbn [o_dir o_env o_project]. change (default_project cwd n1) with remembered. rewrite dget_dset, String.eqb_refl, Hc, S0. reflexivity. }
  split; [rewrite F; reflexivity|]. rewrite F. split.
  - unfold open_stack. cbn [c_program c_project c_options nth m_options m_dirs inline_options o_project o_dir o_home o_env o_provider o_stacks].
    unfold local_workspace. cbn [o_dir o_env o_project]. set (dirs1 := dset (dset dirs (temp dirs) []) (temp dirs) fs0).
    rewrite dget_dset, String.eqb_refl, Hc, S0. eexists. split; [reflexivity|]. cbn [ws_dir]. split; [apply (proj1 (Ht dirs1))|].
    exists fs0. split; [|exact L0]. cbn [m_dirs fst o_stacks save_stacks]. now rewrite dget_dset, String.eqb_refl.
  - intros d fs q Hd Hg Hq. unfold open_stack. cbn [c_program c_project c_dir c_options nth m_options m_dirs local_options o_project o_dir o_home o_env o_provider o_stacks o_program].
    destruct d as [|a d]; [easy|]. unfold local_workspace. cbn [local_options o_dir o_env o_project o_stacks o_program o_home o_provider]. set (D := String a d) in *.
    assert (Hne : String.eqb D (temp dirs) = false).
    { apply String.eqb_neq. intros E. apply dget_key in Hg. rewrite E in Hg. now apply (proj1 (Ht dirs)). }
    rewrite !dget_dset, Hne, Hg, Hc. destruct (Rs fs) as (fs1 & S1 & L1). rewrite S1. eexists. split; [reflexivity|]. cbn. repeat split.
    exists fs1. split; [|exact L1]. now rewrite dget_dset, String.eqb_refl.
Qed.
Print Assumptions C80_reuse_refuted.
(** A local stack whose directory is given as the empty string is opened in a new directory. *)
Theorem C80_empty_refuted : forall cwd temp check dirs ws,
  (forall dirs, ~ In (temp dirs) (dkeys dirs) /\ temp dirs <> "") ->
  snd (open_stack cwd temp check (mkMemory [] dirs) (mkCall None None (Some "") None)) = Ok ws -> ws_dir ws <> "" /\ ~ In (ws_dir ws) (dkeys dirs).
Proof.
  intros cwd temp check dirs ws Ht. unfold open_stack, local_workspace. cbn [c_program c_project c_dir c_options m_options m_dirs local_options o_dir o_env o_project no_options].
  rewrite dget_dset, String.eqb_refl. destruct (check _ _); cbn; [|discriminate]. intros [= <-]. cbn. split; apply Ht.
Qed.
Print Assumptions C80_empty_refuted.

(** Examples. *)
Fixpoint ex_tempdir (dirs : dict files) : string := match dirs with [] => "t" | (k, _) :: dirs' => (k ++ ex_tempdir dirs')%string end.
Lemma ex_tempdir_pos dirs : 0 < String.length (ex_tempdir dirs).
Proof. induction dirs as [|[k v] dirs IH]; cbn [ex_tempdir]; [cbn; lia|rewrite length_app_s; lia]. Qed.
Lemma ex_tempdir_new : forall dirs, ~ In (ex_tempdir dirs) (dkeys dirs) /\ ex_tempdir dirs <> "".
Proof.
  intros dirs. assert (L : forall k, In k (dkeys dirs) -> String.length k < String.length (ex_tempdir dirs)).
  { induction dirs as [|[k v] dirs IH]; intros k' H; [destruct H|]. cbn [ex_tempdir]. rewrite length_app_s. pose proof (ex_tempdir_pos dirs).
    cbn [dkeys map fst] in H. destruct H as [<-|H]; [cbn [fst]; lia|]. specialize (IH k' H). lia. }
  split; [intros H; specialize (L _ H); lia|]. pose proof (ex_tempdir_pos dirs). intros E. rewrite E in H. cbn in H. lia.
Qed.
Definition ex_project : project_settings := mkProject "shop" (PStr "go") None None None None None None None None.
Definition ex_dirs : dict files := [("/src/shop", [("Pulumi.yaml", Data (VDict [("name", VStr "shop"); ("runtime", VStr "go")]))])].
Definition ex_user : options :=
  mkOptions (Some "/src/shop") None None (Some [("A", "1")]) (Some "passphrase") None (Some [("dev", mkStackSettings (Some "passphrase") None None None)]).
Definition ex_m : memory := mkMemory [mkOptions None None None None None None None; ex_user] ex_dirs.
Definition ex_before : list call := [mkCall (Some "app") (Some 7) None (Some 0); mkCall None None (Some "/src/shop") None].
Example C80_case :
  (forall dirs, ~ In (ex_tempdir dirs) (dkeys dirs) /\ ex_tempdir dirs <> "") /\ savable ex_user /\
  let m1 := open_stacks "/home" ex_tempdir (fun _ _ => Ok tt) ex_m ex_before in
  let c := mkCall (Some "other") (Some 8) None (Some 1) in
  ~ In (c_options c) (map c_options ex_before) /\
  exists ws, snd (open_stack "/home" ex_tempdir (fun _ _ => Ok tt) m1 c) = Ok ws /\ ws_dir ws = "/src/shop" /\ ws_program ws = Some 8 /\
    project_in (m_dirs (fst (open_stack "/home" ex_tempdir (fun _ _ => Ok tt) m1 c))) "/src/shop" ex_project.
Proof.
  split; [apply ex_tempdir_new|]. split.
  - split; [discriminate|]. intros l [= <-]. split.
    + intros n s n' s' a [[= <- <-]|[]] [[= <- <-]|[]] _ _. reflexivity.
    + intros n s [[= <- <-]|[]]. repeat split; discriminate.
  - cbn zeta. split; [cbn; intuition discriminate|]. vm_compute. eexists. repeat split. eexists. split; reflexivity.
Qed.
