(** Lemmas about plugins *)
From Verif Require Import Base PyVal Model_Cmd Model_StackInit Model_WsConfig Spec_WsConfig Proof_Json Proof_Capture Proof_WsConfig Model_Plugins Spec_Plugins.
Open Scope string_scope.

(* ------------------------------------------------------------------ *)
(** Characters and texts. *)
Lemma in_existsb (c : ascii) l : In c l <-> existsb (Ascii.eqb c) l = true.
Proof. rewrite existsb_exists. split; [intros H; exists c; split; [exact H|apply Ascii.eqb_refl]|]. intros (x & H & E). apply Ascii.eqb_eq in E. now subst. Qed.
Lemma alnum_spec c : alnum c = true <-> In c letters_digits.
Proof. rewrite in_existsb. assert (E : alnum c = existsb (Ascii.eqb c) letters_digits) by (destruct c as [[] [] [] [] [] [] [] []]; vm_compute; reflexivity). now rewrite E. Qed.
Lemma digit_spec c : digit c = true <-> In c (list_ascii_of_string "0123456789").
Proof. rewrite in_existsb. assert (E : digit c = existsb (Ascii.eqb c) (list_ascii_of_string "0123456789")) by (destruct c as [[] [] [] [] [] [] [] []]; vm_compute; reflexivity). now rewrite E. Qed.
Lemma digits_spec s : digits s = true <-> forall c, In c (list_ascii_of_string s) -> In c (list_ascii_of_string "0123456789").
Proof.
  induction s as [|c s IH]; cbn [digits]; [split; [intros _ c []|reflexivity]|].
  rewrite andb_true_iff, IH, digit_spec. split.
  - intros [A B] x [<-|H]; [exact A|now apply B].
  - intros H. split; [apply H; now left|intros x Hx; apply H; now right].
Qed.
Lemma follows_spec p s t : follows p s = Some t <-> s = p ++ t.
Proof.
  revert s. induction p as [|a p IH]; intros s; cbn [follows append].
  - split; [now intros [= ->]|now intros ->].
  - destruct s as [|b s]; [split; discriminate|]. destruct (Ascii.eqb_spec a b) as [->|N].
    + rewrite IH. split; [now intros ->|now intros [= ->]].
    + split; [discriminate|]. intros [= E _]. congruence.
Qed.
Lemma temp_spec d : temp_dir d = true <-> left_over d.
Proof.
  induction d as [|c d IH].
  - cbn. split; [discriminate|]. intros (a & n & E & _). destruct a; discriminate.
  - cbn [temp_dir]. rewrite orb_true_iff, IH. split.
    + intros [H|(a & n & -> & H)].
      * destruct (follows ".tmp" (String c d)) as [[|x t]|] eqn:E; try discriminate. apply follows_spec in E.
        exists "", (String x t). split; [exact E|]. split; [discriminate|]. now apply digits_spec.
      * exists (String c a), n. split; [reflexivity|exact H].
    + intros (a & n & E & N & D). destruct a as [|x a].
      * left. destruct n as [|x t]; [congruence|]. rewrite (proj2 (follows_spec ".tmp" (String c d) (String x t)) E). now apply digits_spec in D.
      * right. injection E as -> ->. exists a, n. auto.
Qed.
Lemma kind_rest_spec s k r : kind_rest s = Some (k, r) <-> s = k ++ "-" ++ r /\ ~ In "-"%char (list_ascii_of_string k).
Proof.
  revert k. induction s as [|c s IH]; intros k; cbn [kind_rest].
  - split; [discriminate|]. intros [E _]. destruct k; discriminate.
  - destruct (Ascii.eqb_spec c "-") as [->|N].
    + split.
      * intros [= <- <-]. split; [reflexivity|intros []].
      * intros [E H]. destruct k as [|x k]; [injection E as <-; reflexivity|]. injection E as <- E. exfalso. apply H. now left.
    + destruct (kind_rest s) as [[k' r']|] eqn:E.
      * split.
        -- intros [= <- <-]. apply IH in E || idtac. destruct (proj1 (IH k')) as [-> H]; [reflexivity|]. split; [reflexivity|]. cbn [list_ascii_of_string In]. intros [X|X]; [congruence|now apply H].
        -- intros [X H]. destruct k as [|x k]; [injection X as X _; congruence|]. injection X as <- X.
           assert (Y : Some (k', r') = Some (k, r)) by (apply IH; split; [exact X|intros Y; apply H; now right]). now injection Y as -> ->.
      * split; [discriminate|]. intros [X H]. destruct k as [|x k]; [injection X as X _; congruence|]. injection X as <- X.
        assert (Y : None = Some (k, r)) by (apply IH; split; [exact X|intros Y; apply H; now right]). discriminate.
Qed.
Lemma is_kind_spec k : is_kind k = true <-> In k kinds.
Proof.
  unfold is_kind, kinds. cbn [smem]. split.
  - intros H. repeat match type of H with (if ?b then _ else _) = true => let E := fresh in destruct b eqn:E; [apply String.eqb_eq in E; subst; cbn; tauto|] | orb ?b _ = true => let E := fresh in destruct b eqn:E; [apply String.eqb_eq in E; subst; cbn; tauto|cbn [orb] in H] end. discriminate.
  - intros [<-|[<-|[<-|[]]]]; reflexivity.
Qed.
Lemma kind_no_dash k : In k kinds -> ~ In "-"%char (list_ascii_of_string k).
Proof. intros H. repeat destruct H as [<-|H]; try (cbn; intuition discriminate). Qed.

Definition ends (e : bool) (n : string) : Prop := (n = "" /\ e = true) \/ exists m c, n = m ++ String c "" /\ In c letters_digits.
Definition chars (n : string) : Prop := forall c, In c (list_ascii_of_string n) -> In c letters_digits \/ c = "-"%char.
Lemma ends_cons e c n : ends (alnum c) n <-> ends e (String c n).
Proof.
  split.
  - intros [[-> E]|(m & x & -> & H)]; right; [exists "", c|exists (String c m), x]; (split; [reflexivity|]); [now apply alnum_spec|exact H].
  - intros [[E _]|(m & x & E & H)]; [discriminate|]. destruct m as [|y m]; injection E as -> ->; [left; split; [reflexivity|now apply alnum_spec]|right; now exists m, x].
Qed.
Lemma name_char c : alnum c || Ascii.eqb c "-" = true <-> In c letters_digits \/ c = "-"%char.
Proof. now rewrite orb_true_iff, alnum_spec, Ascii.eqb_eq. Qed.
Lemma name_version_sound s : forall e n t, name_version e s = Some (n, t) -> s = n ++ "-v" ++ t /\ chars n /\ ends e n.
Proof.
  induction s as [|c s IH]; intros e n t; cbn [name_version].
  - destruct e; cbn; discriminate.
  - destruct (if alnum c || Ascii.eqb c "-" then _ else _) as [[n0 t0]|] eqn:E.
    + intros [= <- <-]. destruct (alnum c || Ascii.eqb c "-") eqn:Ec; [|discriminate]. destruct (name_version (alnum c) s) as [[n1 t1]|] eqn:E1; [|discriminate].
      injection E as <- <-. destruct (IH _ _ _ E1) as (-> & C & D). split; [reflexivity|]. split; [|now apply ends_cons].
      intros x [<-|Hx]; [now apply name_char|now apply C].
    + destruct e; [|discriminate]. destruct (follows "-v" (String c s)) as [r|] eqn:Er; [|discriminate]. intros [= <- <-]. apply follows_spec in Er.
      split; [exact Er|]. split; [intros x []|]. left. now split.
Qed.
Definition dotted (t : string) : Prop := forall a b, t = a ++ "-" ++ b -> exists x y, a = x ++ "." ++ y.
Lemma dotted_none r : dotted r -> forall e, name_version e r = None.
Proof.
  induction r as [|c r IH]; intros D e; cbn [name_version]; [now destruct e|].
  assert (N : Ascii.eqb c "-" = false).
  { apply Ascii.eqb_neq. intros ->. destruct (D "" r eq_refl) as (x & y & E). destruct x; discriminate. }
  assert (F : follows "-v" (String c r) = None) by (cbn [follows]; now rewrite Ascii.eqb_sym, N).
  rewrite F, N, orb_false_r. assert (A : alnum c = true -> name_version (alnum c) r = None).
  { intros A. apply IH. intros a b ->. destruct (D (String c a) b eq_refl) as (x & y & E). destruct x as [|z x]; injection E as -> ->; [discriminate|]. now exists x, y. }
  destruct (alnum c) eqn:Ec; [rewrite (A eq_refl)|]; now destruct e.
Qed.
Lemma name_version_complete n t : dotted t -> forall e, chars n -> ends e n -> name_version e (n ++ "-v" ++ t) = Some (n, t).
Proof.
  intros D. induction n as [|c n IH]; intros e C E.
  - destruct E as [[_ ->]|(m & x & E & _)]; [|destruct m; discriminate].
    change ("" ++ "-v" ++ t) with (String "-" (String "v" t)).
    assert (D' : dotted (String "v" t)).
    { intros a b X. destruct a as [|y a]; [discriminate|]. injection X as <- X. destruct (D a b X) as (x & z & ->). now exists (String "v" x), z. }
    cbn [name_version]. pose proof (dotted_none _ D') as N. cbn [name_version] in N. rewrite N. cbn [orb]. reflexivity.
  - change (String c n ++ "-v" ++ t) with (String c (n ++ "-v" ++ t)). cbn [name_version].
    rewrite (proj2 (name_char c)) by (apply C; now left). rewrite IH; [reflexivity| |now apply (ends_cons e)].
    intros x Hx. apply C. now right.
Qed.
Lemma proper_ends n : proper_name n <-> chars n /\ ends false n.
Proof.
  split.
  - intros [(m & c & -> & H) C]. split; [exact C|]. right. now exists m, c.
  - intros [C [[_ E]|(m & c & -> & H)]]; [discriminate|]. split; [now exists m, c|exact C].
Qed.

Section Lib.
  Context {V : Type} (L : semver V) (HL : semantic L).
  Lemma try_plugin_spec d k n v : try_plugin L d = Some (k, n, v) <-> holds L d k n v.
  Proof using HL.
    unfold try_plugin, holds. split.
    - destruct (temp_dir d) eqn:Et; [discriminate|]. destruct (kind_rest d) as [[k' r]|] eqn:Ek; [|discriminate].
      destruct (is_kind k') eqn:Ei; [|discriminate]. destruct (name_version false r) as [[n' t]|] eqn:En; [|discriminate].
      destruct (sv_parse L t) as [v'|] eqn:Ev; [|discriminate]. intros [= -> -> ->].
      apply kind_rest_spec in Ek as [-> _]. destruct (name_version_sound _ _ _ _ En) as (-> & C & D).
      repeat split.
      + now apply is_kind_spec.
      + now apply proper_ends.
      + exact C.
      + intros X. apply temp_spec in X. congruence.
      + exists t. now split.
    - intros (K & P & T & t & -> & Ev). apply proper_ends in P as [C D].
      destruct (temp_dir _) eqn:Et; [now apply temp_spec in Et|].
      rewrite (proj2 (kind_rest_spec _ k (n ++ "-v" ++ t))) by (split; [reflexivity|now apply kind_no_dash]).
      rewrite (proj2 (is_kind_spec k) K), name_version_complete; [now rewrite Ev| |exact C|exact D].
      intros a b E. exact (proj2 HL _ _ _ _ Ev E).
  Qed.
  Lemma get_plugins_spec c d p : In (d, p) (get_plugins L c) <-> In (d, false) c /\ try_plugin L d = Some p.
  Proof using.
    induction c as [|[x b] c IH]; cbn [get_plugins]; [split; [intros []|intros [[] _]]|].
    destruct (try_plugin L x) as [q|] eqn:E; [destruct b|]; cbn [In]; rewrite IH.
    - split; [tauto|]. intros [[X|X] Y]; [congruence|tauto].
    - split.
      + intros [[= -> ->]|[A B]]; tauto.
      + intros [[X|X] Y]; [left|right; tauto]. injection X as ->. congruence.
    - split; [tauto|]. intros [[X|X] Y]; [|tauto]. injection X as -> _. congruence.
  Qed.
  Lemma installed_listed c k n v : installed L c k n v <-> exists d, In (d, (k, n, v)) (get_plugins L c).
  Proof using HL. unfold installed. split; intros (d & H); exists d; [apply get_plugins_spec; now rewrite try_plugin_spec|apply get_plugins_spec in H; now rewrite try_plugin_spec in H]. Qed.
End Lib.

(* ------------------------------------------------------------------ *)
(** Commands. *)
Lemma delete_all_spec stuck ds : forall c, NoDup (dkeys c) -> forall d (b : bool),
  (In (d, b) (fst (delete_all stuck c ds)) <-> In (d, b) c /\ (In d ds -> stuck d = true)).
Proof.
  induction ds as [|x ds IH]; intros c Nd d b; cbn [delete_all fst]; [cbn; tauto|].
  destruct (stuck x) eqn:Ex; cbn [fst].
  - rewrite IH by exact Nd. cbn [In]. split; [|tauto]. intros [A B]. split; [exact A|]. intros [<-|H]; auto.
  - assert (Nd' : NoDup (dkeys (ddel c x))).
    { clear - Nd. induction c as [|[y z] c IHc]; [constructor|]. cbn [ddel]. inversion Nd; subst. destruct (String.eqb x y); [now apply IHc|].
      cbn [dkeys map fst]. constructor; [|now apply IHc]. intros H. apply H1. clear - H. induction c as [|[u w] c IHc]; [exact H|]. cbn [ddel] in H. destruct (String.eqb x u); [right; now apply IHc|].
      cbn [dkeys map fst] in H. destruct H as [H|H]; [left; exact H|right; now apply IHc]. }
    rewrite IH by exact Nd'. cbn [In]. assert (E : In (d, b) (ddel c x) <-> In (d, b) c /\ d <> x).
    { clear. induction c as [|[y z] c IHc]; cbn [ddel In]; [tauto|]. destruct (String.eqb_spec x y) as [->|N]; cbn [In]; rewrite IHc.
      - split; [tauto|]. intros [[X|X] Y]; [congruence|tauto].
      - split; [|tauto]. intros [X|X]; [injection X as -> ->|tauto]. split; [now left|congruence]. }
    rewrite E. split.
    + intros [[A B] C]. split; [exact A|]. intros [<-|H]; [congruence|now apply C].
    + intros [A B]. split; [split; [exact A|]|]; [|now auto]. intros ->. rewrite B in Ex by now left. discriminate.
Qed.
Lemma delete_all_ok stuck ds : forall c, snd (delete_all stuck c ds) = true <-> forall d, In d ds -> stuck d = false.
Proof.
  induction ds as [|x ds IH]; intros c; cbn [delete_all snd]; [split; [intros _ d []|reflexivity]|].
  destruct (stuck x) eqn:Ex; cbn [snd].
  - split; [discriminate|]. intros H. rewrite H in Ex by now left. discriminate.
  - rewrite IH. split; [intros H d [<-|Hd]; auto|intros H d Hd; apply H; now right].
Qed.

Definition opt (o : option string) : list string := match o with Some ((String _ _) as s) => [s] | _ => [] end.
Lemma if_given_opt o : if_given o = map VStr (opt o).
Proof. destruct o as [[|]|]; reflexivity. Qed.
Lemma not_dash s : (forall x, s <> String "-" x) -> flag_word s = false.
Proof. intros H. destruct s as [|c [|d s]]; try reflexivity. cbn. destruct (Ascii.eqb_spec c "-") as [->|]; [exfalso; now eapply H|reflexivity]. Qed.
Lemma no_flag_opt o : no_flag o -> forall s, In s (opt o) -> flag_word s = false.
Proof. intros H s Hs. destruct o as [[|c o]|]; cbn in Hs; try tauto. destruct Hs as [<-|[]]. apply not_dash. intros x E. apply (H x). congruence. Qed.

Section Cli.
  Context {V : Type} (L : semver V) (HL : semantic L).
  Variable legacy : bool.
  Variable download unpack : string -> string -> V -> option string.
  Variable stuck : string -> bool.
  Variable trouble : cache -> list string -> option (string * Z).
  Let C := cli_plugins L legacy download unpack stuck trouble.

  (** What is left of a command: its output does not matter. *)
  Lemma stops_code c err : exists e z, stops c err = (c, ("", e, z)) /\ Z.eqb z 0 = false.
  Proof using. unfold stops. destruct (Z.eqb (snd err) 0) eqn:E; eauto. Qed.
  Lemma command_done ws c c' out err code : C c (final_words ws) = (c', (out, err, code)) ->
    (let '(s', r) := command C c (map VStr ws) in (s', done r)) = (c', if Z.eqb code 0 then Got tt else CliError (create_command_error (mkResult (clean out) err code))).
  Proof using. intros E. rewrite (command_words C c ws _ _ _ _ E). now destruct (Z.eqb code 0). Qed.

  Definition remove_words (kind : string) (name range : option string) : list string := (["plugin"; "rm"; kind] ++ opt name ++ opt range ++ ["--yes"])%list.
  Lemma remove_runs c name range kind : (forall x, kind <> String "-" x) -> no_flag name -> no_flag range ->
    trouble c (final_words (remove_words kind name range)) = None ->
    C c (final_words (remove_words kind name range)) = plugin_rm L stuck c true (kind :: opt name ++ opt range).
  Proof using.
    intros Hk Hn Hr Ht. unfold C, cli_plugins. rewrite Ht.
    assert (P : exists tail fl, final_words (remove_words kind name range) = "plugin" :: "rm" :: (kind :: opt name ++ opt range) ++ tail
              /\ parse_flags ["all"; "yes"; "non-interactive"] [] tail = Some (fl, []) /\ flag_given fl "yes" = true).
    { unfold remove_words. destruct (final_words_cases (["plugin"; "rm"; kind] ++ opt name ++ opt range ++ ["--yes"])%list) as [-> | ->].
      - exists ["--yes"], [("yes", "")]. split; [|split; reflexivity]. cbn [app]. now rewrite <- !app_assoc.
      - exists ["--yes"; "--non-interactive"], [("yes", ""); ("non-interactive", "")]. split; [|split; reflexivity]. cbn [app]. rewrite <- !app_assoc. reflexivity. }
    destruct P as (tail & fl & -> & Pt & Py).
    rewrite (parse_positionals _ _ (kind :: opt name ++ opt range) tail fl []); [|intros w [<-|Hw]; [now apply not_dash|apply in_app_iff in Hw as [Hw|Hw]; [exact (no_flag_opt name Hn w Hw)|exact (no_flag_opt range Hr w Hw)]]|exact Pt].
    now rewrite Py, app_nil_r.
  Qed.

  Definition filters (name range : option string) (o : string * option (V -> bool)) : Prop :=
    fst o = match opt name with [s] => s | _ => "" end /\
    match opt range with [s] => exists f, sv_range L s = Some f /\ snd o = Some f | _ => snd o = None end.
  Lemma asked_spec name range kind o : filters name range o -> given name \/ ~ given range ->
    forall k n v, is_removed kind (fst o) (snd o) (k, n, v) = true <-> k = kind /\ (n <> "" -> asked L name range n v) /\ (n = "" -> is_removed kind (fst o) (snd o) (k, n, v) = true).
  Proof using.
    intros [F1 F2] _ k n v. split.
    - intros H. split; [|split; auto]. { unfold is_removed in H. rewrite !andb_true_iff in H. destruct H as [[H _] _]. now apply String.eqb_eq in H. }
      intros Nn. unfold is_removed in H. rewrite !andb_true_iff in H. destruct H as [[_ H1] H2]. split.
      + intros s -> Ns. destruct s as [|a s]; [congruence|]. cbn in F1. rewrite F1 in H1. cbn [String.eqb orb] in H1. now apply String.eqb_eq in H1.
      + intros s -> Ns. destruct s as [|a s]; [congruence|]. cbn in F2. destruct F2 as (f & E & E2). rewrite E2 in H2. now exists f.
    - intros (-> & H & H'). destruct (String.eqb_spec n "") as [E|E]; [now apply H'|]. destruct (H E) as [A B]. unfold is_removed. rewrite String.eqb_refl. cbn [andb].
      rewrite andb_true_iff. split.
      + destruct name as [[|a s]|]; cbn in F1; rewrite F1; try reflexivity. rewrite (A _ eq_refl) by discriminate. now rewrite String.eqb_refl, orb_true_r.
      + destruct range as [[|a s]|]; cbn in F2; try (now rewrite F2). destruct F2 as (f & E1 & E2). rewrite E2. destruct (B _ eq_refl) as (f' & E3 & E4); [discriminate|]. congruence.
  Qed.
  Lemma holds_nonempty d k n v : holds L d k n v -> n <> "".
  Proof using. intros (_ & [(m & c & -> & _) _] & _) E. destruct m; discriminate. Qed.

  Lemma remove_spec c name range kind :
    NoDup (dkeys c) -> In kind kinds -> no_flag name -> no_flag range -> given name \/ ~ given range ->
    let r := remove_plugin C c name range kind in
    (snd r = Got tt /\
     forall d b, In (d, b) (fst r) <-> In (d, b) c /\ ~ (b = false /\ exists n v, holds L d kind n v /\ asked L name range n v)) \/
    (exists k, snd r = CliError k /\
     (forall d b, In (d, b) (fst r) -> In (d, b) c) /\
     (forall d b, In (d, b) c -> ~ In (d, b) (fst r) -> b = false /\ exists n v, holds L d kind n v /\ asked L name range n v) /\
     (~ (forall x y, trouble x y = None) \/ (exists s, range = Some s /\ s <> "" /\ sv_range L s = None) \/ exists d, stuck d = true)).
  Proof using HL.
    intros Nd Hk Hn Hr Hg r.
    assert (Kd : forall x, kind <> String "-" x) by (intros x ->; repeat destruct Hk as [Hk|Hk]; try discriminate; exact Hk).
    assert (Er : r = let '(s', x) := command C c (map VStr (remove_words kind name range)) in (s', done x)).
    { subst r. unfold remove_plugin, remove_words. rewrite !if_given_opt, !map_app. reflexivity. }
    assert (Fail : forall e, C c (final_words (remove_words kind name range)) = stops c e -> exists k, r = (c, CliError k)).
    { intros e E. destruct (stops_code c e) as (m & z & Es & Ez). rewrite Es in E. rewrite Er, (command_done _ _ _ _ _ _ E), Ez. eauto. }
    assert (Unch : forall k, r = (c, CliError k) -> forall P : Prop, P ->
              exists k, snd r = CliError k /\ (forall d b, In (d, b) (fst r) -> In (d, b) c) /\
                (forall d b, In (d, b) c -> ~ In (d, b) (fst r) -> b = false /\ exists n v, holds L d kind n v /\ asked L name range n v) /\ P).
    { intros k -> P HP. exists k. cbn [fst snd]. repeat split; auto; contradiction. }
    destruct (trouble c (final_words (remove_words kind name range))) as [err|] eqn:Et.
    { right. destruct (Fail err) as [k E]; [unfold C, cli_plugins; now rewrite Et|]. apply (Unch k E). left. intros X. rewrite X in Et. discriminate. }
    pose proof (remove_runs c name range kind Kd Hn Hr Et) as Run.
    assert (Cases : (exists o, filters name range o /\
               plugin_rm L stuck c true (kind :: opt name ++ opt range) =
               match map fst (filter (fun dp => is_removed kind (fst o) (snd o) (snd dp)) (get_plugins L c)) with
               | [] => over c ""
               | ds => match delete_all stuck c ds with (c', true) => over c' "" | (c', false) => stops c' ("error: failed to delete", 255%Z) end
               end) \/
             (exists s, range = Some s /\ s <> "" /\ sv_range L s = None /\ exists e, plugin_rm L stuck c true (kind :: opt name ++ opt range) = stops c e)).
    { unfold plugin_rm. rewrite (proj2 (is_kind_spec kind) Hk). cbn [negb].
      assert (G : opt name <> [] \/ opt range = []).
      { destruct Hg as [(z & -> & Nz)|Hg]; [left; destruct z; [congruence|discriminate]|right]. destruct range as [[|b s]|]; try reflexivity. exfalso. apply Hg. eexists. split; [reflexivity|discriminate]. }
      destruct name as [[|a n]|], range as [[|b s]|]; cbn [opt app] in *; try (exfalso; destruct G as [G|G]; [now apply G|discriminate]);
        try (left; exists ("", None); split; [split; reflexivity|reflexivity]); try (left; exists (String a n, None); split; [split; reflexivity|reflexivity]).
      destruct (sv_range L (String b s)) as [f|] eqn:Ef.
      - left. exists (String a n, Some f). split; [split; [reflexivity|cbn; eauto]|reflexivity].
      - right. exists (String b s). split; [reflexivity|]. split; [discriminate|]. split; [exact Ef|]. eexists. reflexivity. }
    destruct Cases as [(o & Fo & Eo)|(s & E1 & E2 & E3 & e & Eo)].
    - rewrite Eo in Run. clear Eo. set (ds := map fst (filter (fun dp => is_removed kind (fst o) (snd o) (snd dp)) (get_plugins L c))) in *.
      assert (Ids : forall d, In d ds <-> In (d, false) c /\ exists n v, holds L d kind n v /\ asked L name range n v).
      { intros d. subst ds. rewrite in_map_iff. split.
        - intros ([d' [[k n] v]] & E & H). cbn [fst] in E. subst d'. apply filter_In in H as [H1 H2]. apply get_plugins_spec in H1 as [H1 H3]. apply (try_plugin_spec L HL) in H3.
          split; [exact H1|]. cbn [snd] in H2. apply (asked_spec name range kind o Fo Hg) in H2 as (-> & H2 & _). exists n, v. split; [exact H3|]. apply H2. eapply holds_nonempty; eauto.
        - intros (H1 & n & v & H2 & H3). exists (d, (kind, n, v)). split; [reflexivity|]. apply filter_In. split; [apply get_plugins_spec; split; [exact H1|now apply (try_plugin_spec L HL)]|].
          cbn [snd]. apply (asked_spec name range kind o Fo Hg). split; [reflexivity|]. split; [now auto|]. intros ->. exfalso. eapply holds_nonempty; eauto. }
      assert (Un : forall d b, In (d, b) c -> In (d, false) c -> b = false).
      { intros d b H1 H2. apply (In_dget c) in H1, H2; [congruence|assumption..]. }
      assert (Hd : forall c' ok, delete_all stuck c ds = (c', ok) -> C c (final_words (remove_words kind name range)) = (if ok then over c' "" else stops c' ("error: failed to delete", 255%Z))).
      { intros c' ok E. rewrite Run. destruct ds as [|d0 ds0]; [cbn in E; injection E as <- <-; reflexivity|]. rewrite E. now destruct ok. }
      destruct (delete_all stuck c ds) as [c' ok] eqn:Ed. specialize (Hd c' ok eq_refl).
      pose proof (delete_all_spec stuck ds c Nd) as Hspec. rewrite Ed in Hspec. cbn [fst] in Hspec.
      pose proof (delete_all_ok stuck ds c) as Hok. rewrite Ed in Hok. cbn [snd] in Hok.
      destruct ok.
      + left. rewrite Er, (command_done _ _ _ _ _ _ Hd). cbn [fst snd Z.eqb]. split; [reflexivity|]. intros d b. rewrite Hspec. split.
        * intros [A B]. split; [exact A|]. intros (-> & X). pose proof (proj1 Hok eq_refl) as Ha. assert (Id : In d ds) by (apply Ids; auto). rewrite (Ha d Id) in B. now specialize (B Id).
        * intros [A B]. split; [exact A|]. intros Id. exfalso. apply B. apply Ids in Id as [X Y]. split; [now apply (Un d b)|exact Y].
      + right. destruct (stops_code c' ("error: failed to delete", 255%Z)) as (m & z & Es & Ez). rewrite Es in Hd. rewrite Er, (command_done _ _ _ _ _ _ Hd), Ez. cbn [fst snd].
        eexists. split; [reflexivity|]. split; [intros d b H; now apply Hspec in H|]. split.
        * intros d b A B. destruct (in_dec String.string_dec d ds) as [Id|Id]; [|exfalso; apply B, Hspec; tauto]. apply Ids in Id as [X Y]. split; [now apply (Un d b)|exact Y].
        * right. right. assert (X : exists d, In d ds /\ stuck d = true).
          { destruct (existsb stuck ds) eqn:Ex; [now apply existsb_exists in Ex|]. exfalso. assert (false = true); [|discriminate]. apply Hok. intros d Id.
            destruct (stuck d) eqn:Es'; [|reflexivity]. assert (existsb stuck ds = true) by (apply existsb_exists; eauto). congruence. }
          destruct X as (d & _ & X). now exists d.
    - right. rewrite Eo in Run. destruct (Fail e Run) as [k E]. apply (Unch k E). right. left. eauto.
  Qed.

  Definition install_words (kind name version : string) : list string := ["plugin"; "install"; kind; name; version].
  Lemma install_runs c name version kind : (forall x, kind <> String "-" x) -> (forall x, name <> String "-" x) -> (forall x, version <> String "-" x) ->
    trouble c (final_words (install_words kind name version)) = None ->
    C c (final_words (install_words kind name version)) = plugin_install L legacy download unpack c [kind; name; version].
  Proof using.
    intros Hk Hn Hv Ht. unfold C, cli_plugins. rewrite Ht.
    assert (P : exists tail fl, final_words (install_words kind name version) = "plugin" :: "install" :: [kind; name; version] ++ tail
              /\ parse_flags ["exact"; "reinstall"; "non-interactive"] ["server"; "file"; "checksum"] tail = Some (fl, [])
              /\ forallb (fun kv => String.eqb (fst kv) "non-interactive") fl = true).
    { unfold install_words. destruct (final_words_cases ["plugin"; "install"; kind; name; version]) as [-> | ->].
      - exists [], []. repeat split; reflexivity.
      - exists ["--non-interactive"], [("non-interactive", "")]. repeat split; reflexivity. }
    destruct P as (tail & fl & -> & Pt & Py).
    rewrite (parse_positionals _ _ [kind; name; version] tail fl []); [|intros w [<-|[<-|[<-|[]]]]; now apply not_dash|exact Pt].
    now rewrite Py, app_nil_r.
  Qed.

  Lemma in_dset (c : cache) d b d' b' : NoDup (dkeys c) -> (In (d', b') (dset c d b) <-> (d' = d /\ b' = b) \/ (d' <> d /\ In (d', b') c)).
  Proof using.
    intros Nd. assert (Nd' : NoDup (dkeys (dset c d b))) by now apply wf_dset.
    split.
    - intros H. apply In_dget in H; [|exact Nd']. rewrite dget_dset in H. destruct (String.eqb_spec d' d) as [->|N]; [left; split; congruence|right]. split; [exact N|now apply dget_In].
    - intros H. apply dget_In. rewrite dget_dset. destruct H as [[-> ->]|[N H]]; [now rewrite String.eqb_refl|]. rewrite (proj2 (String.eqb_neq d' d) N). now apply In_dget.
  Qed.
  Lemma cleanup_keys c : NoDup (dkeys c) -> NoDup (dkeys (cleanup_temp_dirs c)).
  Proof using.
    unfold cleanup_temp_dirs. intros Nd. induction c as [|[x b] c IH]; [constructor|]. cbn [filter fst]. inversion Nd; subst.
    destruct (negb (temp_dir x)); [|now apply IH]. cbn [dkeys map fst]. constructor; [|now apply IH]. intros H. apply H1.
    apply in_map_iff in H as ([y z] & E & H). cbn in E. subst y. apply filter_In in H as [H _]. now apply (in_map fst) in H.
  Qed.
  Lemma cleanup_in c d b : In (d, b) (cleanup_temp_dirs c) <-> In (d, b) c /\ ~ left_over d.
  Proof using. unfold cleanup_temp_dirs. rewrite filter_In. cbn [fst]. rewrite <- temp_spec, negb_true_iff. now destruct (temp_dir d). Qed.
  Lemma cleanup_installed c k n v : installed L (cleanup_temp_dirs c) k n v <-> installed L c k n v.
  Proof using.
    unfold installed. split; intros (d & H1 & H2); exists d; (split; [|exact H2]); [now apply cleanup_in in H1|]. apply cleanup_in. split; [exact H1|]. now destruct H2 as (_ & _ & H2 & _).
  Qed.
  (** Dots. *)
  Lemma dot_later p t a r : ~ In "."%char (list_ascii_of_string p) -> (p ++ t)%string = (a ++ String "." r)%string -> exists a', t = (a' ++ String "." r)%string.
  Proof using.
    revert a. induction p as [|c p IH]; intros a Np E; [now exists a|]. destruct a as [|x a]; injection E as -> E; [exfalso; apply Np; now left|].
    apply (IH a); [|exact E]. intros H. apply Np. now right.
  Qed.
  Lemma left_over_version k n t : In k kinds -> proper_name n -> left_over (k ++ "-" ++ n ++ "-v" ++ t) -> left_over t.
  Proof using.
    intros Hk [_ Hn] (a & m & E & Nm & Dm).
    destruct (dot_later k ("-" ++ n ++ "-v" ++ t) a ("tmp" ++ m)) as (a1 & E1); [repeat destruct Hk as [<-|Hk]; try (cbn; intuition discriminate); destruct Hk|exact E|].
    destruct (dot_later "-" (n ++ "-v" ++ t) a1 ("tmp" ++ m)) as (a2 & E2); [cbn; intuition discriminate|exact E1|].
    destruct (dot_later n ("-v" ++ t) a2 ("tmp" ++ m)) as (a3 & E3); [|exact E2|].
    { intros H. destruct (Hn _ H) as [X|X]; [|discriminate]. apply alnum_spec in X. discriminate. }
    destruct (dot_later "-v" t a3 ("tmp" ++ m)) as (a4 & E4); [cbn; intuition discriminate|exact E3|].
    exists a4, m. auto.
  Qed.
  Lemma holds_dir k n v : In k kinds -> proper_name n -> ~ left_over (sv_print L v) -> holds L (dir_name L k n v) k n v.
  Proof using HL.
    intros Hk Hn Hv. split; [exact Hk|]. split; [exact Hn|]. split; [intros X; apply Hv; eapply left_over_version; eauto|].
    exists (sv_print L v). split; [reflexivity|]. apply (proj1 HL).
  Qed.
  Lemma holds_fun d k n v k' n' v' : holds L d k n v -> holds L d k' n' v' -> (k', n', v') = (k, n, v).
  Proof using HL. intros A B. apply (try_plugin_spec L HL) in A, B. congruence. Qed.

  Lemma install_spec c name version kind :
    NoDup (dkeys c) -> In kind kinds -> proper_name name -> (forall x, name <> String "-" x) -> (forall x, version <> String "-" x) ->
    let r := install_plugin C c name version kind in
    NoDup (dkeys (fst r)) /\
    ((snd r = Got tt /\ exists v, sv_parse L version = Some v /\
       (~ left_over (sv_print L v) -> exists v', installed L (fst r) kind name v' /\ suits L legacy v v') /\
       (forall k n v', installed L c k n v' -> installed L (fst r) k n v') /\
       (forall k n v', installed L (fst r) k n v' -> installed L c k n v' \/ (k, n, v') = (kind, name, v))) \/
     (exists k, snd r = CliError k /\
       (forall k n v', installed L (fst r) k n v' <-> installed L c k n v') /\
       (~ (forall x y, trouble x y = None) \/ sv_parse L version = None \/
        exists v, sv_parse L version = Some v /\ (download kind name v <> None \/ unpack kind name v <> None \/ (legacy = false /\ sv_range L (sv_print L v) = None))))).
  Proof using HL.
    intros Nd Hk Hn Hnf Hvf r.
    assert (Kd : forall x, kind <> String "-" x) by (intros x ->; repeat destruct Hk as [Hk|Hk]; try discriminate; exact Hk).
    assert (Er : r = let '(s', x) := command C c (map VStr (install_words kind name version)) in (s', done x)) by reflexivity.
    clearbody r.
    assert (Fail : forall c' e, C c (final_words (install_words kind name version)) = stops c' e -> exists k, r = (c', CliError k)).
    { intros c' e E. destruct (stops_code c' e) as (m & z & Es & Ez). rewrite Es in E. rewrite Er, (command_done _ _ _ _ _ _ E), Ez. eauto. }
    assert (Good : forall c' t, C c (final_words (install_words kind name version)) = over c' t -> r = (c', Got tt)).
    { intros c' t E. unfold over in E. now rewrite Er, (command_done _ _ _ _ _ _ E). }
    destruct (trouble c (final_words (install_words kind name version))) as [err|] eqn:Et.
    { destruct (Fail c err) as [k ->]; [unfold C, cli_plugins; now rewrite Et|]. cbn [fst snd]. split; [exact Nd|right]. exists k. split; [reflexivity|]. split; [tauto|]. left. intros X. rewrite X in Et. discriminate. }
    rewrite (install_runs c name version kind Kd Hnf Hvf Et) in Fail, Good. clear Er Et.
    unfold plugin_install in Fail, Good. rewrite (proj2 (is_kind_spec kind) Hk) in Fail, Good. cbn [negb] in Fail, Good.
    destruct (sv_parse L version) as [v|] eqn:Ev.
    2:{ destruct (Fail _ _ eq_refl) as [k ->]. cbn [fst snd]. split; [exact Nd|right]. exists k. split; [reflexivity|]. split; [tauto|]. tauto. }
    set (d := dir_name L kind name v) in *.
    unfold has_plugin_gte in Fail, Good. destruct (has_plugin L c kind name v) eqn:Eh.
    { rewrite (Good _ _ eq_refl). cbn [fst snd]. split; [exact Nd|left]. split; [reflexivity|]. exists v. split; [reflexivity|]. split; [|tauto].
      intros Hl. exists v. split; [|now left]. exists d. split; [|now apply holds_dir]. unfold has_plugin in Eh. fold d in Eh.
      destruct (dget c d) as [[|]|] eqn:Ed; try discriminate. now apply dget_In. }
    assert (Found : forall f, existsb (fun dp => match snd dp with (k, n, v') => String.eqb k kind && String.eqb n name && f v' end) (get_plugins L c) = true ->
              exists v', installed L c kind name v' /\ f v' = true).
    { intros f E. apply existsb_exists in E as ([d' [[k n] v']] & H & E). cbn [snd] in E. rewrite !andb_true_iff, !String.eqb_eq in E. destruct E as [[-> ->] E].
      exists v'. split; [|exact E]. apply (installed_listed L HL). now exists d'. }
    assert (Rest : forall (ok : bool) (why : ok = true -> exists v', installed L c kind name v' /\ suits L legacy v v'),
              (forall c' e, (if ok then over c "" else match download kind name v with
                   | Some err => stops c (err, 255%Z)
                   | None => match install_content L (unpack kind name v) c kind name v with (c', Some err) => stops c' (err, 255%Z) | (c', None) => over c' "" end end) = stops c' e -> exists k, r = (c', CliError k)) ->
              (forall c' t, (if ok then over c "" else match download kind name v with
                   | Some err => stops c (err, 255%Z)
                   | None => match install_content L (unpack kind name v) c kind name v with (c', Some err) => stops c' (err, 255%Z) | (c', None) => over c' "" end end) = over c' t -> r = (c', Got tt)) ->
              NoDup (dkeys (fst r)) /\
    ((snd r = Got tt /\ exists v0, Some v = Some v0 /\
       (~ left_over (sv_print L v0) -> exists v', installed L (fst r) kind name v' /\ suits L legacy v0 v') /\
       (forall k n v', installed L c k n v' -> installed L (fst r) k n v') /\
       (forall k n v', installed L (fst r) k n v' -> installed L c k n v' \/ (k, n, v') = (kind, name, v0))) \/
     (exists k, snd r = CliError k /\
       (forall k n v', installed L (fst r) k n v' <-> installed L c k n v') /\
       (~ (forall x y, trouble x y = None) \/ Some v = None \/
        exists v0, Some v = Some v0 /\ (download kind name v0 <> None \/ unpack kind name v0 <> None \/ (legacy = false /\ sv_range L (sv_print L v0) = None)))))).
    { intros ok why F G. destruct ok.
      - rewrite (G _ _ eq_refl). cbn [fst snd]. split; [exact Nd|left]. split; [reflexivity|]. exists v. split; [reflexivity|]. split; [auto|tauto].
      - destruct (download kind name v) as [err|] eqn:Ed.
        { destruct (F _ _ eq_refl) as [k ->]. cbn [fst snd]. split; [exact Nd|right]. exists k. split; [reflexivity|]. split; [tauto|]. right; right. exists v. rewrite Ed. split; [reflexivity|left; discriminate]. }
        unfold install_content in F, G. fold d in F, G. pose proof (cleanup_keys c Nd) as Nc.
        assert (Nh : forall k n v', holds L d k n v' -> ~ In (d, false) c).
        { intros k n v' _ H. unfold has_plugin in Eh. fold d in Eh. rewrite (In_dget c d false Nd H) in Eh. discriminate. }
        assert (Dn : dget (cleanup_temp_dirs c) d <> Some false).
        { intros X. apply dget_In, cleanup_in in X as [X _]. unfold has_plugin in Eh. fold d in Eh. rewrite (In_dget c d false Nd X) in Eh. discriminate. }
        destruct (unpack kind name v) as [err|] eqn:Eu.
        + assert (E : exists k, r = (dset (cleanup_temp_dirs c) d true, CliError k)).
          { destruct (dget (cleanup_temp_dirs c) d) as [[|]|] eqn:Eg; [| |]; try congruence; exact (F _ _ eq_refl). }
          destruct E as [k ->]. cbn [fst snd]. split; [now apply wf_dset|right]. exists k. split; [reflexivity|]. split.
          * intros k' n v'. rewrite <- (cleanup_installed c). split; intros (d' & H1 & H2); exists d'; (split; [|exact H2]).
            -- apply in_dset in H1; [|exact Nc]. destruct H1 as [[_ H1]|[_ H1]]; [discriminate|exact H1].
            -- apply in_dset; [exact Nc|]. right. split; [|exact H1]. intros ->. apply cleanup_in in H1 as [H1 _]. exact (Nh _ _ _ H2 H1).
          * right; right. exists v. rewrite Eu. split; [reflexivity|right; left; discriminate].
        + assert (E : r = (dset (cleanup_temp_dirs c) d false, Got tt)).
          { destruct (dget (cleanup_temp_dirs c) d) as [[|]|] eqn:Eg; [| |]; try congruence; exact (G _ _ eq_refl). }
          rewrite E. cbn [fst snd]. split; [now apply wf_dset|left]. split; [reflexivity|]. exists v. split; [reflexivity|]. split; [|split].
          * intros Hl. exists v. split; [|now left]. exists d. split; [apply in_dset; [exact Nc|now left]|now apply holds_dir].
          * intros k n v' H. apply cleanup_installed in H as (d' & H1 & H2). exists d'. split; [|exact H2]. apply in_dset; [exact Nc|]. right. split; [|exact H1].
            intros ->. apply cleanup_in in H1 as [H1 _]. exact (Nh _ _ _ H2 H1).
          * intros k n v' (d' & H1 & H2). apply in_dset in H1; [|exact Nc]. destruct H1 as [[-> _]|[_ H1]].
            -- right. assert (Hl : ~ left_over (sv_print L v)).
               { intros (a & m & X & Nm & Dm). destruct H2 as (_ & _ & H2 & _). apply H2. subst d. unfold dir_name. rewrite X. exists (kind ++ "-" ++ name ++ "-v" ++ a)%string, m.
                 split; [|now split]. now rewrite !sapp_assoc. }
               eapply holds_fun; [|exact H2]. now apply holds_dir.
            -- left. apply cleanup_installed. now exists d'. }
    destruct legacy eqn:El.
    - refine (Rest (existsb _ (get_plugins L c)) _ _ _); [| intros c' e E; apply (Fail c' e)| intros c' t E; apply (Good c' t)].
      + intros E. destruct (Found (fun v' => sv_ge L v' v) E) as (v' & A & B). exists v'. split; [exact A|]. right. right. now split.
      + destruct (existsb _ _); exact E.
      + destruct (existsb _ _); exact E.
    - destruct (sv_range L (sv_print L v)) as [f|] eqn:Ef.
      + refine (Rest (existsb _ (get_plugins L c)) _ _ _); [| intros c' e E; apply (Fail c' e)| intros c' t E; apply (Good c' t)].
        * intros E. destruct (Found f E) as (v' & A & B). exists v'. split; [exact A|]. right. left. split; [reflexivity|]. exists f. now split.
        * destruct (existsb _ _); exact E.
        * destruct (existsb _ _); exact E.
      + destruct (Fail _ _ eq_refl) as [k ->]. cbn [fst snd]. split; [exact Nd|right]. exists k. split; [reflexivity|]. split; [tauto|]. right; right. exists v. split; [reflexivity|]. right; right. now split.
  Qed.
End Cli.

(** What is asked for is decidable. *)
Lemma decided {V} (L : semver V) name range n v : asked L name range n v \/ ~ asked L name range n v.
Proof.
  assert (A : (forall s, name = Some s -> s <> "" -> n = s) \/ ~ (forall s, name = Some s -> s <> "" -> n = s)).
  { destruct name as [s|]; [|left; intros s; discriminate]. destruct (String.string_dec s "") as [->|N]; [left; congruence|].
    destruct (String.string_dec n s) as [->|N']; [left; congruence|right]. intros H. apply N', H; auto. }
  assert (B : (forall s, range = Some s -> s <> "" -> exists f, sv_range L s = Some f /\ f v = true) \/ ~ (forall s, range = Some s -> s <> "" -> exists f, sv_range L s = Some f /\ f v = true)).
  { destruct range as [s|]; [|left; intros s; discriminate]. destruct (String.string_dec s "") as [->|N]; [left; congruence|].
    destruct (sv_range L s) as [f|] eqn:E; [destruct (f v) eqn:Ef|].
    - left. intros s' [= <-] _. eauto.
    - right. intros H. destruct (H s eq_refl N) as (f' & E' & E2). congruence.
    - right. intros H. destruct (H s eq_refl N) as (f' & E' & E2). congruence. }
  unfold asked. tauto.
Qed.
Lemma removes_nothing {V} (L : semver V) legacy download unpack stuck c s kind :
  semantic L -> In kind kinds -> s <> "" -> no_flag (Some s) -> ~ proper_name s ->
  remove_plugin (cli_plugins L legacy download unpack stuck (fun _ _ => None)) c (Some s) None kind = (c, Got tt).
Proof.
  intros HL Hk Ns Hf Hp.
  assert (Kd : forall x, kind <> String "-" x) by (intros x ->; repeat destruct Hk as [Hk|Hk]; try discriminate; exact Hk).
  assert (E : remove_plugin (cli_plugins L legacy download unpack stuck (fun _ _ => None)) c (Some s) None kind =
    let '(s', x) := command (cli_plugins L legacy download unpack stuck (fun _ _ => None)) c (map VStr (remove_words kind (Some s) None)) in (s', done x)).
  { unfold remove_plugin, remove_words. rewrite !if_given_opt, !map_app. reflexivity. }
  rewrite E. rewrite (command_done L legacy download unpack stuck (fun _ _ => None) (remove_words kind (Some s) None) c c "" "" 0%Z); [reflexivity|].
  rewrite remove_runs; [|assumption|assumption|intros x; discriminate|reflexivity].
  destruct s as [|a s]; [congruence|]. cbn [opt app]. unfold plugin_rm. rewrite (proj2 (is_kind_spec kind) Hk). cbn [negb].
  assert (Em : filter (fun dp => is_removed kind (String a s) None (snd dp)) (get_plugins L c) = []).
  { destruct (filter _ _) as [|[d [[k n] v]] l] eqn:Ef; [reflexivity|]. exfalso.
    assert (H : In (d, (k, n, v)) (filter (fun dp => is_removed kind (String a s) None (snd dp)) (get_plugins L c))) by (rewrite Ef; now left).
    apply filter_In in H as [H1 H2]. apply get_plugins_spec in H1 as [_ H1]. apply (try_plugin_spec L HL) in H1. cbn [snd] in H2. unfold is_removed in H2.
    rewrite !andb_true_iff in H2. destruct H2 as [[_ H2] _]. cbn [String.eqb orb] in H2. apply String.eqb_eq in H2. subst n. now destruct H1 as (_ & H1 & _). }
  now rewrite Em.
Qed.
