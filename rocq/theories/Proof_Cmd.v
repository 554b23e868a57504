From Verif Require Import Base PyVal Model_Urn Model_Cmd Spec_Cmd.
Open Scope string_scope.

Lemma app_assoc_s (a b c : string) : (a ++ b) ++ c = a ++ b ++ c.
Proof. induction a; simpl; congruence. Qed.
Lemma app_nil_s (a : string) : a ++ "" = a.
Proof. induction a; simpl; congruence. Qed.
Lemma prefix_spec p : forall s, String.prefix p s = true <-> exists b, s = p ++ b.
Proof.
  induction p as [|c p IH]; intros s.
  - split; [intros _; now exists s|]. now destruct s.
  - destruct s as [|d s]; [split; [discriminate|intros (b & H); discriminate]|].
    cbn [String.prefix]. destruct (ascii_dec c d) as [->|H].
    + split.
      * intros K. apply IH in K as (b & ->). now exists b.
      * intros (b & K). injection K as K. apply IH. now exists b.
    + split; [discriminate|intros (b & K); injection K; congruence].
Qed.
Lemma drop_app p s : sdrop (String.length p) (p ++ s) = s.
Proof. induction p; simpl; auto. Qed.

Lemma occurs_spec p s : occurs p s = true <-> contains p s.
Proof.
  induction s as [|c s IH]; cbn [occurs dots_then]; rewrite orb_true_iff, prefix_spec.
  - split; [intros [(b & H)|H]; [exists "", b; exact H|discriminate]|].
    intros (a & b & H). left. destruct a; [exists b; exact H|discriminate].
  - rewrite IH. split.
    + intros [(b & H)|(a & b & H)]; [exists "", b; exact H|exists (String c a), b; simpl; congruence].
    + intros (a & b & H). destruct a as [|d a]; [left; exists b; exact H|]. injection H as -> H. right. exists a, b. exact H.
Qed.
Lemma dots_spec b s : dots_then b s = true <-> exists m r, s = m ++ b ++ r /\ one_line m.
Proof.
  induction s as [|c s IH]; cbn [occurs dots_then]; rewrite orb_true_iff, prefix_spec.
  - split; [intros [(r & H)|H]; [exists "", r; split; [exact H|intros []]|discriminate]|].
    intros (m & r & H & _). left. destruct m; [exists r; exact H|discriminate].
  - destruct (Ascii.eqb_spec c newline) as [->|Hc].
    + split.
      * intros [(r & H)|H]; [exists "", r; split; [exact H|intros []]|discriminate].
      * intros (m & r & H & Hm). left. destruct m as [|d m]; [exists r; exact H|]. injection H as <- H. exfalso. apply Hm. now left.
    + rewrite IH. split.
      * intros [(r & H)|(m & r & H & Hm)]; [exists "", r; split; [exact H|intros []]|].
        exists (String c m), r. split; [simpl; congruence|]. intros [K|K]; [congruence|now apply Hm].
      * intros (m & r & H & Hm). destruct m as [|d m]; [left; exists r; exact H|]. injection H as -> H. right. exists m, r. split; auto.
        intros K. apply Hm. now right.
Qed.
Lemma search_dots_spec a b s : search_dots a b s = true <-> contains_line a b s.
Proof.
  assert (Hh : forall s, String.prefix a s && dots_then b (sdrop (String.length a) s) = true <-> exists m r, s = a ++ m ++ b ++ r /\ one_line m).
  { intros t. rewrite andb_true_iff, prefix_spec. split.
    - intros [(x & ->) H]. rewrite drop_app in H. apply dots_spec in H as (m & r & -> & Hm). eauto.
    - intros (m & r & -> & Hm). split; [eauto|]. rewrite drop_app. apply dots_spec. eauto. }
  induction s as [|c s IH]; cbn [search_dots]; rewrite orb_true_iff, Hh.
  - split; [intros [(m & r & H & Hm)|H]; [exists "", m, r; auto|discriminate]|].
    intros (x & m & r & H & Hm). left. destruct x; [exists m, r; auto|discriminate].
  - rewrite IH. split.
    + intros [(m & r & H & Hm)|(x & m & r & H & Hm)]; [exists "", m, r; auto|exists (String c x), m, r; split; [simpl; congruence|auto]].
    + intros (x & m & r & H & Hm). destruct x as [|d x]; [left; exists m, r; auto|]. injection H as -> H. right. exists x, m, r. auto.
Qed.
Lemma search_dot_spec a s : search_dot a s = true <-> exists x c b, s = x ++ a ++ String c b /\ c <> newline.
Proof.
  assert (Hh : forall s, String.prefix a s && dot (sdrop (String.length a) s) = true <-> exists c r, s = a ++ String c r /\ c <> newline).
  { intros t. rewrite andb_true_iff, prefix_spec. split.
    - intros [(x & ->) H]. rewrite drop_app in H. destruct x as [|c x]; simpl in H; [discriminate|].
      exists c, x. split; auto. apply negb_true_iff in H. now apply Ascii.eqb_neq in H.
    - intros (c & r & -> & Hc). split; [eauto|]. rewrite drop_app. simpl. apply negb_true_iff. now apply Ascii.eqb_neq. }
  induction s as [|c s IH]; cbn [search_dot]; rewrite orb_true_iff, Hh.
  - split; [intros [(m & r & H & Hm)|H]; [exists "", m, r; auto|discriminate]|].
    intros (x & m & r & H & Hm). left. destruct x; [exists m, r; auto|discriminate].
  - rewrite IH. split.
    + intros [(m & r & H & Hm)|(x & m & r & H & Hm)]; [exists "", m, r; auto|exists (String c x), m, r; split; [simpl; congruence|auto]].
    + intros (x & m & r & H & Hm). destruct x as [|d x]; [left; exists m, r; auto|]. injection H as -> H. right. exists x, m, r. auto.
Qed.

Lemma if_not (b : bool) (P : Prop) : (b = true <-> P) -> b = false <-> ~ P.
Proof. intros H. destruct b; split; try discriminate; try tauto; intros K. intros Q. apply H in Q. discriminate. Qed.

Lemma create_spec r : classified (cm_stderr r) (cm_stdout r) (create_command_error r).
Proof.
  unfold create_command_error, not_found_regex, already_exists_regex.
  pose proof (search_dots_spec "no stack named" "found" (cm_stderr r)) as H1.
  pose proof (search_dots_spec "stack" "already exists" (cm_stderr r)) as H2.
  pose proof (occurs_spec conflict_text (cm_stderr r)) as H3.
  assert (H4 : compilation_error_regex (cm_stdout r) = true <-> says_compilation (cm_stdout r)).
  { unfold compilation_error_regex, says_compilation. rewrite !orb_true_iff, !occurs_spec, search_dot_spec. tauto. }
  pose proof (occurs_spec inline_source_error_text (cm_stdout r)) as H5.
  assert (H6 : runtime_error_regex (cm_stdout r) = true <-> says_runtime (cm_stdout r)).
  { unfold runtime_error_regex, says_runtime. rewrite !orb_true_iff, !occurs_spec. tauto. }
  assert (A1 := if_not _ _ H1). assert (A2 := if_not _ _ H2). assert (A3 := if_not _ _ H3).
  assert (A4 := if_not _ _ H4). assert (A5 := if_not _ _ H5). assert (A6 := if_not _ _ H6).
  fold (says_missing (cm_stderr r)) in *. fold (says_exists (cm_stderr r)) in *.
  change (contains conflict_text (cm_stderr r)) with (says_conflict (cm_stderr r)) in *.
  change (contains inline_source_error_text (cm_stdout r)) with (says_inline (cm_stdout r)) in *.
  destruct (search_dots "no stack named" _ _), (search_dots "stack" _ _), (occurs conflict_text _), (compilation_error_regex _),
    (occurs inline_source_error_text _), (runtime_error_regex _); cbn [classified]; tauto.
Qed.
Lemma classified_one e o k k' : classified e o k -> classified e o k' -> k = k'.
Proof. destruct k, k'; simpl; tauto. Qed.

(* ------------------------------------------------------------------ *)
(** Lines. *)
Lemma rstrip_space s c : is_space c = true -> rstrip (s ++ String c "") = rstrip s.
Proof. intros H. induction s as [|d s IH]; simpl; [now rewrite H|now rewrite IH]. Qed.
Lemma string_snoc s : s = "" \/ exists t c, s = t ++ String c "".
Proof.
  induction s as [|d s IH]; [now left|right]. destruct IH as [->|(t & c & ->)]; [exists "", d; reflexivity|exists (String d t), c; reflexivity].
Qed.
Lemma snoc_length s c : String.length (s ++ String c "") = S (String.length s).
Proof. induction s; simpl; congruence. Qed.
Lemma snoc_inj s c t d : s ++ String c "" = t ++ String d "" -> s = t /\ c = d.
Proof.
  revert t. induction s as [|x s IH]; intros [|y t]; simpl; intros H.
  - injection H; auto.
  - injection H as -> H. destruct t; discriminate.
  - injection H as -> H. destruct s; discriminate.
  - injection H as -> H. apply IH in H as [-> ->]. auto.
Qed.
Lemma rstrip_keep s c : is_space c = false -> rstrip (s ++ String c "") = s ++ String c "".
Proof. intros H. induction s as [|d s IH]; simpl; [now rewrite H|]. rewrite IH. destruct s; reflexivity. Qed.
Lemma rstrip_spec s : trimmed s (rstrip s).
Proof.
  remember (String.length s) as n eqn:E. revert s E. induction n as [|n IH]; intros s E.
  - destruct s; [|discriminate]. apply TR_done. intros t c K. destruct t; discriminate.
  - destruct (string_snoc s) as [->|(t & c & ->)]; [discriminate|]. rewrite snoc_length in E. injection E as E.
    destruct (is_space c) eqn:Ec.
    + rewrite rstrip_space by assumption. apply TR_space; auto.
    + rewrite rstrip_keep by assumption. apply TR_done. intros u d K. apply snoc_inj in K as [_ <-]. assumption.
Qed.

Lemma readlines_spec s : exists ls, lines_of s ls /\ map rstrip (readlines s) = map rstrip ls.
Proof.
  induction s as [|c s (ls & Hl & Hm)]; [exists []; split; [constructor|reflexivity]|]. cbn [readlines].
  destruct (Ascii.eqb_spec c newline) as [->|Hc].
  - exists ("" :: ls). split; [apply (LO_line "" s ls); auto; intros []|]. simpl. now rewrite Hm.
  - assert (Ho : forall t, one_line t -> one_line (String c t)) by (intros t Ht [K|K]; [congruence|now apply Ht]).
    inversion Hl as [E1 E2|s' H1 H2 E1 E2|s' rest ls' H1 H2 E1 E2]; subst.
    + exists [String c ""]. split; [apply LO_last; [apply Ho; intros []|discriminate]|reflexivity].
    + exists [String c s]. split; [apply LO_last; [now apply Ho|discriminate]|].
      destruct (readlines s) as [|l ls]; [discriminate|]. injection Hm as Hm Hr. cbn [map]. cbn [rstrip]. now rewrite Hm, Hr.
    + exists (String c s' :: ls'). split; [apply (LO_line (String c s') rest ls'); auto|].
      destruct (readlines (s' ++ nl ++ rest)) as [|l ls]; [discriminate|]. injection Hm as Hm Hr. cbn [map]. cbn [rstrip]. now rewrite Hm, Hr.
Qed.

Lemma trimmed_lines ls : Forall2 trimmed ls (map rstrip ls).
Proof. induction ls; constructor; auto using rstrip_spec. Qed.

Lemma report_ok cb ls : never_raises cb (map rstrip ls) ->
  report cb ls = (match cb with Some _ => map rstrip ls | None => [] end, Ok (map rstrip ls)).
Proof.
  induction ls as [|l ls IH]; intros H; cbn [report map]; [now destruct cb|].
  rewrite IH by (intros f t Hf Ht; apply (H f t Hf); now right).
  destruct cb as [f|]; [|reflexivity]. rewrite (H f (rstrip l) eq_refl) by now left. reflexivity.
Qed.
Lemma report_fails f ls e : forall before t after, map rstrip ls = (before ++ t :: after)%list -> (forall x, In x before -> f x = None) -> f t = Some e ->
  report (Some f) ls = ((before ++ [t])%list, Err e).
Proof.
  induction ls as [|l ls IH]; intros before t after E Hb Ht; [destruct before; discriminate|]. cbn [report map] in *.
  destruct before as [|b before]; simpl in E; injection E as E1 E2.
  - subst t. now rewrite Ht.
  - subst b. rewrite (Hb (rstrip l)) by now left. erewrite IH; [reflexivity|exact E2| |exact Ht]. intros x Hx. apply Hb. now right.
Qed.

Lemma run_spec pulumi args cb :
  forall out err code ws, words (non_interactive args) = Some ws -> pulumi ws = (out, err, code) ->
  exists ls ts, lines_of out ls /\ Forall2 trimmed ls ts /\
    (never_raises cb ts ->
       exists o, run_cmd pulumi args cb = (Some ws, match cb with Some _ => ts | None => [] end, o) /\
         let r := mkResult (join nl ts) err code in
         (code = 0%Z -> o = Returned r) /\ (code <> 0%Z -> exists k, o = Raised k r /\ classified err (join nl ts) k)) /\
    (forall f before t after e, cb = Some f -> ts = (before ++ t :: after)%list -> (forall x, In x before -> f x = None) -> f t = Some e ->
       run_cmd pulumi args cb = (Some ws, (before ++ [t])%list, Failed e)).
Proof.
  intros out err code ws Hw Hp. destruct (readlines_spec out) as (ls & Hl & Hm). exists ls, (map rstrip ls).
  split; [exact Hl|]. split; [apply trimmed_lines|]. split.
  - intros Hn. rewrite <- Hm in *. unfold run_cmd. rewrite Hw, Hp, report_ok by exact Hn. eexists. split; [reflexivity|]. cbv zeta. split.
    + intros ->. reflexivity.
    + intros Hc. apply Z.eqb_neq in Hc. rewrite Hc. eexists. split; [reflexivity|]. apply (create_spec (mkResult _ _ _)).
  - intros f before t after e -> Ht Hb He. unfold run_cmd. rewrite Hw, Hp. rewrite <- Hm in Ht. erewrite report_fails; [reflexivity|exact Ht|exact Hb|exact He].
Qed.

Lemma words_strings l : words (map VStr l) = Some l.
Proof. induction l as [|x l IH]; simpl; [reflexivity|]. now rewrite IH. Qed.
Lemma is_word_in w l : existsb (is_word w) (map VStr l) = true <-> In w l.
Proof.
  rewrite existsb_exists. split.
  - intros (v & Hv & Hw). apply in_map_iff in Hv as (x & <- & Hx). simpl in Hw. apply String.eqb_eq in Hw as ->. exact Hx.
  - intros H. exists (VStr w). split; [now apply in_map|]. simpl. apply String.eqb_refl.
Qed.
Lemma non_interactive_spec l : exists ws, words (non_interactive (map VStr l)) = Some ws /\ In "--non-interactive" ws /\
  (ws = l \/ (~ In "--non-interactive" l /\ ws = (l ++ ["--non-interactive"])%list)).
Proof.
  unfold non_interactive. destruct (existsb _ _) eqn:E.
  - exists l. rewrite words_strings. apply is_word_in in E. auto.
  - exists (l ++ ["--non-interactive"])%list. change [VStr "--non-interactive"] with (map VStr ["--non-interactive"]).
    rewrite <- map_app, words_strings. split; [reflexivity|]. split; [apply in_or_app; right; now left|]. right. split; [|reflexivity].
    intros K. apply is_word_in in K. congruence.
Qed.

Lemma has_char_app c a b : has_char c (a ++ b) <-> has_char c a \/ has_char c b.
Proof. induction a; simpl; [tauto|]. rewrite IHa. tauto. Qed.
Lemma lines_first s t r r' : one_line s -> one_line t -> s ++ nl ++ r = t ++ nl ++ r' -> s = t /\ r = r'.
Proof.
  revert t. induction s as [|c s IH]; intros [|d t] Hs Ht H; simpl in H.
  - injection H as H. auto.
  - injection H as H1 H2. exfalso. apply Ht. left. exact H1.
  - injection H as H1 H2. exfalso. apply Hs. left. symmetry. exact H1.
  - injection H as -> H. apply IH in H as [-> ->]; auto; intros K; [apply Hs|apply Ht]; now right.
Qed.
Lemma lines_of_unique s ls ls' : lines_of s ls -> lines_of s ls' -> ls = ls'.
Proof.
  intros H. revert ls'. induction H as [|s H1 H2|s rest ls H1 H2 IH]; intros ls' H'.
  - inversion H' as [E1|s' K1 K2 E1|s' r' l' K1 K2 E1]; subst; auto; [now elim K2|destruct s'; discriminate].
  - inversion H' as [E1|s' K1 K2 E1|s' r' l' K1 K2 E1]; subst; auto; [now elim H2|].
    exfalso. apply H1. apply has_char_app. right. now left.
  - remember (s ++ nl ++ rest) as t eqn:E. destruct H' as [|s' K1 K2|s' r' l' K1 K2].
    + destruct s; discriminate.
    + exfalso. apply K1. rewrite E. apply has_char_app. right. now left.
    + apply lines_first in E as [-> ->]; auto. now rewrite (IH _ K2).
Qed.
