(** Proofs about stacks in files. *)
From Verif Require Import Base Model_Rpc Spec_Engine Proof_Deser2 Proof_Engine Model_Lock Model_Save Model_Files Spec_Files Proof_Save.
From Coq Require Import Lia.
Open Scope string_scope.
Open Scope list_scope.

(* ------------------------------------------------------------------ *)
(** Strings. *)
Lemma strip_prefix_spec p : forall s r, strip_prefix p s = Some r <-> s = (p ++ r)%string.
Proof.
  induction p as [|a p IH]; intros s r; cbn; [split; congruence|]. destruct s as [|b s]; [split; discriminate|].
  destruct (Ascii.eqb_spec a b) as [->|N]; [rewrite IH; split; [congruence|now intros [= ->]]|split; [discriminate|]]. intros [= E _]. congruence.
Qed.
Lemma sapp_length (a b : string) : String.length (a ++ b) = String.length a + String.length b.
Proof. induction a; cbn; congruence. Qed.
Lemma sapp_inj_r (a b s : string) : (a ++ s)%string = (b ++ s)%string -> a = b.
Proof.
  revert b. induction a as [|x a IH]; intros [|y b] E; cbn in E; [reflexivity| | |].
  - apply (f_equal String.length) in E. cbn in E. rewrite sapp_length in E. lia.
  - apply (f_equal String.length) in E. cbn in E. rewrite sapp_length in E. lia.
  - injection E as -> E. f_equal. now apply IH.
Qed.
Lemma strip_suffix_inv suf s : forall r, strip_suffix suf s = Some r -> s = (r ++ suf)%string.
Proof.
  induction s as [|c s IH]; intros r; cbn [strip_suffix].
  - destruct (String.eqb_spec "" suf) as [<-|]; [|discriminate]. now intros [= <-].
  - destruct (String.eqb_spec (String c s) suf) as [<-|]; [now intros [= <-]|]. destruct (strip_suffix suf s) as [r'|] eqn:E; [|discriminate]. intros [= <-]. cbn. f_equal. now apply IH.
Qed.
Lemma strip_suffix_app suf n : strip_suffix suf (n ++ suf) = Some n.
Proof.
  induction n as [|c n IH].
  - change ("" ++ suf)%string with suf. destruct suf; cbn [strip_suffix]; now rewrite String.eqb_refl.
  - cbn [append strip_suffix]. destruct (String.eqb_spec (String c (n ++ suf)) suf) as [E|]; [|now rewrite IH].
    apply (f_equal String.length) in E. cbn in E. rewrite sapp_length in E. lia.
Qed.
Fixpoint slast (s : string) : option ascii := match s with "" => None | String c "" => Some c | String _ s' => slast s' end.
Lemma slast_app a b : b <> "" -> slast (a ++ b) = slast b.
Proof.
  intros N. induction a as [|c a IH]; [reflexivity|]. cbn [append]. rewrite <- IH. cbn [slast]. destruct (a ++ b)%string eqn:E; [|reflexivity].
  destruct a; [cbn in E; congruence|discriminate].
Qed.
Lemma strip_suffix_none suf a s : s <> "" -> suf <> "" -> slast s <> slast suf -> strip_suffix suf (a ++ s) = None.
Proof.
  intros N N' L. destruct (strip_suffix suf (a ++ s)) as [r|] eqn:E; [|reflexivity]. apply strip_suffix_inv in E. apply (f_equal slast) in E. rewrite !slast_app in E by assumption. congruence.
Qed.
Lemma has_slash_app a b : has_slash (a ++ b) = has_slash a || has_slash b.
Proof. induction a as [|c a IH]; [reflexivity|]. cbn. rewrite IH. now rewrite Bool.orb_assoc. Qed.
Lemma no_slash s : (forall a b, s <> (a ++ "/" ++ b)%string) -> has_slash s = false.
Proof.
  induction s as [|c s IH]; intros N; [reflexivity|]. cbn. destruct (Ascii.eqb_spec c "/"%char) as [->|]; [destruct (N "" s); reflexivity|]. apply IH. intros a b ->. now apply (N (String c a) b).
Qed.
Lemma slash_no s : has_slash s = false -> forall a b, s <> (a ++ "/" ++ b)%string.
Proof. intros Hs a b ->. rewrite has_slash_app in Hs. cbn in Hs. rewrite Bool.orb_true_r in Hs. discriminate. Qed.
Lemma split_slash a : forall b x y, has_slash a = false -> has_slash b = false -> (a ++ String "/" x)%string = (b ++ String "/" y)%string -> a = b /\ x = y.
Proof.
  induction a as [|c a IH]; intros [|d b] x y Ha Hb E; cbn in *.
  - injection E as ->. auto.
  - injection E as <- ->. rewrite Ascii.eqb_refl in Hb. discriminate.
  - injection E as -> _. rewrite Ascii.eqb_refl in Ha. discriminate.
  - injection E as -> E. apply Bool.orb_false_iff in Ha as [Hc Ha], Hb as [Hd Hb]. destruct (IH b x y Ha Hb E) as [-> ->]. auto.
Qed.
Lemma ascii_compare_refl c : Ascii.compare c c = Eq.
Proof. unfold Ascii.compare. apply N.compare_refl. Qed.
Lemma compare_app p a b : String.compare (p ++ a) (p ++ b) = String.compare a b.
Proof. induction p as [|c p IH]; [reflexivity|]. cbn. now rewrite ascii_compare_refl. Qed.
Lemma compare_longer a : forall b x y, String.length a = String.length b -> String.compare a b = Lt -> String.compare (a ++ x) (b ++ y) = Lt.
Proof.
  induction a as [|c a IH]; intros [|d b] x y L C; cbn in *; try discriminate. injection L as L. destruct (Ascii.compare c d); [now apply IH|reflexivity|discriminate].
Qed.

Lemma last_cons {A} (l : list A) : forall x d, List.last (x :: l) d = List.last l x.
Proof. induction l as [|y l IH]; intros x d; [reflexivity|]. change (List.last (x :: y :: l) d) with (List.last (y :: l) d). now rewrite !IH. Qed.
Definition P (n suf : string) : string := (".pulumi/stacks/" ++ n ++ suf)%string.
Definition H (n st suf : string) : string := (".pulumi/history/" ++ n ++ "/" ++ n ++ "-" ++ st ++ suf)%string.
Definition B (n st suf : string) : string := (".pulumi/backups/" ++ n ++ "/" ++ n ++ "." ++ st ++ suf)%string.
Definition sfx (z : bool) : string := if z then ".json.gz" else ".json".
Definition four : list string := [".json"; ".json.gz"; ".json.bak"; ".json.gz.bak"].
Definition hsfx (z : bool) : string := if z then ".history.json.gz" else ".history.json".
Definition hsuf : list string := [".history.json"; ".history.json.gz"; ".checkpoint.json"; ".checkpoint.json.gz"].
Definition slashless (s : string) : Prop := has_slash s = false.
Inductive kind : string -> Prop :=
| K_state n suf : proper n -> In suf four -> kind (P n suf)
| K_history n st suf : proper n -> slashless st -> In suf hsuf -> kind (H n st suf)
| K_backup n st suf : proper n -> kind (B n st suf).

Lemma join_proper dir n : proper n -> join_name dir n = (".pulumi/" ++ dir ++ "/" ++ n)%string.
Proof.
  intros (_ & N1 & N2). unfold join_name. destruct (String.eqb_spec n "."); [contradiction|]. destruct (String.eqb_spec n ".."); [contradiction|]. reflexivity.
Qed.
Lemma plain_P n : proper n -> plain_path n = P n ".json".
Proof. intros Pn. unfold plain_path. rewrite join_proper by exact Pn. unfold P. cbn [append]. now rewrite ?sapp_assoc. Qed.
Lemma gz_P n : (P n ".json" ++ ".gz")%string = P n ".json.gz".
Proof. unfold P. now rewrite !sapp_assoc. Qed.
Lemma bak_P n suf : (P n suf ++ ".bak")%string = P n (suf ++ ".bak").
Proof. unfold P. now rewrite !sapp_assoc. Qed.
Lemma proper_slash n : proper n -> has_slash n = false.
Proof. intros (N & _). now apply no_slash. Qed.

Ltac four_cases I := cbn in I; repeat destruct I as [<-|I]; try contradiction.
Lemma P_inj n n' suf suf' : In suf [".json"; ".json.gz"] -> In suf' four -> P n suf = P n' suf' -> n = n' /\ suf = suf'.
Proof.
  intros I I' E. unfold P in E. apply sapp_inj in E.
  four_cases I; four_cases I'; try (split; [now apply sapp_inj_r in E|reflexivity]); apply (f_equal slast) in E; rewrite !slast_app in E by discriminate; discriminate.
Qed.
Lemma P_bak_inj n n' suf suf' : In suf [".json"; ".json.gz"] -> In suf' [".json"; ".json.gz"] -> P n (suf ++ ".bak") = P n' (suf' ++ ".bak") -> n = n' /\ suf = suf'.
Proof.
  intros I I' E. rewrite <- !bak_P in E. apply sapp_inj_r in E. apply P_inj in E; auto. four_cases I'; cbn; auto.
Qed.
Lemma H_inj n n' st st' z suf' : has_slash n = false -> has_slash n' = false -> In suf' hsuf -> H n st (hsfx z) = H n' st' suf' -> n = n' /\ st = st' /\ hsfx z = suf'.
Proof.
  intros Hn Hn' I E. unfold H in E. apply sapp_inj in E. apply split_slash in E as [<- E]; auto. apply sapp_inj in E. injection E as E. split; [reflexivity|].
  destruct z; cbn [hsfx] in *; four_cases I; try (split; [now apply sapp_inj_r in E|reflexivity]); exfalso.
  - apply (f_equal slast) in E; rewrite !slast_app in E by discriminate; discriminate.
  - apply (f_equal slast) in E; rewrite !slast_app in E by discriminate; discriminate.
  - change ".history.json.gz" with (".history" ++ ".json.gz")%string in E. change ".checkpoint.json.gz" with (".checkpoint" ++ ".json.gz")%string in E. rewrite <- !sapp_assoc in E. apply sapp_inj_r in E.
    apply (f_equal slast) in E; rewrite !slast_app in E by discriminate; discriminate.
  - apply (f_equal slast) in E; rewrite !slast_app in E by discriminate; discriminate.
  - change ".history.json" with (".history" ++ ".json")%string in E. change ".checkpoint.json" with (".checkpoint" ++ ".json")%string in E. rewrite <- !sapp_assoc in E. apply sapp_inj_r in E.
    apply (f_equal slast) in E; rewrite !slast_app in E by discriminate; discriminate.
  - apply (f_equal slast) in E; rewrite !slast_app in E by discriminate; discriminate.
Qed.
Lemma P_H n suf n' st suf' : P n suf <> H n' st suf'. Proof. unfold P, H. cbn. discriminate. Qed.
Lemma P_B n suf n' st suf' : P n suf <> B n' st suf'. Proof. unfold P, B. cbn. discriminate. Qed.
Lemma H_B n st suf n' st' suf' : H n st suf <> B n' st' suf'. Proof. unfold H, B. cbn. discriminate. Qed.

Lemma kind_H n st z : proper n -> kind (H n st (hsfx z)) -> slashless st.
Proof.
  intros Pn K. remember (H n st (hsfx z)) as k eqn:E. destruct K as [m suf Pm I|m st' suf Pm Ss I|m st' suf Pm].
  - now apply P_H in E.
  - symmetry in E. apply H_inj in E as (_ & -> & _); auto using proper_slash.
  - symmetry in E. now apply H_B in E.
Qed.
(** What is in the directories. *)
Lemma under_stacks k : kind k -> under ".pulumi/stacks" k = true -> exists n suf, proper n /\ In suf four /\ k = P n suf.
Proof.
  intros [n suf Pn I|n st suf Pn Ss I|n st suf Pn]; [eauto| |]; unfold under, H, B; cbn; discriminate.
Qed.
Lemma under_P n suf : proper n -> In suf four -> under ".pulumi/stacks" (P n suf) = true /\ object_name ".pulumi/stacks" (P n suf) = (n ++ suf)%string.
Proof.
  intros Pn I. assert (E : strip_prefix (".pulumi/stacks" ++ "/") (P n suf) = Some (n ++ suf)%string) by (apply strip_prefix_spec; reflexivity).
  unfold under, object_name. rewrite E. split; [|reflexivity]. rewrite has_slash_app, (proper_slash _ Pn). four_cases I; reflexivity.
Qed.
Lemma stack_name_P n suf : In suf four -> stack_name (n ++ suf) = if smem suf [".json"; ".json.gz"] then Some n else None.
Proof.
  intros I. unfold stack_name. four_cases I; cbn [smem existsb].
  - rewrite (strip_suffix_none ".gz" n ".json") by discriminate. now rewrite strip_suffix_app.
  - change ".json.gz" with (".json" ++ ".gz")%string. rewrite <- sapp_assoc, strip_suffix_app. now rewrite strip_suffix_app.
  - rewrite (strip_suffix_none ".gz" n ".json.bak"), (strip_suffix_none ".json" n ".json.bak"), (strip_suffix_none ".yaml" n ".json.bak"), (strip_suffix_none ".yml" n ".json.bak") by discriminate. reflexivity.
  - rewrite (strip_suffix_none ".gz" n ".json.gz.bak"), (strip_suffix_none ".json" n ".json.gz.bak"), (strip_suffix_none ".yaml" n ".json.gz.bak"), (strip_suffix_none ".yml" n ".json.gz.bak") by discriminate. reflexivity.
Qed.
Lemma history_dir_P n : proper n -> (history_dir n ++ "/")%string = (".pulumi/history/" ++ n ++ "/")%string.
Proof. intros Pn. unfold history_dir. rewrite join_proper by exact Pn. cbn. now rewrite ?sapp_assoc. Qed.
Lemma under_history n k : proper n -> kind k -> under (history_dir n) k = true -> exists st suf, slashless st /\ In suf hsuf /\ k = H n st suf.
Proof.
  intros Pn K. unfold under. rewrite history_dir_P by exact Pn. destruct (strip_prefix _ k) as [r|] eqn:E; [|discriminate]. intros _. apply strip_prefix_spec in E.
  destruct K as [n' suf Pn' I|n' st suf Pn' Ss I|n' st suf Pn']; [discriminate| |discriminate].
  unfold H in E. rewrite !sapp_assoc in E. apply sapp_inj in E. cbn [append] in E. apply split_slash in E as [-> _]; [|now apply proper_slash|now apply proper_slash]. eauto.
Qed.
Lemma under_H n st suf : proper n -> slashless st -> In suf hsuf -> under (history_dir n) (H n st suf) = true.
Proof.
  intros Pn Ss I. unfold under. rewrite history_dir_P by exact Pn.
  assert (E : strip_prefix (".pulumi/history/" ++ n ++ "/") (H n st suf) = Some (n ++ "-" ++ st ++ suf)%string) by (apply strip_prefix_spec; unfold H; now rewrite !sapp_assoc).
  rewrite E, !has_slash_app, (proper_slash _ Pn), Ss. four_cases I; reflexivity.
Qed.
Lemma is_history_H n st suf : In suf hsuf -> is_history (H n st suf) = smem suf [".history.json"; ".history.json.gz"].
Proof.
  intros I. unfold is_history. set (x := (".pulumi/history/" ++ n ++ "/" ++ n ++ "-" ++ st)%string). assert (E : H n st suf = (x ++ suf)%string) by (unfold H, x; now rewrite !sapp_assoc). rewrite E. clear E.
  four_cases I; cbn [smem existsb].
  - now rewrite strip_suffix_app.
  - rewrite (strip_suffix_app ".history.json.gz"). now destruct (strip_suffix ".history.json" _).
  - rewrite (strip_suffix_none ".history.json.gz" x ".checkpoint.json") by discriminate. destruct (strip_suffix ".history.json" _) as [r|] eqn:E; [|reflexivity]. apply strip_suffix_inv in E.
    change ".history.json" with (".history" ++ ".json")%string in E. change ".checkpoint.json" with (".checkpoint" ++ ".json")%string in E. rewrite <- !sapp_assoc in E. apply sapp_inj_r in E.
    apply (f_equal slast) in E; rewrite !slast_app in E by discriminate; discriminate.
  - rewrite (strip_suffix_none ".history.json" x ".checkpoint.json.gz") by discriminate. destruct (strip_suffix ".history.json.gz" _) as [r|] eqn:E; [|reflexivity]. apply strip_suffix_inv in E.
    change ".history.json.gz" with (".history" ++ ".json.gz")%string in E. change ".checkpoint.json.gz" with (".checkpoint" ++ ".json.gz")%string in E. rewrite <- !sapp_assoc in E. apply sapp_inj_r in E.
    apply (f_equal slast) in E; rewrite !slast_app in E by discriminate; discriminate.
Qed.
Lemma sort_In l x : In x (sort_strings l) <-> In x l.
Proof. induction l as [|y l IH]; [reflexivity|]. cbn [sort_strings fold_right]. rewrite sinsert_In. change (fold_right sinsert [] l) with (sort_strings l). rewrite IH. cbn. intuition. Qed.
Lemma inc_filter f l : increasing l -> increasing (filter f l).
Proof.
  intros I. induction l as [|x l IH]; [constructor|]. pose proof (inc_tail _ _ I) as T. specialize (IH T). cbn [filter]. destruct (f x); [|exact IH].
  destruct (filter f l) as [|y m] eqn:E; constructor; [|exact IH]. apply (inc_head_lt x l y I). apply (proj1 (filter_In f y l)). rewrite E. now left.
Qed.

(* ------------------------------------------------------------------ *)
(** Effects of the commands when the storage works. *)
Section Files.
  Context {S U : Type} (has_resources : S -> bool).
  Notation files := (bucket (content S U)).
  Notation D := (content S U).

  Definition kinds (b : files) : Prop := forall k, dget b k <> None -> kind k.
  (** [same_but T b b']: nothing has changed but keys in [T]. *)
  Definition same_but (T : string -> Prop) (b b' : files) : Prop := forall k, ~ T k -> dget b' k = dget b k.
  Lemma same_but_trans (T : string -> Prop) (b1 b2 b3 : files) : same_but T b1 b2 -> same_but T b2 b3 -> same_but T b1 b3.
  Proof using. intros A B k N. rewrite (B k N). now apply A. Qed.
  Definition key_of (o : op D) : string := match o with Copy dst _ => dst | Delete k => k | Write k _ => k end.
  Lemma effect_same (b : files) o t : same_but (fun k => k = key_of o) b (effect b o t).
  Proof using.
    intros k N. destruct o as [dst src|key|key d]; cbn [effect key_of] in *.
    - destruct (dget b src) as [[d u]|]; [|reflexivity]. rewrite dget_dset. destruct (String.eqb_spec k dst); congruence.
    - rewrite dget_ddel. destruct (String.eqb_spec k key); congruence.
    - rewrite dget_dset. destruct (String.eqb_spec k key); congruence.
  Qed.
  Lemma effect_kinds (b : files) o t : kind (key_of o) -> kinds b -> kinds (effect b o t).
  Proof using.
    intros K A k N. destruct (string_dec k (key_of o)) as [->|E]; [exact K|]. apply A. now rewrite (effect_same b o t k E) in N.
  Qed.
  Lemma perform_same (T : string -> Prop) xs : Forall (fun x => T (key_of (fst (fst x)))) xs -> forall b : files, same_but T b (perform_all b xs).
  Proof using.
    intros F. induction F as [|[[o io] t] xs K F IH]; intros b; [intros k _; reflexivity|]. change (perform_all b ((o, io, t) :: xs)) with (perform_all (perform b (o, io, t)) xs).
    eapply same_but_trans; [|apply IH]. unfold perform. destruct (performed io); [|intros k _; reflexivity]. intros k N. apply effect_same. intros ->. now apply N.
  Qed.
  Lemma perform_kinds xs : Forall (fun x => kind (key_of (fst (fst x)))) xs -> forall b : files, kinds b -> kinds (perform_all b xs).
  Proof using.
    intros F. induction F as [|[[o io] t] xs K F IH]; intros b A; [exact A|]. change (perform_all b ((o, io, t) :: xs)) with (perform_all (perform b (o, io, t)) xs).
    apply IH. unfold perform. destruct (performed io); [|exact A]. now apply effect_kinds.
  Qed.
  Definition state_key (n k : string) : Prop := exists suf, In suf four /\ k = P n suf.
  Lemma save_keys n r clock z (d : D) : Forall (fun x => state_key n (key_of (fst (fst x)))) (save_stack (P n ".json") r clock z d).
  Proof using.
    pose proof (save_mild (P n ".json") r clock z d) as F. eapply Forall_impl; [|exact F]. intros [[o io] t] [M _]. cbn [fst snd] in M |- *.
    destruct o as [dst src|key|key x]; cbn [mild key_of] in *.
    - destruct M as [-> | ->]; rewrite ?gz_P, bak_P; eexists; (split; [|reflexivity]); cbn; auto.
    - subst key. destruct z; cbn [other]; rewrite ?gz_P; eexists; (split; [|reflexivity]); cbn; auto.
    - destruct M as [-> _]. destruct z; cbn [target]; rewrite ?gz_P; eexists; (split; [|reflexivity]); cbn; auto.
  Qed.
  (** [holds b n v]: the state of [n] is [v], in one file. *)
  Definition holds (b : files) (n : string) (v : option S) : Prop :=
    exists z t, dget b (P n (sfx z)) = Some (Checkpoint v, t) /\ dget b (P n (sfx (negb z))) = None.
  Definition absent (b : files) (n : string) : Prop := forall z, dget b (P n (sfx z)) = None.
  Lemma P_sfx n z z' : P n (sfx z) = P n (sfx z') -> z = z'.
  Proof using.
    intros E. destruct z, z'; auto; exfalso; cbn [sfx] in E; apply P_inj in E as [_ E]; try discriminate; cbn; auto.
  Qed.
  Lemma stack_path_holds (b : files) n (v : option S) z t : dget b (P n (sfx z)) = Some (Checkpoint v, t) -> dget b (P n (sfx (negb z))) = None -> stack_path (P n ".json") b = P n (sfx z).
  Proof using.
    intros E N. unfold stack_path. change (gzip_path (P n ".json")) with (P n ".json" ++ ".gz")%string. rewrite gz_P. destruct z; cbn [sfx negb] in *; [rewrite E, N; reflexivity|rewrite N; reflexivity].
  Qed.
  Lemma current_holds (b : files) n (v : option S) : holds b n v -> current (P n ".json") b = Some (Checkpoint v).
  Proof using. intros (z & t & E & N). unfold current. now rewrite (stack_path_holds b n v z t E N), E. Qed.
  Lemma current_absent (b : files) n : absent b n -> current (P n ".json") b = None.
  Proof using. intros A. rewrite current_eq, gz_P. now rewrite (A true : dget b (P n ".json.gz") = None), (A false : dget b (P n ".json") = None). Qed.

  Lemma save_fine e ph (b : files) n v : working e -> proper n ->
    let (b', ok) := save e ph b n v in ok = true /\ holds b' n v /\ same_but (state_key n) b b' /\ (kinds b -> kinds b').
  Proof using.
    intros [W _] Pn. unfold save. rewrite plain_P by exact Pn. split; [|split; [|split]].
    - apply persistent. exists 0. split; [lia|apply W].
    - exists (e_gzip e), (e_clock e 4). unfold save_stack. rewrite app_assoc, perform_app. set (b1 := perform_all b _).
      assert (A : attempts (e_io e ph) (e_clock e) 4 (Write (if e_gzip e then gzip_path (P n ".json") else P n ".json") (@Checkpoint S U v)) 13 = [(Write (P n (sfx (e_gzip e))) (Checkpoint v), Fine, e_clock e 4)]).
      { cbn [attempts]. unfold at_step. rewrite (W ph 4). destruct (e_gzip e); [|reflexivity]. cbn [sfx]. rewrite <- gz_P. reflexivity. }
      rewrite A. cbn [perform_all fold_left perform performed effect]. rewrite !dget_dset, String.eqb_refl. split; [reflexivity|].
      destruct (String.eqb_spec (P n (sfx (negb (e_gzip e)))) (P n (sfx (e_gzip e)))) as [E|_]; [apply P_sfx in E; now destruct (e_gzip e)|].
      unfold b1, backup_target, at_step. change (gzip_path (P n ".json")) with (P n ".json" ++ ".gz")%string. rewrite !gz_P, !bak_P. rewrite !W.
      destruct (e_gzip e); cbn [negb app sfx perform_all fold_left perform performed].
      + cbn [effect]. now rewrite dget_ddel, String.eqb_refl.
      + rewrite (effect_same _ (Copy (P n (".json" ++ ".bak")) (P n ".json")) (e_clock e 2)) by (cbn [key_of]; intros E; apply P_inj in E as [_ E]; [discriminate|cbn; auto|cbn; auto]).
        cbn [effect]. now rewrite dget_ddel, String.eqb_refl.
    - apply perform_same, save_keys.
    - apply perform_kinds. eapply Forall_impl; [|apply save_keys]. cbn. intros x (suf & I & ->). now constructor.
  Qed.
  Lemma saves_fine e n ss : working e -> proper n -> forall ph (b : files) (v : option S), holds b n v ->
    let (b', ok) := saves e ph b n ss in ok = true /\ holds b' n (List.last (map Some ss) v) /\ same_but (state_key n) b b' /\ (kinds b -> kinds b').
  Proof using.
    intros W Pn. induction ss as [|s ss IH]; intros ph b0 v Hv; cbn [saves].
    - split; [reflexivity|]. split; [exact Hv|]. split; [now intros k _|auto].
    - pose proof (save_fine e ph b0 n (Some s) W Pn) as F. destruct (save e ph b0 n (Some s)) as [b1 ok]. destruct F as (-> & H1 & S1 & K1).
      specialize (IH (Datatypes.S ph) b1 (Some s) H1). destruct (saves e (Datatypes.S ph) b1 n ss) as [b2 ok2]. destruct IH as (-> & H2 & S2 & K2). split; [reflexivity|]. split; [|split; [eapply same_but_trans; eauto|auto]].
      cbn [map]. now rewrite last_cons.
  Qed.
  Lemma one_fine e ph i (b : files) o : working e -> Model_Files.one e ph i b o = effect b o (e_clock e i).
  Proof using. intros [W _]. unfold one, perform. now rewrite W. Qed.
  Lemma history_prefix_H n st suf : proper n -> (history_prefix n st ++ suf)%string = H n st suf.
  Proof using. intros Pn. unfold history_prefix, history_dir, H. rewrite join_proper by exact Pn. now rewrite !sapp_assoc. Qed.
  Lemma add_fine e ph (b : files) n u : working e -> proper n -> slashless (e_stamp e) ->
    let (b', ok) := add_to_history e ph b n u in ok = true /\
      same_but (fun k => k = H n (e_stamp e) (hsfx (e_gzip e)) \/ k = H n (e_stamp e) (if e_gzip e then ".checkpoint.json.gz" else ".checkpoint.json")) b b' /\
      (exists t, dget b' (H n (e_stamp e) (hsfx (e_gzip e))) = Some (Record_of u, t)) /\ (kinds b -> kinds b').
  Proof using.
    intros W Pn Ss. unfold add_to_history. destruct W as [W W']. unfold fine. rewrite !W. rewrite !(one_fine e) by (split; auto).
    assert (E1 : (history_prefix n (e_stamp e) ++ ".history." ++ ext e)%string = H n (e_stamp e) (hsfx (e_gzip e))) by (rewrite <- history_prefix_H by exact Pn; unfold ext, hsfx; destruct (e_gzip e); reflexivity).
    assert (E2 : (history_prefix n (e_stamp e) ++ ".checkpoint." ++ ext e)%string = H n (e_stamp e) (if e_gzip e then ".checkpoint.json.gz" else ".checkpoint.json")) by (rewrite <- history_prefix_H by exact Pn; unfold ext, hsfx; destruct (e_gzip e); reflexivity).
    rewrite E1, E2. set (k1 := H n (e_stamp e) (hsfx (e_gzip e))). set (k2 := H n (e_stamp e) (if e_gzip e then ".checkpoint.json.gz" else ".checkpoint.json")). set (b1 := effect b (Write k1 (Record_of u)) (e_clock e 0)).
    assert (N : k1 <> k2). { intros E. apply H_inj in E as (_ & _ & E); [|now apply proper_slash|now apply proper_slash|destruct (e_gzip e); cbn; auto]. destruct (e_gzip e); discriminate. }
    split; [reflexivity|]. split; [|split].
    - intros k Nk. rewrite effect_same by (cbn; auto). unfold b1. rewrite effect_same by (cbn; auto). reflexivity.
    - exists (e_clock e 0). rewrite effect_same by (cbn; auto). unfold b1. cbn [effect]. now rewrite dget_dset, String.eqb_refl.
    - intros K. apply effect_kinds; [cbn; constructor; auto; destruct (e_gzip e); cbn; auto|]. apply effect_kinds; [cbn; constructor; auto; destruct (e_gzip e); cbn; auto|exact K].
  Qed.
  Lemma backup_fine e ph (b : files) n v : working e -> proper n -> holds b n v ->
    let (b', ok) := backup_stack e ph b n in ok = true /\ same_but (fun k => exists st suf, k = B n st suf) b b' /\ (kinds b -> kinds b').
  Proof using.
    intros W Pn (z & t & E & N). unfold backup_stack. rewrite plain_P by exact Pn. rewrite (stack_path_holds b n v z t E N), E. rewrite (one_fine e) by exact W. destruct W as [W W']. unfold fine. rewrite W.
    set (tail := if String.eqb (P n (sfx z)) (P n ".json") then ".json" else ".json.gz"). assert (Ek : (backup_dir n ++ "/" ++ n ++ "." ++ e_stamp e ++ tail)%string = B n (e_stamp e) tail) by (unfold backup_dir, B; rewrite join_proper by exact Pn; now rewrite !sapp_assoc).
    rewrite Ek. split; [reflexivity|]. split; [|intros K; apply effect_kinds; [cbn; now constructor|exact K]]. intros k Nk. apply effect_same. cbn [key_of]. intros ->. apply Nk. eauto.
  Qed.
  Lemma delete_all_spec e ph keys : working e -> forall i (b : files),
    (forall k, dget (delete_all e ph i b keys) k = if smem k keys then None else dget b k).
  Proof using.
    intros W. induction keys as [|x keys IH]; intros i b k; [reflexivity|]. cbn [delete_all]. rewrite IH, (one_fine e) by exact W. cbn [effect smem]. rewrite dget_ddel. destruct (String.eqb k x), (smem k keys); reflexivity.
  Qed.

  (* ---------------------------------------------------------------- *)
  (** The files are those of the stacks. *)
  Notation abstract := (stacks S U).
  Definition entry : Type := (string * bool * U)%type.
  Definition stamp_of (x : entry) : string := fst (fst x).
  Definition hkey (n : string) (x : entry) : string := H n (stamp_of x) (hsfx (snd (fst x))).
  Definition not_after (bound st : string) : Prop := String.length st = String.length bound /\ (st = bound \/ String.compare st bound = Lt).
  Definition past (a : abstract) (n : string) : list U := match a n with Some x => s_history x | None => [] end.
  Record tells (b : files) (n : string) (us : list U) (bound : string) (hs : list entry) : Prop := {
    tl_inc : increasing (map stamp_of hs);
    tl_bound : Forall (fun x => not_after bound (stamp_of x)) hs;
    tl_us : map snd hs = rev us;
    tl_in : forall x, In x hs -> slashless (stamp_of x) /\ exists t, dget b (hkey n x) = Some (Record_of (snd x), t);
    tl_all : forall st z, dget b (H n st (hsfx z)) <> None -> exists u, In (st, z, u) hs }.
  Record Inv (b : files) (a : abstract) (bound : string) : Prop := {
    iv_kinds : kinds b;
    iv_state : forall n, proper n -> match a n with None => absent b n | Some x => holds b n (s_state x) end;
    iv_hist : forall n, proper n -> exists hs, tells b n (past a n) bound hs;
    iv_none : forall n x, a n = Some x -> proper n }.
  Lemma inv_ext b a a' bound : (forall n, a n = a' n) -> Inv b a bound -> Inv b a' bound.
  Proof using.
    intros E [K St Hi No]. split; [exact K| | |].
    - intros n Pn. rewrite <- E. now apply St.
    - intros n Pn. unfold past. rewrite <- E. now apply Hi.
    - intros n x. rewrite <- E. apply No.
  Qed.
  Lemma inv_start bound : Inv [] no_stacks bound.
  Proof using.
    split.
    - intros k N. now destruct N.
    - intros n _ z. reflexivity.
    - intros n _. exists []. split; [constructor|constructor|reflexivity|intros x []|]. intros st z N. now destruct N.
    - discriminate.
  Qed.
  Definition after (bound bound' : string) : Prop := String.length bound' = String.length bound /\ String.compare bound bound' = Lt.
  Lemma not_after_after bound bound' st : not_after bound st -> after bound bound' -> String.compare st bound' = Lt.
  Proof using. intros [_ [->|L]] [_ L']; [exact L'|]. eapply compare_lt_trans; eauto. Qed.
  Lemma tells_bound b n us bound bound' hs : after bound bound' -> tells b n us bound hs -> tells b n us bound' hs.
  Proof using.
    intros A [I Bd Us In_ All]. split; auto. eapply Forall_impl; [|exact Bd]. intros x N. pose proof (not_after_after _ _ _ N A). destruct N as [L _], A as [L' _]. split; [congruence|auto].
  Qed.
  Lemma inv_bound b a bound bound' : after bound bound' -> Inv b a bound -> Inv b a bound'.
  Proof using.
    intros A [K St Hi No]. split; auto. intros n Pn. destruct (Hi n Pn) as [hs T]. exists hs. eapply tells_bound; eauto.
  Qed.
  (** Other keys. *)
  Lemma holds_same (T : string -> Prop) b b' n v : same_but T b b' -> (forall z, ~ T (P n (sfx z))) -> holds b n v -> holds b' n v.
  Proof using. intros Sm N (z & t & E & E'). exists z, t. now rewrite !Sm. Qed.
  Lemma absent_same (T : string -> Prop) b b' n : same_but T b b' -> (forall z, ~ T (P n (sfx z))) -> absent b n -> absent b' n.
  Proof using. intros Sm N A z. now rewrite Sm. Qed.
  Lemma tells_same (T : string -> Prop) b b' n us bound hs : same_but T b b' -> (forall st z, ~ T (H n st (hsfx z))) -> tells b n us bound hs -> tells b' n us bound hs.
  Proof using.
    intros Sm N [I Bd Us In_ All]. split; auto.
    - intros x Ix. destruct (In_ x Ix) as (Ss & t & E). split; [exact Ss|]. exists t. unfold hkey in *. now rewrite Sm.
    - intros st z E. apply All. now rewrite Sm in E.
  Qed.
  Lemma sfx_four z : In (sfx z) [".json"; ".json.gz"].
  Proof using. destruct z; cbn; auto. Qed.
  Lemma state_key_other n n' z : n <> n' -> ~ state_key n (P n' (sfx z)).
  Proof using. intros N (suf & I & E). apply P_inj in E as [E _]; [congruence|apply sfx_four|exact I]. Qed.
  Lemma state_key_H n n' st suf : ~ state_key n (H n' st suf).
  Proof using. intros (suf' & _ & E). symmetry in E. now apply P_H in E. Qed.
  Lemma inv_state b b' a bound n v : Inv b a bound -> proper n -> same_but (state_key n) b b' -> kinds b' -> holds b' n v ->
    Inv b' (set a n (Some (mkStack v (past a n)))) bound.
  Proof using.
    intros [K St Hi No] Pn Sm K' Hv. split; [exact K'| | |].
    - intros m Pm. unfold set. destruct (String.eqb_spec m n) as [->|N]; [exact Hv|]. specialize (St m Pm).
      destruct (a m); [eapply holds_same|eapply absent_same]; try exact Sm; try exact St; intros z; apply state_key_other; congruence.
    - intros m Pm. destruct (Hi m Pm) as [hs T]. exists hs. eapply tells_same; [exact Sm|intros st z; apply state_key_H|]. unfold past, set in *. destruct (String.eqb_spec m n) as [->|N]; exact T.
    - intros m x. unfold set. destruct (String.eqb_spec m n) as [->|N]; [intros _; exact Pn|apply No].
  Qed.
  Lemma inc_snoc l s : increasing l -> Forall (fun x => String.compare x s = Lt) l -> increasing (l ++ [s]).
  Proof using.
    intros I F. induction I as [|x|x y l C I IH]; cbn [app].
    - constructor.
    - inversion F; subst. constructor; [assumption|constructor].
    - inversion F; subst. constructor; [exact C|]. now apply IH.
  Qed.
  Lemma compare_irrefl s : String.compare s s <> Lt.
  Proof using. intros E. pose proof (String.compare_antisym s s) as K. rewrite E in K. discriminate. Qed.
  Lemma inv_history e ph b a bound n x u : Inv b a bound -> working e -> proper n -> slashless (e_stamp e) -> after bound (e_stamp e) -> a n = Some x ->
    let (b', ok) := add_to_history e ph b n u in ok = true /\ Inv b' (set a n (Some (mkStack (s_state x) (u :: s_history x)))) (e_stamp e).
  Proof using.
    intros I W Pn Ss A Ex. pose proof (add_fine e ph b n u W Pn Ss) as F. destruct (add_to_history e ph b n u) as [b' ok]. destruct F as (-> & Sm & (t & Et) & Kd). split; [reflexivity|].
    destruct I as [K St Hi No].
    assert (Nf : forall m st z, proper m -> ~ (m = n /\ st = e_stamp e) -> ~ (H m st (hsfx z) = H n (e_stamp e) (hsfx (e_gzip e)) \/ H m st (hsfx z) = H n (e_stamp e) (if e_gzip e then ".checkpoint.json.gz" else ".checkpoint.json"))).
    { intros m st z Pm N [E|E]; apply N; apply H_inj in E as (-> & -> & _); auto using proper_slash; destruct (e_gzip e); cbn; auto. }
    assert (Np : forall m z, ~ (P m (sfx z) = H n (e_stamp e) (hsfx (e_gzip e)) \/ P m (sfx z) = H n (e_stamp e) (if e_gzip e then ".checkpoint.json.gz" else ".checkpoint.json"))).
    { intros m z [E|E]; now apply P_H in E. }
    split; [now apply Kd| | |].
    - intros m Pm. specialize (St m Pm). unfold set. destruct (String.eqb_spec m n) as [->|N].
      + rewrite Ex in St. cbn [s_state]. eapply holds_same; [exact Sm|apply Np|exact St].
      + destruct (a m); [eapply holds_same|eapply absent_same]; try exact Sm; try exact St; apply Np.
    - intros m Pm. destruct (Hi m Pm) as [hs T]. unfold past, set in *. destruct (String.eqb_spec m n) as [->|N].
      + rewrite Ex in T. cbn [s_history]. destruct T as [I Bd Us In_ All]. exists (hs ++ [(e_stamp e, e_gzip e, u)]). split.
        * rewrite map_app. cbn [map stamp_of fst]. apply inc_snoc; [exact I|]. apply Forall_map. eapply Forall_impl; [|exact Bd]. cbn. intros y Ny. eapply not_after_after; eauto.
        * apply Forall_app. split; [|constructor; [split; [reflexivity|left; reflexivity]|constructor]]. eapply Forall_impl; [|exact Bd]. intros y Ny. pose proof (not_after_after _ _ _ Ny A). destruct Ny as [L _], A as [L' _]. split; [congruence|auto].
        * rewrite map_app. cbn [rev map snd]. f_equal. exact Us.
        * intros y Iy. apply in_app_or in Iy as [Iy|[<-|[]]].
          -- destruct (In_ y Iy) as (Sy & t' & Ey). split; [exact Sy|]. exists t'. unfold hkey in *. rewrite Sm; [exact Ey|]. apply Nf; [exact Pn|]. intros [_ E]. rewrite Forall_forall in Bd. pose proof (not_after_after _ _ _ (Bd y Iy) A) as L. rewrite E in L. now apply compare_irrefl in L.
          -- split; [exact Ss|]. exists t. exact Et.
        * intros st z E. destruct (string_dec st (e_stamp e)) as [->|Nst].
          -- destruct (Bool.bool_dec z (e_gzip e)) as [->|Nz]; [exists u; apply in_or_app; right; now left|].
             assert (Sz : dget b' (H n (e_stamp e) (hsfx z)) = dget b (H n (e_stamp e) (hsfx z))).
             { apply Sm. intros [E'|E']; apply H_inj in E' as (_ & _ & E'); auto using proper_slash; try (destruct (e_gzip e); cbn; auto; fail); destruct z, (e_gzip e); try discriminate; now apply Nz. }
             rewrite Sz in E. destruct (All _ _ E) as [u' Iu]. exists u'. apply in_or_app. now left.
          -- rewrite Sm in E by (apply Nf; [exact Pn|intros [_ E']; congruence]). destruct (All _ _ E) as [u' Iu]. exists u'. apply in_or_app. now left.
      + exists hs. apply (tells_bound _ _ _ bound); [exact A|]. eapply tells_same; [exact Sm|intros st z; apply Nf; [exact Pm|intros [E _]; congruence]|exact T].
    - intros m y. unfold set. destruct (String.eqb_spec m n) as [->|N]; [intros _; exact Pn|apply No].
  Qed.
  Lemma inv_backup e ph b a bound n x : Inv b a bound -> working e -> proper n -> a n = Some x ->
    let (b', ok) := backup_stack e ph b n in ok = true /\ Inv b' a bound.
  Proof using.
    intros [K St Hi No] W Pn Ex. pose proof (St n Pn) as Hv. rewrite Ex in Hv. pose proof (backup_fine e ph b n _ W Pn Hv) as F. destruct (backup_stack e ph b n) as [b' ok]. destruct F as (-> & Sm & Kd). split; [reflexivity|].
    split; [now apply Kd| | |exact No].
    - intros m Pm. specialize (St m Pm). destruct (a m); [eapply holds_same|eapply absent_same]; try exact Sm; try exact St; intros z (st & suf & E); now apply P_B in E.
    - intros m Pm. destruct (Hi m Pm) as [hs T]. exists hs. eapply tells_same; [exact Sm| |exact T]. intros st z (st' & suf & E). now apply H_B in E.
  Qed.
  Lemma get_stack_inv e b a bound n : Inv b a bound -> working e -> proper n -> get_stack e b n = match a n with Some x => Some (s_state x) | None => None end.
  Proof using.
    intros I [_ R] Pn. pose proof (iv_state _ _ _ I n Pn) as St. unfold get_stack. rewrite plain_P by exact Pn. destruct (a n) as [x|].
    - rewrite (current_holds _ _ _ St). destruct (s_state x) as [s|]; [now rewrite R|reflexivity].
    - now rewrite (current_absent _ _ St).
  Qed.
  Lemma in_keys (b : files) k : In k (dkeys b) <-> dget b k <> None.
  Proof using. rewrite (dget_None b k). destruct (in_dec string_dec k (dkeys b)); intuition. Qed.
  Lemma inv_remove e b a bound n x : Inv b a bound -> working e -> proper n -> a n = Some x ->
    let b1 := perform_all b (backup_target (e_io e 0) (e_clock e) 0 (stack_path (plain_path n) b) false) in
    Inv (delete_all e 1 0 b1 (list_bucket b1 (history_dir n))) (set a n None) bound.
  Proof using.
    intros [K St Hi No] W Pn Ex. pose proof (St n Pn) as Hv. rewrite Ex in Hv. destruct Hv as (z & t & E & E'). cbn zeta. rewrite plain_P by exact Pn. rewrite (stack_path_holds b n _ z t E E').
    set (b1 := perform_all _ _).
    assert (F1 : Forall (fun x => state_key n (key_of (fst (fst x)))) (backup_target (e_io e 0) (e_clock e) 0 (P n (sfx z)) false : list (op D * io * nat))).
    { unfold backup_target, at_step. constructor; [cbn [fst key_of]; rewrite bak_P; exists (sfx z ++ ".bak")%string; split; [destruct z; cbn; auto|reflexivity]|]. constructor; [|constructor]. cbn [fst key_of]. exists (sfx z). split; [destruct z; cbn; auto|reflexivity]. }
    assert (S1 : same_but (state_key n) b b1) by (apply perform_same; exact F1).
    assert (K1 : kinds b1). { apply perform_kinds; [|exact K]. eapply Forall_impl; [|exact F1]. cbn. intros y (suf & I & ->). now constructor. }
    assert (A1 : absent b1 n).
    { intros z'. unfold b1, backup_target, at_step. destruct W as [W _]. rewrite !W. cbn [perform_all fold_left perform performed]. rewrite bak_P.
      destruct (Bool.bool_dec z' z) as [->|N]; [cbn [effect]; now rewrite dget_ddel, String.eqb_refl|].
      rewrite (effect_same _ (Delete (P n (sfx z)))) by (cbn [key_of]; intros Q; apply P_sfx in Q; congruence).
      rewrite effect_same by (cbn [key_of]; intros Q; apply P_inj in Q as [_ Q]; [destruct z, z'; discriminate|apply sfx_four|destruct z; cbn; auto]).
      replace z' with (negb z) by (clear - N; destruct z, z'; try reflexivity; now elim N). exact E'. }
    set (keys := list_bucket b1 (history_dir n)).
    assert (Dl : forall k, dget (delete_all e 1 0 b1 keys) k = if smem k keys then None else dget b1 k) by (apply delete_all_spec; exact W).
    assert (Kn : forall k, In k keys -> exists st suf, slashless st /\ In suf hsuf /\ k = H n st suf).
    { intros k I. unfold keys, list_bucket in I. apply (proj1 (sort_In _ _)) in I. apply filter_In in I as [I Uk]. apply (proj1 (in_keys _ _)) in I. apply (under_history n k Pn (K1 k I) Uk). }
    assert (Kp : forall m suf, smem (P m suf) keys = false).
    { intros m suf. destruct (smem (P m suf) keys) eqn:Q; [|reflexivity]. apply smem_In in Q. destruct (Kn _ Q) as (st & sf & _ & _ & Q'). now apply P_H in Q'. }
    split.
    - intros k N. rewrite Dl in N. destruct (smem k keys); [now destruct N|]. now apply K1.
    - intros m Pm. unfold set. destruct (String.eqb_spec m n) as [->|N].
      + intros z'. rewrite Dl, Kp. apply A1.
      + specialize (St m Pm). destruct (a m) as [y|].
        * apply (holds_same (state_key n) b b1) in St; [|exact S1|intros z'; apply state_key_other; congruence]. destruct St as (z' & t' & Q & Q'). exists z', t'. now rewrite !Dl, !Kp.
        * apply (absent_same (state_key n) b b1) in St; [|exact S1|intros z'; apply state_key_other; congruence]. intros z'. now rewrite Dl, Kp.
    - intros m Pm. unfold past, set. destruct (String.eqb_spec m n) as [->|N].
      + exists []. split; [constructor|constructor|reflexivity|intros y []|]. intros st z' Q. exfalso. rewrite Dl in Q. destruct (smem (H n st (hsfx z')) keys) eqn:Sk; [congruence|]. apply smem_notIn in Sk. apply Sk.
        unfold keys, list_bucket. apply (proj2 (sort_In _ _)), filter_In. split; [now apply (proj2 (in_keys _ _))|]. apply under_H; [exact Pn|now apply (kind_H n st z' Pn), K1|destruct z'; cbn; auto].
      + destruct (Hi m Pm) as [hs T]. exists hs. apply (tells_same (state_key n) b b1) in T; [|exact S1|intros st z'; apply state_key_H].
        apply (tells_same (fun k => In k keys) b1); [|intros st z' I; destruct (Kn _ I) as (st' & suf & _ & I' & Q); apply H_inj in Q as (Q & _); auto using proper_slash|exact T].
        intros k Nk. rewrite Dl. now apply smem_notIn in Nk as ->.
    - intros m y. unfold set. destruct (String.eqb_spec m n) as [->|N]; [discriminate|apply No].
  Qed.

  Lemma inv_step e b a bound c : Inv b a bound -> working e -> proper (about c) -> slashless (e_stamp e) -> after bound (e_stamp e) ->
    let (b', ok) := run_command has_resources e b c in let (a', ok') := does has_resources a c in ok = ok' /\ Inv b' a' (e_stamp e).
  Proof using.
    intros I W Pn Ss A. destruct c as [n|n ss u|n]; cbn [about run_command does] in *.
    - unfold create. rewrite (get_stack_inv e b a bound n I W Pn). destruct (a n) as [x|] eqn:Ex; [split; [reflexivity|now apply (inv_bound _ _ bound)]|].
      pose proof (save_fine e 0 b n None W Pn) as F. destruct (save e 0 b n None) as [b' ok]. destruct F as (-> & Hv & Sm & Kd). split; [reflexivity|]. apply (inv_bound _ _ bound); [exact A|].
      replace [] with (past a n) by (unfold past; now rewrite Ex). eapply inv_state; eauto. apply Kd, (iv_kinds _ _ _ I).
    - unfold update. rewrite (get_stack_inv e b a bound n I W Pn). destruct (a n) as [x|] eqn:Ex; [|split; [reflexivity|now apply (inv_bound _ _ bound)]].
      pose proof (iv_state _ _ _ I n Pn) as Hv. rewrite Ex in Hv. pose proof (saves_fine e n ss W Pn 0 b _ Hv) as F. destruct (saves e 0 b n ss) as [b1 ok1]. destruct F as (-> & H1 & S1 & K1).
      assert (I1 := inv_state b b1 a bound n _ I Pn S1 (K1 (iv_kinds _ _ _ I)) H1).
      set (a1 := set a n _) in *. set (x1 := mkStack (List.last (map Some ss) (s_state x)) (past a n)). assert (Ex1 : a1 n = Some x1) by (unfold a1, set; now rewrite String.eqb_refl).
      pose proof (inv_history e (List.length ss) b1 a1 bound n x1 u I1 W Pn Ss A Ex1) as F. destruct (add_to_history e (List.length ss) b1 n u) as [b2 ok2]. destruct F as (-> & I2).
      set (a2 := set a1 n _) in *. pose proof (inv_backup e (Datatypes.S (List.length ss)) b2 a2 (e_stamp e) n (mkStack (s_state x1) (u :: s_history x1)) I2 W Pn ltac:(unfold a2, set; now rewrite String.eqb_refl)) as F.
      destruct (backup_stack e (Datatypes.S (List.length ss)) b2 n) as [b3 ok3]. destruct F as (-> & I3). split; [reflexivity|]. eapply inv_ext; [|exact I3]. intros m. unfold a2, a1, set, x1. cbn [s_state s_history].
      unfold past. rewrite Ex. now destruct (String.eqb m n).
    - unfold remove. rewrite (get_stack_inv e b a bound n I W Pn). destruct (a n) as [x|] eqn:Ex; [|split; [reflexivity|now apply (inv_bound _ _ bound)]].
      destruct (match s_state x with Some s => has_resources s | None => false end); [split; [reflexivity|now apply (inv_bound _ _ bound)]|].
      split; [reflexivity|]. apply (inv_bound _ _ bound); [exact A|]. now apply (inv_remove e b a bound n x).
  Qed.
  Lemma inv_all cs : forall b a bound, Inv b a bound -> Forall (fun ec => working (fst ec) /\ proper (about (snd ec))) cs -> going_on bound (map (fun ec => e_stamp (fst ec)) cs) ->
    exists bound', snd (run_all has_resources b cs) = snd (does_all has_resources a (map snd cs)) /\ Inv (fst (run_all has_resources b cs)) (fst (does_all has_resources a (map snd cs))) bound'.
  Proof using.
    induction cs as [|[e c] cs IH]; intros b a bound I F G; [exists bound; split; [reflexivity|exact I]|].
    inversion F as [|? ? [W Pn] F' Q]; subst. cbn [map fst snd going_on] in *. destruct G as (L & C & Ns & G). apply no_slash in Ns.
    pose proof (inv_step e b a bound c I W Pn Ns (conj L C)) as St. cbn [run_all does_all]. destruct (run_command has_resources e b c) as [b1 ok]. destruct (does has_resources a c) as [a1 ok']. destruct St as [-> I1].
    destruct (IH b1 a1 (e_stamp e) I1 F' G) as (bound' & E & I2). exists bound'. destruct (run_all has_resources b1 cs) as [b2 oks], (does_all has_resources a1 (map snd cs)) as [a2 oks']. cbn [fst snd] in *. split; [congruence|exact I2].
  Qed.

  (* ---------------------------------------------------------------- *)
  (** What is read. *)
  Lemma hkeys_increasing n bound hs : increasing (map stamp_of hs) -> Forall (fun x => not_after bound (stamp_of x)) hs -> increasing (map (hkey n) hs).
  Proof using.
    induction hs as [|x hs IH]; [constructor|]. intros I F. inversion F as [|? ? F1 F2 Q]; subst. destruct hs as [|y hs]; [constructor|]. cbn [map] in *. inversion I as [| |? ? ? C I']; subst. constructor; [|now apply IH].
    inversion F2 as [|? ? [L2 _] _ Q]; subst. destruct F1 as [L1 _]. unfold hkey, H. rewrite !compare_app. apply compare_longer; [congruence|exact C].
  Qed.
  Lemma filter_rev_ {A} (f : A -> bool) l : filter f (rev l) = rev (filter f l).
  Proof using. induction l as [|x l IH]; [reflexivity|]. cbn [rev filter]. rewrite filter_app, IH. cbn [filter]. destruct (f x); [reflexivity|]. now rewrite app_nil_r. Qed.
  Lemma hsuf_history suf : In suf hsuf -> smem suf [".history.json"; ".history.json.gz"] = true -> exists z, suf = hsfx z.
  Proof using. intros I E. four_cases I; try discriminate; [exists false|exists true]; reflexivity. Qed.
  Lemma history_keys b a bound n hs : Inv b a bound -> proper n -> tells b n (past a n) bound hs -> filter is_history (list_bucket b (history_dir n)) = map (hkey n) hs.
  Proof using.
    intros I Pn T. apply inc_unique; [apply inc_filter, sort_inc|exact (hkeys_increasing n bound hs (tl_inc _ _ _ _ _ T) (tl_bound _ _ _ _ _ T))|].
    intros k. rewrite filter_In. unfold list_bucket. rewrite sort_In, filter_In, in_keys. split.
    - intros [[Q Uk] Hk]. destruct (under_history n k Pn (iv_kinds _ _ _ I k Q) Uk) as (st & suf & Ss & Is & ->). rewrite is_history_H in Hk by exact Is. destruct (hsuf_history suf Is Hk) as [z ->].
      destruct (tl_all _ _ _ _ _ T st z Q) as [u Iu]. apply in_map_iff. exists (st, z, u). split; [reflexivity|exact Iu].
    - intros Ik. apply in_map_iff in Ik as ([[st z] u] & <- & Ix). destruct (tl_in _ _ _ _ _ T _ Ix) as (Ss & t & E). unfold hkey in *. cbn [stamp_of fst snd] in *.
      assert (Is : In (hsfx z) hsuf) by (destruct z; cbn; auto). split; [split; [congruence|now apply under_H]|]. rewrite is_history_H by exact Is. destruct z; reflexivity.
  Qed.
  Lemma read_records_ok (b : files) n (l : list entry) : (forall x, In x l -> exists t, dget b (hkey n x) = Some (Record_of (snd x), t)) -> read_records b (map (hkey n) l) = Some (map snd l).
  Proof using.
    induction l as [|x l IH]; intros Q; [reflexivity|]. cbn [map read_records]. destruct (Q x (or_introl eq_refl)) as [t ->]. rewrite IH; [reflexivity|]. intros y Iy. apply Q. now right.
  Qed.
  Lemma in_firstn {A} n (l : list A) x : In x (firstn n l) -> In x l.
  Proof using. intros I. rewrite <- (firstn_skipn n l). apply in_or_app. now left. Qed.
  Lemma in_skipn {A} n (l : list A) x : In x (skipn n l) -> In x l.
  Proof using. intros I. rewrite <- (firstn_skipn n l). apply in_or_app. now right. Qed.
  Lemma history_read b a bound n size page : Inv b a bound -> proper n ->
    get_history b n size page = Some (if Nat.ltb 0 size then firstn size (skipn ((page - 1) * size) (past a n)) else past a n).
  Proof using.
    intros I Pn. destruct (iv_hist _ _ _ I n Pn) as [hs T]. unfold get_history. rewrite filter_rev_, (history_keys b a bound n hs I Pn T), <- map_rev.
    assert (G : forall x, In x (rev hs) -> exists t, dget b (hkey n x) = Some (Record_of (snd x), t)) by (intros x Ix; apply in_rev in Ix; exact (proj2 (tl_in _ _ _ _ _ T x Ix))).
    assert (E : map snd (rev hs) = past a n) by (rewrite map_rev; etransitivity; [apply f_equal; exact (tl_us _ _ _ _ _ T)|apply rev_involutive]).
    destruct (Nat.ltb 0 size).
    - rewrite skipn_map, firstn_map, read_records_ok by (intros x Ix; apply G; eapply in_skipn, in_firstn; exact Ix). f_equal. rewrite <- E, skipn_map, firstn_map. reflexivity.
    - rewrite read_records_ok by exact G. f_equal. exact E.
  Qed.
  Lemma some_of_In {A C} (f : A -> option C) l y : In y (some_of f l) <-> exists x, In x l /\ f x = Some y.
  Proof using.
    induction l as [|x l IH]; cbn [some_of]; [split; [intros []|intros (x & [] & _)]|]. destruct (f x) as [z|] eqn:E.
    - split.
      + intros [<-|Q]; [exists x; split; [now left|exact E]|]. apply IH in Q as (x' & I & E'). exists x'. split; [now right|exact E'].
      + intros (x' & [<-|I] & E'); [left; congruence|right; apply IH; eauto].
    - rewrite IH. split; intros (x' & I & E'); [exists x'; split; [now right|exact E']|]. destruct I as [<-|I]; [congruence|eauto].
  Qed.
  Lemma some_of_NoDup {A C} (f : A -> option C) l : NoDup l -> (forall x x' y, In x l -> In x' l -> f x = Some y -> f x' = Some y -> x = x') -> NoDup (some_of f l).
  Proof using.
    induction 1 as [|x l N Nd IH]; intros Q; cbn [some_of]; [constructor|]. assert (NoDup (some_of f l)) as Nd' by (apply IH; intros; eapply Q; eauto; now right).
    destruct (f x) as [z|] eqn:E; [|exact Nd']. constructor; [|exact Nd']. intros I. apply some_of_In in I as (x' & I & E'). apply N. assert (x = x') as -> by (eapply Q; eauto; [now left|now right]). exact I.
  Qed.
  Lemma inc_NoDup l : increasing l -> NoDup l.
  Proof using.
    induction l as [|x l IH]; intros I; constructor; [|apply IH; eapply inc_tail; eauto]. intros Ix. pose proof (inc_head_lt _ _ _ I Ix) as L. now apply compare_irrefl in L.
  Qed.
  Lemma local_stack_key b a bound k n : Inv b a bound -> In k (list_bucket b ".pulumi/stacks") -> stack_name (object_name ".pulumi/stacks" k) = Some n ->
    proper n /\ exists z, k = P n (sfx z) /\ dget b k <> None.
  Proof using.
    intros I Ik E. unfold list_bucket in Ik. apply (proj1 (sort_In _ _)) in Ik. apply filter_In in Ik as [Ik Uk]. apply (proj1 (in_keys _ _)) in Ik.
    destruct (under_stacks k (iv_kinds _ _ _ I k Ik) Uk) as (m & suf & Pm & Is & ->). rewrite (proj2 (under_P m suf Pm Is)), stack_name_P in E by exact Is.
    four_cases Is; cbn [smem] in E; cbn in E; try discriminate; injection E as <-; (split; [exact Pm|]); [exists false|exists true]; auto.
  Qed.
  Lemma local_stacks_spec b a bound : Inv b a bound -> NoDup (local_stacks b) /\ forall n, In n (local_stacks b) <-> exists x, a n = Some x.
  Proof using.
    intros I. unfold local_stacks. split.
    - apply some_of_NoDup; [apply inc_NoDup, sort_inc|]. intros k k' n Ik Ik' E E'. destruct (local_stack_key b a bound k n I Ik E) as (Pn & z & -> & Q). destruct (local_stack_key b a bound k' n I Ik' E') as (_ & z' & -> & Q').
      pose proof (iv_state _ _ _ I n Pn) as St. destruct (a n) as [x|]; [|now rewrite St in Q]. destruct St as (y & t & E1 & E2).
      assert (Z : forall w, dget b (P n (sfx w)) <> None -> w = y) by (intros w Qw; destruct (Bool.bool_dec w y) as [->|Nw]; [reflexivity|exfalso; apply Qw; replace w with (negb y) by (clear - Nw; destruct w, y; try reflexivity; now elim Nw); exact E2]).
      rewrite (Z z Q), (Z z' Q'). reflexivity.
    - intros n. rewrite some_of_In. split.
      + intros (k & Ik & E). destruct (local_stack_key b a bound k n I Ik E) as (Pn & z & -> & Q). pose proof (iv_state _ _ _ I n Pn) as St. destruct (a n) as [x|]; [eauto|now rewrite St in Q].
      + intros [x Ex]. pose proof (iv_none _ _ _ I n x Ex) as Pn. pose proof (iv_state _ _ _ I n Pn) as St. rewrite Ex in St. destruct St as (z & t & E & _). exists (P n (sfx z)).
        assert (Is : In (sfx z) four) by (destruct z; cbn; auto). destruct (under_P n (sfx z) Pn Is) as [Uk Ok]. rewrite Ok, stack_name_P by exact Is. split; [|destruct z; reflexivity].
        unfold list_bucket. apply (proj2 (sort_In _ _)), filter_In. split; [apply (proj2 (in_keys _ _)); congruence|exact Uk].
  Qed.
  Lemma list_read b a bound : Inv b a bound -> exists l, list_stacks b (fun _ => b) = Some l /\ NoDup (map fst l) /\ forall n s, In (n, s) l <-> exists x, a n = Some x /\ s_state x = s.
  Proof using.
    intros I. destruct (local_stacks_spec b a bound I) as [Nd Sp]. unfold list_stacks.
    assert (G : forall ns i, (forall n, In n ns -> exists x, a n = Some x) -> exists l, read_stacks (fun _ => b) i ns = Some l /\ map fst l = ns /\ forall n s, In (n, s) l -> exists x, a n = Some x /\ s_state x = s).
    { induction ns as [|n ns IH]; intros i Q; [exists []; repeat split; intros ? ? []|]. cbn [read_stacks]. destruct (Q n (or_introl eq_refl)) as [x Ex]. pose proof (iv_none _ _ _ I n x Ex) as Pn.
      pose proof (iv_state _ _ _ I n Pn) as St. rewrite Ex in St. rewrite plain_P, (current_holds _ _ _ St) by exact Pn. destruct (IH (Datatypes.S i)) as (l & -> & El & Il); [intros; apply Q; now right|].
      exists ((n, s_state x) :: l). split; [reflexivity|]. split; [cbn; now rewrite El|]. intros m s [[= <- <-]|Im]; [eauto|now apply Il]. }
    destruct (G (local_stacks b) 0) as (l & E & El & Il); [intros n In_; now apply Sp|]. exists l. split; [exact E|]. split; [now rewrite El|]. intros n s. split; [apply Il|]. intros (x & Ex & <-).
    assert (In_ : In n (map fst l)) by (rewrite El; apply Sp; eauto). apply in_map_iff in In_ as ([m s] & <- & Im). destruct (Il m s Im) as (y & Ey & Es). cbn [fst] in *. assert (x = y) as -> by congruence. now rewrite Es.
  Qed.
  Lemma current_read b a bound n : Inv b a bound -> proper n -> current (plain_path n) b = match a n with Some x => Some (Checkpoint (s_state x)) | None => None end.
  Proof using.
    intros I Pn. pose proof (iv_state _ _ _ I n Pn) as St. rewrite plain_P by exact Pn. destruct (a n); [now apply current_holds|now apply current_absent].
  Qed.

  (* ---------------------------------------------------------------- *)
  (** Single commands, whatever the storage does. *)
  Lemma remove_refused e (b : files) n b' : remove has_resources e b n = (b', false) -> b' = b.
  Proof using. unfold remove. destruct (get_stack e b n) as [s|]; [|congruence]. destruct (match s with Some s' => has_resources s' | None => false end); congruence. Qed.
  Lemma remove_resources e (b : files) n s : proper n -> current (P n ".json") b = Some (Checkpoint (Some s)) -> has_resources s = true -> remove has_resources e b n = (b, false).
  Proof using.
    intros Pn E R. unfold remove, get_stack. rewrite plain_P, E by exact Pn. destruct (e_readable e s); [now rewrite R|reflexivity].
  Qed.
  Lemma delete_all_none e ph keys k : forall i (b : files), dget b k = None -> dget (delete_all e ph i b keys) k = None.
  Proof using.
    induction keys as [|x keys IH]; intros i b N; [exact N|]. cbn [delete_all]. apply IH. unfold one, perform. destruct (performed _); [|exact N]. cbn [effect]. rewrite dget_ddel. now destruct (String.eqb k x).
  Qed.
  Lemma delete_all_other e ph k : forall keys i (b : files), ~ In k keys -> dget (delete_all e ph i b keys) k = dget b k.
  Proof using.
    induction keys as [|x keys IH]; intros i b N; [reflexivity|]. cbn [delete_all]. rewrite IH by (intros I; apply N; now right). unfold one, perform. destruct (performed _); [|reflexivity]. cbn [effect]. rewrite dget_ddel.
    destruct (String.eqb_spec k x) as [->|]; [destruct N; now left|reflexivity].
  Qed.
  Lemma history_not_P (b : files) n m suf : proper n -> ~ In (P m suf) (list_bucket b (history_dir n)).
  Proof using.
    intros Pn I. unfold list_bucket in I. apply (proj1 (sort_In _ _)) in I. apply filter_In in I as [_ I]. unfold under in I. rewrite history_dir_P in I by exact Pn.
    destruct (strip_prefix _ _) as [x|] eqn:E; [|discriminate]. apply strip_prefix_spec in E. discriminate.
  Qed.
  Lemma bak_other n suf suf' : In suf [".json"; ".json.gz"] -> In suf' [".json"; ".json.gz"] -> P n suf <> P n (suf' ++ ".bak").
  Proof using. intros I I' E. apply P_inj in E as [_ E]; [|exact I|four_cases I'; cbn; auto]. four_cases I; four_cases I'; discriminate. Qed.
  Lemma stack_path_cases (b : files) n : exists z, stack_path (P n ".json") b = P n (sfx z).
  Proof using.
    unfold stack_path. change (gzip_path (P n ".json")) with (P n ".json" ++ ".gz")%string. rewrite gz_P.
    destruct (dget b (P n ".json.gz")) as [[x t]|]; [|now exists false]. destruct (dget b (P n ".json")) as [[y u]|]; [|now exists true]. destruct (Nat.ltb t u); [now exists false|now exists true].
  Qed.
  Lemma sfx_in z : In (sfx z) [".json"; ".json.gz"]. Proof using. destruct z; cbn; auto. Qed.
  (** Files with states after the file has been moved to the backup. *)
  Lemma moved r clock (b : files) n z z' : r 1 = Fine ->
    dget (perform_all b (backup_target r clock 0 (P n (sfx z)) false)) (P n (sfx z')) = if Bool.eqb z z' then None else dget b (P n (sfx z')).
  Proof using.
    intros W. unfold backup_target, at_step. cbn [perform_all fold_left]. rewrite bak_P. set (b1 := perform b _).
    assert (E : dget b1 (P n (sfx z')) = dget b (P n (sfx z'))).
    { unfold b1, perform. destruct (performed (r 0)); [|reflexivity]. apply effect_same. cbn [key_of]. apply bak_other; apply sfx_in. }
    unfold perform. rewrite W. cbn [performed effect]. rewrite dget_ddel, E. destruct (String.eqb_spec (P n (sfx z')) (P n (sfx z))) as [Ez|N].
    - apply P_sfx in Ez as ->. now rewrite Bool.eqb_reflx.
    - destruct (Bool.eqb_spec z z') as [->|]; [contradiction|reflexivity].
  Qed.
  Lemma remove_removed e (b : files) n b' : proper n -> remove has_resources e b n = (b', true) -> e_io e 0 1 = Fine ->
    dget b (P n ".json") = None \/ dget b (P n ".json.gz") = None -> current (P n ".json") b' = None.
  Proof using.
    intros Pn. unfold remove. destruct (get_stack e b n) as [s|]; [|discriminate]. destruct (match s with Some s' => has_resources s' | None => false end); [discriminate|].
    rewrite plain_P by exact Pn. destruct (stack_path_cases b n) as [z Ez]. rewrite Ez. set (b1 := perform_all b _). intros [= <-] W O. apply current_absent. intros z'. apply delete_all_none.
    unfold b1. rewrite moved by exact W. destruct (Bool.eqb_spec z z') as [->|Nz]; [reflexivity|].
    assert (Ho : dget b (P n (sfx z')) = None \/ dget b (P n (sfx z)) = None) by (destruct z, z'; try (now destruct Nz); cbn [sfx]; tauto).
    destruct Ho as [Ho|Ho]; [exact Ho|]. unfold stack_path in Ez. change (gzip_path (P n ".json")) with (P n ".json" ++ ".gz")%string in Ez. rewrite gz_P in Ez.
    destruct z, z'; try (now destruct Nz); cbn [sfx] in *.
    - rewrite Ho in Ez. apply (P_sfx n false true) in Ez. discriminate.
    - destruct (dget b (P n ".json.gz")) as [[x t]|]; [|reflexivity]. rewrite Ho in Ez. apply (P_sfx n true false) in Ez. discriminate.
  Qed.
  Lemma remove_fault n (s : S) : proper n -> has_resources s = false -> exists (e : env S) (b b' : files), remove has_resources e b n = (b', true) /\ current (P n ".json") b' = Some (Checkpoint (Some s)).
  Proof using.
    intros Pn R. exists (mkEnv false (fun _ _ => Fault false) (fun i => i) "" (fun _ => true)), [(P n ".json", (Checkpoint (Some s), 0))].
    assert (E : dget [(P n ".json", (@Checkpoint S U (Some s), 0))] (P n ".json") = Some (Checkpoint (Some s), 0)) by (cbn [dget]; now rewrite String.eqb_refl).
    assert (G : dget [(P n ".json", (@Checkpoint S U (Some s), 0))] (P n ".json.gz") = None) by (cbn [dget]; destruct (String.eqb_spec (P n ".json.gz") (P n ".json")) as [X|]; [now apply (P_sfx n true false) in X|reflexivity]).
    eexists. unfold remove, get_stack. rewrite plain_P by exact Pn. rewrite current_eq, gz_P, G, E. cbn [e_readable]. rewrite R. split; [reflexivity|].
    rewrite current_eq, gz_P, !delete_all_other by (now apply history_not_P). cbn [perform_all backup_target fold_left perform at_step performed e_io]. now rewrite G, E.
  Qed.
  Lemma remove_twice n (s old : S) e : proper n -> has_resources s = false -> working e ->
    exists (b b' : files), current (P n ".json") b = Some (Checkpoint (Some s)) /\ remove has_resources e b n = (b', true) /\ current (P n ".json") b' = Some (Checkpoint (Some old)).
  Proof using.
    intros Pn R [W W']. set (b := [(P n (sfx true), (@Checkpoint S U (Some s), 2)); (P n (sfx false), (Checkpoint (Some old), 1))]). exists b.
    assert (E1 : dget b (P n (sfx true)) = Some (Checkpoint (Some s), 2)) by (unfold b; cbn [dget]; now rewrite String.eqb_refl).
    assert (E2 : dget b (P n (sfx false)) = Some (Checkpoint (Some old), 1)) by (unfold b; cbn [dget]; rewrite String.eqb_refl; destruct (String.eqb_spec (P n (sfx false)) (P n (sfx true))) as [X|]; [now apply P_sfx in X|reflexivity]).
    assert (Sp : stack_path (P n ".json") b = P n (sfx true)).
    { unfold stack_path. change (gzip_path (P n ".json")) with (P n ".json" ++ ".gz")%string. rewrite gz_P. change ".json.gz" with (sfx true). change ".json" with (sfx false). rewrite E1, E2. reflexivity. }
    assert (C : current (P n ".json") b = Some (Checkpoint (Some s))) by (unfold current; now rewrite Sp, E1).
    eexists. split; [exact C|]. unfold remove, get_stack. rewrite plain_P, C, W', R by exact Pn. split; [reflexivity|].
    rewrite Sp, current_eq, gz_P. change ".json.gz" with (sfx true). change (P n ".json") with (P n (sfx false)). rewrite !delete_all_other by (now apply history_not_P). rewrite !moved by apply W. cbn [Bool.eqb]. now rewrite E2.
  Qed.
  Lemma create_exists e (b : files) n s : proper n -> current (P n ".json") b = Some (Checkpoint s) -> (forall s', s = Some s' -> e_readable e s' = true) -> create e b n = (b, false).
  Proof using.
    intros Pn E R. unfold create, get_stack. rewrite plain_P, E by exact Pn. destruct s as [s|]; [|reflexivity]. now rewrite (R s eq_refl).
  Qed.
  (** Saving without compression. *)
  Lemma save_plain e ph (b : files) n v : (forall p i, e_io e p i = Fine) -> proper n -> e_gzip e = false ->
    forall k, dget (fst (save e ph b n v)) k =
      if String.eqb k (P n ".json") then Some (Checkpoint v, e_clock e 4)
      else if String.eqb k (P n (".json" ++ ".bak")) then match dget b (P n ".json") with Some (d, _) => Some (d, e_clock e 2) | None => dget b k end
      else if String.eqb k (P n ".json.gz") then None
      else if String.eqb k (P n (".json.gz" ++ ".bak")) then match dget b (P n ".json.gz") with Some (d, _) => Some (d, e_clock e 0) | None => dget b k end
      else dget b k.
  Proof using.
    intros W Pn G k. unfold save. rewrite plain_P, G by exact Pn. unfold save_stack, backup_target, at_step. cbn [attempts negb app]. unfold at_step. rewrite !W. change (gzip_path (P n ".json")) with (P n ".json" ++ ".gz")%string. rewrite gz_P, !bak_P.
    assert (N1 : P n ".json" <> P n (".json.gz" ++ ".bak")) by (apply bak_other; cbn; auto).
    assert (N2 : P n ".json" <> P n ".json.gz") by (intros X; now apply (P_sfx n false true) in X).
    assert (N3 : P n (".json" ++ ".bak") <> P n ".json.gz") by (apply not_eq_sym, bak_other; cbn; auto).
    assert (N4 : P n (".json" ++ ".bak") <> P n (".json.gz" ++ ".bak")) by (intros X; apply P_bak_inj in X as [_ X]; [discriminate|cbn; auto|cbn; auto]).
    cbn [fst perform_all fold_left perform performed]. set (b1 := effect b (Copy _ _) _). set (b2 := effect b1 (Delete _) _). set (b3 := effect b2 _ _). cbn [effect]. rewrite dget_dset. destruct (String.eqb_spec k (P n ".json")) as [->|Nk]; [reflexivity|].
    assert (E1 : forall k', k' <> P n (".json.gz" ++ ".bak") -> dget b1 k' = dget b k') by (intros k' X; unfold b1; now apply effect_same).
    assert (E2 : forall k', dget b2 k' = if String.eqb k' (P n ".json.gz") then None else dget b1 k') by (intros k'; unfold b2; cbn [effect]; apply dget_ddel).
    unfold b3. cbn [effect]. rewrite (E2 (P n ".json")). destruct (String.eqb_spec (P n ".json") (P n ".json.gz")) as [X|_]; [contradiction|]. rewrite (E1 _ N1).
    destruct (String.eqb_spec k (P n (".json" ++ ".bak"))) as [->|Nb].
    - destruct (dget b (P n ".json")) as [[d t]|]; [now rewrite dget_dset, String.eqb_refl|]. rewrite E2. destruct (String.eqb_spec (P n (".json" ++ ".bak")) (P n ".json.gz")) as [X|_]; [contradiction|]. now apply E1.
    - transitivity (dget b2 k).
      { destruct (dget b (P n ".json")) as [[d t]|]; [|reflexivity]. rewrite dget_dset. destruct (String.eqb_spec k (P n (".json" ++ ".bak"))); [contradiction|reflexivity]. }
      rewrite E2. destruct (String.eqb_spec k (P n ".json.gz")) as [->|Ng]; [reflexivity|]. destruct (String.eqb_spec k (P n (".json.gz" ++ ".bak"))) as [->|Ngb]; [|now apply E1].
      unfold b1. cbn [effect]. destruct (dget b (P n ".json.gz")) as [[d t]|]; [now rewrite dget_dset, String.eqb_refl|reflexivity].
  Qed.

  (** A state that cannot be read is lost. *)
  Lemma create_lost e n (s : S) (b : files) : proper n -> (forall p i, e_io e p i = Fine) -> e_gzip e = false -> e_readable e s = false ->
    (forall k t, dget b k = Some (Checkpoint (Some s), t) -> k = P n ".json") -> current (P n ".json") b = Some (Checkpoint (Some s)) ->
    let (b', ok) := create e b n in
    ok = true /\ current (P n ".json") b' = Some (Checkpoint None) /\
    forall e' s' u, working e' -> slashless (e_stamp e') -> e_gzip e' = false -> s' <> s ->
      let (b'', ok') := update e' b' n [s'] u in
      ok' = true /\ forall k t, dget b'' k <> Some (Checkpoint (Some s), t).
  Proof using.
    intros Pn W G R O C. unfold create, get_stack. rewrite plain_P, C, R by exact Pn.
    set (e0 := mkEnv (e_gzip e) (e_io e) (e_clock e) (e_stamp e) (fun _ : S => true)).
    assert (W0 : working e0) by (split; [exact W|reflexivity]). pose proof (save_fine e0 0 b n None W0 Pn) as F. change (save e0 0 b n None) with (save e 0 b n None) in F.
    pose proof (save_plain e 0 b n None W Pn G) as D0. destruct (save e 0 b n None) as [b' ok]. cbn [fst] in D0. destruct F as (-> & Hb & _ & _). split; [reflexivity|]. split; [now apply current_holds|].
    intros e' s' u W' Ss G' Ns. unfold update, get_stack. rewrite plain_P by exact Pn. rewrite (current_holds _ _ _ Hb). cbn [saves List.length].
    pose proof (save_fine e' 0 b' n (Some s') W' Pn) as F1. pose proof (save_plain e' 0 b' n (Some s') (proj1 W') Pn G') as D1. destruct (save e' 0 b' n (Some s')) as [b1 ok1]. cbn [fst] in D1. destruct F1 as (-> & H1 & _ & _). cbn [saves].
    assert (N1 : P n ".json" <> P n (".json.gz" ++ ".bak")) by (apply bak_other; cbn; auto).
    assert (N0 : P n ".json" <> P n (".json" ++ ".bak")) by (apply bak_other; cbn; auto).
    assert (N2 : P n ".json" <> P n ".json.gz") by (intros X; now apply (P_sfx n false true) in X).
    assert (O1 : forall k t, dget b1 k <> Some (Checkpoint (Some s), t)).
    { intros k t. rewrite D1. destruct (String.eqb_spec k (P n ".json")) as [->|Nk]; [intros [= X _]; congruence|].
      destruct (String.eqb_spec k (P n (".json" ++ ".bak"))) as [->|Nb].
      - rewrite D0, String.eqb_refl. discriminate.
      - destruct (String.eqb_spec k (P n ".json.gz")) as [->|Ng]; [discriminate|].
        assert (E : dget b' (P n ".json.gz") = None). { rewrite D0. destruct (String.eqb_spec (P n ".json.gz") (P n ".json")) as [X|_]; [congruence|]. destruct (String.eqb_spec (P n ".json.gz") (P n (".json" ++ ".bak"))) as [X|_]; [exfalso; revert X; apply bak_other; cbn; auto|]. now rewrite String.eqb_refl. }
        rewrite E. replace (if String.eqb k (P n (".json.gz" ++ ".bak")) then dget b' k else dget b' k) with (dget b' k) by (now destruct (String.eqb k (P n (".json.gz" ++ ".bak")))). rewrite D0.
        destruct (String.eqb_spec k (P n ".json")) as [|_]; [contradiction|]. destruct (String.eqb_spec k (P n (".json" ++ ".bak"))) as [|_]; [contradiction|]. destruct (String.eqb_spec k (P n ".json.gz")) as [|_]; [contradiction|].
        destruct (String.eqb_spec k (P n (".json.gz" ++ ".bak"))) as [->|].
        + destruct (dget b (P n ".json.gz")) as [[d t']|] eqn:Eg; [|intros X; apply O in X; congruence]. intros [= -> _]. apply O in Eg. congruence.
        + intros X. apply O in X. contradiction. }
    assert (Keep : forall (b0 : files) o i, (forall k t, dget b0 k <> Some (Checkpoint (Some s), t)) -> (forall key d, o = Write key d -> d <> Checkpoint (Some s)) -> forall k t, dget (effect b0 o i) k <> Some (Checkpoint (Some s), t)).
    { intros b0 o i A Wr k t. destruct o as [dst src|key|key d]; cbn [effect].
      - destruct (dget b0 src) as [[d t']|] eqn:Es; [|apply A]. rewrite dget_dset. destruct (String.eqb k dst); [|apply A]. intros [= -> _]. now apply A in Es.
      - rewrite dget_ddel. destruct (String.eqb k key); [discriminate|apply A].
      - rewrite dget_dset. destruct (String.eqb k key); [|apply A]. intros [= -> _]. now apply (Wr key (Checkpoint (Some s)) eq_refl). }
    pose proof (add_fine e' 1 b1 n u W' Pn Ss) as A. 
    assert (O2 : forall k t, dget (fst (add_to_history e' 1 b1 n u)) k <> Some (Checkpoint (Some s), t)).
    { unfold add_to_history, fine. rewrite !(proj1 W'). cbn [fst]. rewrite !(one_fine e') by exact W'. apply Keep; [|congruence]. apply Keep; [exact O1|]. intros key d [= _ <-]. discriminate. }
    destruct (add_to_history e' 1 b1 n u) as [b2 ok2]. cbn [fst] in O2. destruct A as (-> & S2 & _ & _).
    assert (H2 : holds b2 n (Some s')).
    { destruct H1 as (z & t & E1 & E2). exists z, t. rewrite !S2; [auto| |]; intros [X|X]; now apply P_H in X. }
    pose proof (backup_fine e' 2 b2 n (Some s') W' Pn H2) as B2.
    assert (O3 : forall k t, dget (fst (backup_stack e' 2 b2 n)) k <> Some (Checkpoint (Some s), t)).
    { unfold backup_stack. destruct (dget b2 (stack_path (plain_path n) b2)) as [[d t]|] eqn:Ed; [|exact O2]. cbn [fst]. rewrite (one_fine e') by exact W'. apply Keep; [exact O2|]. intros key d' [= _ <-] ->. now apply O2 in Ed. }
    destruct (backup_stack e' 2 b2 n) as [b3 ok3]. cbn [fst] in O3. destruct B2 as (-> & _). split; [reflexivity|exact O3].
  Qed.

  (** Listing while others work. *)
  Definition no_removal (c : command S U) : Prop := forall n, c <> Remove n.
  Lemma does_app cs : forall (a : abstract) ds, fst (does_all has_resources a (cs ++ ds)) = fst (does_all has_resources (fst (does_all has_resources a cs)) ds).
  Proof using.
    induction cs as [|c cs IH]; intros a ds; [reflexivity|]. cbn [app does_all]. destruct (does has_resources a c) as [a1 ok]. specialize (IH a1 ds). destruct (does_all has_resources a1 (cs ++ ds)) as [a2 o2]. destruct (does_all has_resources a1 cs) as [a3 o3]. cbn [fst] in *. exact IH.
  Qed.
  Lemma does_kept cs : Forall no_removal cs -> forall (a : abstract) n, a n <> None -> fst (does_all has_resources a cs) n <> None.
  Proof using.
    induction 1 as [|c cs N F IH]; intros a n E; [exact E|]. cbn [does_all]. destruct (does has_resources a c) as [a1 ok] eqn:D. assert (E1 : a1 n <> None).
    { destruct c as [m|m ss u|m]; cbn [does] in D; [| |now destruct (N m)].
      - destruct (a m); injection D as <- _; [exact E|]. unfold set. destruct (String.eqb n m); [discriminate|exact E].
      - destruct (a m); injection D as <- _; [|exact E]. unfold set. destruct (String.eqb n m); [discriminate|exact E]. }
    specialize (IH a1 n E1). destruct (does_all has_resources a1 cs) as [a2 o2]. exact IH.
  Qed.
  Lemma read_kept (later : nat -> files) : forall names i, (forall j n, In n names -> exists s, current (plain_path n) (later j) = Some (Checkpoint s)) ->
    exists l, read_stacks later i names = Some l /\ map fst l = names /\ forall n s, In (n, s) l -> exists j, current (plain_path n) (later j) = Some (Checkpoint s).
  Proof using.
    induction names as [|n names IH]; intros i A; [exists []; split; [reflexivity|]; split; [reflexivity|intros n s []]|]. cbn [read_stacks]. destruct (A i n (or_introl eq_refl)) as [s E]. rewrite E.
    destruct (IH (Datatypes.S i)) as (l & -> & M & R); [intros j m I; apply A; now right|]. eexists. split; [reflexivity|]. split; [cbn; congruence|]. intros m v [[= <- <-]|I]; [eauto|auto].
  Qed.
  Lemma list_kept cs t0 (later : nat -> files) :
    Forall (fun ec => working (fst ec) /\ proper (about (snd ec))) cs -> going_on t0 (map (fun ec => e_stamp (fst ec)) cs) ->
    (forall i, exists ds, later i = fst (run_all has_resources [] (cs ++ ds)) /\ Forall (fun ec => (working (fst ec) /\ proper (about (snd ec))) /\ no_removal (snd ec)) ds /\ going_on t0 (map (fun ec => e_stamp (fst ec)) (cs ++ ds))) ->
    exists l, list_stacks (fst (run_all has_resources [] cs)) later = Some l /\ NoDup (map fst l) /\ (forall n, In n (map fst l) <-> fst (does_all has_resources no_stacks (map snd cs)) n <> None) /\
      forall n s, In (n, s) l -> exists j, current (P n ".json") (later j) = Some (Checkpoint s).
  Proof using.
    intros F G L. destruct (inv_all cs [] no_stacks t0 (inv_start t0) F G) as (t & _ & I). set (b := fst (run_all has_resources [] cs)) in *. set (a := fst (does_all has_resources no_stacks (map snd cs))) in *.
    destruct (local_stacks_spec b a t I) as [Nd Sp]. assert (Sp' : forall n, In n (local_stacks b) <-> a n <> None) by (intros n; rewrite Sp; destruct (a n) as [x|]; [split; [discriminate|eauto]|split; [intros [x X]; discriminate|congruence]]).
    assert (Pr : forall n, In n (local_stacks b) -> proper n) by (intros n X; apply Sp in X as [x X]; exact (iv_none _ _ _ I n x X)).
    destruct (read_kept later (local_stacks b) 0) as (l & E & M & R).
    { intros j n X. pose proof (Pr n X) as Pn. destruct (L j) as (ds & -> & Fd & Gd).
      assert (F2 : Forall (fun ec => working (fst ec) /\ proper (about (snd ec))) (cs ++ ds)) by (apply Forall_app; split; [exact F|eapply Forall_impl; [|exact Fd]; cbn; tauto]).
      destruct (inv_all (cs ++ ds) [] no_stacks t0 (inv_start t0) F2 Gd) as (t' & _ & I'). rewrite map_app, does_app in I'.
      rewrite (current_read _ _ _ n I' Pn). assert (K : fst (does_all has_resources a (map snd ds)) n <> None).
      { apply does_kept; [|now apply Sp']. clear - Fd. induction Fd as [|x ds [_ N] Fd IH]; constructor; auto. }
      fold a. destruct (fst (does_all has_resources a (map snd ds)) n) as [x|]; [eauto|contradiction]. }
    exists l. split; [exact E|]. rewrite M. split; [exact Nd|]. split; [exact Sp'|]. intros n s X. rewrite <- plain_P; [now apply R|]. apply Pr. rewrite <- M. now apply (in_map fst) in X.
  Qed.
End Files.
