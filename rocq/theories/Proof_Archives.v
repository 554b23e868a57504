(** Proofs about Model_Archives. *)
From Coq Require Import Permutation.
From Verif Require Proof_Pickle.
From Verif Require Import Base Model_Archives Spec_Archives.
Open Scope string_scope.
Open Scope list_scope.

(** The specification with the functions of the model. *)
Inductive under' : string -> node -> string -> string -> Prop :=
| u_file' k x b : k <> ".pulumi" -> under' k (File x b) k b
| u_link' k t x b : k <> ".pulumi" -> stat (Link t) = Some (File x b) -> under' k (Link t) k b
| u_dir' k es k' n m b : k <> ".pulumi" -> In (k', n) es -> under' k' n m b -> under' k (Dir es) (k ++ "/" ++ m)%string b.
Inductive contains' (T : tools) (d : disk) : archive -> string -> string -> Prop :=
| c_asset' ms k x b : In (k, M_asset x) ms -> read_asset d x = Some b -> contains' T d (Members ms) k b
| c_archive' ms k y m b : In (k, M_archive y) ms -> contains' T d y m b -> contains' T d (Members ms) (join T k m) b
| c_directory' p es k n m b : path_format T p = None -> node_at d p = Some (Dir es) -> In (k, n) es -> under' k n m b -> contains' T d (In_path p) m b
| c_file' p f bytes l m b : path_format T p = Some f -> file_at d p = Some bytes -> unpack T f bytes = Some l -> In (m, b) l -> contains' T d (In_path p) m b
| c_uri' u f bytes l m b : uri_format T u = Some f -> fetch d u = Some bytes -> unpack T f bytes = Some l -> In (m, b) l -> contains' T d (In_uri u) m b.
Inductive astray' : string -> node -> Prop :=
| a_link' k t : k <> ".pulumi" -> stat (Link t) = None -> astray' k (Link t)
| a_dir' k es k' n : k <> ".pulumi" -> In (k', n) es -> astray' k' n -> astray' k (Dir es).
Inductive broken' (T : tools) (d : disk) : archive -> Prop :=
| b_asset' ms k x : In (k, M_asset x) ms -> read_asset d x = None -> broken' T d (Members ms)
| b_archive' ms k y : In (k, M_archive y) ms -> broken' T d y -> broken' T d (Members ms)
| b_nothing' p : path_format T p = None -> node_at d p = None -> broken' T d (In_path p)
| b_no_directory' p n : path_format T p = None -> node_at d p = Some n -> (forall es, stat n <> Some (Dir es)) -> broken' T d (In_path p)
| b_astray' p es k n : path_format T p = None -> node_at d p = Some (Dir es) -> In (k, n) es -> astray' k n -> broken' T d (In_path p)
| b_no_file' p f : path_format T p = Some f -> file_at d p = None -> broken' T d (In_path p)
| b_garbled' p f bytes : path_format T p = Some f -> file_at d p = Some bytes -> unpack T f bytes = None -> broken' T d (In_path p)
| b_uri' u : uri_format T u = None -> broken' T d (In_uri u)
| b_no_answer' u f : uri_format T u = Some f -> fetch d u = None -> broken' T d (In_uri u)
| b_garbled_answer' u f bytes : uri_format T u = Some f -> fetch d u = Some bytes -> unpack T f bytes = None -> broken' T d (In_uri u).

Lemma node_ind' : forall Q : node -> Prop, (forall x b, Q (File x b)) -> (forall es, (forall k n, In (k, n) es -> Q n) -> Q (Dir es)) -> (forall t, Q (Link t)) -> forall n, Q n.
Proof.
  intros Q HF HD HL. refine (fix F n := match n with File x b => HF x b | Dir es => HD es _ | Link t => HL t end).
  induction es as [|[k' m] es IH]; [intros k y []|]. intros k y [E|H]; [|exact (IH k y H)].
  assert (Z : m = y) by congruence. rewrite <- Z. exact (F m).
Qed.
Lemma archive_ind' : forall Q : archive -> Prop, (forall ms, (forall k a, In (k, M_archive a) ms -> Q a) -> Q (Members ms)) ->
  (forall p, Q (In_path p)) -> (forall u, Q (In_uri u)) -> forall a, Q a.
Proof.
  intros Q HM HP HU. refine (fix F a := match a with Members ms => HM ms _ | In_path p => HP p | In_uri u => HU u end).
  induction ms as [|[k' m] ms IH]; [intros k y []|]. intros k y [E|H]; [|exact (IH k y H)].
  destruct m as [x|z]; [discriminate E|]. assert (Z : z = y) by congruence. rewrite <- Z. exact (F z).
Qed.

Lemma all_of_some : forall l r, all_of l = Some r -> (forall o, In o l -> exists x, o = Some x) /\ forall e, In e r <-> exists x, In (Some x) l /\ In e x.
Proof.
  induction l as [|[x|] l IH]; intros r H; cbn in H; [| |discriminate].
  - inversion H; subst. split; [intros o []|]. intros e. split; [intros [] | intros [x [[] _]]].
  - destruct (all_of l) as [r'|] eqn:A; [|discriminate]. inversion H; subst. destruct (IH r' eq_refl) as [B C]. split.
    + intros o [<-|O]; eauto.
    + intros e. rewrite in_app_iff, C. split.
      * intros [E|[y [Y E]]]; [exists x; split; auto; now left | exists y; split; auto; now right].
      * intros [y [[Y|Y] E]]; [left; congruence | right; eauto].
Qed.
Lemma app_assoc_s : forall a b c : string, ((a ++ b) ++ c = a ++ b ++ c)%string.
Proof. induction a; cbn; intros; congruence. Qed.
Lemma walk_under : forall n pre name l, walk (pre ++ name)%string name n = Some l ->
  forall m b, In (m, b) l <-> exists m', under' name n m' b /\ m = (pre ++ m')%string.
Proof.
  induction n as [x c|es IH|t] using node_ind'; intros pre name l H m b; cbn [walk] in H.
  - destruct (String.eqb name ".pulumi") eqn:P; inversion H; subst.
    + apply String.eqb_eq in P. subst. split; [intros [] | intros [m' [U _]]; inversion U; congruence].
    + apply String.eqb_neq in P. split.
      * intros [E|[]]. inversion E; subst. exists name. split; auto. now constructor.
      * intros [m' [U ->]]. inversion U; subst. now left.
  - destruct (String.eqb name ".pulumi") eqn:P.
    + inversion H; subst. apply String.eqb_eq in P. subst. split; [intros [] | intros [m' [U _]]; inversion U; congruence].
    + apply String.eqb_neq in P. destruct (all_of_some _ _ H) as [A B]. rewrite B. clear B H. split.
      * intros [r [R E]]. apply in_map_iff in R as [[k n] [R I]]. cbn [fst snd] in R.
        replace ((pre ++ name) ++ "/" ++ k)%string with ((pre ++ name ++ "/") ++ k)%string in R by now rewrite !app_assoc_s.
        apply (IH k n I _ _ _ R) in E as [m' [U ->]]. exists (name ++ "/" ++ m')%string. split; [econstructor; eauto | now rewrite !app_assoc_s].
      * intros [m' [U ->]]. inversion U; subst. destruct (A (walk ((pre ++ name) ++ "/" ++ k')%string k' n)) as [r R].
        { apply in_map_iff. exists (k', n). auto. }
        exists r. split; [apply in_map_iff; exists (k', n); auto|].
        replace ((pre ++ name) ++ "/" ++ k')%string with ((pre ++ name ++ "/") ++ k')%string in R by now rewrite !app_assoc_s.
        match goal with U' : under' k' n _ b |- _ => apply (IH k' n ltac:(assumption) _ _ _ R); eexists; split; [exact U' | now rewrite !app_assoc_s] end.
  - destruct (String.eqb name ".pulumi") eqn:P.
    + inversion H; subst. apply String.eqb_eq in P. subst. split; [intros [] | intros [m' [U _]]; inversion U; congruence].
    + apply String.eqb_neq in P. destruct (stat (Link t)) as [[x c|es|t']|] eqn:S; inversion H; subst.
      * split.
        -- intros [E|[]]. inversion E; subst. exists name. split; auto. econstructor; eauto.
        -- intros [m' [U ->]]. inversion U; subst. match goal with Q : stat _ = Some (File _ b) |- _ => rewrite S in Q; inversion Q; subst end. now left.
      * split; [intros [] | intros [m' [U _]]; inversion U; subst; congruence].
Qed.
Lemma insert_in : forall A k (a : A) l e, In e (insert k a l) <-> e = (k, a) \/ In e l.
Proof.
  intros A k a. induction l as [|[k' a'] l IH]; intros e; cbn [insert]; [cbn; intuition congruence|].
  destruct (String.leb k k'); cbn [In]; [intuition congruence|]. rewrite IH. intuition.
Qed.
Lemma sort_in : forall A (l : list (string * A)) e, In e (sort l) <-> In e l.
Proof. intros A l e. unfold sort. induction l as [|[k a] l IH]; cbn [fold_right fst snd]; [reflexivity|]. rewrite insert_in, IH. cbn. intuition congruence. Qed.

Lemma open_contains : forall T d a l, open T d a = Some l -> forall m b, In (m, b) l <-> contains' T d a m b.
Proof.
  intros T d. induction a as [ms IH|p|u] using archive_ind'; intros l H m b; cbn [open] in H.
  - destruct (all_of_some _ _ H) as [A B]. rewrite B. clear B H. split.
    + intros [r [R E]]. apply in_map_iff in R as [[k o] [R S]]. cbn [snd] in R. subst o. apply sort_in, in_map_iff in S as [[k' mm] [Q I]].
      cbn [fst snd] in Q. inversion Q; subst k'. destruct mm as [x|y].
      * destruct (read_asset d x) as [c|] eqn:RA; [|discriminate]. cbn in H1. inversion H1; subst r. destruct E as [E|[]]. inversion E; subst. eapply c_asset'; eauto.
      * destruct (open T d y) as [l'|] eqn:O; [|discriminate]. cbn in H1. inversion H1; subst r. apply in_map_iff in E as [[m' b'] [E1 E2]]. inversion E1; subst.
        eapply c_archive'; eauto. eapply IH; eauto.
    + intros C. inversion C; subst.
      * match goal with I : In (m, M_asset ?x) ms, R : read_asset d ?x = Some b |- _ =>
          exists [(m, b)]; split; [|now left]; apply in_map_iff; exists (m, Some [(m, b)]); split; auto; apply sort_in, in_map_iff; exists (m, M_asset x); split; auto; cbn; now rewrite R end.
      * match goal with I : In (?k, M_archive ?y) ms, C' : contains' T d ?y ?m0 b |- _ =>
          destruct (open T d y) as [l'|] eqn:O;
            [ exists (map (fun nb => (join T k (fst nb), snd nb)) l'); split;
                [ apply in_map_iff; exists (k, Some (map (fun nb => (join T k (fst nb), snd nb)) l')); split; auto; apply sort_in, in_map_iff; exists (k, M_archive y); split; auto; cbn; now rewrite O
                | apply in_map_iff; exists (m0, b); split; auto; eapply IH; eauto ]
            | exfalso; destruct (A None) as [z Z]; [apply in_map_iff; exists (k, None); split; auto; apply sort_in, in_map_iff; exists (k, M_archive y); split; auto; cbn; now rewrite O | discriminate] ] end.
  - destruct (path_format T p) as [f|] eqn:F.
    + destruct (file_at d p) as [c|] eqn:FA; [|discriminate]. split; [intros I; eapply c_file'; eauto|]. intros C. inversion C; subst; congruence.
    + destruct (node_at d p) as [n|] eqn:N; [|discriminate]. destruct (stat n) as [[x c|es|t]|] eqn:S; try discriminate. destruct n as [x c|es'|t].
      * cbn in S. discriminate.
      * unfold walk_root in H. destruct (all_of_some _ _ H) as [A B]. rewrite B. clear B H. split.
        -- intros [r [R E]]. apply in_map_iff in R as [[k n] [R I]]. cbn [fst snd] in R. apply (walk_under n "" k r R) in E as [m' [U ->]]. cbn. eapply c_directory'; eauto.
        -- intros C. inversion C; subst; [|congruence]. rewrite N in *. match goal with Q : Some (Dir _) = Some (Dir _) |- _ => inversion Q; subst end.
           destruct (A (walk k k n)) as [r R]; [apply in_map_iff; exists (k, n); auto|].
           exists r. split; [apply in_map_iff; exists (k, n); auto|]. apply (walk_under n "" k r R). exists m. auto.
      * cbn [walk_root walk] in H. change (String.eqb "" ".pulumi") with false in H. rewrite S in H. inversion H; subst. split; [intros []|].
        intros C. inversion C; subst; congruence.
  - destruct (uri_format T u) as [f|] eqn:F; [|discriminate]. destruct (fetch d u) as [c|] eqn:FA; [|discriminate].
    split; [intros I; eapply c_uri'; eauto|]. intros C. inversion C; subst; congruence.
Qed.

Lemma first_only_spec : forall l seen, NoDup (map fst (first_only seen l)) /\ (forall n b, In (n, b) (first_only seen l) -> In (n, b) l /\ ~ In n seen)
  /\ forall n b, In (n, b) l -> ~ In n seen -> In n (map fst (first_only seen l)).
Proof.
  induction l as [|[n b] l IH]; intros seen; cbn [first_only]; [split; [constructor|split; intros ? ? []]|].
  assert (EX : existsb (String.eqb n) seen = true <-> In n seen).
  { rewrite existsb_exists. split; [intros [x [X E]]; apply String.eqb_eq in E; now subst | intros I; exists n; split; auto; apply String.eqb_refl]. }
  destruct (existsb (String.eqb n) seen).
  - destruct (IH seen) as [A [B C]]. split; auto. split.
    + intros n' b' I. destruct (B n' b' I). split; auto. now right.
    + intros n' b' [E|I] S; eauto. inversion E; subst. exfalso. apply S. now apply EX.
  - assert (NI : ~ In n seen) by (intros I; apply EX in I; discriminate). destruct (IH (n :: seen)) as [A [B C]]. cbn [map fst]. split; [|split].
    + constructor; auto. intros I. apply in_map_iff in I as [[n' b'] [E I]]. cbn in E. subst. apply B in I as [_ I]. apply I. now left.
    + intros n' b' [E|I]; [inversion E; subst; split; auto; now left|]. apply B in I as [I1 I2]. split; [now right|]. intros S. apply I2. now right.
    + intros n' b' [E|I] S; [inversion E; subst; now left|]. destruct (string_dec n n') as [->|NE]; [now left|]. right. eapply C; eauto. intros [Q|Q]; auto.
Qed.

(** The order in which the members are given does not matter. *)
Lemma insert_swap : forall A k k' (a a' : A), k <> k' -> forall l, insert k a (insert k' a' l) = insert k' a' (insert k a l).
Proof.
  intros A k k' a a' NE. assert (ONE : String.leb k k' = negb (String.leb k' k)).
  { destruct (String.leb k k') eqn:E1, (String.leb k' k) eqn:E2; auto.
    - exfalso. apply NE. now apply String.leb_antisym.
    - destruct (String.leb_total k k'); congruence. }
  induction l as [|[x y] l IH]; cbn [insert].
  - rewrite ONE. destruct (String.leb k' k); reflexivity.
  - destruct (String.leb k x) eqn:E1, (String.leb k' x) eqn:E2; cbn [insert]; rewrite ?E1, ?E2.
    + rewrite ONE. destruct (String.leb k' k); reflexivity.
    + destruct (String.leb k' k) eqn:E3; auto. exfalso. rewrite (Proof_Pickle.leb_trans k' k x E3 E1) in E2. discriminate.
    + destruct (String.leb k k') eqn:E3; auto. exfalso. rewrite (Proof_Pickle.leb_trans k k' x E3 E2) in E1. discriminate.
    + now rewrite IH.
Qed.
Lemma sort_permuted : forall A (l l' : list (string * A)), Permutation l l' -> NoDup (map fst l) -> sort l = sort l'.
Proof.
  intros A l l' H. unfold sort. induction H as [|[k a] l l' H IH|[k a] [k' a'] l|l l1 l' H1 IH1 H2 IH2]; intros N; cbn [fold_right fst snd map] in *; auto.
  - apply NoDup_cons_iff in N as [_ N]. now rewrite IH.
  - apply NoDup_cons_iff in N as [N _]. apply insert_swap. intros ->. apply N. now left.
  - rewrite IH1 by auto. apply IH2. eapply Permutation_NoDup; [apply Permutation_map; exact H1 | exact N].
Qed.

(** Errors. *)
Lemma all_of_none : forall l, all_of l = None <-> In None l.
Proof.
  induction l as [|[x|] l IH]; cbn; [split; [discriminate | intros []] | |split; auto].
  destruct (all_of l); cbn; split; try discriminate.
  - intros [H|H]; [discriminate | now apply IH in H].
  - intros _. right. now apply IH.
  - intros _. reflexivity.
Qed.
Lemma stat_no_link : forall n t, stat n <> Some (Link t).
Proof. fix F 1. intros [x b|es|[n|]] t; cbn; try discriminate. apply F. Qed.
Lemma walk_none : forall n path name, walk path name n = None <-> astray' name n.
Proof.
  induction n as [x c|es IH|t] using node_ind'; intros path name; cbn [walk]; destruct (String.eqb name ".pulumi") eqn:P.
  1, 3, 5: apply String.eqb_eq in P; subst; split; [discriminate | intros A; inversion A; congruence].
  all: apply String.eqb_neq in P.
  - split; [discriminate | intros A; inversion A].
  - rewrite all_of_none, in_map_iff. split.
    + intros [[k n] [E I]]. cbn [fst snd] in E. econstructor; eauto. eapply IH; eauto.
    + intros A. inversion A; subst. exists (k', n). split; auto. cbn [fst snd]. eapply IH; eauto.
  - destruct (stat (Link t)) as [[x c|es|t']|] eqn:S; split; try discriminate; try (intros A; inversion A; congruence).
    + exfalso. eapply stat_no_link; eauto.
    + intros _. now constructor.
Qed.
Lemma open_none : forall T d a, open T d a = None <-> broken' T d a.
Proof.
  intros T d. induction a as [ms IH|p|u] using archive_ind'; cbn [open].
  - rewrite all_of_none, in_map_iff. split.
    + intros [[k o] [E S]]. cbn in E. subst o. apply sort_in, in_map_iff in S as [[k' mm] [Q I]]. cbn [fst snd] in Q. inversion Q; subst k'. destruct mm as [x|y].
      * destruct (read_asset d x) eqn:R; [discriminate|]. eapply b_asset'; eauto.
      * destruct (open T d y) eqn:O; [discriminate|]. eapply b_archive'; eauto. eapply IH; eauto.
    + intros B. inversion B; subst.
      * match goal with I : In (?k, M_asset ?x) ms, R : read_asset d ?x = None |- _ =>
          exists (k, None); split; auto; apply sort_in, in_map_iff; exists (k, M_asset x); split; auto; cbn; now rewrite R end.
      * match goal with I : In (?k, M_archive ?y) ms, R : broken' T d ?y |- _ =>
          apply (IH k y I) in R; exists (k, None); split; auto; apply sort_in, in_map_iff; exists (k, M_archive y); split; auto; cbn; now rewrite R end.
  - destruct (path_format T p) as [f|] eqn:F.
    + destruct (file_at d p) as [c|] eqn:FA.
      * split; [intros U; eapply b_garbled'; eauto | intros B; inversion B; congruence].
      * split; [intros _; eapply b_no_file'; eauto | auto].
    + destruct (node_at d p) as [n|] eqn:N; [|split; [intros _; apply b_nothing'; auto | auto]].
      destruct (stat n) as [[x c|es|t]|] eqn:S.
      2:{ destruct n as [x c|es'|t].
          - discriminate.
          - cbn [walk_root]. rewrite all_of_none, in_map_iff. split.
            + intros [[k n] [E I]]. cbn [fst snd] in E. eapply b_astray'; eauto. eapply walk_none; eauto.
            + intros B. inversion B; subst; try congruence.
              rewrite N in *. match goal with Q : Some (Dir _) = Some (Dir _) |- _ => inversion Q; subst end. exists (k, n). split; auto. cbn [fst snd]. eapply walk_none; eauto.
          - cbn [walk_root walk]. change (String.eqb "" ".pulumi") with false. rewrite S. split; [discriminate|]. intros B. inversion B; subst; congruence. }
      all: split; [intros _; eapply b_no_directory'; eauto; intros; congruence | auto].
  - destruct (uri_format T u) as [f|] eqn:F; [|split; [intros _; apply b_uri'; auto | auto]]. destruct (fetch d u) as [c|] eqn:FA.
    + split; [intros U; eapply b_garbled_answer'; eauto | intros B; inversion B; congruence].
    + split; [intros _; eapply b_no_answer'; eauto | auto].
Qed.

(** The two specifications say the same. *)
Lemma leads_stat : forall n m, leads n m <-> stat n = Some m.
Proof.
  split.
  - induction 1; cbn; auto.
  - revert n. fix F 1. intros [x b|es|[t|]]; cbn; intros H; try (inversion H; constructor; fail). constructor. exact (F t H).
Qed.
Lemma holds_file : forall d p b, holds d p b <-> file_at d p = Some b.
Proof.
  intros d p b. unfold holds, file_at. split.
  - intros [n [x [-> L]]]. apply leads_stat in L. now rewrite L.
  - destruct (node_at d p) as [n|]; [|discriminate]. destruct (stat n) as [[x c|es|t]|] eqn:S; try discriminate. intros [= <-]. exists n, x. split; auto. now apply leads_stat.
Qed.
Lemma gives_read : forall d a b, gives d a b <-> read_asset d a = Some b.
Proof.
  intros d a b. split.
  - intros H. inversion H; subst; cbn; auto. now apply holds_file.
  - destruct a; cbn; intros H; [inversion H; constructor | constructor; now apply holds_file | now constructor].
Qed.
Lemma none_iff : forall A (o : option A) (Q : A -> Prop), (forall x, Q x <-> o = Some x) -> o = None <-> forall x, ~ Q x.
Proof.
  intros A o Q H. split.
  - intros -> x X. apply H in X. discriminate.
  - intros N. destruct o as [x|]; auto. exfalso. apply (N x). now apply H.
Qed.
Lemma under_same : forall k n m b, under k n m b <-> under' k n m b.
Proof.
  split; induction 1.
  - now apply u_file'.
  - apply (u_link' k t x b); auto. now apply leads_stat.
  - eapply u_dir'; eauto.
  - now apply u_file.
  - apply (u_link k t x b); auto. now apply leads_stat.
  - eapply u_dir; eauto.
Qed.
Lemma contains_same : forall T d a m b, contains T d a m b <-> contains' T d a m b.
Proof.
  split; induction 1.
  - eapply c_asset'; eauto. now apply gives_read.
  - eapply c_archive'; eauto.
  - eapply c_directory'; eauto. now apply under_same.
  - eapply c_file'; eauto. now apply holds_file.
  - eapply c_uri'; eauto.
  - eapply c_asset; eauto. now apply gives_read.
  - eapply c_archive; eauto.
  - eapply c_directory; eauto. now apply under_same.
  - eapply c_file; eauto. now apply holds_file.
  - eapply c_uri; eauto.
Qed.
Lemma astray_same : forall k n, astray k n <-> astray' k n.
Proof.
  split; induction 1; try (econstructor; eauto; fail).
  - apply a_link'; auto. apply (none_iff _ _ (leads (Link t))); auto. intros x. apply leads_stat.
  - apply a_link; auto. apply (none_iff _ (stat (Link t)) (leads (Link t))); auto. intros x. apply leads_stat.
Qed.
Lemma broken_same : forall T d a, broken T d a <-> broken' T d a.
Proof.
  split; induction 1.
  - eapply b_asset'; eauto. apply (none_iff _ _ (gives d x)); auto. intros y. apply gives_read.
  - eapply b_archive'; eauto.
  - apply b_nothing'; auto.
  - eapply b_no_directory'; eauto. intros es E. apply leads_stat in E. eapply H1; eauto.
  - eapply b_astray'; eauto. now apply astray_same.
  - eapply b_no_file'; eauto. apply (none_iff _ _ (holds d p)); auto. intros y. apply holds_file.
  - eapply b_garbled'; eauto. now apply holds_file.
  - apply b_uri'; auto.
  - eapply b_no_answer'; eauto.
  - eapply b_garbled_answer'; eauto.
  - eapply b_asset; eauto. apply (none_iff _ (read_asset d x) (gives d x)); auto. intros y. apply gives_read.
  - eapply b_archive; eauto.
  - apply b_nothing; auto.
  - eapply b_no_directory; eauto. intros es E. apply leads_stat in E. eapply H1; eauto.
  - eapply b_astray; eauto. now apply astray_same.
  - eapply b_no_file; eauto. apply (none_iff _ (file_at d p) (holds d p)); auto. intros y. apply holds_file.
  - eapply b_garbled; eauto. now apply holds_file.
  - apply b_uri; auto.
  - eapply b_no_answer; eauto.
  - eapply b_garbled_answer; eauto.
Qed.
Lemma open_has : forall T d a l, open T d a = Some l -> forall m b, In (m, b) l <-> contains T d a m b.
Proof. intros T d a l H m b. rewrite contains_same. now apply open_contains. Qed.
Lemma open_fails : forall T d a, open T d a = None <-> broken T d a.
Proof. intros T d a. rewrite broken_same. apply open_none. Qed.
