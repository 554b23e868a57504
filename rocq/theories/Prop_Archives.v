(** Properties C141 and C142. *)
From Coq Require Import Permutation.
From Verif Require Import Base Model_Archives Spec_Archives Proof_Archives.
Open Scope string_scope.
Open Scope list_scope.

(** C142 (partial): what a provider is given of an archive, in whatever format it asks for, has every file that
    is in it, once, and nothing else.  Missing: what is behind links to directories. *)
Theorem C142_contents_partial : forall (T : tools) (d : disk) (a : archive) (l : listing), contents T d a = Some l ->
  NoDup (map fst l) /\ (forall m b, In (m, b) l -> contains T d a m b) /\ (forall m b, contains T d a m b -> exists b', In (m, b') l).
Proof.
  intros T d a l. unfold contents. destruct (open T d a) as [r|] eqn:O; [|discriminate]. cbn. intros [= <-].
  destruct (first_only_spec r []) as [A [B C]]. split; auto. split.
  - intros m b I. apply (open_has T d a r O). now apply B.
  - intros m b I. apply (open_has T d a r O) in I. apply C in I; [|intros []]. apply in_map_iff in I as [[m' b'] [<- I]]. exists b'. exact I.
Qed.
(** C142: if no file is there twice with different contents, it has exactly what is in it. *)
Theorem C142_exact_partial : forall (T : tools) (d : disk) (a : archive) (l : listing), contents T d a = Some l ->
  (forall m b b', contains T d a m b -> contains T d a m b' -> b = b') ->
  forall m b, In (m, b) l <-> contains T d a m b.
Proof.
  intros T d a l H F m b. destruct (C142_contents_partial T d a l H) as [_ [B C]]. split; [apply B|]. intros I. destruct (C m b I) as [b' J].
  now rewrite (F m b b' I (B m b' J)).
Qed.

(** C142: there is an error exactly if something of the archive cannot be had. *)
Theorem C142_error : forall (T : tools) (d : disk) (a : archive), contents T d a = None <-> broken T d a.
Proof. intros T d a. rewrite <- open_fails. unfold contents. destruct (open T d a); cbn; split; congruence. Qed.

(** C141 (partial): if an archive is taken for unchanged, it has the files it had, with the same contents: for
    archives that are both files of the same format, or both made of members or directories.  The hash and the tar
    format are such that different files give different results.  Missing: permissions of files. *)
Theorem C141_archive_partial : forall (T : tools) (before now : disk) (a b : archive),
  (forall x y, digest T x = digest T y -> x = y) -> (forall x y, tar T x = tar T y -> x = y) ->
  packed T a = packed T b -> archive_changed T before now a b = false ->
  contents T before a = contents T now b /\ (packed T a = None -> contents T now b <> None).
Proof.
  intros T before now a b DI TI PK H. unfold archive_changed, differ in H.
  destruct (archive_hash T before a) as [x|] eqn:X; [|discriminate]. destruct (archive_hash T now b) as [y|] eqn:Y; [|discriminate].
  apply Bool.negb_false_iff, String.eqb_eq in H. subst y.
  assert (S : forall d c, match packed T c with
    | Some f => exists o, source T d c = Some o /\ open T d c = match o with Some bytes => unpack T f bytes | None => None end
    | None => source T d c = None \/ open T d c = None
    end).
  { intros d [ms|p|u]; cbn; auto; [destruct (path_format T p) as [f|] | destruct (uri_format T u) as [f|]]; eauto. }
  assert (SN : forall d c, packed T c = None -> source T d c = None).
  { intros d [ms|p|u]; cbn; auto; intros ->; auto. }
  unfold archive_hash in X, Y. destruct (packed T a) as [f|] eqn:PA.
  - pose proof (S before a) as SA. rewrite PA in SA. destruct SA as [oa [A1 A2]]. pose proof (S now b) as SB. rewrite <- PK in SB. destruct SB as [ob [B1 B2]].
    rewrite A1 in X. rewrite B1 in Y. destruct oa as [xa|]; [|discriminate]. destruct ob as [xb|]; [|discriminate]. cbn in X, Y.
    assert (E : xa = xb) by (apply DI; congruence). subst. split; [|discriminate]. unfold contents. congruence.
  - rewrite (SN before a PA) in X. rewrite (SN now b (eq_sym PK)) in Y. destruct (contents T before a) as [la|]; [|discriminate].
    destruct (contents T now b) as [lb|]; [|discriminate]. cbn in X, Y. assert (E : tar T la = tar T lb) by (apply DI; congruence).
    apply TI in E. subst. split; auto. discriminate.
Qed.
(** C141, in terms of what is in them. *)
Theorem C141_noticed_partial : forall (T : tools) (before now : disk) (a b : archive),
  (forall x y, digest T x = digest T y -> x = y) -> (forall x y, tar T x = tar T y -> x = y) ->
  packed T a = None -> packed T b = None ->
  (forall m x y, contains T before a m x -> contains T before a m y -> x = y) ->
  (forall m x y, contains T now b m x -> contains T now b m y -> x = y) ->
  forall m x, contains T before a m x -> ~ contains T now b m x -> archive_changed T before now a b = true.
Proof.
  intros T before now a b DI TI PA PB FA FB m x I N. destruct (archive_changed T before now a b) eqn:C; auto. exfalso.
  destruct (C141_archive_partial T before now a b DI TI) as [E K]; auto; [congruence|]. specialize (K PA).
  destruct (contents T now b) as [l|] eqn:L; [|congruence]. apply N. apply (C142_exact_partial T now b l L FB). apply (C142_exact_partial T before a l E FA). exact I.
Qed.
(** C141, for assets: exactly a change of the contents is noticed, wherever they come from. *)
Theorem C141_asset : forall (T : tools) (before now : disk) (a b : asset) (x y : string),
  (forall x y, digest T x = digest T y -> x = y) -> gives before a x -> gives now b y ->
  asset_changed T before now a b = true <-> x <> y.
Proof.
  intros T before now a b x y DI A B. apply gives_read in A, B. unfold asset_changed, asset_hash. rewrite A, B. cbn. rewrite Bool.negb_true_iff, String.eqb_neq.
  split; intros H E; apply H; [now subst | auto].
Qed.
(** C141, the converse: the order in which the members are given is no change. *)
Theorem C141_order_partial : forall (T : tools) (d : disk) (ms ms' : list (string * member)), Permutation ms ms' -> NoDup (map fst ms) ->
  contents T d (Members ms) <> None -> archive_changed T d d (Members ms) (Members ms') = false.
Proof.
  intros T d ms ms' P N C. unfold archive_changed, archive_hash. cbn [source].
  assert (E : contents T d (Members ms) = contents T d (Members ms')).
  { unfold contents. cbn [open]. do 2 f_equal. f_equal. apply sort_permuted; [now apply Permutation_map|]. rewrite map_map. cbn. exact N. }
  rewrite <- E. destruct (contents T d (Members ms)); [|congruence]. cbn. now rewrite String.eqb_refl.
Qed.

(** Tools for examples: a format in which different listings are different files, and the contents for the
    hash. *)
Fixpoint quoted (s : string) : string := match s with EmptyString => "|" | String c s' => String "." (String c (quoted s')) end.
Fixpoint tarred (l : listing) : string := match l with [] => "" | (n, b) :: l' => (quoted n ++ quoted b ++ tarred l')%string end.
Lemma quoted_split : forall s s' r r', (quoted s ++ r = quoted s' ++ r')%string -> s = s' /\ r = r'.
Proof.
  induction s as [|c s IH]; intros [|c' s'] r r' H; cbn in H; inversion H; auto.
  destruct (IH s' r r' H2). now subst.
Qed.
Lemma tarred_split : forall l l', tarred l = tarred l' -> l = l'.
Proof.
  induction l as [|[n b] l IH]; intros [|[n' b'] l'] H; auto; cbn [tarred] in H.
  - destruct n'; discriminate.
  - destruct n; discriminate.
  - apply quoted_split in H as [-> H]. apply quoted_split in H as [-> H]. now rewrite (IH l' H).
Qed.
Definition kit : tools := mkTools (fun p => if String.eqb p "x.zip" then Some 0 else None) (fun _ => None) (fun _ b => Some [("all", b)])
  (fun k n => (k ++ "/" ++ n)%string) tarred (fun x => x).
Definition site (mark : bool) (text : string) : disk :=
  mkDisk (fun p => if String.eqb p "www" then Some (Dir [(".pulumi", Dir [("h", File false "")]); ("css", Dir [("a.css", File false "a")]); ("index", File mark text); ("old", Link (Some (File false "o")))])
                   else if String.eqb p "latest" then Some (Link (Some (Dir [("index", File mark text)])))
                   else if String.eqb p "x.zip" then Some (File false "zipped") else None) (fun _ => None).
Example C142_case :
  contents kit (site true "1") (Members [("w", M_archive (In_path "www")); ("b", M_asset (Text "b")); ("z", M_archive (In_path "x.zip"))])
    = Some [("b", "b"); ("w/css/a.css", "a"); ("w/index", "1"); ("w/old", "o"); ("z/all", "zipped")]
  /\ contents kit (site true "1") (In_path "none") = None.
Proof. split; vm_compute; reflexivity. Qed.
Example C141_case :
  (forall x y, digest kit x = digest kit y -> x = y) /\ (forall x y, tar kit x = tar kit y -> x = y)
  /\ archive_changed kit (site true "1") (site true "2") (In_path "www") (In_path "www") = true
  /\ archive_changed kit (site true "1") (site true "1") (In_path "www") (In_path "www") = false
  /\ archive_changed kit (site true "1") (site true "1") (Members [("b", M_asset (Text "1")); ("a", M_asset (Text "2"))])
       (Members [("a", M_asset (Text "2")); ("b", M_asset (Text "1"))]) = false
  /\ asset_changed kit (site true "1") (site true "2") (Text "zipped") (At_path "x.zip") = false.
Proof. split; [auto|]. split; [exact tarred_split|]. repeat split; vm_compute; reflexivity. Qed.

(** C141 fails for permissions: that a file becomes executable, or no longer is, is not noticed. *)
Theorem C141_refuted_permissions : forall (T : tools) (before now : disk) (p k bytes : string),
  path_format T p = None -> k <> ".pulumi" ->
  node_at before p = Some (Dir [(k, File false bytes)]) -> node_at now p = Some (Dir [(k, File true bytes)]) ->
  archive_changed T before now (In_path p) (In_path p) = false.
Proof.
  intros T before now p k bytes F K A B. apply String.eqb_neq in K. unfold archive_changed, archive_hash, contents. cbn [source open]. rewrite F, A, B.
  cbn [stat walk_root map fst snd walk]. rewrite K. cbn. now rewrite String.eqb_refl.
Qed.
(** C141, the converse, fails: the same files, given by a directory of their own or by their paths, are taken for a change, since
    they come in another order. *)
Theorem C141_refuted_same : exists (T : tools) (d : disk) (a b : archive),
  (forall m x, contains T d a m x <-> contains T d b m x) /\ archive_changed T d d a b = true.
Proof.
  exists kit, (site true ""), (Members [("a", M_archive (Members [("z", M_asset (Text "1"))])); ("a.b", M_asset (Text "2"))]),
    (Members [("a/z", M_asset (Text "1")); ("a.b", M_asset (Text "2"))]).
  split; [|vm_compute; reflexivity]. intros m x. rewrite <- !open_has by (vm_compute; reflexivity). cbn. intuition.
Qed.
(** C142 fails for links: an archive of a link to a directory is empty, whatever is in the directory, and no
    error is given. *)
Theorem C142_refuted_link : forall (T : tools) (d : disk) (p : string) (es : list (string * node)),
  path_format T p = None -> node_at d p = Some (Link (Some (Dir es))) -> contents T d (In_path p) = Some [].
Proof. intros T d p es F N. unfold contents. cbn [open]. now rewrite F, N. Qed.
(** C142: links to directories within a directory are left out as well. *)
Theorem C142_refuted_within : forall (T : tools) (d : disk) (p k : string) (es : list (string * node)),
  path_format T p = None -> node_at d p = Some (Dir [(k, Link (Some (Dir es)))]) -> contents T d (In_path p) = Some [].
Proof. intros T d p k es F N. unfold contents. cbn [open]. rewrite F, N. cbn. destruct (String.eqb k ".pulumi"); reflexivity. Qed.
(** C142: of two members for the same file one is dropped, and no error is given. *)
Theorem C142_refuted_twice : exists (T : tools) (d : disk) (a : archive) (m x y : string),
  x <> y /\ contains T d a m x /\ contains T d a m y /\ contents T d a = Some [(m, x)].
Proof.
  exists kit, (site true ""), (Members [("a/b", M_asset (Text "1")); ("a", M_archive (Members [("b", M_asset (Text "2"))]))]), "a/b", "2", "1".
  split; [discriminate|]. split; [|split; [|vm_compute; reflexivity]].
  - apply (c_archive kit (site true "") _ "a" (Members [("b", M_asset (Text "2"))]) "b"); [right; now left|]. eapply c_asset; [left; reflexivity | constructor].
  - eapply c_asset; [left; reflexivity | constructor].
Qed.

Print Assumptions C141_archive_partial.
Print Assumptions C141_noticed_partial.
Print Assumptions C141_asset.
Print Assumptions C141_order_partial.
Print Assumptions C141_refuted_permissions.
Print Assumptions C141_refuted_same.
Print Assumptions C142_contents_partial.
Print Assumptions C142_exact_partial.
Print Assumptions C142_error.
Print Assumptions C142_refuted_link.
Print Assumptions C142_refuted_within.
Print Assumptions C142_refuted_twice.
