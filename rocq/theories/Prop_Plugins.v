(** C107, C108: installing and removing plugins *)
From Verif Require Import Base Model_StackInit Model_WsConfig Model_Plugins Spec_Plugins Proof_Plugins.
Open Scope string_scope.

(** C107.  Full property: remove_plugin(name, version_range, kind) removes exactly the installed
    plugins of the kind that have the name, if one is given, and a version in the range, if one is
    given; anything else in the directory stays; and it succeeds unless the range is not one, a
    directory cannot be removed or the CLI has other troubles, and even then removes nothing else.
    For every directory and every library for versions.
    Partial: a range is given only with a name. *)
Theorem C107_remove_partial : forall V (L : semver V) legacy download unpack stuck trouble c name version_range kind,
  semantic L -> NoDup (map fst c) -> In kind ["analyzer"; "language"; "resource"] -> no_flag name -> no_flag version_range ->
  given name \/ ~ given version_range ->
  let r := remove_plugin (cli_plugins L legacy download unpack stuck trouble) c name version_range kind in
  (forall d b, In (d, b) (fst r) -> In (d, b) c) /\
  (forall d b, In (d, b) c -> ~ In (d, b) (fst r) -> b = false /\ exists n v, holds L d kind n v /\ asked L name version_range n v) /\
  ((snd r = Got tt /\
    forall k n v, installed L (fst r) k n v <-> installed L c k n v /\ ~ (k = kind /\ asked L name version_range n v)) \/
   (exists k, snd r = CliError k /\
    (~ (forall x y, trouble x y = None) \/ (exists s, version_range = Some s /\ s <> "" /\ sv_range L s = None) \/ exists d, stuck d = true))).
Proof.
  intros V L legacy download unpack stuck trouble c name version_range kind HL Nd Hk Hn Hr Hg r.
  destruct (remove_spec L HL legacy download unpack stuck trouble c name version_range kind Nd Hk Hn Hr Hg) as [(E & S)|(k & E & A & B & D)]; fold r in E; [fold r in S|fold r in A, B].
  - split; [intros d b H; now apply S in H|]. split.
    + intros d b H N. destruct b; [exfalso; apply N, S; split; [exact H|intros [X _]; discriminate]|]. split; [reflexivity|].
      assert (T : try_plugin L d <> None). { intros X. apply N, S. split; [exact H|]. intros (_ & n & v & X' & _). apply (try_plugin_spec L HL) in X'. congruence. }
      destruct (try_plugin L d) as [[[k n] v]|] eqn:Et; [|congruence]. apply (try_plugin_spec L HL) in Et.
      destruct (decided L name version_range n v) as [Y|Y]; [destruct (String.string_dec k kind) as [->|Z]; [now exists n, v|]|].
      * exfalso. apply N, S. split; [exact H|]. intros (_ & n' & v' & X & _). pose proof (holds_fun L HL _ _ _ _ _ _ _ Et X). congruence.
      * exfalso. apply N, S. split; [exact H|]. intros (_ & n' & v' & X & X'). pose proof (holds_fun L HL _ _ _ _ _ _ _ Et X) as Q. injection Q as -> -> ->. contradiction.
    + left. split; [exact E|]. intros k n v. split.
      * intros (d & H1 & H2). apply S in H1 as [H1 N]. split; [now exists d|]. intros [-> X]. apply N. split; [reflexivity|]. now exists n, v.
      * intros [(d & H1 & H2) N]. exists d. split; [|exact H2]. apply S. split; [exact H1|]. intros (_ & n' & v' & X & Y).
        pose proof (holds_fun L HL _ _ _ _ _ _ _ H2 X) as Q. injection Q as -> -> ->. now apply N.
  - split; [exact A|]. split; [exact B|]. right. now exists k.
Qed.
Print Assumptions C107_remove_partial.

(** Versions 1.x for every text x, in their alphabetical order. *)
Definition ex_parse (t : string) : option string := follows "1." t.
Definition ex_semver : semver string :=
  mkSemver string ex_parse (fun v => "1." ++ v)
    (fun t => match ex_parse t with
              | Some v => Some (String.eqb v)
              | None => match follows ">=1." t with Some v => Some (fun x => String.leb v x) | None => None end
              end)
    (fun a b => String.leb b a).
Lemma ex_semantic : semantic ex_semver.
Proof.
  split.
  - intros v. cbn [sv_parse sv_print ex_semver]. unfold ex_parse. now apply follows_spec.
  - intros t v a b E ->. cbn [sv_parse ex_semver] in E. apply follows_spec in E. destruct a as [|x [|y a]]; [discriminate|discriminate|].
    cbn in E. injection E as -> -> E. now exists "1", a.
Qed.
Definition ex_plugins (stuck : string -> bool) : cli cache :=
  cli_plugins ex_semver false (fun _ _ _ => None) (fun _ _ v => if String.eqb v "9.9" then Some "error: broken" else None) stuck (fun _ _ => None).
Definition ex_cache : cache :=
  [("resource-aws-v1.2.0", false); ("resource-aws-v1.4.0", false); ("resource-aws-native-v1.4.0", false); ("language-aws-v1.4.0", false);
   ("resource-gcp-v1.9.9", true); ("resource-gcp-v1.3.0.tmp12", false); ("notes", false)].
Example C107_case :
  semantic ex_semver /\ NoDup (map fst ex_cache) /\ given (Some "aws") /\ no_flag (Some "aws") /\ no_flag (Some ">=1.3.0") /\
  remove_plugin (ex_plugins (fun _ => false)) ex_cache (Some "aws") (Some ">=1.3.0") "resource" = (ddel ex_cache "resource-aws-v1.4.0", Got tt) /\
  remove_plugin (ex_plugins (fun _ => false)) ex_cache (Some "aws") None "resource" = (ddel (ddel ex_cache "resource-aws-v1.2.0") "resource-aws-v1.4.0", Got tt) /\
  remove_plugin (ex_plugins (fun _ => false)) ex_cache None None "resource" =
    ([("language-aws-v1.4.0", false); ("resource-gcp-v1.9.9", true); ("resource-gcp-v1.3.0.tmp12", false); ("notes", false)], Got tt) /\
  (exists k, remove_plugin (ex_plugins (String.eqb "resource-aws-v1.2.0")) ex_cache (Some "aws") None "resource" = (ddel ex_cache "resource-aws-v1.4.0", CliError k)).
Proof.
  split; [exact ex_semantic|]. split; [repeat constructor; cbn; intuition discriminate|]. split; [exists "aws"; split; [reflexivity|discriminate]|].
  split; [intros s; discriminate|]. split; [intros s; discriminate|]. split; [vm_compute; reflexivity|]. split; [vm_compute; reflexivity|]. split; [vm_compute; reflexivity|].
  eexists. vm_compute. reflexivity.
Qed.

(** The property as stated is false: a range without a name is taken for the name of a plugin; the
    call succeeds and removes nothing, in every directory, though there are versions in the range. *)
Theorem C107_refuted :
  (forall V (L : semver V) legacy download unpack stuck c version_range kind,
     semantic L -> In kind ["analyzer"; "language"; "resource"] -> given version_range -> no_flag version_range ->
     (forall n, version_range = Some n -> ~ proper_name n) ->
     remove_plugin (cli_plugins L legacy download unpack stuck (fun _ _ => None)) c None version_range kind = (c, Got tt)) /\
  ~ proper_name ">=1.3.0" /\
  (exists v, installed ex_semver ex_cache "resource" "aws" v /\ asked ex_semver None (Some ">=1.3.0") "aws" v) /\
  remove_plugin (ex_plugins (fun _ => false)) ex_cache None (Some ">=1.3.0") "resource" = (ex_cache, Got tt).
Proof.
  split; [|split; [|split]].
  - intros V L legacy download unpack stuck c version_range kind HL Hk (s & -> & Ns) Hf Hp.
    assert (Q : remove_plugin (cli_plugins L legacy download unpack stuck (fun _ _ => None)) c None (Some s) kind
              = remove_plugin (cli_plugins L legacy download unpack stuck (fun _ _ => None)) c (Some s) None kind).
    { unfold remove_plugin. destruct s; [congruence|]. reflexivity. }
    rewrite Q. apply removes_nothing; auto.
  - intros [_ H]. destruct (H ">"%char) as [X|X]; [now left| |discriminate]. apply alnum_spec in X. discriminate.
  - exists "4.0". split.
    + exists "resource-aws-v1.4.0". split; [right; left; reflexivity|]. now apply (try_plugin_spec ex_semver ex_semantic).
    + split; [intros s; discriminate|]. intros s [= <-] _. eexists. split; [reflexivity|]. reflexivity.
  - vm_compute. reflexivity.
Qed.
Print Assumptions C107_refuted.

(* ------------------------------------------------------------------ *)
(** C108.  Full property: after install_plugin(name, version, kind) that version of the plugin is
    installed, completely; the plugins that were installed remain, and no other one appears; when
    the call fails, at any point, the plugins installed are the ones that were.
    For every directory, also with incomplete plugins in it, and every library for versions.
    Partial: names of plugins are letters, digits and dashes, the version does not end like a temporary
    directory, and is as a range only that version; the search is not the legacy one. *)
Theorem C108_install_partial : forall V (L : semver V) download unpack stuck trouble c name version kind,
  semantic L -> NoDup (map fst c) -> In kind ["analyzer"; "language"; "resource"] -> proper_name name -> no_flag (Some name) -> no_flag (Some version) ->
  (forall v, sv_parse L version = Some v -> single L v /\ ~ left_over (sv_print L v)) ->
  let r := install_plugin (cli_plugins L false download unpack stuck trouble) c name version kind in
  (snd r = Got tt /\ exists v, sv_parse L version = Some v /\
     forall k n v', installed L (fst r) k n v' <-> installed L c k n v' \/ (k, n, v') = (kind, name, v)) \/
  (exists k, snd r = CliError k /\
     (forall k n v', installed L (fst r) k n v' <-> installed L c k n v') /\
     (~ (forall x y, trouble x y = None) \/ sv_parse L version = None \/
      exists v, sv_parse L version = Some v /\ (download kind name v <> None \/ unpack kind name v <> None))).
Proof.
  intros V L download unpack stuck trouble c name version kind HL Nd Hk Hn Hnf Hvf Hv r.
  destruct (install_spec L HL false download unpack stuck trouble c name version kind Nd Hk Hn) as [_ H];
    [intros x E; apply (Hnf x); congruence|intros x E; apply (Hvf x); congruence|]. fold r in H.
  destruct H as [(E & v & Ev & A & B & D)|(k & E & A & B)].
  - left. split; [exact E|]. exists v. split; [exact Ev|]. destruct (Hv v Ev) as [(f & Ef & Hf) Hl]. destruct (A Hl) as (v' & I & S).
    assert (v' = v) by (destruct S as [S|[[_ (f' & Ef' & S)]|[S _]]]; [exact S|apply Hf; congruence|discriminate]). subst v'.
    intros k n v'. split; [apply D|]. intros [X|[= -> -> ->]]; [now apply B|exact I].
  - right. exists k. split; [exact E|]. split; [exact A|]. destruct B as [B|[B|(v & Ev & B)]]; [now left|now right; left|right; right].
    exists v. split; [exact Ev|]. destruct B as [B|[B|[_ B]]]; auto. destruct (Hv v Ev) as [(f & Ef & _) _]. congruence.
Qed.
Print Assumptions C108_install_partial.

(** In general: a version that will do. *)
Theorem C108_general_partial : forall V (L : semver V) legacy download unpack stuck trouble c name version kind v,
  semantic L -> NoDup (map fst c) -> In kind ["analyzer"; "language"; "resource"] -> proper_name name -> no_flag (Some name) -> no_flag (Some version) ->
  sv_parse L version = Some v -> ~ left_over (sv_print L v) ->
  let r := install_plugin (cli_plugins L legacy download unpack stuck trouble) c name version kind in
  snd r = Got tt ->
  (exists v', installed L (fst r) kind name v' /\ suits L legacy v v') /\
  (forall k n v', installed L c k n v' -> installed L (fst r) k n v') /\
  (forall k n v', installed L (fst r) k n v' -> installed L c k n v' \/ (k, n, v') = (kind, name, v)).
Proof.
  intros V L legacy download unpack stuck trouble c name version kind v HL Nd Hk Hn Hnf Hvf Ev Hl r Hr.
  destruct (install_spec L HL legacy download unpack stuck trouble c name version kind Nd Hk Hn) as [_ H];
    [intros x E; apply (Hnf x); congruence|intros x E; apply (Hvf x); congruence|]. fold r in H.
  destruct H as [(E & v0 & Ev0 & A & B & D)|(k & E & _)]; [|congruence]. assert (v0 = v) by congruence. subst v0. auto.
Qed.
Print Assumptions C108_general_partial.

Example C108_case :
  semantic ex_semver /\ proper_name "gcp" /\ no_flag (Some "gcp") /\ no_flag (Some "1.5.0") /\
  (forall v, sv_parse ex_semver "1.5.0" = Some v -> single ex_semver v /\ ~ left_over (sv_print ex_semver v)) /\
  snd (install_plugin (ex_plugins (fun _ => false)) ex_cache "gcp" "1.5.0" "resource") = Got tt /\
  installed ex_semver (fst (install_plugin (ex_plugins (fun _ => false)) ex_cache "gcp" "1.5.0" "resource")) "resource" "gcp" "5.0" /\
  (exists k, install_plugin (ex_plugins (fun _ => false)) ex_cache "gcp" "1.9.9" "resource" = (ddel ex_cache "resource-gcp-v1.3.0.tmp12", CliError k)).
Proof.
  split; [exact ex_semantic|]. split.
  { split; [exists "gc", "p"%char; split; [reflexivity|now apply alnum_spec]|]. intros c Hc. left. apply alnum_spec. repeat destruct Hc as [<-|Hc]; try reflexivity. destruct Hc. }
  split; [intros s; discriminate|]. split; [intros s; discriminate|]. split.
  { intros v [= <-]. split; [eexists; split; [reflexivity|]; intros v' H; symmetry; now apply String.eqb_eq|]. intros H. apply temp_spec in H. discriminate. }
  split; [vm_compute; reflexivity|]. split; [|eexists; vm_compute; reflexivity].
  exists "resource-gcp-v1.5.0". split; [vm_compute; tauto|]. now apply (try_plugin_spec ex_semver ex_semantic).
Qed.

(** The property as stated is false: a plugin whose name has an underscore is installed, the call
    succeeds, but the plugin is never found in the directory and cannot be removed; with the
    legacy search a later version stands in for the one asked for; and a version that looks like a
    temporary directory is deleted by the next installation. *)
Theorem C108_refuted :
  (forall V (L : semver V) c k v, ~ installed L c k "my_plugin" v) /\
  (exists c, install_plugin (ex_plugins (fun _ => false)) [] "my_plugin" "1.5.0" "resource" = (c, Got tt) /\ c <> [] /\
     remove_plugin (ex_plugins (fun _ => false)) c (Some "my_plugin") None "resource" = (c, Got tt)) /\
  install_plugin (cli_plugins ex_semver true (fun _ _ _ => None) (fun _ _ _ => None) (fun _ => false) (fun _ _ => None)) ex_cache "aws" "1.3.0" "resource" = (ex_cache, Got tt) /\
  ~ installed ex_semver ex_cache "resource" "aws" "3.0" /\
  (exists c, install_plugin (ex_plugins (fun _ => false)) [] "gcp" "1.5.0-rc.tmp7" "resource" = (c, Got tt) /\ c = [("resource-gcp-v1.5.0-rc.tmp7", false)] /\
     install_plugin (ex_plugins (fun _ => false)) c "aws" "1.2.0" "resource" = ([("resource-aws-v1.2.0", false)], Got tt)).
Proof.
  split; [|split; [|split; [|split]]].
  - intros V L c k v (d & _ & _ & [_ H] & _). destruct (H "_"%char) as [X|X]; [cbn; tauto| |discriminate]. apply alnum_spec in X. discriminate.
  - exists [("resource-my_plugin-v1.5.0", false)]. split; [vm_compute; reflexivity|]. split; [discriminate|]. vm_compute. reflexivity.
  - vm_compute. reflexivity.
  - intros H. apply (installed_listed ex_semver ex_semantic) in H as (d & H). vm_compute in H. repeat destruct H as [H|H]; try discriminate H. destruct H.
  - eexists. split; [vm_compute; reflexivity|]. split; [reflexivity|]. vm_compute. reflexivity.
Qed.
Print Assumptions C108_refuted.
