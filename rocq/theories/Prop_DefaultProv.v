(** C143 and C144: default providers. *)
From Coq Require Import List Bool Ascii String Lia.
From Verif Require Import Model_DefaultProv Spec_DefaultProv Proof_DefaultProv.
Import ListNotations.

Section Props.
Context (s : setting) (config : text -> option text)
  (defaults : text -> option version * text) (engine : nat -> option text) (l : list call).
(** The registrations at the end of the run, and what is answered. *)
Definition final := fst (run s config defaults engine start l).
Definition answers := snd (run s config defaults engine start l).

(** C143: who asks for the same gets the same default provider ... *)
Theorem C143_shared i j c d f g :
  nth_error l i = Some c -> nth_error l j = Some d ->
  c_explicit c = None -> c_explicit d = None -> same c d ->
  nth_error answers i = Some (Got f) -> nth_error answers j = Some (Got g) -> f = g.
Proof.
  intros Li Lj Xc Xd S Ai Aj.
  destruct (run_ok s config defaults engine (fun _ => True) l start) as (I & _ & A); [apply inv_start|auto|].
  destruct (A _ _ Li) as (a & Ea & _ & Ha). destruct (A _ _ Lj) as (b & Eb & _ & Hb).
  fold final answers in *.
  assert (a = Got f) by congruence. assert (b = Got g) by congruence. subst a b.
  destruct (proj1 (Ha Xc) _ eq_refl) as [B1 _]. destruct (proj1 (Hb Xd) _ eq_refl) as [B2 _].
  rewrite (same_request _ _ S) in B1. eapply backs_same; eauto.
Qed.

(** ... and for it one provider only is registered. *)
Theorem C143_once : NoDup (map fst (s_log final)).
Proof.
  destruct (run_ok s config defaults engine (fun _ => True) l start) as (I & _ & _); [apply inv_start|auto|].
  fold final in I. pose proof (i_nodup _ _ _ _ _ _ I) as N.
  rewrite <- map_map in N. eapply NoDup_map_inv; exact N.
Qed.

(** Each is answered with a provider that is registered for what it asks for: its
    package, version and URL. Proved for ordinary packages, versions and URLs. *)
Theorem C143_own_partial :
  (forall c, In c l -> c_explicit c = None -> proper c) ->
  forall i c f,
  nth_error l i = Some c -> c_explicit c = None -> nth_error answers i = Some (Got f) ->
  exists n r g id, nth_error (s_log final) n = Some (r, g) /\ serves config defaults c g
    /\ ref_pkg f = c_pkg c /\ ref_name f = g_name g
    /\ engine n = Some id /\ (id <> [] -> ref_id f = id).
Proof.
  intros Pl i c f Li Xc Ai.
  destruct (run_ok s config defaults engine proper_request l start) as (I & _ & A);
    [apply inv_start|intros; apply request_proper; auto|].
  destruct (A _ _ Li) as (a & Ea & _ & Ha). fold final answers in *.
  assert (a = Got f) by congruence. subst a.
  destruct (proj1 (Ha Xc) _ eq_refl) as [(n & r & g & id & N & K & V & G & F) _].
  assert (Pc := Pl _ (nth_error_In _ _ Li) Xc).
  destruct (i_from _ _ _ _ _ _ I _ _ (nth_error_In _ _ N)) as [Pr _].
  assert (r = request_of c) by (apply string_inj; auto using request_proper).
  destruct (event_serves config defaults _ _ _ Pc H V) as [S E].
  exists n, r, g, id. subst f. cbn [made ref_pkg ref_name ref_id].
  split; [auto|split; [auto|split; [apply S|split; [auto|split; [auto|]]]]].
  intros Z; destruct id; [congruence|auto].
Qed.

(** Who asks for other packages or versions gets other providers. Proved for
    versions that are no builds and without a URL. *)
Theorem C143_distinct_partial :
  (forall c, In c l -> c_explicit c = None -> proper c) ->
  forall i j c d f g,
  nth_error l i = Some c -> nth_error l j = Some d ->
  c_explicit c = None -> c_explicit d = None ->
  c_url c = [] -> c_url d = [] ->
  (forall v, c_version c = Some v -> unbuilt v) -> (forall v, c_version d = Some v -> unbuilt v) ->
  c_pkg c <> c_pkg d \/ c_version c <> c_version d ->
  nth_error answers i = Some (Got f) -> nth_error answers j = Some (Got g) ->
  (ref_pkg f, ref_name f) <> (ref_pkg g, ref_name g).
Proof.
  intros Pl i j c d f g Li Lj Xc Xd Uc Ud Rc Rd N Ai Aj.
  destruct (run_ok s config defaults engine proper_request l start) as (I & _ & A);
    [apply inv_start|intros; apply request_proper; auto|].
  fold final answers in *.
  assert (K : forall i c f, nth_error l i = Some c -> c_explicit c = None -> c_url c = [] ->
      nth_error answers i = Some (Got f) ->
      ref_pkg f = c_pkg c /\ ref_name f = request_name {| r_version := c_version c; r_pkg := c_pkg c; r_url := [] |}).
  { clear - A I Pl. intros i c f Li Xc Uc Ai.
    destruct (A _ _ Li) as (a & Ea & _ & Ha).
    assert (a = Got f) by congruence. subst a.
    destruct (proj1 (Ha Xc) _ eq_refl) as [(n & r & g & id & N & K & V & G & F) _].
    assert (Pc := Pl _ (nth_error_In _ _ Li) Xc).
    destruct (i_from _ _ _ _ _ _ I _ _ (nth_error_In _ _ N)) as [Pr _].
    assert (R : r = request_of c) by (apply string_inj; auto using request_proper).
    destruct (event_serves config defaults _ _ _ Pc R V) as [S E].
    subst f. cbn [made ref_pkg ref_name]. split; [apply S|].
    rewrite E, R. unfold request_of, parse_request, new_request. rewrite Uc.
    destruct (c_version c); reflexivity. }
  destruct (K _ _ _ Li Xc Uc Ai) as [P1 N1]. destruct (K _ _ _ Lj Xd Ud Aj) as [P2 N2].
  intros E. inversion E as [[Ep En]]. rewrite P1, P2 in Ep. rewrite N1, N2 in En.
  apply name_inj in En.
  - destruct N as [N|N]; auto.
  - intros v Ev. split; auto. apply (proj1 (proj2 (Pl _ (nth_error_In _ _ Li) Xc))); auto.
  - intros v Ev. split; auto. apply (proj1 (proj2 (Pl _ (nth_error_In _ _ Lj) Xd))); auto.
Qed.

(** C144: no default provider is registered for a package that is barred, and
    nobody is answered with one. *)
Theorem C144_barred p :
  solid p -> barred s p ->
  (forall r g, In (r, g) (s_log final) -> g_pkg g <> p)
  /\ (forall i c a, nth_error l i = Some c -> c_explicit c = None -> c_pkg c = p ->
       nth_error answers i = Some a ->
       (forall f, a <> Got f)
       /\ (understood s -> a = Denied \/ a = Cancelled)).
Proof.
  intros S B. assert (D := barred_deny _ _ S B).
  destruct (run_ok s config defaults engine (fun _ => True) l start) as (I & _ & A); [apply inv_start|auto|].
  fold final answers in *. split.
  - intros r g Hin E. destruct (i_from _ _ _ _ _ _ I _ _ Hin) as (_ & D' & V).
    unfold new_event in V. destruct (config (r_pkg r)); [|discriminate V]. inversion V; subst g.
    cbn in E. congruence.
  - intros i c a Li Xc Pc Ai. destruct (A _ _ Li) as (a' & Ea & _ & Ha).
    assert (a' = a) by congruence. subst a'. destruct (Ha Xc) as (H1 & H2 & H3 & H4).
    rewrite Pc in *. split.
    + intros f ->. destruct (H1 _ eq_refl) as [_ Z]; auto.
    + intros U. destruct a as [f| | |]; auto.
      * destruct (H1 _ eq_refl) as [_ Z]; congruence.
      * exfalso.
        (* it would have to be let through to fail for its configuration *)
        destruct (should_deny s p) as [[]|] eqn:E; [|congruence|exact (understood_some _ _ U E)].
        clear - Li Ai Xc Pc E. unfold answers in Ai.
        revert i Li Ai. generalize start. induction l as [|c0 m IH]; intros st i Li Ai; [destruct i; discriminate|].
        cbn [run] in Ai.
        destruct (answer_call s config defaults engine st c0) as [st1 a1] eqn:A1.
        specialize (IH st1). destruct (run s config defaults engine st1 m) as [st2 as_]. cbn [snd] in *.
        destruct i as [|i]; cbn in *; [|eauto].
        inversion Li; subst c0. inversion Ai; subst a1. unfold answer_call in A1. rewrite Xc in A1.
        unfold handle in A1. rewrite request_pkg, Pc, E in A1.
        destruct (s_cancelled st); discriminate A1.
Qed.

(** A package that is not barred gets its default provider, if the setting is
    understood, its configuration can be read, and the deployment goes on. *)
Theorem C144_others i c :
  nth_error l i = Some c -> c_explicit c = None ->
  ~ barred s (c_pkg c) -> understood s -> config (c_pkg c) <> None ->
  (forall n, engine n <> None) ->
  exists f, nth_error answers i = Some (Got f).
Proof.
  intros Li Xc B U C E.
  destruct (run_ok s config defaults engine (fun _ => True) l start) as (I & _ & A); [apply inv_start|auto|].
  destruct (A _ _ Li) as (a & Ea & _ & Ha). fold final answers in *.
  destruct (Ha Xc) as (H1 & H2 & H3 & H4). destruct a as [f| | |]; eauto; exfalso.
  - apply B, deny_barred; auto.
  - destruct (H3 eq_refl) as [Z|Z]; auto. exact (understood_some _ _ U Z).
  - destruct (cancelled_engine _ _ _ _ _ _ (H4 eq_refl)) as [Z|[n Z]]; [discriminate Z|exact (E n Z)].
Qed.

(** If the setting is not understood there are no default providers at all. *)
Theorem C144_misread :
  ~ understood s ->
  s_log final = []
  /\ forall i c f, nth_error l i = Some c -> c_explicit c = None -> nth_error answers i <> Some (Got f).
Proof.
  intros U.
  destruct (run_ok s config defaults engine (fun _ => True) l start) as (I & _ & A); [apply inv_start|auto|].
  fold final answers in *. split.
  - destruct (s_log final) as [|[r g] m] eqn:E; auto. exfalso.
    destruct (i_from _ _ _ _ _ _ I r g) as (_ & D & _); [rewrite E; left; auto|].
    eapply U, some_understood; eauto.
  - intros i c f Li Xc Ai. destruct (A _ _ Li) as (a & Ea & _ & Ha).
    assert (a = Got f) by congruence. subst a.
    destruct (proj1 (Ha Xc) _ eq_refl) as [_ D]. eapply U, some_understood; eauto.
Qed.

(** Providers that are named are used whatever the setting. *)
Theorem C144_named i c f :
  nth_error l i = Some c -> c_explicit c = Some f -> nth_error answers i = Some (Got f).
Proof.
  intros Li Xc.
  destruct (run_ok s config defaults engine (fun _ => True) l start) as (I & _ & A); [apply inv_start|auto|].
  destruct (A _ _ Li) as (a & Ea & Ha & _). fold answers in *. rewrite (Ha _ Xc) in Ea; auto.
Qed.
End Props.

(** Refuted: versions that differ, one with a pre-release, one with a build, are
    registered under the same name. *)
Definition ver (pre build : list string) : version :=
  {| v_major := lit "1"; v_minor := lit "0"; v_patch := lit "0";
     v_pre := map lit pre; v_build := map lit build |}.
Definition asks (p : string) (v : option version) (u : string) : call :=
  {| c_explicit := None; c_pkg := lit p; c_version := v; c_url := lit u |}.
Definition ids (n : nat) : option text := Some (lit "id" ++ repeat "x"%char n).
Definition plain_run (l : list call) :=
  run Unset (fun _ => Some []) (fun _ => (None, [])) ids start l.

Lemma part_lit t : (if in_dec ascii_dec "."%char t then false else if in_dec ascii_dec "+"%char t then false
   else if in_dec ascii_dec ":"%char t then false else match t with [] => false | _ => true end) = true -> part t.
Proof.
  unfold part, without.
  destruct (in_dec ascii_dec "."%char t), (in_dec ascii_dec "+"%char t), (in_dec ascii_dec ":"%char t); try discriminate.
  destruct t; [discriminate|]. intros _. repeat split; auto; discriminate.
Qed.

Lemma digit_lit t c : t = [c] -> 48 <= nat_of_ascii c <= 57 -> digits t.
Proof. intros -> D. split; [discriminate|]. intros x [<-|[]]; auto. Qed.

Lemma ver_proper pre build : Forall part (map lit pre) -> Forall part (map lit build) -> proper_version (ver pre build).
Proof.
  intros P B. split; [|split; [|split; [|split; auto]]]; eapply digit_lit; try reflexivity; cbn; lia.
Qed.

Lemma no_url : forall p v, asks_url (asks p v "") [].
Proof. intros; split; [left; auto|left; auto]. Qed.

Lemma package_lit t : (if in_dec ascii_dec "."%char t then false
   else if in_dec ascii_dec ":"%char t then false else true) = true -> proper_package t.
Proof.
  unfold proper_package, without.
  destruct (in_dec ascii_dec "."%char t), (in_dec ascii_dec ":"%char t); try discriminate; auto.
Qed.

Theorem C143_refuted_name :
  exists l c d g h, (forall e, In e l -> c_explicit e = None /\ proper e)
    /\ In c l /\ In d l /\ c_version c <> c_version d
    /\ map snd (s_log (fst (plain_run l))) = [g; h]
    /\ g_version g = c_version c /\ g_version h = c_version d
    /\ g_pkg g = g_pkg h /\ g_name g = g_name h.
Proof.
  set (c := asks "aws" (Some (ver ["rc1"%string] [])) ""). set (d := asks "aws" (Some (ver [] ["rc1"%string])) "").
  assert (Hc : c_explicit c = None /\ proper c).
  { split; auto. split; [apply package_lit; reflexivity|]. split; [|exists []; apply no_url].
    intros v E; inversion E; subst v.
    apply (ver_proper ["rc1"%string] []); [constructor; [apply part_lit; reflexivity|constructor]|constructor]. }
  assert (Hd : c_explicit d = None /\ proper d).
  { split; auto. split; [apply package_lit; reflexivity|]. split; [|exists []; apply no_url].
    intros v E; inversion E; subst v.
    apply (ver_proper [] ["rc1"%string]); [constructor|constructor; [apply part_lit; reflexivity|constructor]]. }
  eexists [c; d], c, d, _, _.
  split; [intros e [<-|[<-|[]]]; auto|].
  split; [left; auto|split; [right; left; auto|]].
  split; [discriminate|]. split; [vm_compute; reflexivity|]. repeat split; reflexivity.
Qed.

(** Refuted: so are URLs that differ in a character that is not for names. *)
Theorem C143_refuted_url :
  exists l c d g h, (forall e, In e l -> c_explicit e = None /\ proper e)
    /\ In c l /\ In d l /\ c_url c <> c_url d
    /\ map snd (s_log (fst (plain_run l))) = [g; h]
    /\ g_url g = c_url c /\ g_url h = c_url d
    /\ g_pkg g = g_pkg h /\ g_name g = g_name h.
Proof.
  set (c := asks "aws" None "https://plugins?a"). set (d := asks "aws" None "https://plugins=a").
  assert (U : forall e t, c_url e = lit "https" ++ ":"%char :: (lit t) ++ ["a"%char] ->
     asks_url e (c_url e)).
  { intros e t E. split; [|left; auto]. right. exists (lit "https"), (lit t), "a"%char.
    split; [auto|split; [discriminate|]]. split; intros I; cbn in I; intuition discriminate. }
  assert (Hc : c_explicit c = None /\ proper c).
  { split; auto. split; [apply package_lit; reflexivity|]. split; [discriminate|].
    eexists; apply (U c "//plugins?"%string); reflexivity. }
  assert (Hd : c_explicit d = None /\ proper d).
  { split; auto. split; [apply package_lit; reflexivity|]. split; [discriminate|].
    eexists; apply (U d "//plugins="%string); reflexivity. }
  eexists [c; d], c, d, _, _.
  split; [intros e [<-|[<-|[]]]; auto|].
  split; [left; auto|split; [right; left; auto|]].
  split; [discriminate|]. split; [vm_compute; reflexivity|]. repeat split; reflexivity.
Qed.

(** Refuted: with a URL that has no scheme the provider of another version is
    answered. *)
Theorem C143_refuted_other :
  exists l c d g f, In c l /\ In d l /\ c_explicit c = None /\ c_explicit d = None
    /\ c_version c <> c_version d
    /\ map snd (s_log (fst (plain_run l))) = [g] /\ g_version g = c_version c
    /\ snd (plain_run l) = [Got f; Got f].
Proof.
  exists [asks "aws" (Some (ver ["rc1"%string] [])) ""; asks "aws" (Some (ver [] [])) "rc1"].
  do 2 eexists. do 2 eexists.
  split; [left; reflexivity|split; [right; left; reflexivity|]].
  split; [reflexivity|split; [reflexivity|]]. split; [discriminate|].
  split; [vm_compute; reflexivity|]. split; [reflexivity|vm_compute; reflexivity].
Qed.

(** Cases with all hypotheses: three calls, two of which ask for the same, with a
    slash or not, and a package that is barred. *)
Definition some_calls : list call :=
  [asks "aws" (Some (ver [] [])) "https://h/p"; asks "azure-native" None "";
   asks "aws" (Some (ver [] [])) "https://h/p/"; asks "azure-native" (Some (ver [] [])) "";
   asks "gcp" None ""].
Definition some_setting : setting := Listed [Text (lit " gcp "); Text (lit "k8s")].

Example some_proper : forall c, In c some_calls -> c_explicit c = None -> proper c.
Proof.
  assert (V : forall v, Some (ver [] []) = Some v -> proper_version v).
  { intros v E; inversion E; subst v. apply (ver_proper [] []); constructor. }
  assert (U : forall e, c_url e = lit "https://h/p" \/ c_url e = lit "https://h/p/" -> exists u, asks_url e u).
  { intros e E. exists (lit "https://h/p"). split.
    - right. exists (lit "https"), (lit "//h/"), "p"%char.
      split; [reflexivity|split; [discriminate|]]. split; intros I; cbn in I; intuition discriminate.
    - destruct E as [E|E]; rewrite E; [left; reflexivity|right; split; [discriminate|reflexivity]]. }
  intros c [<-|[<-|[<-|[<-|[<-|[]]]]]] _; (split; [apply package_lit; reflexivity|]); split;
    try exact V; try discriminate; try (exists []; apply no_url); apply U; auto.
Qed.

Example some_unbuilt : unbuilt (ver ["rc"%string; "1"%string] []).
Proof.
  split; [reflexivity|]. cbn. repeat (apply Forall_cons; [intros I; cbn in I; intuition discriminate|]). constructor.
Qed.

Example some_same : same (asks "aws" (Some (ver [] [])) "https://h/p") (asks "aws" (Some (ver [] [])) "https://h/p/").
Proof.
  split; [auto|split; [auto|]]. right. exists (lit "https://h/"), "p"%char.
  split; [discriminate|left; split; reflexivity].
Qed.

Example some_barred : barred some_setting (lit "gcp") /\ solid (lit "gcp") /\ understood some_setting
  /\ ~ understood (Listed [Other]).
Proof.
  split; [|split; [|split]].
  - exists [Text (lit " gcp "); Text (lit "k8s")], (lit " gcp ").
    split; [auto|split; [left; auto|right]]. exists [" "%char], [" "%char].
    split; [intros c [<-|[]]; left; reflexivity|split; [intros c [<-|[]]; left; reflexivity|reflexivity]].
  - intros c I; cbn in I. intuition (subst; cbn in *; lia).
  - right; right. exists [lit " gcp "; lit "k8s"]; reflexivity.
  - intros [E|[E|[[|x l] E]]]; discriminate E.
Qed.

Example some_run :
  let r := run some_setting (fun _ => Some []) (fun _ => (None, [])) ids start some_calls in
  List.length (s_log (fst r)) = 3
  /\ (exists f g h, snd r = [Got f; Got g; Got f; Got h; Denied]
      /\ ref_name f = lit "default_1_0_0_https_/h/p" /\ ref_name g = lit "default"
      /\ ref_name h = lit "default_1_0_0").
Proof. vm_compute. split; [reflexivity|]. do 3 eexists. repeat split; reflexivity. Qed.

Print Assumptions C143_shared.
Print Assumptions C143_once.
Print Assumptions C143_own_partial.
Print Assumptions C143_distinct_partial.
Print Assumptions C143_refuted_name.
Print Assumptions C143_refuted_url.
Print Assumptions C143_refuted_other.
Print Assumptions C144_barred.
Print Assumptions C144_others.
Print Assumptions C144_misread.
Print Assumptions C144_named.
