(** C147: providers that a program registers itself have the plugin that the
    default provider would have. *)
From Coq Require Import List Bool Ascii String.
From Verif Require Import Model_DefaultProv Spec_DefaultProv Proof_DefaultProv Model_ExplicitProv Prop_DefaultProv.
Import ListNotations.

Definition no_inputs : plugin := {| p_version := None; p_url := [] |}.

(** Whatever calls come in a run, a default provider that is answered to a call has
    the plugin that a provider gets that is registered with the same version and
    URL. Proved if neither is given, or a URL that does not end in a slash, or if
    there is no default URL. *)
Theorem C147_same_partial s config defaults engine l :
  (forall c, In c l -> c_explicit c = None -> proper c) ->
  forall i c f,
  nth_error l i = Some c -> c_explicit c = None ->
  nth_error (answers s config defaults engine l) i = Some (Got f) ->
  proper_url (c_url c) ->
  c_version c = None /\ c_url c = [] \/ c_version c <> None /\ c_url c <> []
    \/ c_version c <> None /\ snd (defaults (c_pkg c)) = []
    \/ c_url c <> [] /\ fst (defaults (c_pkg c)) = None ->
  exists n r g, nth_error (s_log (final s config defaults engine l)) n = Some (r, g)
    /\ ref_pkg f = g_pkg g /\ ref_name f = g_name g
    /\ plugin_of g = explicit_plugin defaults (c_pkg c) (c_version c) (c_url c) no_inputs.
Proof.
  intros P i c f Li Xc Ai U K.
  destruct (C143_own_partial s config defaults engine l P i c f Li Xc Ai)
    as (n & r & g & id & N & (S1 & S2 & S3 & S4 & S5 & S6) & R1 & R2 & _).
  exists n, r, g. split; [auto|split; [congruence|split; [auto|]]].
  assert (A : asks_url c (c_url c)) by (split; auto).
  specialize (S5 _ A). unfold plugin_of, explicit_plugin, no_inputs; cbn [p_version p_url].
  destruct (c_version c) as [v|] eqn:V; [rewrite (S3 _ eq_refl)|rewrite (S4 eq_refl)];
    destruct (c_url c) as [|x u] eqn:E;
    [rewrite (S6 eq_refl)|rewrite S5 by discriminate|rewrite (S6 eq_refl)|rewrite S5 by discriminate].
  - destruct K as [[K _]|[[_ K]|[[_ K]|[K _]]]]; try congruence. 
  - reflexivity.
  - destruct (fst (defaults (c_pkg c))), (snd (defaults (c_pkg c))); reflexivity.
  - destruct K as [[_ K]|[[K _]|[[K _]|[_ K]]]]; try congruence.
Qed.

(** Refuted: with a version and no URL, a default provider is taken from the
    default URL and one that is registered is not. *)
Definition from_url (p : text) : option version * text := (Some (ver [] []), lit "https://h").
Theorem C147_refuted_url :
  exists c g, proper c /\ c_explicit c = None
    /\ map snd (s_log (final Unset (fun _ => Some []) from_url ids [c])) = [g]
    /\ p_url (plugin_of g) = lit "https://h"
    /\ p_url (explicit_plugin from_url (c_pkg c) (c_version c) (c_url c) no_inputs) = [].
Proof.
  exists (asks "aws" (Some (ver [] [])) ""). eexists.
  split; [split; [apply package_lit; reflexivity|split; [|exists []; apply no_url]]|].
  - intros v E; inversion E; subst v. apply (ver_proper [] []); constructor.
  - split; [reflexivity|]. split; [vm_compute; reflexivity|]. split; reflexivity.
Qed.

(** Refuted: so it is for the version if there is a URL and no version. *)
Theorem C147_refuted_version :
  exists c g, c_explicit c = None
    /\ map snd (s_log (final Unset (fun _ => Some []) from_url ids [c])) = [g]
    /\ p_version (plugin_of g) = Some (ver [] [])
    /\ p_version (explicit_plugin from_url (c_pkg c) (c_version c) (c_url c) no_inputs) = None.
Proof.
  exists (asks "aws" None "https://g"). eexists.
  split; [reflexivity|]. split; [vm_compute; reflexivity|]. split; reflexivity.
Qed.

(** What is given in the options is used. *)
Theorem C147_given defaults p v u inputs :
  (forall w, v = Some w -> p_version (explicit_plugin defaults p v u inputs) = Some w)
  /\ (u <> [] -> p_url (explicit_plugin defaults p v u inputs) = u).
Proof.
  unfold explicit_plugin. destruct v as [w|], u as [|x u]; cbn; split; intros; congruence.
Qed.

(** A case: the second call of some_calls asks for nothing. *)
Example some_explicit :
  exists f, nth_error (answers Unset (fun _ => Some []) from_url ids some_calls) 1 = Some (Got f)
  /\ explicit_plugin from_url (lit "azure-native") None [] no_inputs
     = {| p_version := Some (ver [] []); p_url := lit "https://h" |}.
Proof. eexists; split; vm_compute; reflexivity. Qed.

Print Assumptions C147_same_partial.
Print Assumptions C147_refuted_url.
Print Assumptions C147_refuted_version.
Print Assumptions C147_given.
