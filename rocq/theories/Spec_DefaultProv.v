(** What default providers are to be, in terms of what is asked for, what is
    registered with the engine, and what is answered. *)
From Coq Require Import List Bool Ascii String.
From Verif Require Import Model_DefaultProv.
Import ListNotations.

Definition without (c : ascii) (t : text) : Prop := ~ In c t.

(** A well-formed version: no part is empty, the numbers are digits, and the
    other parts have none of the characters that separate parts. *)
Definition digits (t : text) : Prop :=
  t <> [] /\ forall c, In c t -> 48 <= nat_of_ascii c <= 57.
Definition part (t : text) : Prop :=
  t <> [] /\ without "."%char t /\ without "+"%char t /\ without ":"%char t.
Definition proper_version (v : version) : Prop :=
  digits (v_major v) /\ digits (v_minor v) /\ digits (v_patch v)
  /\ Forall part (v_pre v) /\ Forall part (v_build v).

(** A package with an ordinary name. *)
Definition proper_package (p : text) : Prop := without "."%char p /\ without ":"%char p.

(** A URL: there is none, or it has a scheme and does not end in a slash. *)
Definition proper_url (u : text) : Prop :=
  u = []
  \/ exists scheme rest c,
       u = scheme ++ ":"%char :: rest ++ [c] /\ c <> "/"%char
       /\ without ":"%char scheme /\ without "-"%char scheme.

(** [c] asks for the URL [u], with or without a slash at the end. *)
Definition asks_url (c : call) (u : text) : Prop :=
  proper_url u /\ (c_url c = u \/ u <> [] /\ c_url c = u ++ ["/"%char]).

(** A call with ordinary package, version and URL. *)
Definition proper (c : call) : Prop :=
  proper_package (c_pkg c)
  /\ (forall v, c_version c = Some v -> proper_version v)
  /\ exists u, asks_url c u.

(** Two calls ask for the same. *)
Definition same_url (u1 u2 : text) : Prop :=
  u1 = u2
  \/ exists u c, c <> "/"%char
       /\ (u1 = u ++ [c] /\ u2 = u ++ [c; "/"%char] \/ u2 = u ++ [c] /\ u1 = u ++ [c; "/"%char]).
Definition same (c d : call) : Prop :=
  c_pkg c = c_pkg d /\ c_version c = c_version d /\ same_url (c_url c) (c_url d).

(** The registration is for what [c] asks for: its package with what is configured
    for it, its version, or else the default one, and its URL, or else the default
    one. *)
Definition serves (config : text -> option text) (defaults : text -> option version * text)
    (c : call) (g : registration) : Prop :=
  g_pkg g = c_pkg c
  /\ config (c_pkg c) = Some (g_config g)
  /\ (forall v, c_version c = Some v -> g_version g = Some v)
  /\ (c_version c = None -> g_version g = fst (defaults (c_pkg c)))
  /\ (forall u, asks_url c u -> u <> [] -> g_url g = u)
  /\ (c_url c = [] -> g_url g = snd (defaults (c_pkg c))).

(** A version that is released or a pre-release, but no build. *)
Definition unbuilt (v : version) : Prop :=
  v_build v = [] /\ Forall (without "_"%char) (v_pre v).

(** The item of the list stands for [p], with white space around it. *)
Definition all_white (t : text) : Prop :=
  forall c, In c t -> nat_of_ascii c = 32 \/ 9 <= nat_of_ascii c <= 13.
Definition stands_for (t p : text) : Prop :=
  exists a b, all_white a /\ all_white b /\ t = a ++ p ++ b.
Definition solid (p : text) : Prop :=
  forall c, In c p -> ~ (nat_of_ascii c = 32 \/ 9 <= nat_of_ascii c <= 13).

(** The package is barred from having default providers. *)
Definition barred (s : setting) (p : text) : Prop :=
  exists l t, s = Listed l /\ In (Text t) l /\ (stands_for t (lit "*") \/ stands_for t p).

(** The setting is understood: it is unset, or empty, or a list of strings. *)
Definition understood (s : setting) : Prop :=
  s = Unset \/ s = Empty \/ exists l, s = Listed (map Text l).
