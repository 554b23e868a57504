(** What is expected of the directory of plugins and of the calls that change it *)
From Verif Require Import Base Model_Plugins.
Open Scope string_scope.

(** Names of plugins: letters, digits and dashes, a letter or digit at the end. *)
Definition letters_digits : list ascii := list_ascii_of_string "abcdefghijklmnopqrstuvwxyzABCDEFGHIJKLMNOPQRSTUVWXYZ0123456789".
Definition proper_name (n : string) : Prop :=
  (exists m c, n = m ++ String c "" /\ In c letters_digits) /\
  (forall c, In c (list_ascii_of_string n) -> In c letters_digits \/ c = "-"%char).
(** Kinds of plugins. *)
Definition kinds : list string := ["analyzer"; "language"; "resource"].
(** Left over from the installations of earlier releases: the text ends with .tmp and digits. *)
Definition left_over (d : string) : Prop :=
  exists a n, d = a ++ ".tmp" ++ n /\ n <> "" /\ forall c, In c (list_ascii_of_string n) -> In c (list_ascii_of_string "0123456789").

(** What is assumed of the library for versions: what it prints it reads back; and a version has
    dashes only after the first dot ("1.2.0-rc1", but not "1-rc1"). *)
Definition semantic {V} (L : semver V) : Prop :=
  (forall v, sv_parse L (sv_print L v) = Some v) /\
  (forall t v a b, sv_parse L t = Some v -> t = a ++ "-" ++ b -> exists x y, a = x ++ "." ++ y).

(** A subdirectory that is for version [v] of the plugin [n] of kind [k]. *)
Definition holds {V} (L : semver V) (d k n : string) (v : V) : Prop :=
  In k kinds /\ proper_name n /\ ~ left_over d /\ exists t, d = k ++ "-" ++ n ++ "-v" ++ t /\ sv_parse L t = Some v.
(** Installed: completely. *)
Definition installed {V} (L : semver V) (c : cache) (k n : string) (v : V) : Prop := exists d, In (d, false) c /\ holds L d k n v.

(** Optional arguments: None and "" are not given. *)
Definition given (o : option string) : Prop := exists s, o = Some s /\ s <> "".
(** What a removal asks for. *)
Definition asked {V} (L : semver V) (name version_range : option string) (n : string) (v : V) : Prop :=
  (forall s, name = Some s -> s <> "" -> n = s) /\
  (forall s, version_range = Some s -> s <> "" -> exists f, sv_range L s = Some f /\ f v = true).
(** Arguments are not taken for flags. *)
Definition no_flag (o : option string) : Prop := forall s, o <> Some (String "-" s).
(** Which versions of a plugin will do for the one that is asked for. *)
Definition suits {V} (L : semver V) (legacy : bool) (v v' : V) : Prop :=
  v' = v \/
  (legacy = false /\ exists f, sv_range L (sv_print L v) = Some f /\ f v' = true) \/
  (legacy = true /\ sv_ge L v' v = true).
(** As a range, the text of the version is that version only. *)
Definition single {V} (L : semver V) (v : V) : Prop :=
  exists f, sv_range L (sv_print L v) = Some f /\ forall v', f v' = true -> v' = v.
