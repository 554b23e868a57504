(** Independent specification of the registries (C39, C40). *)
From Verif Require Import Base Model_Semver Spec_Semver Model_Registry.
Open Scope string_scope.

(** The registries a program can build. *)
Definition reachable (r : registry) : Prop := exists calls, r = register_all [] calls.

Definition registered (r : registry) (key : string) (e : entry) : Prop := exists l, In (key, l) r /\ In e l.

(** No version stands for any version. *)
Definition clash (a b : option version) : Prop :=
  a = None \/ b = None \/ exists x y, a = Some x /\ b = Some y /\ veq x y.

(** Componentwise compatibility, the notion lookups use (C40 relates it to
    semver's). *)
Definition compatible (want have : option version) : Prop :=
  forall w h, want = Some w -> have = Some h ->
    v_major h = v_major w /\ (v_minor w <= v_minor h)%N /\ (v_patch w <= v_patch h)%N.

Definition is_parsed (parse : string -> res version) (s : string) (v : option version) : Prop :=
  (s = "" /\ v = None) \/ (s <> "" /\ exists x, parse s = Ok x /\ v = Some x).

(** [e] is the highest compatible entry: every other one is lower. *)
Definition highest (r : registry) (key : string) (want : option version) (e : entry) : Prop :=
  registered r key e /\ compatible want (e_version e) /\
  forall e', registered r key e' -> compatible want (e_version e') ->
    e' = e \/ exists v v', e_version e = Some v /\ e_version e' = Some v' /\ vlt v' v.

(** Semver's notion: same major version and not lower. *)
Definition semver_accepts (want have : version) : Prop := v_major have = v_major want /\ ~ vlt have want.

(** No two of these registrations clash. *)
Definition no_clashes (calls : list (string * entry)) : Prop :=
  ForallOrdPairs (fun a b => fst a = fst b -> ~ clash (e_version (snd a)) (e_version (snd b))) calls.
