(** Independent specification of resource construction (C33-C35). *)
From Verif Require Import Base PyVal Model_Options Spec_Options Model_Resource.
Open Scope string_scope.

Definition no_colon (s : string) : Prop := ~ In ":"%char (list_ascii_of_string s).
(** The package of a resource type "package:module:name". *)
Definition has_package (t pkg : string) : Prop :=
  exists m n, t = pkg ++ ":" ++ m ++ ":" ++ n /\ no_colon pkg /\ no_colon m /\ no_colon n.

(** The [providers] option holds [p] for package [pkg]: a list gives each
    provider for its own package, the last one winning; a map gives it by key. *)
Definition option_gives (o : ropts) (pkg : string) (p : provider) : Prop :=
  match ro_providers o with
  | None => False
  | Some (PList l) => last_for l pkg p
  | Some (PMap d) => In (pkg, p) d
  end.
(** What the parent resource gives its children for package [pkg]. *)
Definition parent_gives (w : world) (o : ropts) (pkg : string) (p : provider) : Prop :=
  exists n r, ro_parent o = Some n /\ wget w n = Some r /\ In (pkg, p) (s_providers r).

(** The provider to use for a resource of type [t] with options [o]. *)
Inductive selected (w : world) (t : string) (o : ropts) : option provider -> Prop :=
| sel_explicit p : ro_provider o = Some p -> selected w t o (Some p)
| sel_option pkg p : ro_provider o = None -> has_package t pkg -> option_gives o pkg p -> selected w t o (Some p)
| sel_parent pkg p : ro_provider o = None -> has_package t pkg -> (forall q, ~ option_gives o pkg q) ->
    parent_gives w o pkg p -> selected w t o (Some p)
| sel_none : ro_provider o = None ->
    (forall pkg q, has_package t pkg -> ~ option_gives o pkg q /\ ~ parent_gives w o pkg q) -> selected w t o None.

(** What a resource gives its children: what its own options give (an explicit
    provider counts for the package of its own type), else what its parent
    gives it. *)
Definition own_gives (t : string) (o : ropts) (pkg : string) (p : provider) : Prop :=
  option_gives o pkg p \/
  (has_package t pkg /\ ro_provider o = Some p /\ forall q, ~ option_gives o pkg q).
Definition passes_on (w : world) (t : string) (o : ropts) (r : resource) : Prop :=
  forall pkg p, In (pkg, p) (s_providers r) <->
    own_gives t o pkg p \/ ((forall q, ~ own_gives t o pkg q) /\ parent_gives w o pkg p).

(** Whether a resource is protected: its own option, else its parent's
    protection, else not. *)
Inductive protection (w : world) (o : ropts) : bool -> Prop :=
| prot_own b : ro_protect o = Some b -> protection w o b
| prot_parent n r : ro_protect o = None -> ro_parent o = Some n -> wget w n = Some r -> protection w o (s_protect r)
| prot_none : ro_protect o = None -> ro_parent o = None -> protection w o false.

(** Running transformations in order, each on the previous result. *)
Inductive runs (tf : nat -> transformation) (t name : string) : list nat -> inputs * ropts -> inputs * ropts -> Prop :=
| runs_nil po : runs tf t name [] po po
| runs_keep x ts p o po : tf x t name p o = Ok None -> runs tf t name ts (p, o) po -> runs tf t name (x :: ts) (p, o) po
| runs_change x ts p o p' o' po : tf x t name p o = Ok (Some (p', o')) -> ro_parent o' = ro_parent o ->
    runs tf t name ts (p', o') po -> runs tf t name (x :: ts) (p, o) po.

Definition wf_opts (o : ropts) : Prop := match ro_providers o with Some (PMap d) => wf_dict d | _ => True end.
Definition honest (tf : nat -> transformation) : Prop :=
  forall x t name p o p' o', wf_opts o -> tf x t name p o = Ok (Some (p', o')) -> wf_opts o'.
Definition parent_exists (w : world) (o : ropts) : Prop := forall n, ro_parent o = Some n -> exists r, wget w n = Some r.

(** The worlds a program can reach. *)
Inductive reachable (tf : nat -> transformation) : world -> Prop :=
| re_start : reachable tf (mkWorld [] None)
| re_stack w name w' : reachable tf w -> new_stack tf w name = Ok w' -> reachable tf w'
| re_transform w x w' : reachable tf w -> register_stack_transformation w x = Ok w' -> reachable tf w'
| re_new w t name custom props o w' n q : reachable tf w -> wf_opts o -> parent_exists w o ->
    construct tf w t name custom props o = Ok (w', n, q) -> reachable tf w'.

(** Programs that create the stack, register its transformations [ts] and then
    create resources. *)
Inductive program (tf : nat -> transformation) : list nat -> world -> Prop :=
| pr_stack name w : new_stack tf (mkWorld [] None) name = Ok w -> program tf [] w
| pr_transform ts w x w' : program tf ts w -> length (w_resources w) = 1 -> register_stack_transformation w x = Ok w' ->
    program tf (ts ++ [x]) w'
| pr_new ts w t name custom props o w' n q : program tf ts w -> parent_exists w o ->
    construct tf w t name custom props o = Ok (w', n, q) -> program tf ts w'.

(** The parent of a resource, for transformations: resources without a parent
    belong to the stack. *)
Definition parent_of (w : world) (o : ropts) (p : nat) : Prop :=
  ro_parent o = Some p \/ (ro_parent o = None /\ w_root w = Some p).
(** The transformations a resource hands down: its own, then its parent's, and
    so on up to the stack's [ts]. *)
Inductive hands_down (w : world) (ts : list nat) : nat -> list nat -> Prop :=
| hd_stack n : w_root w = Some n -> hands_down w ts n ts
| hd_child n r p l : wget w n = Some r -> w_root w <> Some n -> parent_of w (s_given r) p -> hands_down w ts p l ->
    hands_down w ts n (items (ro_transformations (s_given r)) ++ l).

(** The transformations to run for a new resource: its own, then those its
    parent (or the stack) recorded. *)
Definition applies (w : world) (given : ropts) (ts : list nat) : Prop :=
  (exists p r, parent_of w given p /\ wget w p = Some r /\ ts = (items (ro_transformations given) ++ s_transformations r)%list) \/
  (ro_parent given = None /\ w_root w = None /\ ts = items (ro_transformations given)).
(** The types of the form ":..." have an empty package, which selects nothing. *)
Definition named (t : string) : Prop := forall s, t <> ":" ++ s.

Definition request_props (q : request) : inputs :=
  match q with RGet _ p => p | RRead _ _ p _ => p | RRegister _ _ _ p _ => p end.
