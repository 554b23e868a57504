(** Independent specification of merging options (C36-C38). *)
From Verif Require Import Base PyVal Model_Output Model_Options.
Open Scope string_scope.

(** A scalar setting of the right operand replaces the left's if it is set. *)
Definition overrides {A} (left right result : option A) : Prop :=
  (forall v, right = Some v -> result = Some v) /\ (right = None -> result = left).
(** A list setting is the left's items followed by the right's; it is not set
    when neither is. *)
Definition items {A} (o : option (list A)) : list A := match o with Some l => l | None => [] end.
Definition appended {A} (left right result : option (list A)) : Prop :=
  items result = (items left ++ items right)%list /\ (result = None <-> left = None /\ right = None).

(** The providers given, in order, whether in a list or a map. *)
Definition given (p : option providers) : list provider :=
  match p with None => [] | Some (PList l) => l | Some (PMap d) => map snd d end.
(** [p] is the last of [l] for its package. *)
Definition last_for (l : list provider) (pkg : string) (p : provider) : Prop :=
  exists l1 l2, l = (l1 ++ p :: l2)%list /\ p_package p = pkg /\ forall q, In q l2 -> p_package q <> pkg.
Definition united (left right result : option providers) : Prop :=
  (result = None <-> given left = [] /\ given right = []) /\
  (result <> None -> exists d, result = Some (PMap d) /\ wf_dict d /\
     forall pkg p, In (pkg, p) d <-> last_for (given left ++ given right) pkg p).

(** What a depends_on option comes to: a list, or one value standing for a
    list, given directly or through an awaitable or an output. *)
Inductive as_list : pyval -> list pyval -> Prop :=
| al_list l : as_list (VList l) l
| al_one v : (forall l, v <> VList l) -> (forall s, v <> VStr s) -> as_list v [v].
Inductive waits_on : option pyval -> list pyval -> Prop :=
| wo_none : waits_on None []
| wo_plain v l : is_prompt v = true -> contains_unknowns v = false -> as_list v l -> waits_on (Some v) l
| wo_await v l : contains_unknowns v = false -> as_list v l -> waits_on (Some (VAwait (Done v))) l
| wo_output rs v k s l : v <> VNone -> contains_unknowns v = false -> as_list v l ->
    waits_on (Some (VOut rs (Done v) k s)) l.

(** Every option of the merged object. *)
Definition merged (a b r : ropts) : Prop :=
  overrides (ro_parent a) (ro_parent b) (ro_parent r) /\
  overrides (ro_protect a) (ro_protect b) (ro_protect r) /\
  overrides (ro_provider a) (ro_provider b) (ro_provider r) /\
  overrides (ro_delete_before_replace a) (ro_delete_before_replace b) (ro_delete_before_replace r) /\
  overrides (ro_version a) (ro_version b) (ro_version r) /\
  overrides (ro_id a) (ro_id b) (ro_id r) /\
  overrides (ro_import a) (ro_import b) (ro_import r) /\
  overrides (ro_custom_timeouts a) (ro_custom_timeouts b) (ro_custom_timeouts r) /\
  overrides (ro_urn a) (ro_urn b) (ro_urn r) /\
  overrides (ro_plugin_download_url a) (ro_plugin_download_url b) (ro_plugin_download_url r) /\
  overrides (ro_retain_on_delete a) (ro_retain_on_delete b) (ro_retain_on_delete r) /\
  appended (ro_ignore_changes a) (ro_ignore_changes b) (ro_ignore_changes r) /\
  appended (ro_replace_on_changes a) (ro_replace_on_changes b) (ro_replace_on_changes r) /\
  appended (ro_aliases a) (ro_aliases b) (ro_aliases r) /\
  appended (ro_additional_secret_outputs a) (ro_additional_secret_outputs b) (ro_additional_secret_outputs r) /\
  appended (ro_transformations a) (ro_transformations b) (ro_transformations r) /\
  united (ro_providers a) (ro_providers b) (ro_providers r) /\
  (forall la lb, waits_on (ro_depends_on a) la -> waits_on (ro_depends_on b) lb -> waits_on (ro_depends_on r) (la ++ lb)).

(** The same options: equal settings, the same provider for each package.
    (depends_on, which may be awaited, is compared by what it comes to.) *)
Definition same_options (a b : ropts) : Prop :=
  ro_parent a = ro_parent b /\ ro_protect a = ro_protect b /\ ro_provider a = ro_provider b /\
  ro_delete_before_replace a = ro_delete_before_replace b /\ ro_version a = ro_version b /\ ro_id a = ro_id b /\
  ro_import a = ro_import b /\ ro_custom_timeouts a = ro_custom_timeouts b /\ ro_urn a = ro_urn b /\
  ro_plugin_download_url a = ro_plugin_download_url b /\ ro_retain_on_delete a = ro_retain_on_delete b /\
  ro_ignore_changes a = ro_ignore_changes b /\ ro_replace_on_changes a = ro_replace_on_changes b /\
  ro_aliases a = ro_aliases b /\ ro_additional_secret_outputs a = ro_additional_secret_outputs b /\
  ro_transformations a = ro_transformations b /\
  forall pkg p, last_for (given (ro_providers a)) pkg p <-> last_for (given (ro_providers b)) pkg p.

(** The options an argument of merge stands for; None stands for none. *)
Definition stands_for (h : oheap) (o : option nat) (r : ropts) : Prop :=
  match o with None => exists n, r = new_ropts n | Some a => nth_error h a = Some r end.

Definition istands_for (h : iheap) (o : option nat) (r : iopts) : Prop :=
  match o with None => exists n, r = new_iopts n | Some a => nth_error h a = Some r end.

(** Every option of merged invoke options. *)
Definition imerged (a b r : iopts) : Prop :=
  overrides (io_parent a) (io_parent b) (io_parent r) /\ overrides (io_provider a) (io_provider b) (io_provider r) /\
  overrides (io_plugin_download_url a) (io_plugin_download_url b) (io_plugin_download_url r) /\
  overrides (io_version a) (io_version b) (io_version r).
