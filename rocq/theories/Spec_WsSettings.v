(** Specification of saving and loading settings (C57, C70). *)
From Verif Require Import Base PyVal Model_WsSettings.
Open Scope string_scope.

(** The settings that survive: the strings that are given are not empty, the configuration,
    if given, has entries, and its values are strings or secrets. *)
Definition kept_string (o : option string) : Prop := o <> Some "".
Definition kept_value (v : cval) : Prop :=
  match v with CSecure _ => True | CPlain (VStr _) => True | CPlain _ => False end.
Definition kept_config (o : option (dict cval)) : Prop :=
  match o with None => True | Some c => c <> [] /\ forall k v, In (k, v) c -> kept_value v end.
Definition kept (s : stack_settings) : Prop :=
  kept_string (ss_provider s) /\ kept_string (ss_key s) /\ kept_string (ss_salt s) /\ kept_config (ss_config s).

Definition wf_settings (s : stack_settings) : Prop := match ss_config s with Some c => wf_dict c | None => True end.

(** The last component of a stack name such as org/project/stack. *)
Fixpoint free_of (c : ascii) (s : string) : Prop :=
  match s with EmptyString => True | String d s' => d <> c /\ free_of c s' end.
Definition last_component (name a : string) : Prop :=
  free_of "/" a /\ (name = a \/ exists q, name = q ++ "/" ++ a).

(** A project whose settings are all strings. *)
Definition strings_only (p : project_settings) : Prop :=
  (exists r, pj_runtime p = PStr r) /\ pj_template p = None /\ pj_backend p = None.
