(** Specification for C99: what a stack exports is what another stack reads. *)
From Verif Require Import Base PyVal Model_Rpc Spec_Rpc Model_Engine Spec_Engine Model_Translate Model_Register Model_Deployment Spec_Deployment Model_Output Spec_Output Model_StackRef Model_State Spec_State Model_Reference.
From Verif Require Import Spec_Urn.
From Verif Require Spec_Meaning.
Open Scope string_scope.

(** [exported exports data secret]: the program exports values that mean the
    data [data k], secret as [secret k] says; all of it is known. *)
Definition exported (exports : dict pyval) (data : string -> pyval) (secret : string -> bool) : Prop :=
  NoDup (map fst exports) /\ ~ In reserved_key (map fst exports) /\
  forall k v, In (k, v) exports ->
    Spec_Meaning.means false v (data k) (secret k) /\ ~ within VUnknown (data k) /\ plain_data (data k).

(** The names that are read as they were written: exports, and keys in them,
    other than the name of a property of stack references; no export has two
    leading underscores, or the name that stands for unknown values. *)
Definition readable_names (exports : dict pyval) (data : string -> pyval) : Prop :=
  forall k, In k (map fst exports) ->
    k <> "secretOutputNames" /\ internal_key k = false /\ k <> "04da6b54-80e4-46f7-96ec-b56ff0331ba9" /\
    forall d, within (VDict d) (data k) -> ~ In "secretOutputNames" (map fst d).

(** What is read for the name [n]: the data and the secretness of the export,
    or nothing. *)
Definition reads (exports : dict pyval) (data : string -> pyval) (secret : string -> bool) (n : string) (v : pyval) (s : bool) : Prop :=
  (In n (map fst exports) /\ v = data n /\ s = secret n) \/ (~ In n (map fst exports) /\ v = VNone /\ s = false).

(** In the deployment every resource has a proper URN, and only [root] is a
    stack. *)
Definition one_stack (root : string) (evs : list devent) : Prop :=
  forall u id o, In (DResource u id o) evs ->
    exists x, good_surn x /\ s_type x <> "" /\ u = render x /\ (s_type x = "pulumi:pulumi:Stack" <-> u = root).

(** The backend reads what it writes, and its secrets manager decrypts what it
    encrypted. *)
Definition good_backend (b : backend) : Prop :=
  json_reads (b_json b) (b_unjson b) /\ decrypts (b_encrypt b) (b_decrypt b) /\ forall text, exists c, b_again b text = Ok c.
(** The state [rs] is stored in the backend for [stack], with secrets encrypted
    or not, and the backend reads secrets in secrets deep enough. *)
Definition stored_in (b : backend) (stack : string) (rs : list rstate) : Prop :=
  state_nesting rs <= b_depth b /\
  exists show ss, store_deployment (b_json b) (b_encrypt b) show rs = Ok ss /\ b_stacks b stack = Some ss.
(** Nothing in the other resources of the state uses the marks of the format. *)
Definition others_storable (root : string) (rs : list rstate) : Prop :=
  forall r, In r rs -> t_urn r <> root -> storable (PObj (t_outputs r)).
