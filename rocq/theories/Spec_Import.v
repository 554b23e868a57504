(** Independent specifications for exporting and importing states (C109, C110). *)
From Verif Require Import Base PyVal Model_Urn Model_Cmd Model_StackInit Model_Json Model_WsConfig Spec_WsConfig Spec_WsImport Model_State Spec_State Model_Import.
Open Scope string_scope.
Open Scope list_scope.

(** The types of providers: "pulumi:providers:" and a name. *)
Definition provider_type (typ : string) : Prop := exists name, name <> "" /\ typ = ("pulumi:providers:" ++ name)%string.
(** [split_cc], [split_c]: splitting at "::" and at a character. *)
Definition of_stack (name urn : string) : Prop := exists rest, urn = ("urn:pulumi:" ++ rest)%string /\ hd "" (split_cc rest) = name.
Definition provider_urn (urn : string) : Prop :=
  exists rest, urn = ("urn:pulumi:" ++ rest)%string /\ List.length (split_cc urn) = 4 /\
    provider_type (List.last (split_c "$" (nth 2 (split_cc rest) "")) "").
(** A reference to a provider: its URN and its ID, around the last "::". *)
Definition refers_to (text urn id : string) : Prop :=
  text = (urn ++ "::" ++ id)%string /\ ~ exists a b, (":" ++ id)%string = (a ++ "::" ++ b)%string.

(** What a resource of a state says under a name. *)
Definition says (r : rstate) (k : string) (v : pyval) : Prop := exists d, t_rest r = VDict d /\ dget d k = Some v.
Definition depends_on (r : rstate) (urn : string) : Prop := exists l, says r "dependencies" (VList l) /\ In (VStr urn) l.

(** [consistent rs]: providers can be referred to; every resource comes after its
    parent and what it depends on, and not before its provider; and no two
    resources have one URN, unless the later is to be deleted. *)
Definition consistent (rs : list rstate) : Prop :=
  forall before r after, rs = before ++ r :: after ->
    (provider_type (t_type r) -> provider_urn (t_urn r)) /\
    (forall p, says r "provider" (VStr p) -> p <> "" ->
       exists urn id q, refers_to p urn id /\ provider_urn urn /\ In q (before ++ [r]) /\ provider_type (t_type q) /\ t_urn q = urn /\ t_id q = id) /\
    (forall p, says r "parent" (VStr p) -> p <> "" -> In p (map t_urn before)) /\
    (forall u, depends_on r u -> In u (map t_urn before)) /\
    (In (t_urn r) (map t_urn before) -> says r "delete" (VBool true)).

(** The texts a manifest has, or none, and its magic cookie, which belongs to its
    version. *)
Definition states (manifest : pyval) (k s : string) : Prop :=
  (exists d, manifest = VDict d /\ dget d k = Some (VStr s)) \/
  (s = "" /\ forall d x, manifest = VDict d -> dget d k <> Some (VStr x)).
Definition cookie (sha : string -> string) (manifest : pyval) : Prop :=
  exists version magic, states manifest "version" version /\ states manifest "magic" magic /\
    (version = "" -> magic = "") /\ (version <> "" -> magic = sha version).

(** No property of a resource has the name that tells kinds. *)
Definition ordinary (r : rstate) : Prop := ~ In kind_key (map fst (t_inputs r)) /\ ~ In kind_key (map fst (t_outputs r)).

(** What a secrets manager must do: encrypt whatever it is given, and decrypt
    what it encrypted. *)
Definition works (m : manager) : Prop :=
  (forall t place text, exists c, m_enc m t place text = Ok c) /\ (forall t, decrypts (m_enc m t) (m_dec m)) /\
  (forall text, exists c, m_again m text = Ok c).

(** The parts of a document, and the secrets among them. *)
Inductive part (v : pyval) : pyval -> Prop :=
| Pa_here : part v v
| Pa_list l x : In x l -> part v x -> part v (VList l)
| Pa_dict d k x : In (k, x) d -> part v x -> part v (VDict d).
Definition secret_in (d : dict pyval) (v : pyval) : Prop :=
  part (VDict d) v /\ dget d kind_key = Some (VStr "1b47061264138c4ac30d75fd1eb44270").
(** Whether its resources have their secrets in plaintext, or not. *)
Definition resources_in (v : pyval) (l : list pyval) : Prop := exists d, v = VDict d /\ (dget d "resources" = Some (VList l) \/ dget d "resources" = None /\ l = []).
Definition readable (v : pyval) : Prop := forall l r d, resources_in v l -> In r l -> secret_in d r -> In "plaintext" (map fst d) /\ ~ In "ciphertext" (map fst d).
Definition hidden (v : pyval) : Prop := forall l r d, resources_in v l -> In r l -> secret_in d r -> In "ciphertext" (map fst d) /\ ~ In "plaintext" (map fst d).

(** The CLI of [Spec_WsImport] with the documents of [Model_Import].
    Simplification: a state that cannot be exported is exported as null. *)
Definition cli_states json unjson of_type n sha upgrade read_json print_json trouble : cli stores :=
  cli_deploy (fun d => match export_document json unjson of_type n d with Ok v => v | Err _ => VNone end)
    (fun name version doc => match import_document json unjson of_type n sha upgrade name version doc with Ok v => Some v | Err _ => None end)
    read_json print_json trouble.
