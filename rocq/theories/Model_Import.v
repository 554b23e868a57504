(** Exporting and importing the state of a stack (Go: pkg/cmd/pulumi): what the
    commands do with the deployment documents. *)
From Verif Require Import Base PyVal Model_Urn Model_Rpc Model_Engine Model_State Model_Outputs.
Open Scope string_scope.
Open Scope list_scope.

(* ------------------------------------------------------------------ *)
(** Documents of deployments. *)

(** sdk/go/common/apitype/core.go:286-329 [ResourceV3]: the fields but those of
    [stored], with their types. *)
Inductive field_kind : Type := KFlag | KText | KTexts | KTable | KTimes.
Definition rest_fields : list (string * field_kind) :=
  [("delete", KFlag); ("parent", KText); ("protect", KFlag); ("external", KFlag); ("dependencies", KTexts); ("initErrors", KTexts);
   ("provider", KText); ("propertyDependencies", KTable); ("pendingReplacement", KFlag); ("additionalSecretOutputs", KTexts);
   ("aliases", KTexts); ("customTimeouts", KTimes); ("importID", KText); ("retainOnDelete", KFlag)].
Definition is_text (v : pyval) : bool := match v with VStr _ => true | _ => false end.
Definition is_texts (v : pyval) : bool := match v with VList l => forallb is_text l | _ => false end.
Definition fits (k : field_kind) (v : pyval) : bool :=
  match k, v with
  | KFlag, VBool _ => true
  | KText, VStr _ => true
  | KTexts, VList _ => is_texts v
  | KTable, VDict d => forallb (fun kv => is_texts (snd kv)) d
  | KTimes, VDict d => forallb (fun kv => match snd kv with VNum _ => true | _ => false end) d
  | _, _ => false
  end.
(** What "omitempty" leaves out. *)
Definition zero (v : pyval) : bool :=
  match v with VNone | VBool false | VStr "" | VList [] | VDict [] => true | _ => false end.

(** Reading fields as encoding/json does: null is as good as nothing, and other
    types than the field's are errors.  Simplifications: names are compared
    exactly, a list of texts with null in it is an error, and numbers are
    integers. *)
Definition mistyped {A} : res A := go_error "json: cannot unmarshal into Go value".
Definition text_field (d : dict pyval) (k : string) : res string :=
  match dget d k with None | Some VNone => Ok "" | Some (VStr s) => Ok s | Some _ => mistyped end.
Definition flag_field (d : dict pyval) (k : string) : res bool :=
  match dget d k with None | Some VNone => Ok false | Some (VBool b) => Ok b | Some _ => mistyped end.
Definition list_field (d : dict pyval) (k : string) : res (list pyval) :=
  match dget d k with None | Some VNone => Ok [] | Some (VList l) => Ok l | Some _ => mistyped end.
Definition any_field (d : dict pyval) (k : string) : pyval := match dget d k with Some v => v | None => VNone end.
Fixpoint parsed (v : pyval) : res wire :=
  match v with
  | VNone => Ok WNull
  | VBool b => Ok (WBool b)
  | VNum z => Ok (WNum z)
  | VStr s => Ok (WStr s)
  | VList l => let+ ws := rmap parsed l in Ok (WList ws)
  | VDict d => let+ ws := rmap (fun kv => let+ w := parsed (snd kv) in Ok (fst kv, w)) d in Ok (WStruct ws)
  | _ => mistyped
  end.
Definition object_field (d : dict pyval) (k : string) : res (dict wire) :=
  match dget d k with
  | None | Some VNone => Ok []
  | Some (VDict o) => rmap (fun kv => let+ w := parsed (snd kv) in Ok (fst kv, w)) o
  | Some _ => mistyped
  end.
Fixpoint read_rest (d : dict pyval) (fs : list (string * field_kind)) : res (dict pyval) :=
  match fs with
  | [] => Ok []
  | (k, kind) :: fs' =>
      let+ rest := read_rest d fs' in
      match dget d k with
      | None | Some VNone => Ok rest
      | Some v => if fits kind v then Ok (if zero v then rest else (k, v) :: rest) else mistyped
      end
  end.
Definition read_resource (v : pyval) : res stored :=
  match v with
  | VDict d =>
      let+ urn := text_field d "urn" in
      let+ custom := flag_field d "custom" in
      let+ id := text_field d "id" in
      let+ typ := text_field d "type" in
      let+ inputs := object_field d "inputs" in
      let+ outputs := object_field d "outputs" in
      let+ rest := read_rest d rest_fields in
      Ok (mkStored urn typ custom id inputs outputs (VDict rest))
  | _ => mistyped
  end.
(** core.go:179-185 [OperationV2]. *)
Definition read_operation (v : pyval) : res (string * stored) :=
  match v with
  | VDict d =>
      let+ r := read_resource (any_field d "resource") in
      let+ typ := text_field d "type" in Ok (typ, r)
  | _ => mistyped
  end.
(** core.go:143-157 [DeploymentV3], [SecretsProvidersV1].  A stack that was never
    updated has nothing: pkg/backend/filestate/backend.go:783-785.
    Simplifications: the manifest and the state of the secrets provider are kept
    as they are given. *)
Record v3 : Type := mkV3 { v_manifest : pyval; v_secrets : pyval; v_resources : list stored; v_pending : list (string * stored) }.
Definition read_secrets (v : pyval) : res pyval :=
  match v with
  | VNone => Ok VNone
  | VDict d => let+ typ := text_field d "type" in Ok (if String.eqb typ "" then VNone else v)
  | _ => mistyped
  end.
Definition read_deployment (v : pyval) : res v3 :=
  match v with
  | VDict d =>
      let+ secrets := read_secrets (any_field d "secrets_providers") in
      let+ resources := list_field d "resources" in
      let+ rs := rmap read_resource resources in
      let+ pending := list_field d "pending_operations" in
      let+ ops := rmap read_operation pending in
      Ok (mkV3 (any_field d "manifest") secrets rs ops)
  | VNone => Ok (mkV3 VNone VNone [] [])
  | _ => mistyped
  end.
(** Writing them: encoding/json with the tags of the structures, core.go:143-157,
    179-185, 286-329.  Simplification: the entries are in another order. *)
Definition unless_zero (k : string) (v : pyval) : dict pyval := if zero v then [] else [(k, v)].
Definition write_resource (s : stored) : pyval :=
  VDict (("urn", VStr (st_urn s)) :: ("custom", VBool (st_custom s)) :: ("type", VStr (st_type s))
         :: unless_zero "id" (VStr (st_id s))
         ++ unless_zero "inputs" (printed (WStruct (st_inputs s)))
         ++ unless_zero "outputs" (printed (WStruct (st_outputs s)))
         ++ match st_rest s with VDict rest => rest | _ => [] end).
Definition write_operation (op : string * stored) : pyval := VDict [("resource", write_resource (snd op)); ("type", VStr (fst op))].
Definition write_deployment (d : v3) : pyval :=
  VDict (("manifest", v_manifest d)
         :: unless_zero "secrets_providers" (v_secrets d)
         ++ unless_zero "resources" (VList (map write_resource (v_resources d)))
         ++ unless_zero "pending_operations" (VList (map write_operation (v_pending d)))).

(* ------------------------------------------------------------------ *)
(** Snapshots. *)

(** pkg/resource/deploy/snapshot.go:34-40 [Snapshot]. *)
Record snapshot : Type := mkSnapshot { sn_manifest : pyval; sn_secrets : pyval; sn_resources : list rstate; sn_pending : list (string * rstate) }.
(** pkg/secrets/manager.go:27-38 [Manager]: its encrypter, which may give another
    ciphertext each time and at each place, and its decrypter.  [m_again]:
    encrypting the text of a secret given in plaintext. *)
Record manager : Type := mkManager {
  m_enc : nat -> list nat -> string -> res string; m_again : string -> res string; m_dec : string -> res string
}.
(** sdk/go/common/resource/config/crypt.go:128-137 [NewPanicCrypter]. *)
Definition panics {A} : res A := Err (Exn "panic" "attempt to encrypt value").
Definition panic_crypter : manager := mkManager (fun _ _ _ => panics) (fun _ => panics) (fun _ => panics).

Section Documents.
  (** [json], [unjson]: encoding/json.  [of_type]: pkg/resource/stack/secrets.go
      [SecretsProvider.OfType].  [n] bounds how deep secrets are nested in
      secrets. *)
  Variable json : wire -> string.
  Variable unjson : string -> res wire.
  Variable of_type : pyval -> res manager.
  Variable n : nat.
  Definition manager_of (secrets : pyval) : res manager := match secrets with VNone => Ok panic_crypter | _ => of_type secrets end.

  (** pkg/resource/stack/deployment.go:208-287 [DeserializeDeploymentV3], 517-526
      [DeserializeOperation].  Simplification: what pending operations hold is
      decrypted in bulk like the rest. *)
  Definition load_state (d : v3) : res snapshot :=
    let+ m := manager_of (v_secrets d) in
    let+ rs := load_deployment unjson (m_again m) (m_dec m) n (v_resources d) in
    let+ ops := load_deployment unjson (m_again m) (m_dec m) n (map snd (v_pending d)) in
    Ok (mkSnapshot (v_manifest d) (v_secrets d) rs (combine (map fst (v_pending d)) ops)).
  (** deployment.go:102-160 [SerializeDeployment], 340-350 [SerializeOperation].
      [t]: when. *)
  Definition store_state (t : nat) (show : bool) (s : snapshot) : res v3 :=
    let+ m := manager_of (sn_secrets s) in
    let+ rs := store_deployment json (m_enc m t) show (sn_resources s) in
    let+ ops := store_deployment json (fun place => m_enc m t (place ++ [1])) show (map snd (sn_pending s)) in
    Ok (mkV3 (sn_manifest s) (sn_secrets s) rs (combine (map fst (sn_pending s)) ops)).

  (** deployment.go:162-205 [DeserializeUntypedDeployment]: a document of version 3. *)
  Definition deserialize (v : pyval) : res snapshot := let+ d := read_deployment v in load_state d.
  Definition serialize (t : nat) (show : bool) (s : snapshot) : res pyval := let+ d := store_state t show s in Ok (write_deployment d).

  (** pkg/backend/filestate/backend.go:774-801 [ExportDeployment], then
      pkg/cmd/pulumi/stack_export.go:91-114: with "--show-secrets". *)
  Definition export_document (v : pyval) : res pyval :=
    let+ s := deserialize v in
    let+ v' := serialize 0 false s in
    let+ s' := deserialize v' in
    serialize 1 true s'.

  (* ---------------------------------------------------------------- *)
  (** Checking snapshots. *)

  (** Up to, and after, the first [c]: strings.Index. *)
  Fixpoint cut (c : ascii) (s : string) : option (string * string) :=
    match s with
    | EmptyString => None
    | String a s' =>
        if Ascii.eqb a c then Some (EmptyString, s')
        else match cut c s' with Some (x, y) => Some (String a x, y) | None => None end
    end.
  (** sdk/go/common/tokens/tokens.go:63-90, 110-118, 190-200, 230-247:
      [Type.Module], [Type.Name]; pkg/resource/deploy/providers/reference.go:35-42
      [IsProviderType].  The assertions of [Type.Module], which are for types with
      one colon, fail wherever this is false and asked for. *)
  Definition is_provider_type (typ : string) : bool :=
    match cut ":" typ with
    | Some (package, rest) =>
        match cut ":" rest with
        | Some (module, name) => String.eqb (package ++ ":" ++ module) "pulumi:providers" && negb (String.eqb name "")
        | None => false
        end
    | None => false
    end.
  (** sdk/go/common/resource/urn.go:72-89, 102-107; reference.go:60-72
      [validateURN], 120-125 [NewReference]. *)
  Definition validate_urn (urn : string) : bool :=
    String.prefix "urn:pulumi:" urn
    && Nat.eqb (List.length (split_cc urn)) 4
    && is_provider_type (slast (split_c "$" (nth 2 (split_cc (sdrop 11 urn)) ""))).
  (** reference.go:140-152 [ParseReference]. *)
  Definition parse_reference (s : string) : option (string * string) :=
    match rfind_cc s with
    | None => None
    | Some i => let urn := stake i s in if validate_urn urn then Some (urn, sdrop (i + 2) s) else None
    end.
  Definition rest_of (r : rstate) (k : string) : pyval := match t_rest r with VDict d => any_field d k | _ => VNone end.
  Definition rest_text (r : rstate) (k : string) : string := match rest_of r k with VStr s => s | _ => "" end.
  Definition rest_texts (r : rstate) (k : string) : list string :=
    match rest_of r k with VList l => flat_map (fun v => match v with VStr s => [s] | _ => [] end) l | _ => [] end.
  Definition rest_flag (r : rstate) (k : string) : bool := match rest_of r k with VBool b => b | _ => false end.

  (** snapshot.go:128-178: the loop of [VerifyIntegrity]; [urns], [provs]: the
      URNs and the providers so far. *)
  Definition same_reference (p q : string * string) : bool := String.eqb (fst p) (fst q) && String.eqb (snd p) (snd q).
  Fixpoint verify_resources (urns : list string) (provs : list (string * string)) (rs : list rstate) : bool :=
    match rs with
    | [] => true
    | r :: rs' =>
        let provs' := if is_provider_type (t_type r) then (t_urn r, t_id r) :: provs else provs in
        (if is_provider_type (t_type r) then validate_urn (t_urn r) else true)
        && (if String.eqb (rest_text r "provider") "" then true
            else match parse_reference (rest_text r "provider") with
                 | Some ref => existsb (same_reference ref) provs'
                 | None => false
                 end)
        && (if String.eqb (rest_text r "parent") "" then true else smem (rest_text r "parent") urns)
        && forallb (fun dep => smem dep urns) (rest_texts r "dependencies")
        && negb (smem (t_urn r) urns && negb (rest_flag r "delete"))
        && verify_resources (t_urn r :: urns) provs' rs'
    end.
  (** pkg/resource/deploy/manifest.go:84-89 [NewMagic]; [sha]: a SHA-256 sum in
      hexadecimal. *)
  Variable sha : string -> string.
  Definition new_magic (version : string) : string := if String.eqb version "" then "" else sha version.
  Definition genuine (manifest : pyval) : bool :=
    let field k := match manifest with VDict d => match any_field d k with VStr s => s | _ => "" end | _ => "" end in
    String.eqb (field "magic") (new_magic (field "version")).
  (** snapshot.go:118-185 [VerifyIntegrity]. *)
  Definition verify_integrity (s : snapshot) : bool := genuine (sn_manifest s) && verify_resources [] [] (sn_resources s).

  (** urn.go:80-89 [URN.Stack]; a panic is a refusal. *)
  Definition in_stack (name urn : string) : bool :=
    String.prefix "urn:pulumi:" urn && String.eqb (hd "" (split_cc (sdrop 11 urn))) name.

  (** pkg/cmd/pulumi/stack_import.go:70-144 without "--force", then
      pkg/backend/filestate/backend.go:803-825 [ImportDeployment] and
      state.go:182-207 [saveStack].  [upgrade]: reading a document of an older
      version as one of version 3, deployment.go:178-192. *)
  Variable upgrade : Z -> pyval -> res pyval.
  Definition untyped (version doc : pyval) : res pyval :=
    match version with
    | VNum z => if Z.ltb 3 z then go_error "deployment schema version too new"
                else if Z.ltb z 1 then go_error "deployment schema version too old"
                else if Z.eqb z 3 then Ok doc else upgrade z doc
    | VNone => go_error "deployment schema version too old"
    | _ => mistyped
    end.
  Definition import_document (name : string) (version doc : pyval) : res pyval :=
    let+ v := untyped version doc in
    let+ s := deserialize v in
    if forallb (fun r => in_stack name (t_urn r)) (sn_resources s) && verify_integrity s then
      let+ v' := serialize 2 false (mkSnapshot (sn_manifest s) (sn_secrets s) (sn_resources s) []) in
      let+ s' := deserialize v' in
      serialize 3 false s'
    else go_error "importing this file could be dangerous; rerun with --force to proceed anyway".
End Documents.
