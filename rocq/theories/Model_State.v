(** The state of a stack as it is stored (Go: pkg/resource/stack), which the
    engine writes after every step and reads before every operation. *)
From Verif Require Import Base PyVal Model_Rpc Model_Engine.
Open Scope string_scope.

(** JSON documents have the shape of messages: [wire].  The texts of documents
    are made by [json] and read by [unjson], which stand for encoding/json.
    Encryption may give another ciphertext each time: [enc] is told the place
    of the secret (indices from the inside out).
    deployment.go:48 [computedValuePlaceholder]. *)
Definition placeholder : string := "04da6b54-80e4-46f7-96ec-b56ff0331ba9".

Definition imap {A B} (f : nat -> A -> res B) : nat -> list A -> res (list B) :=
  fix go (n : nat) (l : list A) : res (list B) :=
    match l with
    | [] => Ok []
    | x :: l' => let+ y := f n x in let+ ys := go (S n) l' in Ok (y :: ys)
    end.

(** asset.go:226-244, 561-589 [Serialize]. *)
Fixpoint store_asset (p : pval) : res wire :=
  match p with
  | PAsset hash text path uri =>
      Ok (WStruct ((go_SigKey, WStr go_AssetSig)
                   :: go_field "hash" hash ++ go_field "text" text ++ go_field "path" path ++ go_field "uri" uri))
  | PArchive hash assets path uri =>
      let+ ms := match assets with
                 | None => Ok []
                 | Some d => let+ ws := rmap (fun kv => let+ w := store_asset (snd kv) in Ok (fst kv, w)) d in
                             Ok [("assets", WStruct ws)]
                 end in
      Ok (WStruct ((go_SigKey, WStr go_ArchiveSig)
                   :: go_field "hash" hash ++ ms ++ go_field "path" path ++ go_field "uri" uri))
  | _ => Err (Exn "panic" "Unrecognized asset map type")
  end.

(** deployment.go:367-465 [SerializePropertyValue] and 353-364
    [SerializeProperties]; config/crypt.go:54-67 [NopEncrypter].
    Simplification: the entries are in the order of the list, not of the
    names. *)
Definition nop (_ : list nat) (text : string) : res string := Ok text.
Section Store.
  Variable json : wire -> string.
  Fixpoint store (enc : list nat -> string -> res string) (show : bool) (at_ : list nat) (p : pval) {struct p} : res wire :=
    match p with
    | PNull => Ok WNull
    | PComputed _ | POutput _ _ _ _ => Ok (WStr placeholder)
    | PArr l => let+ ws := imap (fun n x => store enc show (n :: at_) x) 0 l in Ok (WList ws)
    | PObj d => let+ ws := imap (fun n (kv : string * pval) => let+ w := store enc show (n :: at_) (snd kv) in Ok (fst kv, w)) 0 d in Ok (WStruct ws)
    | PAsset _ _ _ _ | PArchive _ _ _ _ => store_asset p
    | PRef urn id version =>
        Ok (WStruct ((go_SigKey, WStr go_ResourceReferenceSig) :: ("urn", WStr urn) :: ("packageVersion", WStr version)
                     :: match id with
                        | Some (PComputed _) => [("id", WStr "")]
                        | Some (PStr s) => [("id", WStr s)]
                        | _ => []
                        end))
    | PSecret e =>
        let+ value := store nop show (0 :: at_) e in
        let text := json value in
        let+ ciphertext := enc at_ text in
        Ok (WStruct ((go_SigKey, WStr go_SecretSig) :: (if show then go_field "plaintext" text else go_field "ciphertext" ciphertext)))
    | PBool b => Ok (WBool b)
    | PNum z => Ok (WNum z)
    | PStr s => Ok (WStr s)
    end.
  Definition store_properties (enc : list nat -> string -> res string) (show : bool) (at_ : list nat) (d : dict pval) : res (dict wire) :=
    imap (fun n (kv : string * pval) => let+ w := store enc show (n :: at_) (snd kv) in Ok (fst kv, w)) 0 d.
End Store.

(** deployment.go:566-688: a deserialised map, given by its signature.
    [inner]: deserialising the text of a secret, 613-621. *)
Definition text_of (obj : dict pval) (k : string) : option string :=
  match dget obj k with Some (PStr s) => Some s | _ => None end.
Definition load_object (inner : string -> res pval) (dec enc : string -> res string) (obj : dict pval) : res pval :=
  match dget obj go_SigKey with
  | None => Ok (PObj obj)
  | Some (PStr s) =>
      if String.eqb s go_AssetSig then
        let+ hash := go_string_field obj "hash" in
        let+ text := go_string_field obj "text" in
        let+ path := go_string_field obj "path" in
        let+ uri := go_string_field obj "uri" in
        Ok (PAsset hash text path uri)
      else if String.eqb s go_ArchiveSig then
        let+ hash := go_string_field obj "hash" in
        let+ assets := archive_members (dget obj "assets") in
        let+ path := go_string_field obj "path" in
        let+ uri := go_string_field obj "uri" in
        Ok (PArchive hash assets path uri)
      else if String.eqb s go_SecretSig then
        match text_of obj "ciphertext", text_of obj "plaintext" with
        | None, None | Some _, Some _ => go_error "malformed secret value: one of `ciphertext` or `plaintext` must be supplied"
        | None, Some plaintext =>
            let+ _ := enc plaintext in
            let+ ev := inner plaintext in Ok (PSecret ev)
        | Some ciphertext, None =>
            let+ plaintext := dec ciphertext in
            let+ ev := inner plaintext in Ok (PSecret ev)
        end
      else if String.eqb s go_ResourceReferenceSig then
        let+ version := match dget obj "packageVersion" with
                        | None => Ok ""
                        | Some (PStr s) => Ok s
                        | Some _ => go_error "malformed resource reference: packageVersion must be a string"
                        end in
        match dget obj "urn" with
        | Some (PStr urn) =>
            match dget obj "id" with
            | None => Ok (PRef urn None version)
            | Some (PStr id) => Ok (custom_ref urn id version)
            | Some (PObj m) =>
                match dget m "V" with
                | None | Some PNull => Ok (PRef urn None version)
                | Some (PStr id) => Ok (custom_ref urn id version)
                | Some (PObj _) => Ok (custom_ref urn "" version)
                | Some _ => go_error "malformed resource reference: id must be a string"
                end
            | Some _ => go_error "malformed resource reference: id must be a string"
            end
        | _ => go_error "malformed resource reference: missing urn"
        end
      else go_error "unrecognized signature"
  | Some _ => go_error "unrecognized signature"
  end.

(** deployment.go:542-695 [DeserializePropertyValue] and 528-539
    [DeserializeProperties].  [n] bounds how deep secrets are nested in
    secrets. *)
Section Load.
  Variable unjson : string -> res wire.
  Variable enc : string -> res string.
  Fixpoint load (n : nat) (dec : string -> res string) : wire -> res pval :=
    fix go (w : wire) : res pval :=
      match w with
      | WNull => Ok PNull
      | WBool b => Ok (PBool b)
      | WNum z => Ok (PNum z)
      | WStr s => Ok (if String.eqb s placeholder then PComputed (PStr "") else PStr s)
      | WList l => let+ ps := rmap go l in Ok (PArr ps)
      | WStruct d =>
          let+ obj := rmap (fun kv => let+ p := go (snd kv) in Ok (fst kv, p)) d in
          load_object (fun text => let+ elem := unjson text in
                                   match n with
                                   | O => Err (Exn "" "too deep")
                                   | S m => load m (fun text => Ok text) elem
                                   end) dec enc obj
      end.
  Definition load_properties (n : nat) (dec : string -> res string) (d : dict wire) : res (dict pval) :=
    rmap (fun kv => let+ p := load n dec (snd kv) in Ok (fst kv, p)) d.
End Load.

(** A resource of the state: its properties, what is checked when it is read,
    and everything else. *)
Record rstate : Type := mkRstate {
  t_urn : string; t_type : string; t_iscustom : bool; t_id : string;
  t_inputs : dict pval; t_outputs : dict pval; t_rest : pyval
}.
(** sdk/go/common/apitype/core.go:286-329 [ResourceV3]. *)
Record stored : Type := mkStored {
  st_urn : string; st_type : string; st_custom : bool; st_id : string;
  st_inputs : dict wire; st_outputs : dict wire; st_rest : pyval
}.
(** deployment.go:290-338 [SerializeResource]. *)
Definition store_resource (json : wire -> string) (enc : list nat -> string -> res string) (show : bool) (i : nat) (r : rstate) : res stored :=
  if String.eqb (t_urn r) "" then Err (Exn "panic" "Unexpected empty resource resource.URN")
  else
    let+ inputs := store_properties json enc show [0; i] (t_inputs r) in
    let+ outputs := store_properties json enc show [1; i] (t_outputs r) in
    Ok (mkStored (t_urn r) (t_type r) (t_iscustom r) (t_id r) inputs outputs (t_rest r)).
(** deployment.go:488-515 [DeserializeResource]. *)
Definition load_resource (unjson : string -> res wire) (enc dec : string -> res string) (n : nat) (s : stored) : res rstate :=
  let+ inputs := load_properties unjson enc n dec (st_inputs s) in
  let+ outputs := load_properties unjson enc n dec (st_outputs s) in
  if String.eqb (st_urn s) "" then go_error "resource missing required 'urn' field"
  else if String.eqb (st_type s) "" then go_error "resource missing required 'type' field"
  else if negb (st_custom s) && negb (String.eqb (st_id s) "") then go_error "resource has 'custom' false but non-empty ID"
  else Ok (mkRstate (st_urn s) (st_type s) (st_custom s) (st_id s) inputs outputs (st_rest s)).
(** deployment.go:467-485 [collectCiphertexts]. *)
Fixpoint collect (w : wire) : list string :=
  match w with
  | WList l => flat_map collect l
  | WStruct d =>
      if match dget d go_SigKey with Some (WStr s) => String.eqb s go_SecretSig | _ => false end
      then match dget d "ciphertext" with Some (WStr c) => [c] | _ => [] end
      else flat_map (fun kv => collect (snd kv)) d
  | _ => []
  end.
(** config/crypt.go:262-277 [DefaultBulkDecrypt]. *)
Fixpoint bulk_decrypt (dec : string -> res string) (m : dict string) (cs : list string) : res (dict string) :=
  match cs with
  | [] => Ok m
  | c :: cs' => let+ p := dec c in bulk_decrypt dec (dset m c p) cs'
  end.
(** secrets.go:176-197 [mapDecrypter].  Simplification: what it decrypts
    itself is not remembered; the decrypter would say the same again. *)
Definition map_decrypter (m : dict string) (dec : string -> res string) (c : string) : res string :=
  match dget m c with Some p => Ok p | None => dec c end.

(** deployment.go:102-160 [SerializeDeployment], 208-287
    [DeserializeDeploymentV3]: the resources of a deployment that has a secrets
    manager.  Simplification: the manifest and the operations under way are left
    out. *)
Definition store_deployment (json : wire -> string) (enc : list nat -> string -> res string) (show : bool) (rs : list rstate) : res (list stored) :=
  imap (store_resource json enc show) 0 rs.
Definition load_deployment (unjson : string -> res wire) (enc dec : string -> res string) (n : nat) (ss : list stored) : res (list rstate) :=
  let ciphertexts := flat_map (fun s => collect (WStruct (st_inputs s)) ++ collect (WStruct (st_outputs s)))%list ss in
  let+ m := bulk_decrypt dec [] ciphertexts in
  rmap (load_resource unjson enc (map_decrypter m dec) n) ss.

(* ------------------------------------------------------------------ *)

(** secrets.go:69-123 [cachingCrypter]: ciphertexts by the identity of the
    secret.  [fresh]: what the encrypter says this time. *)
Definition crypt_cache : Type := list (nat * (string * string)).
Definition cache_get (c : crypt_cache) (s : nat) : option (string * string) :=
  match find (fun e => Nat.eqb (fst e) s) c with Some e => Some (snd e) | None => None end.
(** secrets.go:138-159 [encryptSecret], [insert]. *)
Definition cache_insert (c : crypt_cache) (s : nat) (plaintext ciphertext : string) : crypt_cache := (s, (plaintext, ciphertext)) :: c.
Definition encrypt_secret (c : crypt_cache) (fresh : string -> res string) (s : nat) (plaintext : string) : res string * crypt_cache :=
  let encrypt := match fresh plaintext with
                 | Ok ciphertext => (Ok ciphertext, cache_insert c s plaintext ciphertext)
                 | Err e => (Err e, c)
                 end in
  match cache_get c s with
  | Some (p, ciphertext) => if String.eqb p plaintext then (Ok ciphertext, c) else encrypt
  | None => encrypt
  end.

(** The calls made on a caching crypter over its life: encrypting a secret with
    what the encrypter would say then, deployment.go:437-445, and remembering the
    ciphertext of a secret just read, deployment.go:623-627. *)
Inductive crypt_call : Type :=
| CEncrypt (s : nat) (plaintext : string) (fresh : string -> res string)
| CInsert (s : nat) (plaintext ciphertext : string).
(** What is answered: the plaintext and the ciphertext of each encryption that
    succeeded. *)
Fixpoint crypt_run (c : crypt_cache) (calls : list crypt_call) : list (string * string) :=
  match calls with
  | [] => []
  | CInsert s p ct :: calls' => crypt_run (cache_insert c s p ct) calls'
  | CEncrypt s p fresh :: calls' =>
      match encrypt_secret c fresh s p with
      | (Ok ct, c') => (p, ct) :: crypt_run c' calls'
      | (Err _, c') => crypt_run c' calls'
      end
  end.
