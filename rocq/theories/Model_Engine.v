(** The other end of the wire: how the resource monitor of this repository
    (Go: pkg/resource/deploy/source_eval.go) reads the property bags the
    Python SDK sends and writes the ones it receives.  These definitions use
    their own copies of the protocol's constants, as the Go code does. *)
From Verif Require Import Base Model_Rpc.

(** sdk/go/common/resource/properties.go:73-127 [PropertyValue], and
    asset.go:51-62, 453-464 [Asset], [Archive].  Simplifications: maps are
    association lists in the order of the message; numbers as in [VNum]; the
    members of an archive (Go: a map to *Asset or *Archive) are property
    values.  In [PRef] the id is absent for a component. *)
Inductive pval : Type :=
| PNull
| PBool (b : bool)
| PNum (z : Z)
| PStr (s : string)
| PArr (l : list pval)
| PObj (d : list (string * pval))
| PAsset (hash text path uri : string)
| PArchive (hash : string) (assets : option (list (string * pval))) (path uri : string)
| PComputed (e : pval)
| PSecret (e : pval)
| POutput (e : pval) (known secret : bool) (deps : list string)
| PRef (urn : string) (id : option pval) (version : string).

(** properties.go:393-410 [PropertyValue.ContainsSecrets], 161-168
    [PropertyMap.ContainsSecrets]. *)
Fixpoint contains_secrets (p : pval) : bool :=
  match p with
  | PSecret _ => true
  | PComputed e => contains_secrets e
  | POutput e _ secret _ => secret || contains_secrets e
  | PArr l => existsb contains_secrets l
  | PObj d => existsb (fun kv => contains_secrets (snd kv)) d
  | _ => false
  end.

(** properties.go:623, 634, 637, 640; asset.go:65, 467. *)
Definition go_SigKey : string := "4dabf18193072939515e22adb298388d".
Definition go_SecretSig : string := "1b47061264138c4ac30d75fd1eb44270".
Definition go_ResourceReferenceSig : string := "5cf8f73096256a8f31e491e813e4eb8e".
Definition go_OutputValueSig : string := "d0e6a833031e9bbcd3f4e8bde6ca49a4".
Definition go_AssetSig : string := "c44067f5952c0a294b673a41bacd8c17".
Definition go_ArchiveSig : string := "0def7320c3a5731c473e5ecbe6d01bc7".

(** sdk/go/common/resource/plugin/rpc.go:45-67: the sentinels, by the kind of
    the value that is not known, and 504-528 [unmarshalUnknownPropertyValue]. *)
Definition unknown_elem (s : string) : option pval :=
  if String.eqb s "1c4a061d-8072-4f0a-a4cb-0ff528b18fe7" then Some (PBool false)
  else if String.eqb s "3eeb2bf0-c639-47a8-9e75-3b44932eb421" then Some (PNum 0)
  else if String.eqb s "04da6b54-80e4-46f7-96ec-b56ff0331ba9" then Some (PStr "")
  else if String.eqb s "6a19a0b0-7e62-4c92-b797-7f8e31da9cc2" then Some (PArr [])
  else if String.eqb s "030794c1-ac77-496b-92df-f27374a8bd58" then Some (PAsset "" "" "" "")
  else if String.eqb s "e48ece36-62e2-4504-bad9-02848725956a" then Some (PArchive "" None "" "")
  else if String.eqb s "dd056dcd-154b-4c76-9bd3-c8f88648b5ff" then Some (PObj [])
  else None.

(** What the monitor reads with (source_eval.go:654-660, 705-714, 870-875,
    996-1006, 1260-1267): unknowns, secrets and resource references are always
    kept; output values are kept for remote components and calls; asset hashes
    are computed on registration.  [u_hash] gives the digest of an asset or
    archive with contents, or an error when they cannot be read: it stands for
    the file system and the network. *)
Record uopts : Type := mkUopts { u_outputs : bool; u_hash : option (pval -> res string) }.

Definition go_error {A} (m : string) : res A := Err (Exn "error" m).

(** asset.go:247-289, 592-659: a string field of an asset or archive. *)
Definition go_string_field (obj : dict pval) (k : string) : res string :=
  match dget obj k with
  | None => Ok ""
  | Some (PStr s) => Ok s
  | Some _ => go_error "unexpected field type"
  end.

(** asset.go:385-404 [Asset.EnsureHash] with 310-319 [Read]. *)
Definition asset_hash (o : uopts) (hash text path uri : string) : res string :=
  match u_hash o with
  | None => Ok hash
  | Some h =>
      if negb (String.eqb hash "") then Ok hash
      else if String.eqb text "" && String.eqb path "" && String.eqb uri ""
      then go_error "unrecognized asset type"
      else h (PAsset hash text path uri)
  end.
(** asset.go:1109-1138 [Archive.EnsureHash]; an archive without contents fails
    the assertion at 681 [Open], which ends the engine's process. *)
Definition archive_hash (o : uopts) (hash : string) (assets : option (dict pval)) (path uri : string) : res string :=
  match u_hash o with
  | None => Ok hash
  | Some h =>
      if negb (String.eqb hash "") then Ok hash
      else match assets with
           | None => if String.eqb path "" && String.eqb uri ""
                     then Err (Exn "panic" "cannot read an archive that has no contents")
                     else h (PArchive hash assets path uri)
           | Some _ => h (PArchive hash assets path uri)
           end
  end.

(** asset.go:607-642: the members of an archive.  A plain map among them
    cannot carry a signature here (it would have been read as something else),
    so it is neither an asset nor an archive. *)
Definition is_member (p : pval) : bool :=
  match p with PAsset _ _ _ _ | PArchive _ _ _ _ => true | _ => false end.
Definition archive_members (v : option pval) : res (option (dict pval)) :=
  match v with
  | None => Ok None
  | Some PNull => Ok (Some [])
  | Some (PObj m) => if forallb (fun kv => is_member (snd kv)) m then Ok (Some m)
                     else go_error "archive member is not an asset or archive"
  | Some _ => go_error "unexpected archive contents"
  end.

(** properties.go:246-257 [MakeCustomResourceReference]. *)
Definition custom_ref (urn id version : string) : pval :=
  PRef urn (Some (if String.eqb id "" then PComputed (PStr "") else PStr id)) version.

Fixpoint go_strings (l : list pval) : res (list string) :=
  match l with
  | [] => Ok []
  | PStr s :: l' => let+ r := go_strings l' in Ok (s :: r)
  | _ :: _ => go_error "element in dependencies not a string"
  end.

(** plugin/rpc.go:335-497: an unmarshalled struct, given by its signature.
    [obj.Mappable()] (properties.go:560-596) gives strings for strings. *)
Definition unmarshal_object (o : uopts) (obj : dict pval) : res pval :=
  match dget obj go_SigKey with
  | None => Ok (PObj obj)
  | Some (PStr s) =>
      if String.eqb s go_AssetSig then
        let+ hash := go_string_field obj "hash" in
        let+ text := go_string_field obj "text" in
        let+ path := go_string_field obj "path" in
        let+ uri := go_string_field obj "uri" in
        let+ hash := asset_hash o hash text path uri in
        Ok (PAsset hash text path uri)
      else if String.eqb s go_ArchiveSig then
        let+ hash := go_string_field obj "hash" in
        let+ assets := archive_members (dget obj "assets") in
        let+ path := go_string_field obj "path" in
        let+ uri := go_string_field obj "uri" in
        let+ hash := archive_hash o hash assets path uri in
        Ok (PArchive hash assets path uri)
      else if String.eqb s go_SecretSig then
        match dget obj "value" with
        | None => go_error "malformed RPC secret: missing value"
        | Some v => Ok (PSecret v)
        end
      else if String.eqb s go_ResourceReferenceSig then
        match dget obj "urn" with
        | None => go_error "malformed resource reference: missing urn"
        | Some (PStr urn) =>
            let+ version := match dget obj "packageVersion" with
                            | None => Ok "" | Some (PStr s) => Ok s
                            | Some _ => go_error "packageVersion not a string" end in
            match dget obj "id" with
            | None => Ok (PRef urn None version)
            | Some (PStr id) => Ok (custom_ref urn id version)
            | Some (PComputed _) => Ok (custom_ref urn "" version)
            | Some _ => go_error "malformed resource reference: id not a string"
            end
        | Some _ => go_error "malformed resource reference: urn not a string"
        end
      else if String.eqb s go_OutputValueSig then
        let+ secret := match dget obj "secret" with
                       | None => Ok false | Some (PBool b) => Ok b
                       | Some _ => go_error "malformed output value: secret not a bool" end in
        if u_outputs o then
          let+ deps := match dget obj "dependencies" with
                       | None => Ok [] | Some (PArr l) => go_strings l
                       | Some _ => go_error "malformed output value: dependencies not an array" end in
          match dget obj "value" with
          | Some v => Ok (POutput v true secret deps)
          | None => Ok (POutput PNull false secret deps)
          end
        else
          let result := match dget obj "value" with Some v => v | None => PComputed (PStr "") end in
          Ok (if secret then PSecret result else result)
      else go_error "unrecognized signature"
  | Some _ => go_error "unrecognized signature"
  end.

(** plugin/rpc.go:289-502 [UnmarshalPropertyValue] with the monitor's options.
    Simplification: the fields of a struct are read in the order of the
    message, not of their names; only which of several errors is reported
    depends on it. *)
Fixpoint unmarshal (o : uopts) (w : wire) {struct w} : res pval :=
  match w with
  | WNull => Ok PNull
  | WBool b => Ok (PBool b)
  | WNum z => Ok (PNum z)
  | WStr s => Ok (match unknown_elem s with Some e => PComputed e | None => PStr s end)
  | WList l => let+ ps := rmap (unmarshal o) l in Ok (PArr ps)
  | WStruct d =>
      let+ obj := rmap (fun kv => let+ p := unmarshal o (snd kv) in Ok (fst kv, p)) d in
      unmarshal_object o obj
  end.
(** plugin/rpc.go:255-286 [UnmarshalProperties]. *)
Definition unmarshal_properties (o : uopts) (d : dict wire) : res (dict pval) :=
  rmap (fun kv => let+ p := unmarshal o (snd kv) in Ok (fst kv, p)) d.

(* ------------------------------------------------------------------ *)

(** What the monitor writes with (source_eval.go:671-676, 747-752, 913-918,
    1218-1223): unknowns are kept and output values are not; the request says
    whether it accepts secrets and resource references. *)
Record mopts : Type := mkMopts { m_secrets : bool; m_resources : bool }.

(** plugin/rpc.go:220-253 [marshalUnknownProperty]. *)
Fixpoint marshal_unknown (e : pval) : res wire :=
  match e with
  | PBool _ => Ok (WStr "1c4a061d-8072-4f0a-a4cb-0ff528b18fe7")
  | PNum _ => Ok (WStr "3eeb2bf0-c639-47a8-9e75-3b44932eb421")
  | PStr _ => Ok (WStr "04da6b54-80e4-46f7-96ec-b56ff0331ba9")
  | PArr _ => Ok (WStr "6a19a0b0-7e62-4c92-b797-7f8e31da9cc2")
  | PAsset _ _ _ _ => Ok (WStr "030794c1-ac77-496b-92df-f27374a8bd58")
  | PArchive _ _ _ _ => Ok (WStr "e48ece36-62e2-4504-bad9-02848725956a")
  | PObj _ => Ok (WStr "dd056dcd-154b-4c76-9bd3-c8f88648b5ff")
  | PComputed e => marshal_unknown e
  | POutput e _ _ _ => marshal_unknown e
  | PNull => Ok WNull
  | PSecret _ | PRef _ _ _ => Err (Exn "panic" "Unexpected output/computed property element")
  end.

(** asset.go:227-244, 561-589 [Serialize]: a field is left out when empty. *)
Definition go_field (k s : string) : list (string * wire) :=
  if String.eqb s "" then [] else [(k, WStr s)].

(** plugin/rpc.go:94-217, 567-609 [MarshalPropertyValue], [MarshalAsset],
    [MarshalArchive] with the monitor's options.  Simplification: a member of
    an archive that is neither an asset nor an archive (a fatal error in Go)
    is written like any other value. *)
Fixpoint marshal (o : mopts) (p : pval) {struct p} : res wire :=
  match p with
  | PNull => Ok WNull
  | PBool b => Ok (WBool b)
  | PNum z => Ok (WNum z)
  | PStr s => Ok (WStr s)
  | PArr l => let+ ws := rmap (marshal o) l in Ok (WList ws)
  | PObj d => let+ ws := rmap (fun kv => let+ w := marshal o (snd kv) in Ok (fst kv, w)) d in Ok (WStruct ws)
  | PAsset hash text path uri =>
      Ok (WStruct ((go_SigKey, WStr go_AssetSig)
                   :: go_field "hash" hash ++ go_field "text" text ++ go_field "path" path ++ go_field "uri" uri))
  | PArchive hash assets path uri =>
      let+ ms := match assets with
                 | None => Ok []
                 | Some d => let+ ws := rmap (fun kv => let+ w := marshal o (snd kv) in Ok (fst kv, w)) d in
                             Ok [("assets", WStruct ws)]
                 end in
      Ok (WStruct ((go_SigKey, WStr go_ArchiveSig)
                   :: go_field "hash" hash ++ ms ++ go_field "path" path ++ go_field "uri" uri))
  | PComputed e => marshal_unknown e
  | PSecret e =>
      let+ w := marshal o e in
      Ok (if m_secrets o then WStruct [(go_SigKey, WStr go_SecretSig); ("value", w)] else w)
  | POutput e known secret _ =>
      let+ w := if known then marshal o e else Ok (WStr "04da6b54-80e4-46f7-96ec-b56ff0331ba9") in
      Ok (if secret && m_secrets o then WStruct [(go_SigKey, WStr go_SecretSig); ("value", w)] else w)
  | PRef urn id version =>
      if m_resources o then
        Ok (WStruct ((go_SigKey, WStr go_ResourceReferenceSig) :: ("urn", WStr urn)
                     :: (match id with
                         | Some (PComputed _) => [("id", WStr "")]
                         | Some (PStr s) => [("id", WStr s)]
                         | _ => [] end)
                     ++ go_field "packageVersion" version))
      else match id with
           | None | Some PNull => Ok (WStr urn)
           | Some (PComputed e) => marshal_unknown e
           | Some (PStr s) => Ok (WStr s)
           | Some _ => Err (Exn "NotModelled" "an id that is neither a string nor unknown")
           end
  end.
(** plugin/rpc.go:70-91 [MarshalProperties]. *)
Definition marshal_properties (o : mopts) (d : dict pval) : res (dict wire) :=
  rmap (fun kv => let+ w := marshal o (snd kv) in Ok (fst kv, w)) d.
