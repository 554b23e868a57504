(** What is in assets and archives, and how the engine notices that it has changed
    (Go: sdk/go/common/resource/asset.go). *)
From Verif Require Import Base.
Open Scope string_scope.
Open Scope list_scope.

(** Files, directories with their entries in the order of the names, and symbolic links with what they
    lead to, if anything.  Left out: what may not be read. *)
Inductive node : Type := File (executable : bool) (bytes : string) | Dir (entries : list (string * node)) | Link (target : option node).
(** What is at a path, without following a last link, and what is at a URI. *)
Record disk : Type := mkDisk { node_at : string -> option node; fetch : string -> option string }.
Definition listing : Type := list (string * string).
(** asset.go:1161-1169 [detectArchiveFormat] of a path, of a URI; what an archive file of a format has in it
    (1173-1296 [readArchive]); filepath.Join; the tar file of a listing (965-1019 [archiveTar]); SHA256. *)
Record tools : Type := mkTools {
  path_format : string -> option nat; uri_format : string -> option nat; unpack : nat -> string -> option listing;
  join : string -> string -> string; tar : listing -> string; digest : string -> string }.

(** asset.go:59-91 and asset.py:22-70 [FileAsset], [StringAsset], [RemoteAsset]; asset.go:457-499 and asset.py:73-125
    [AssetArchive], [FileArchive], [RemoteArchive]. *)
Inductive asset : Type := Text (t : string) | At_path (p : string) | At_uri (u : string).
Inductive archive : Type := Members (ms : list (string * member)) | In_path (p : string) | In_uri (u : string)
with member : Type := M_asset (a : asset) | M_archive (a : archive).

(** os.Stat: what a link leads to in the end. *)
Fixpoint stat (n : node) : option node :=
  match n with
  | Link None => None
  | Link (Some t) => stat t
  | _ => Some n
  end.
Definition file_at (d : disk) (p : string) : option string :=
  match node_at d p with
  | Some n => match stat n with Some (File _ b) => Some b | _ => None end
  | None => None
  end.
(** asset.go:310-382 [Read]. *)
Definition read_asset (d : disk) (a : asset) : option string :=
  match a with
  | Text t => Some t
  | At_path p => file_at d p
  | At_uri u => fetch d u
  end.

Fixpoint all_of (l : list (option listing)) : option listing :=
  match l with
  | [] => Some []
  | None :: _ => None
  | Some x :: l' => option_map (app x) (all_of l')
  end.
(** asset.go:831-871, the function given to filepath.Walk, and 787-807 [directoryArchiveReader.Next]: the files
    below, by their paths from the directory.  filepath.Walk does not follow a link, not even at its root.
    Simplification: the directory itself is not named .pulumi. *)
Fixpoint walk (path name : string) (n : node) : option listing :=
  if String.eqb name ".pulumi" then Some []
  else
    match n with
    | File _ b => Some [(path, b)]
    | Dir es => all_of (map (fun e => walk (path ++ "/" ++ fst e)%string (fst e) (snd e)) es)
    | Link _ =>
        match stat n with
        | Some (File _ b) => Some [(path, b)]
        | Some (Dir _) => Some []
        | _ => None
        end
    end.
Definition walk_root (n : node) : option listing :=
  match n with
  | Dir es => all_of (map (fun e => walk (fst e) (fst e) (snd e)) es)
  | _ => walk "" "" n
  end.

(** asset.go:756-773 [readAssets]: the members in the order of their names. *)
Fixpoint insert {A : Type} (k : string) (a : A) (l : list (string * A)) : list (string * A) :=
  match l with
  | [] => [(k, a)]
  | (k', a') :: l' => if String.leb k k' then (k, a) :: l else (k', a') :: insert k a l'
  end.
Definition sort {A : Type} (l : list (string * A)) : list (string * A) := fold_right (fun ka r => insert (fst ka) (snd ka) r) [] l.
(** asset.go:680-690 [Open], 700-747 [assetsArchiveReader.Next], 813-905 [readPath], [readURI]: what comes out
    of an archive, one after the other; [None]: an error. *)
Fixpoint open (T : tools) (d : disk) (a : archive) : option listing :=
  match a with
  | Members ms => all_of (map snd (sort (map (fun km => (fst km, option_map (map (fun nb => match snd km with M_asset _ => nb | M_archive _ => (join T (fst km) (fst nb), snd nb) end))
                                               (match snd km with M_asset x => option_map (fun b => [(fst km, b)]) (read_asset d x) | M_archive y => open T d y end))) ms)))
  | In_path p =>
      match path_format T p with
      | Some f => match file_at d p with Some b => unpack T f b | None => None end
      | None =>
          match node_at d p with
          | Some n => match stat n with Some (Dir _) => walk_root n | _ => None end
          | None => None
          end
      end
  | In_uri u =>
      match uri_format T u with
      | Some f => match fetch d u with Some b => unpack T f b | None => None end
      | None => None
      end
  end.
(** asset.go:965-978 [addNextFileToTar], 1028-1041 [addNextFileToZIP]: a file is taken the first time it is seen. *)
Fixpoint first_only (seen : list string) (l : listing) : listing :=
  match l with
  | [] => []
  | (n, b) :: l' => if existsb (String.eqb n) seen then first_only seen l' else (n, b) :: first_only (n :: seen) l'
  end.
Definition contents (T : tools) (d : disk) (a : archive) : option listing := option_map (first_only []) (open T d a).

(** asset.go:1093-1106 [ReadSourceArchive]: the format and the bytes of an archive that is a file. *)
Definition source (T : tools) (d : disk) (a : archive) : option (option string) :=
  match a with
  | Members _ => None
  | In_path p => match path_format T p with Some _ => Some (file_at d p) | None => None end
  | In_uri u => match uri_format T u with Some _ => Some (fetch d u) | None => None end
  end.
(** asset.go:385-404, 1109-1138 [EnsureHash], when the hash is not there yet. *)
Definition asset_hash (T : tools) (d : disk) (a : asset) : option string := option_map (digest T) (read_asset d a).
Definition archive_hash (T : tools) (d : disk) (a : archive) : option string :=
  match source T d a with
  | Some bytes => option_map (digest T) bytes
  | None => option_map (fun l => digest T (tar T l)) (contents T d a)
  end.
(** asset.go:209-224, 543-558 [Equals], of one that was recorded with its hash and one that is declared now. *)
Definition differ (x y : option string) : bool := match x, y with Some h, Some h' => negb (String.eqb h h') | _, _ => true end.
Definition asset_changed (T : tools) (before now : disk) (a b : asset) : bool := differ (asset_hash T before a) (asset_hash T now b).
Definition archive_changed (T : tools) (before now : disk) (a b : archive) : bool := differ (archive_hash T before a) (archive_hash T now b).
