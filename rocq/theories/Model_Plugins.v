(** Plugins: automation/_local_workspace.py [install_plugin] and [remove_plugin], the commands they
    run, and the directory the plugins are in *)
From Verif Require Import Base PyVal Model_Cmd Model_StackInit Model_WsConfig Spec_WsConfig.
Open Scope string_scope.

(* ------------------------------------------------------------------ *)
(** The library github.com/blang/semver, which is not part of /repo: ParseTolerant, String,
    ParseRange and GTE. *)
Record semver (V : Type) : Type := mkSemver {
  sv_parse : string -> option V; sv_print : V -> string; sv_range : string -> option (V -> bool); sv_ge : V -> V -> bool }.
Arguments sv_parse {V}. Arguments sv_print {V}. Arguments sv_range {V}. Arguments sv_ge {V}.

(** The directory: its subdirectories, and for each whether there is a ".partial" file beside it.
    Simplification: such a file without the subdirectory, and lock files, are left out. *)
Definition cache : Type := dict bool.

(* ------------------------------------------------------------------ *)
(** Names of subdirectories. *)

(** sdk/go/common/workspace/plugins.go:1309-1316 [IsPluginKind]. *)
Definition is_kind (k : string) : bool := smem k ["analyzer"; "language"; "resource"].
(** plugins.go:583-589 [PluginSpec.Dir], 610-621 [DirPath].  Simplification: the name of the plugin
    is not taken apart as a path. *)
Definition dir_name {V} (L : semver V) (kind name : string) (v : V) : string := kind ++ "-" ++ name ++ "-v" ++ sv_print L v.
Definition in_range (a b c : ascii) : bool := Nat.leb (nat_of_ascii a) (nat_of_ascii c) && Nat.leb (nat_of_ascii c) (nat_of_ascii b).
Definition digit (c : ascii) : bool := in_range "0" "9" c.
Definition alnum (c : ascii) : bool := in_range "a" "z" c || in_range "A" "Z" c || digit c.
(** [p] in front of a text: what follows. *)
Fixpoint follows (p s : string) : option string :=
  match p, s with
  | EmptyString, _ => Some s
  | String a p', String b s' => if Ascii.eqb a b then follows p' s' else None
  | _, _ => None
  end.
Fixpoint digits (s : string) : bool := match s with EmptyString => true | String c s' => digit c && digits s' end.
(** plugins.go:1875-1878 [installingPluginRegexp]. *)
Fixpoint temp_dir (s : string) : bool :=
  match follows ".tmp" s with Some (String c t) => digit c && digits t | _ => false end ||
  match s with EmptyString => false | String _ s' => temp_dir s' end.
(** plugins.go:1869-1873 [pluginRegexp]: the kind ends at the first dash, the name is as long as it
    can be. *)
Fixpoint kind_rest (s : string) : option (string * string) :=
  match s with
  | EmptyString => None
  | String c s' => if Ascii.eqb c "-" then Some ("", s') else match kind_rest s' with Some (k, r) => Some (String c k, r) | None => None end
  end.
Fixpoint name_version (ended : bool) (s : string) : option (string * string) :=
  match (match s with
         | String c s' => if alnum c || Ascii.eqb c "-" then match name_version (alnum c) s' with Some (n, t) => Some (String c n, t) | None => None end else None
         | EmptyString => None
         end) with
  | Some r => Some r
  | None => if ended then match follows "-v" s with Some t => Some ("", t) | None => None end else None
  end.
(** plugins.go:1880-1935 [tryPlugin], of a directory. *)
Definition try_plugin {V} (L : semver V) (d : string) : option (string * string * V) :=
  if temp_dir d then None else
  match kind_rest d with
  | Some (k, r) =>
      if is_kind k then
        match name_version false r with
        | Some (n, t) => match sv_parse L t with Some v => Some (k, n, v) | None => None end
        | None => None
        end
      else None
  | None => None
  end.

(* ------------------------------------------------------------------ *)
(** plugins.go:1404-1411 [GetPlugins], 1426-1463 [getPlugins]: with each plugin its directory. *)
Fixpoint get_plugins {V} (L : semver V) (c : cache) : list (string * (string * string * V)) :=
  match c with
  | [] => []
  | (d, partial) :: c' =>
      match try_plugin L d with
      | Some p => if partial then get_plugins L c' else (d, p) :: get_plugins L c'
      | None => get_plugins L c'
      end
  end.
(** plugins.go:1319-1333 [HasPlugin]. *)
Definition has_plugin {V} (L : semver V) (c : cache) (kind name : string) (v : V) : bool :=
  match dget c (dir_name L kind name v) with Some partial => negb partial | None => false end.
(** plugins.go:1336-1365 [HasPluginGTE], 1785-1831 [SelectCompatiblePlugin]: whether there is a plugin
    with a version in the range, or in the legacy mode not before the version; MustParseRange can
    panic. *)
Definition has_plugin_gte {V} (L : semver V) (legacy : bool) (c : cache) (kind name : string) (v : V) : res bool :=
  if has_plugin L c kind name v then Ok true
  else
    let some_version (f : V -> bool) := existsb (fun dp => match snd dp with (k, n, v') => String.eqb k kind && String.eqb n name && f v' end) (get_plugins L c) in
    if legacy then Ok (some_version (fun v' => sv_ge L v' v))
    else match sv_range L (sv_print L v) with
         | Some f => Ok (some_version f)
         | None => Err (Exn "panic" "semver: ParseRange")
         end.

(** plugins.go:1281-1298 [cleanupTempDirs]. *)
Definition cleanup_temp_dirs (c : cache) : cache := filter (fun kv => negb (temp_dir (fst kv))) c.
(** plugins.go:1171-1274 [InstallWithContext], without reinstalling.  [unpack]: whether the contents can
    be written and the plugin's own dependencies be installed.  The directory is made afresh. *)
Definition install_content {V} (L : semver V) (unpack : option string) (c : cache) (kind name : string) (v : V) : cache * option string :=
  let c1 := cleanup_temp_dirs c in
  let d := dir_name L kind name v in
  match dget c1 d with
  | Some false => (c1, None)
  | _ =>
      match unpack with
      | Some err => (dset c1 d true, Some err)
      | None => (dset c1 d false, None)
      end
  end.

(* ------------------------------------------------------------------ *)
Section Cli.
  Context {V : Type} (L : semver V).
  Variable legacy : bool.                               (* plugins.go:62: PULUMI_ENABLE_LEGACY_PLUGIN_SEARCH *)
  Variable download : string -> string -> V -> option string.   (* why a download fails *)
  Variable unpack : string -> string -> V -> option string.
  Variable stuck : string -> bool.                      (* directories that cannot be removed *)
  Variable trouble : cache -> list string -> option (string * Z).

  Definition over (c : cache) (text : string) : cache * (string * string * Z) := (c, (text, "", 0%Z)).
  Definition stops (c : cache) (err : string * Z) : cache * (string * string * Z) :=
    (c, ("", fst err, if Z.eqb (snd err) 0 then 255%Z else snd err)).

  (** pkg/cmd/pulumi/plugin_install.go:59-185, with a version and without other flags. *)
  Definition plugin_install (c : cache) (pos : list string) : cache * (string * string * Z) :=
    match pos with
    | [kind; name; version] =>
        if negb (is_kind kind) then stops c ("error: unrecognized plugin kind: " ++ kind, 255%Z)
        else match sv_parse L version with
             | None => stops c ("error: invalid plugin semver", 255%Z)
             | Some v =>
                 match has_plugin_gte L legacy c kind name v with
                 | Err _ => stops c ("panic", 2%Z)
                 | Ok true => over c ""
                 | Ok false =>
                     match download kind name v with
                     | Some err => stops c (err, 255%Z)
                     | None =>
                         match install_content L (unpack kind name v) c kind name v with
                         | (c', Some err) => stops c' (err, 255%Z)
                         | (c', None) => over c' ""
                         end
                     end
                 end
             end
    | _ => stops c ("not modelled", 255%Z)
    end.

  (** pkg/cmd/pulumi/plugin_rm.go:50-117: which plugins are removed. *)
  Definition is_removed (kind name : string) (version : option (V -> bool)) (p : string * string * V) : bool :=
    match p with (k, n, v) =>
      String.eqb k kind && (String.eqb name "" || String.eqb n name) && match version with Some f => f v | None => true end
    end.
  (** plugins.go:695-705 [Delete], plugin_rm.go:103-113: the others are still removed when one cannot be. *)
  Fixpoint delete_all (c : cache) (ds : list string) : cache * bool :=
    match ds with
    | [] => (c, true)
    | d :: ds' => if stuck d then (fst (delete_all c ds'), false) else delete_all (ddel c d) ds'
    end.
  (** plugin_rm.go:50-117: with "--yes".  Simplification: without a kind nothing is modelled. *)
  Definition plugin_rm (c : cache) (yes : bool) (pos : list string) : cache * (string * string * Z) :=
    match pos with
    | kind :: rest =>
        if negb (is_kind kind) then stops c ("error: unrecognized plugin kind: ", 255%Z)
        else
          match (match rest with
                 | [] => Ok ("", None)
                 | [name] => Ok (name, None)
                 | [name; version] => match sv_range L version with Some f => Ok (name, Some f) | None => Err (Exn "error" "error: invalid plugin semver") end
                 | _ => Err (Exn "error" "error: usage")
                 end) with
          | Err (Exn _ m) => stops c (m, 255%Z)
          | Ok (name, version) =>
              match map fst (filter (fun dp => is_removed kind name version (snd dp)) (get_plugins L c)) with
              | [] => over c ""
              | ds => if negb yes then stops c ("not modelled", 255%Z)
                      else match delete_all c ds with
                           | (c', true) => over c' ""
                           | (c', false) => stops c' ("error: failed to delete", 255%Z)
                           end
              end
          end
    | [] => stops c ("not modelled", 255%Z)
    end.

  (** The CLI; [trouble] is any other reason for which a command can fail, before it changes anything. *)
  Definition cli_plugins : cli cache := fun c args =>
    match trouble c args with
    | Some err => stops c err
    | None =>
    match args with
    | "plugin" :: "install" :: rest =>
        match parse_flags ["exact"; "reinstall"; "non-interactive"] ["server"; "file"; "checksum"] rest with
        | Some (fl, pos) => if forallb (fun kv => String.eqb (fst kv) "non-interactive") fl then plugin_install c pos else stops c ("not modelled", 255%Z)
        | None => stops c ("error: usage", 255%Z)
        end
    | "plugin" :: "rm" :: rest =>
        match parse_flags ["all"; "yes"; "non-interactive"] [] rest with
        | Some (fl, pos) => plugin_rm c (flag_given fl "yes") pos
        | None => stops c ("error: usage", 255%Z)
        end
    | _ => stops c ("error: unknown command", 255%Z)
    end
    end.
End Cli.

(* ------------------------------------------------------------------ *)
(** _local_workspace.py:302-303 [install_plugin]. *)
Definition install_plugin {S} (c : cli S) (s : S) (name version kind : string) : S * answer unit :=
  let '(s', r) := command c s [VStr "plugin"; VStr "install"; VStr kind; VStr name; VStr version] in (s', done r).
(** _local_workspace.py:305-317 [remove_plugin]. *)
Definition if_given (o : option string) : list pyval := match o with Some ((String _ _) as s) => [VStr s] | _ => [] end.
Definition remove_plugin {S} (c : cli S) (s : S) (name version_range : option string) (kind : string) : S * answer unit :=
  let '(s', r) := command c s ([VStr "plugin"; VStr "rm"; VStr kind] ++ if_given name ++ if_given version_range ++ [VStr "--yes"])%list in (s', done r).
