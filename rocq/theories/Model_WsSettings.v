(** automation/_stack_settings.py, _project_settings.py and the settings files of
    automation/_local_workspace.py *)
From Verif Require Import Base PyVal Model_Urn.
Open Scope string_scope.

(* ------------------------------------------------------------------ *)
(** Stack settings. *)

(** _stack_settings.py:18-24: a configuration value of [StackSettings]: a
    [StackSettingsSecureConfigValue] or anything else. *)
Inductive cval : Type := CSecure (secure : string) | CPlain (v : pyval).
(** _stack_settings.py:27-46 [StackSettings]. *)
Record stack_settings : Type := mkStackSettings {
  ss_provider : option string; ss_key : option string; ss_salt : option string; ss_config : option (dict cval) }.

Definition nonempty (o : option string) : bool := match o with Some (String _ _) => true | _ => false end.
Definition str_entry (k : string) (o : option string) : dict pyval :=
  match o with Some s => if nonempty o then [(k, VStr s)] else [] | None => [] end.

(** _stack_settings.py:65-85 [_serialize]. *)
Definition ser_cval (v : cval) : pyval :=
  match v with CSecure s => VDict [("secure", VStr s)] | CPlain v => v end.
Definition serialize_settings (s : stack_settings) : pyval :=
  VDict (str_entry "secretsprovider" (ss_provider s) ++ str_entry "encryptedkey" (ss_key s) ++
         str_entry "encryptionsalt" (ss_salt s) ++
         match ss_config s with
         | Some ((_ :: _) as c) => [("config", VDict (map (fun kv => (fst kv, ser_cval (snd kv))) c))]
         | _ => []
         end)%list.

(** _stack_settings.py:52-56: one configuration value that is loaded: kept, skipped, or
    an error.  [**val] needs the key "secure" and no other.  Simplification: the
    value of "secure" is a string. *)
Definition deser_cval (v : pyval) : res (option cval) :=
  match v with
  | VStr _ => Ok (Some (CPlain v))
  | VDict d =>
      if dmem d "secure" then
        match d with
        | [(_, VStr s)] => Ok (Some (CSecure s))
        | _ => Err (Exn "TypeError" "got an unexpected keyword argument")
        end
      else Ok None
  | VList l =>
      if existsb (fun x => match x with VStr s => String.eqb s "secure" | _ => false end) l
      then Err (Exn "TypeError" "argument after ** must be a mapping")
      else Ok None
  | _ => Err (Exn "TypeError" "argument is not iterable")
  end.
Fixpoint deser_config (c : list (string * pyval)) (acc : dict cval) : res (dict cval) :=
  match c with
  | [] => Ok acc
  | (k, v) :: c' =>
      match deser_cval v with
      | Err e => Err e
      | Ok None => deser_config c' acc
      | Ok (Some x) => deser_config c' (dset acc k x)
      end
  end.
Definition str_of (v : option pyval) : option string := match v with Some (VStr s) => Some s | _ => None end.
(** _stack_settings.py:48-63 [_deserialize].  Simplification: the three strings of a
    settings file are strings. *)
Definition deserialize_settings (data : pyval) : res stack_settings :=
  match data with
  | VDict d =>
      let finish c := mkStackSettings (str_of (dget d "secretsprovider")) (str_of (dget d "encryptedkey")) (str_of (dget d "encryptionsalt")) c in
      match dget d "config" with
      | None | Some VNone => Ok (finish None)
      | Some (VDict c) => match deser_config c [] with Ok c' => Ok (finish (Some c')) | Err e => Err e end
      | Some _ => Err (Exn "AttributeError" "object has no attribute 'items'")
      end
  | _ => Err (Exn "AttributeError" "object has no attribute 'get'")
  end.

(* ------------------------------------------------------------------ *)
(** Project settings. *)

(** A value of a project setting: a string, or an object of one of the classes
    [ProjectRuntimeInfo], [ProjectTemplate], [ProjectBackend]
    (_project_settings.py:18-74), here a number. *)
Inductive pval : Type := PStr (s : string) | PObj (n : nat).
(** _project_settings.py:77-123 [ProjectSettings]: [__dict__], in the order of the
    assignments. *)
Definition project_fields : list string :=
  ["name"; "runtime"; "main"; "description"; "author"; "website"; "license"; "config"; "template"; "backend"].
Record project_settings : Type := mkProject {
  pj_name : string; pj_runtime : pval; pj_main : option string; pj_description : option string; pj_author : option string;
  pj_website : option string; pj_license : option string; pj_config : option string; pj_template : option nat; pj_backend : option nat }.
Definition runtimes : list string := ["nodejs"; "python"; "go"; "dotnet"].
(** _project_settings.py:103-121: the constructor refuses other runtimes. *)
Definition runtime_ok (r : pval) : bool :=
  match r with PStr s => existsb (String.eqb s) runtimes | PObj _ => true end.

(** _local_workspace.py:150-154: the settings that are not None. *)
Definition opt_str (k : string) (o : option string) : dict pval := match o with Some s => [(k, PStr s)] | None => [] end.
Definition opt_obj (k : string) (o : option nat) : dict pval := match o with Some n => [(k, PObj n)] | None => [] end.
Definition writable_settings (p : project_settings) : dict pval :=
  ([("name", PStr (pj_name p)); ("runtime", pj_runtime p)] ++ opt_str "main" (pj_main p) ++ opt_str "description" (pj_description p) ++
   opt_str "author" (pj_author p) ++ opt_str "website" (pj_website p) ++ opt_str "license" (pj_license p) ++ opt_str "config" (pj_config p) ++
   opt_obj "template" (pj_template p) ++ opt_obj "backend" (pj_backend p))%list.

(* ------------------------------------------------------------------ *)
(** The files of a working directory. *)

(** What a file holds.  [json.dump] and [yaml.dump] followed by [json.load] and
    [yaml.safe_load] give plain data back unchanged (assumed; YAML sorts the keys of
    dicts, which does not matter for their equality); an object of some
    other class cannot be dumped as JSON, and its YAML form, which names the Python class, is
    refused by [safe_load]. *)
Inductive file_data : Type :=
| Data (v : pyval)           (* plain data *)
| Tagged                     (* YAML naming a Python class *)
| Truncated.                 (* what a failed [json.dump] leaves behind *)
Definition files : Type := dict file_data.

(** _local_workspace.py:40. *)
Definition setting_extensions : list string := [".yaml"; ".yml"; ".json"].
(** _local_workspace.py:601-605 [get_stack_settings_name]. *)
Definition get_stack_settings_name (name : string) : string := slast (split_c "/" name).
(** The first extension for which a file exists, _local_workspace.py:143-148, 162-165,
    177-183, 642-645. *)
Definition found_ext (fs : files) (base : string) : option string :=
  find (fun ext => dmem fs (base ++ ext)) setting_extensions.
Definition ext_or_yaml (o : option string) : string := match o with Some e => e | None => ".yaml" end.

(** _local_workspace.py:173-187 [save_stack_settings]. *)
Definition stack_base (name : string) : string := "Pulumi." ++ get_stack_settings_name name.
Definition save_stack_settings (fs : files) (name : string) (s : stack_settings) : files :=
  let base := stack_base name in
  dset fs (base ++ ext_or_yaml (found_ext fs base)) (Data (serialize_settings s)).
Definition parsed (f : file_data) : res pyval :=
  match f with
  | Data v => Ok v
  | Tagged => Err (Exn "ConstructorError" "could not determine a constructor for the tag")
  | Truncated => Err (Exn "JSONDecodeError" "Expecting value")
  end.
(** _local_workspace.py:160-171 [stack_settings]. *)
Definition load_stack_settings (fs : files) (name : string) : res stack_settings :=
  let base := stack_base name in
  match found_ext fs base with
  | None => Err (Exn "FileNotFoundError" "failed to find stack settings file in workdir")
  | Some ext =>
      match dget fs (base ++ ext) with
      | None => Err (Exn "FileNotFoundError" "No such file or directory")
      | Some f => match parsed f with Ok v => deserialize_settings v | Err e => Err e end
      end
  end.

Definition plain (p : pval) : option pyval := match p with PStr s => Some (VStr s) | PObj _ => None end.
Fixpoint plain_all (d : dict pval) : option (dict pyval) :=
  match d with
  | [] => Some []
  | (k, p) :: d' => match plain p, plain_all d' with Some v, Some r => Some ((k, v) :: r) | _, _ => None end
  end.
(** _local_workspace.py:141-158 [save_project_settings]: the files, and whether an
    exception is raised. *)
Definition save_project_settings (fs : files) (p : project_settings) : files * option exn :=
  let ext := ext_or_yaml (found_ext fs "Pulumi") in
  let path := "Pulumi" ++ ext in
  match plain_all (writable_settings p) with
  | Some d => (dset fs path (Data (VDict d)), None)
  | None =>
      if String.eqb ext ".json" then (dset fs path Truncated, Some (Exn "TypeError" "Object is not JSON serializable"))
      else (dset fs path Tagged, None)
  end.
(** _project_settings.py:91-123: [ProjectSettings(settings as keyword arguments)]. *)
Definition known_keys (d : dict pyval) : bool := forallb (fun kv => existsb (String.eqb (fst kv)) project_fields) d.
Definition make_project (d : dict pyval) : res project_settings :=
  if known_keys d then
    match dget d "name", dget d "runtime" with
    | Some (VStr n), Some (VStr r) =>
        if runtime_ok (PStr r)
        then Ok (mkProject n (PStr r) (str_of (dget d "main")) (str_of (dget d "description")) (str_of (dget d "author"))
                   (str_of (dget d "website")) (str_of (dget d "license")) (str_of (dget d "config")) None None)
        else Err (Exn "ValueError" "Invalid value for runtime")
    | _, _ => Err (Exn "TypeError" "missing required positional arguments")
    end
  else Err (Exn "TypeError" "got an unexpected keyword argument").
(** _local_workspace.py:138-139, 641-651 [project_settings].  Simplification: only files
    whose values are strings are modelled. *)
Definition load_project_settings (fs : files) : res project_settings :=
  match found_ext fs "Pulumi" with
  | None => Err (Exn "FileNotFoundError" "failed to find project settings file in workdir")
  | Some ext =>
      match dget fs ("Pulumi" ++ ext) with
      | None => Err (Exn "FileNotFoundError" "No such file or directory")
      | Some f =>
          match parsed f with
          | Ok (VDict d) => make_project d
          | Ok _ => Err (Exn "TypeError" "argument after ** must be a mapping")
          | Err e => Err e
          end
      end
  end.
