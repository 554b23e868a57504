(** runtime/rpc.py: the registries of resource packages and resource modules. *)
From Verif Require Import Base Model_Semver Model_Rpc.
Open Scope string_scope.

(** rpc.py:1129-1131 [same_version]. *)
Definition same_version (a b : option version) : bool :=
  match a, b with
  | None, _ | _, None => true
  | Some x, Some y => version_eqb x y
  end.

(** rpc.py:1134-1141 [check_version]. *)
Definition check_version (want have : option version) : bool :=
  match want, have with
  | None, _ | _, None => true
  | Some w, Some h =>
      N.eqb (v_major h) (v_major w) && N.leb (v_minor w) (v_minor h) && N.leb (v_patch w) (v_patch h)
  end.

(** rpc.py:1144-1152 and 1187-1194: a registered package or module, known by a
    number.  Its [version()] is taken not to change. *)
Record entry : Type := mkEntry { e_version : option version; e_id : nat }.
Definition registry : Type := dict (list entry).
Definition entries (r : registry) (key : string) : list entry :=
  match dget r key with Some l => l | None => [] end.

(** rpc.py:1157-1171 [register_resource_package]; rpc.py:1204-1220
    [register_resource_module] after computing its key. *)
Definition re_register : exn := Exn "ValueError" "Cannot re-register".
Definition register (r : registry) (key : string) (e : entry) : res registry :=
  match dget r key with
  | Some l =>
      if existsb (fun x => same_version (e_version x) (e_version e)) l then Err re_register
      else Ok (dset r key (l ++ [e])%list)
  | None => Ok (dset r key [e])
  end.

(** [a > b] of two optional versions: comparing with None raises. *)
Definition py_gt (a b : option version) : res bool :=
  match a, b with
  | Some x, Some y => Ok (version_gtb x y)
  | _, _ => Err (Exn "TypeError" "'>' not supported")
  end.

(** rpc.py:1174-1184 and 1223-1234: the loop. *)
Fixpoint best (want : option version) (l : list entry) (cur : option entry) : res (option entry) :=
  match l with
  | [] => Ok cur
  | e :: l' =>
      if negb (check_version want (e_version e)) then best want l' cur
      else match cur with
           | None => best want l' (Some e)
           | Some c => let+ gt := py_gt (e_version e) (e_version c) in
                       best want l' (if gt then Some e else Some c)
           end
  end.
(** [parse] is semver's [Version.parse]. *)
Definition lookup (parse : string -> res version) (r : registry) (key version : string) : res (option nat) :=
  let+ ver := if String.eqb version "" then Ok None else (let+ v := parse version in Ok (Some v)) in
  let+ b := best ver (entries r key) None in
  Ok (option_map e_id b).

(** rpc.py:1174-1184 [get_resource_package]. *)
Definition get_resource_package parse (r : registry) (pkg version : string) : res (option nat) := lookup parse r pkg version.
Definition register_resource_package := register.

(** rpc.py:1200-1201 [_module_key]; 1204-1234. *)
Definition module_key (pkg md : string) : string := pkg ++ ":" ++ md.
Definition register_resource_module (r : registry) (pkg md : string) (e : entry) : res registry :=
  register r (module_key pkg md) e.
Definition get_resource_module parse (r : registry) (pkg md version : string) : res (option nat) :=
  lookup parse r (module_key pkg md) version.

(** Registrations made by a program, one after the other; a refused one raises
    in the program, which may go on. *)
Fixpoint register_all (r : registry) (calls : list (string * entry)) : registry :=
  match calls with
  | [] => r
  | (key, e) :: cs => register_all (match register r key e with Ok r' => r' | Err _ => r end) cs
  end.

(** Deserialisation (rpc.py:577-593) looks constructors up here. *)
Definition registry_dcfg (dry : bool) parse (packages modules : registry) : dcfg :=
  mkDcfg dry (get_resource_package parse packages) (get_resource_module parse modules).
