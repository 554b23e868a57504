(** runtime/config.py and config.py *)
From Verif Require Import Base PyVal Model_Output.
Open Scope string_scope.

(** The two context variables of runtime/config.py:25-28.  A [ContextVar]
    holds a reference: [c_loc] is the place of the dict in [s_heap], place 0
    being the one default dict shared by all contexts that never set the
    variable.  The secret-key sets are never changed in place, so they are kept
    by value. *)
Record ctx : Type := mkCtx { c_loc : nat; c_secrets : list string }.
Record cstate : Type := mkCS { s_heap : list (dict pyval); s_ctxs : list ctx }.
Definition default_ctx : ctx := mkCtx 0 [].
Definition cinit : cstate := mkCS [[]] [default_ctx].
Definition ctx_at (s : cstate) (c : nat) : ctx := nth c (s_ctxs s) default_ctx.
Definition dict_at (s : cstate) (l : nat) : dict pyval := nth l (s_heap s) [].

Fixpoint upd {A} (l : list A) (n : nat) (x : A) : list A :=
  match l, n with
  | [], _ => []
  | _ :: l', 0 => x :: l'
  | y :: l', S n' => y :: upd l' n' x
  end.

(** runtime/config.py:31-35 [set_config]: changes the current dict in place. *)
Definition set_config (s : cstate) (c : nat) (k : string) (v : pyval) : cstate :=
  let l := c_loc (ctx_at s c) in
  mkCS (upd (s_heap s) l (dset (dict_at s l) k v)) (s_ctxs s).

(** runtime/config.py:38-50 [set_all_config]. *)
Definition set_all_config (s : cstate) (c : nat) (config : dict string) (secret_keys : option (list string)) : cstate :=
  let new_config := fold_left (fun acc kv => dset acc (fst kv) (VStr (snd kv))) config [] in
  let secrets := match secret_keys with Some l => l | None => c_secrets (ctx_at s c) end in
  mkCS (s_heap s ++ [new_config])%list (upd (s_ctxs s) c (mkCtx (length (s_heap s)) secrets)).

(** Not SDK code: a context is created empty (a new thread) or as a copy of
    another (contextvars.copy_context, asyncio tasks). *)
Definition new_ctx (s : cstate) : cstate := mkCS (s_heap s) (s_ctxs s ++ [default_ctx])%list.
Definition copy_ctx (s : cstate) (c : nat) : cstate := mkCS (s_heap s) (s_ctxs s ++ [ctx_at s c])%list.

Inductive cop : Type :=
| OpSet (c : nat) (k : string) (v : pyval)
| OpSetAll (c : nat) (m : dict string) (secrets : option (list string))
| OpNew
| OpCopy (c : nat).
(** Operations on contexts that do not exist have no effect. *)
Definition cstep (s : cstate) (o : cop) : cstate :=
  match o with
  | OpSet c k v => if Nat.ltb c (length (s_ctxs s)) then set_config s c k v else s
  | OpSetAll c m l => if Nat.ltb c (length (s_ctxs s)) then set_all_config s c m l else s
  | OpNew => new_ctx s
  | OpCopy c => if Nat.ltb c (length (s_ctxs s)) then copy_ctx s c else s
  end.
Definition crun (s : cstate) (h : list cop) : cstate := fold_left cstep h s.

(** runtime/config.py:63-76 [get_config_env_key].  Strings are bytes here:
    each byte of a non-ASCII character becomes an underscore (in Python, each
    character does). *)
Definition env_char (c : ascii) : ascii :=
  let n := nat_of_ascii c in
  if Ascii.eqb c "_" || (Nat.leb 65 n && Nat.leb n 90) || (Nat.leb 48 n && Nat.leb n 57) then c
  else if Nat.leb 97 n && Nat.leb n 122 then ascii_of_nat (n - 32)
  else "_"%char.
Fixpoint env_scrub (k : string) : string :=
  match k with
  | EmptyString => EmptyString
  | String c k' => String (env_char c) (env_scrub k')
  end.
Definition get_config_env_key (k : string) : string := "PULUMI_CONFIG_" ++ env_scrub k.

(** The Python functions that this code calls: [int], [float] and
    [json.loads]. *)
Record builtins : Type := mkB {
  py_int : pyval -> res pyval;
  py_float : pyval -> res pyval;
  py_loads : pyval -> res pyval }.

Section Config.
  Variable B : builtins.
  (** os.environ *)
  Variable env : dict string.

  (** runtime/config.py:53-60 [get_config_env]. *)
  Definition get_config_env : res pyval :=
    match dget env "PULUMI_CONFIG" with
    | Some t => py_loads B (VStr t)
    | None => Ok (VDict [])
    end.

  (** [k in env_dict and env_dict[k]], line 105-106, for any JSON document. *)
  Definition bag_lookup (bag : pyval) (k : string) : res pyval :=
    match bag with
    | VNone => Ok VNone
    | VDict d => match dget d k with Some v => Ok v | None => Ok VNone end
    | VList l =>
        if existsb (fun v => match v with VStr s => String.eqb s k | _ => false end) l
        then Err (Exn "TypeError" "list indices must be integers or slices, not str") else Ok VNone
    | VStr t =>
        match String.index 0 k t with
        | Some _ => Err (Exn "TypeError" "string indices must be integers")
        | None => Ok VNone
        end
    | _ => Err (Exn "TypeError" "argument is not iterable")
    end.

  (** runtime/config.py:89-107 [get_config]. *)
  Definition get_config (s : cstate) (c : nat) (k : string) : res pyval :=
    match dget (dict_at s (c_loc (ctx_at s c))) k with
    | Some v => Ok v
    | None =>
        match dget env (get_config_env_key k) with
        | Some t => Ok (VStr t)
        | None => let+ bag := get_config_env in bag_lookup bag k
        end
    end.

  (** runtime/config.py:110-114 [is_config_secret]. *)
  Definition is_config_secret (s : cstate) (c : nat) (k : string) : bool :=
    smem k (c_secrets (ctx_at s c)).

  (** config.py:42-51 [Config.__init__]: the bag's name; [None] is a [None] or
      missing argument. *)
  Definition config_name (project : string) (name : option string) : string :=
    match name with
    | None | Some EmptyString => project
    | Some n => n
    end.

  (** config.py:480-488 [full_key]. *)
  Definition full_key (name key : string) : string := name ++ ":" ++ key.

  (** config.py:511-537.  Simplification: the message of a type error leaves
      out the value. *)
  Definition type_error (key type : string) : exn :=
    Exn "ConfigTypeError" ("Configuration '" ++ key ++ "' is not a valid '" ++ type ++ "'").
  Definition missing_error (key : string) : exn :=
    Exn "ConfigMissingError" ("Missing required configuration variable '" ++ key ++ "'").

  (** The state in which a [Config] object named [name] is used, from context
      [c]; [dry] is runtime.is_dry_run(), used by Output.secret. *)
  Variables (dry : bool) (s : cstate) (c : nat) (name : string).

  (** config.py:54-67 [_get]. *)
  Definition raw_get (key : string) : res pyval := get_config s c (full_key name key).
  Definition or_default (v default : pyval) : pyval := if is_none v then default else v.
  Definition secret_of (v : pyval) : pyval := VO (secret dry v).
  Definition secret_or_none (v : pyval) : pyval := if is_none v then VNone else secret_of v.

  (** config.py:69-98 *)
  Definition get (key : string) (default : pyval) : res pyval :=
    let+ v := raw_get key in Ok (or_default v default).
  Definition get_secret (key : string) : res pyval :=
    let+ v := raw_get key in Ok (secret_or_none v).

  (** config.py:100-113 [_get_bool] *)
  Definition raw_bool (key : string) : res pyval :=
    let+ v := raw_get key in
    match v with
    | VNone => Ok VNone
    | VStr t =>
        if smem t ["true"; "True"] then Ok (VBool true)
        else if smem t ["false"; "False"] then Ok (VBool false)
        else Err (type_error (full_key name key) "bool")
    | _ => Err (type_error (full_key name key) "bool")
    end.
  (** config.py:115-150 *)
  Definition get_bool (key : string) (default : pyval) : res pyval :=
    let+ v := raw_bool key in Ok (or_default v default).
  Definition get_secret_bool (key : string) (default : pyval) : res pyval :=
    let+ v := raw_bool key in Ok (secret_or_none (or_default v default)).

  (** config.py:152-164 [_get_int] *)
  Definition raw_int (key : string) : res pyval :=
    let+ v := raw_get key in
    if is_none v then Ok VNone
    else match py_int B v with Ok x => Ok x | Err _ => Err (type_error (full_key name key) "int") end.
  (** config.py:166-201 *)
  Definition get_int (key : string) (default : pyval) : res pyval :=
    let+ v := raw_int key in Ok (or_default v default).
  Definition get_secret_int (key : string) (default : pyval) : res pyval :=
    let+ v := raw_int key in Ok (secret_or_none (or_default v default)).

  (** config.py:203-215 [_get_float] *)
  Definition raw_float (key : string) : res pyval :=
    let+ v := raw_get key in
    if is_none v then Ok VNone
    else match py_float B v with Ok x => Ok x | Err _ => Err (type_error (full_key name key) "float") end.
  (** config.py:217-252 *)
  Definition get_float (key : string) (default : pyval) : res pyval :=
    let+ v := raw_float key in Ok (or_default v default).
  Definition get_secret_float (key : string) (default : pyval) : res pyval :=
    let+ v := raw_float key in Ok (secret_or_none (or_default v default)).

  (** config.py:254-266 [_get_object] *)
  Definition raw_object (key : string) : res pyval :=
    let+ v := raw_get key in
    if is_none v then Ok VNone
    else match py_loads B v with Ok x => Ok x | Err _ => Err (type_error (full_key name key) "JSON object") end.
  (** config.py:268-305 *)
  Definition get_object (key : string) (default : pyval) : res pyval :=
    let+ v := raw_object key in Ok (or_default v default).
  Definition get_secret_object (key : string) (default : pyval) : res pyval :=
    let+ v := raw_object key in Ok (secret_or_none (or_default v default)).

  (** config.py:307-316 [_require] and the same test in 340-349, 377-386,
      414-423 and 451-460. *)
  Definition present (key : string) (v : pyval) : res pyval :=
    if is_none v then Err (missing_error (full_key name key)) else Ok v.

  (** config.py:318-338 *)
  Definition require (key : string) : res pyval := let+ v := raw_get key in present key v.
  Definition require_secret (key : string) : res pyval :=
    let+ v := raw_get key in let+ x := present key v in Ok (secret_of x).
  (** config.py:351-375 *)
  Definition require_bool (key : string) : res pyval := let+ v := raw_bool key in present key v.
  Definition require_secret_bool (key : string) : res pyval :=
    let+ v := raw_bool key in let+ x := present key v in Ok (secret_of x).
  (** config.py:388-412 *)
  Definition require_int (key : string) : res pyval := let+ v := raw_int key in present key v.
  Definition require_secret_int (key : string) : res pyval :=
    let+ v := raw_int key in let+ x := present key v in Ok (secret_of x).
  (** config.py:425-449 *)
  Definition require_float (key : string) : res pyval := let+ v := raw_float key in present key v.
  Definition require_secret_float (key : string) : res pyval :=
    let+ v := raw_float key in let+ x := present key v in Ok (secret_of x).
  (** config.py:462-478 *)
  Definition require_object (key : string) : res pyval := let+ v := raw_object key in present key v.
  Definition require_secret_object (key : string) : res pyval :=
    let+ v := raw_object key in let+ x := present key v in Ok (secret_of x).
End Config.
