(** runtime/settings.py and _utils.py [ContextProperty]: the ambient settings *)
From Verif Require Import Base PyVal.
Open Scope string_scope.

(** The properties of [Settings] (settings.py:92-126).  Simplification:
    [feature_support] (a dict, Model_Features.v) is left out. *)
Inductive skey : Type := KMonitor | KEngine | KOrganization | KProject | KStack | KParallel | KDryRun | KLegacy.
Definition skey_eqb (a b : skey) : bool :=
  match a, b with
  | KMonitor, KMonitor | KEngine, KEngine | KOrganization, KOrganization | KProject, KProject
  | KStack, KStack | KParallel, KParallel | KDryRun, KDryRun | KLegacy, KLegacy => true
  | _, _ => false
  end.

(** Each property is one [ContextProperty] object, shared by all [Settings]
    objects (_utils.py:156-252): a context variable, here the value it has in
    each context ([None]: not set there), and the object's own [__default]. *)
Definition ctxvals : Type := skey -> option pyval.
Record sstate : Type := mkSS { g_default : skey -> pyval; g_ctxs : list ctxvals }.
Definition vals_at (s : sstate) (c : nat) : ctxvals := nth c (g_ctxs s) (fun _ => None).

Fixpoint supd {A} (l : list A) (n : nat) (x : A) : list A :=
  match l, n with
  | [], _ => []
  | _ :: l', 0 => x :: l'
  | y :: l', S n' => y :: supd l' n' x
  end.

(** _utils.py:202-203 [fget] (216-219 [__get__]): [self._data.get(self.__default)]. *)
Definition sget (s : sstate) (c : nat) (k : skey) : pyval :=
  match vals_at s c k with Some v => v | None => g_default s k end.
(** _utils.py:205-208 [fset]: the context variable's own default is None. *)
Definition sset (s : sstate) (c : nat) (k : skey) (v : pyval) : sstate :=
  let raw := match vals_at s c k with Some x => x | None => VNone end in
  let default := match raw with VNone => fun k' => if skey_eqb k' k then v else g_default s k' | _ => g_default s end in
  mkSS default (supd (g_ctxs s) c (fun k' => if skey_eqb k' k then Some v else vals_at s c k')).

(** The arguments of [Settings(...)]; [sa_monitor] and [sa_engine] stand for the
    stubs made from the addresses, or the objects given. *)
Record sargs : Type := mkSargs {
  sa_project : pyval; sa_stack : pyval; sa_monitor : pyval; sa_engine : pyval;
  sa_parallel : pyval; sa_dry_run : pyval; sa_legacy : pyval; sa_organization : pyval }.

Section Settings.
  (** Whether PULUMI_ENABLE_LEGACY_APPLY is "true". *)
  Variable legacy_env : bool.
  Definition legacy_value (v : pyval) : pyval := match v with VNone => VBool legacy_env | _ => v end.

  (** settings.py:47-90 [Settings.__init__]; 287-310 [reset_options]. *)
  Definition settings_init (s : sstate) (c : nat) (a : sargs) : sstate :=
    let s := sset s c KProject (sa_project a) in
    let s := sset s c KStack (sa_stack a) in
    let s := sset s c KParallel (sa_parallel a) in
    let s := sset s c KDryRun (sa_dry_run a) in
    let s := sset s c KLegacy (sa_legacy a) in
    let s := sset s c KOrganization (sa_organization a) in
    let s := match sa_legacy a with VNone => sset s c KLegacy (VBool legacy_env) | _ => s end in
    let s := sset s c KMonitor (sa_monitor a) in
    sset s c KEngine (sa_engine a).

  (** runtime/mocks.py:283-314 [set_mocks]: [MockSettings] sets only these. *)
  Definition mocks_init (s : sstate) (c : nat) (monitor engine project stack preview : pyval) : sstate :=
    let s := sset s c KMonitor monitor in
    let s := sset s c KEngine engine in
    let s := sset s c KProject (match project with VNone => VStr "project" | _ => project end) in
    let s := sset s c KStack (match stack with VNone => VStr "stack" | _ => stack end) in
    sset s c KDryRun preview.

  (** settings.py:133: importing the module configures the main context. *)
  Definition import_args : sargs := mkSargs (VStr "project") (VStr "stack") VNone VNone VNone VNone VNone VNone.
  Definition simport : sstate := settings_init (mkSS (fun _ => VNone) [fun _ => None]) 0 import_args.

  (** What can happen.  Not SDK code: a thread starts with an empty context, an
      asyncio task with a copy. *)
  Inductive sop : Type :=
  | SConfigure (c : nat) (a : sargs)
  | SMocks (c : nat) (monitor engine project stack preview : pyval)
  | SAssign (c : nat) (k : skey) (v : pyval)   (* e.g. [_set_project], settings.py:176-180 *)
  | SThread
  | STask (c : nat).
  Definition sstep (s : sstate) (o : sop) : sstate :=
    match o with
    | SConfigure c a => settings_init s c a
    | SMocks c m e p st pr => mocks_init s c m e p st pr
    | SAssign c k v => sset s c k v
    | SThread => mkSS (g_default s) (g_ctxs s ++ [fun _ => None])%list
    | STask c => mkSS (g_default s) (g_ctxs s ++ [vals_at s c])%list
    end.
  Definition srun (h : list sop) : sstate := fold_left sstep h simport.
End Settings.
