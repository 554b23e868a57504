(** resource.py: ResourceOptions and how they are merged; invoke.py:
    InvokeOptions. *)
From Verif Require Import Base PyVal Model_Output.
Open Scope string_scope.

(** A ProviderResource object: its package (resource.py:1131-1167) and its
    identity. *)
Record provider : Type := mkProvider { p_package : string; p_id : nat }.
(** [providers]: a list or a mapping (resource.py:499-501). *)
Inductive providers : Type := PList (l : list provider) | PMap (d : dict provider).

(** resource.py:491-590: a ResourceOptions object.  [ro_merge] is the object the
    instance attribute [merge] is bound to (line 559).  Option lists are lists;
    objects only passed along (timeouts, transformations) are numbers. *)
Record ropts : Type := mkRopts {
  ro_merge : nat;
  ro_parent : option nat;
  ro_depends_on : option pyval;
  ro_protect : option bool;
  ro_provider : option provider;
  ro_providers : option providers;
  ro_delete_before_replace : option bool;
  ro_ignore_changes : option (list string);
  ro_version : option string;
  ro_aliases : option (list pyval);
  ro_additional_secret_outputs : option (list string);
  ro_id : option pyval;
  ro_import : option string;
  ro_custom_timeouts : option nat;
  ro_transformations : option (list nat);
  ro_urn : option string;
  ro_replace_on_changes : option (list string);
  ro_plugin_download_url : option string;
  ro_retain_on_delete : option bool
}.
(** [ResourceOptions()] at address [self]. *)
Definition new_ropts (self : nat) : ropts :=
  mkRopts self None None None None None None None None None None None None None None None None None None.

(** Option objects live in a heap; addresses are positions. *)
Definition oheap : Type := list ropts.
Definition oget (h : oheap) (a : nat) : ropts := nth a h (new_ropts a).
Definition oalloc (h : oheap) (o : ropts) : oheap * nat := ((h ++ [o])%list, length h).
Fixpoint oset (h : oheap) (a : nat) (o : ropts) : oheap :=
  match h, a with
  | [], _ => []
  | _ :: h', 0 => o :: h'
  | x :: h', S a' => x :: oset h' a' o
  end.

(** resource.py:737-744 [_merge_lists]. *)
Definition merge_lists {A} (dest source : option (list A)) : option (list A) :=
  match dest with
  | None => source
  | Some d => match source with None => dest | Some s => Some (d ++ s)%list end
  end.
(** [x if source.x is None else source.x] *)
Definition or_dest {A} (dest source : option A) : option A :=
  match source with None => dest | Some _ => source end.

(** [list(x) if isinstance(x, Sequence) else [x]]; a str is a Sequence. *)
Definition to_list (x : pyval) : res pyval :=
  match x with
  | VList l => Ok (VList l)
  | VStr s => Ok (VList (map (fun c => VStr (String c "")) (list_ascii_of_string s)))
  | _ => Ok (VList [x])
  end.
(** resource.py:595-603 [_depends_on_list]. *)
Definition depends_on_list (o : ropts) : res pyval :=
  match ro_depends_on o with
  | None => Ok (VList [])
  | Some d => map_input d to_list
  end.
(** [lambda xs, ys: xs + ys] on lists. *)
Definition plus (xs ys : pyval) : res pyval :=
  match xs, ys with
  | VList a, VList b => Ok (VList (a ++ b))
  | _, _ => Err (Exn "TypeError" "unsupported operand type(s) for +")
  end.

(** resource.py:649-657 [expand_providers]; the warning is not modelled. *)
Definition expand_providers (p : option providers) : option (list provider) :=
  match p with
  | None => None
  | Some (PList l) => Some l
  | Some (PMap d) => Some (map snd d)
  end.
(** resource.py:715-734 [_collapse_providers], on the list that merge built. *)
Definition collapse_providers (p : option (list provider)) : option providers :=
  match p with
  | None => None
  | Some [] => None
  | Some l => Some (PMap (fold_left (fun d pr => dset d (p_package pr) pr) l []))
  end.

(** resource.py:645-712: the assignments to [dest]. *)
Definition merge_fields (dest source : ropts) : res ropts :=
  let+ d1 := depends_on_list dest in
  let+ d2 := depends_on_list source in
  let+ deps := map2_input d1 d2 plus in
  Ok (mkRopts
    (ro_merge dest)
    (or_dest (ro_parent dest) (ro_parent source))
    (Some deps)
    (or_dest (ro_protect dest) (ro_protect source))
    (or_dest (ro_provider dest) (ro_provider source))
    (collapse_providers (merge_lists (expand_providers (ro_providers dest)) (expand_providers (ro_providers source))))
    (or_dest (ro_delete_before_replace dest) (ro_delete_before_replace source))
    (merge_lists (ro_ignore_changes dest) (ro_ignore_changes source))
    (or_dest (ro_version dest) (ro_version source))
    (merge_lists (ro_aliases dest) (ro_aliases source))
    (merge_lists (ro_additional_secret_outputs dest) (ro_additional_secret_outputs source))
    (or_dest (ro_id dest) (ro_id source))
    (or_dest (ro_import dest) (ro_import source))
    (or_dest (ro_custom_timeouts dest) (ro_custom_timeouts source))
    (merge_lists (ro_transformations dest) (ro_transformations source))
    (or_dest (ro_urn dest) (ro_urn source))
    (merge_lists (ro_replace_on_changes dest) (ro_replace_on_changes source))
    (or_dest (ro_plugin_download_url dest) (ro_plugin_download_url source))
    (or_dest (ro_retain_on_delete dest) (ro_retain_on_delete source))).

(** resource.py:606-712 [ResourceOptions.merge], the static method, on objects
    of the right class: [copy.copy] allocates an object with the same
    attributes, [merge] included. *)
Definition ensure (h : oheap) (o : option nat) : oheap * nat :=
  match o with None => oalloc h (new_ropts (length h)) | Some a => (h, a) end.
Definition merge (h : oheap) (opts1 opts2 : option nat) : res (oheap * nat) :=
  let (h, a1) := ensure h opts1 in
  let (h, a2) := ensure h opts2 in
  let (h, dest) := oalloc h (oget h a1) in
  let (h, source) := oalloc h (oget h a2) in
  let+ m := merge_fields (oget h dest) (oget h source) in
  Ok (oset h dest m, dest).
(** resource.py:592-593 and 559: [o.merge(opts)] on an instance calls the method
    of the object its [merge] attribute is bound to. *)
Definition merge_instance (h : oheap) (o : nat) (opts : option nat) : res (oheap * nat) :=
  merge h (Some (ro_merge (oget h o))) opts.

(** invoke.py:46-72: an InvokeOptions object. *)
Record iopts : Type := mkIopts {
  io_merge : nat;
  io_parent : option nat;
  io_provider : option provider;
  io_version : option string;
  io_plugin_download_url : option string
}.
(** [InvokeOptions()]: the default version is the empty string (line 50). *)
Definition new_iopts (self : nat) : iopts := mkIopts self None None (Some "") None.
Definition iheap : Type := list iopts.
Definition iget (h : iheap) (a : nat) : iopts := nth a h (new_iopts a).
Fixpoint iset (h : iheap) (a : nat) (o : iopts) : iheap :=
  match h, a with
  | [], _ => []
  | _ :: h', 0 => o :: h'
  | x :: h', S a' => x :: iset h' a' o
  end.
Definition iensure (h : iheap) (o : option nat) : iheap * nat :=
  match o with None => ((h ++ [new_iopts (length h)])%list, length h) | Some a => (h, a) end.
(** invoke.py:78-129 [InvokeOptions.merge]. *)
Definition imerge (h : iheap) (opts1 opts2 : option nat) : iheap * nat :=
  let (h, a1) := iensure h opts1 in
  let (h, a2) := iensure h opts2 in
  let dest := length h in
  let h := (h ++ [iget h a1])%list in
  let d := iget h dest in
  let s := iget h a2 in
  (iset h dest (mkIopts (io_merge d)
     (or_dest (io_parent d) (io_parent s))
     (or_dest (io_provider d) (io_provider s))
     (or_dest (io_version d) (io_version s))
     (or_dest (io_plugin_download_url d) (io_plugin_download_url s))), dest).
(** invoke.py:74-75 and 66. *)
Definition imerge_instance (h : iheap) (o : nat) (opts : option nat) : iheap * nat :=
  imerge h (Some (io_merge (iget h o))) opts.
