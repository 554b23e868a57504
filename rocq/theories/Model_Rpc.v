(** runtime/rpc.py: the wire format. *)
From Verif Require Import Base PyVal Model_Output Model_Urn.

(** google.protobuf.struct_pb2 values.  [WNull] doubles as the Python value
    None that [serialize_property] returns.  Numbers: see [VNum]. *)
Inductive wire : Type :=
| WNull
| WBool (b : bool)
| WNum (z : Z)
| WStr (s : string)
| WList (l : list wire)
| WStruct (d : list (string * wire)).

Section WireInd.
  Variable P : wire -> Prop.
  Hypothesis HNull : P WNull.
  Hypothesis HBool : forall b, P (WBool b).
  Hypothesis HNum : forall z, P (WNum z).
  Hypothesis HStr : forall s, P (WStr s).
  Hypothesis HList : forall l, Forall P l -> P (WList l).
  Hypothesis HStruct : forall d, Forall (fun kv => P (snd kv)) d -> P (WStruct d).
  Fixpoint wire_ind' (w : wire) : P w :=
    match w with
    | WNull => HNull
    | WBool b => HBool b
    | WNum z => HNum z
    | WStr s => HStr s
    | WList l => HList l
        ((fix go (l : list wire) : Forall P l :=
            match l with [] => Forall_nil _ | x :: l' => Forall_cons x (wire_ind' x) (go l') end) l)
    | WStruct d => HStruct d
        ((fix go (d : list (string * wire)) : Forall (fun kv => P (snd kv)) d :=
            match d with [] => Forall_nil _ | kv :: d' => Forall_cons kv (wire_ind' (snd kv)) (go d') end) d)
    end.
End WireInd.

(** rpc.py:58-95. *)
Definition UNKNOWN : string := "04da6b54-80e4-46f7-96ec-b56ff0331ba9".
Definition sig_key : string := "4dabf18193072939515e22adb298388d".
Definition asset_sig : string := "c44067f5952c0a294b673a41bacd8c17".
Definition archive_sig : string := "0def7320c3a5731c473e5ecbe6d01bc7".
Definition secret_sig : string := "1b47061264138c4ac30d75fd1eb44270".
Definition resource_sig : string := "5cf8f73096256a8f31e491e813e4eb8e".
Definition output_sig : string := "d0e6a833031e9bbcd3f4e8bde6ca49a4".

(** Declared types, after [_types.unwrap_type] (_types.py:966-1019) has removed
    Optional, Input, InputType and Output. *)
Inductive pty : Type :=
| TyAny
| TyList (e : pty)      (* List[T], Sequence[T] *)
| TyListBare            (* list, List, Sequence *)
| TyDict (e : pty)      (* Dict[str, T], Mapping[str, T] *)
| TyDictBare            (* dict, or a dict type not keyed by str *)
| TyInput (cls : nat)   (* a class decorated with @input_type *)
| TyOther.              (* anything else *)

(** One declared property of an input type, _types.py:447-454. *)
Record field : Type := mkField { f_py : string; f_pulumi : string; f_ty : option pty }.

(** What serialisation sees of a Resource: whether it is a CustomResource, its
    [urn] and [id] outputs (None: not known), each depending on the resource
    itself and never secret (runtime/resource.py:195-213), and the URNs
    [_add_dependency] adds for it (runtime/resource.py:767-811; modelled in
    [Model_Deps.v]). *)
Record rinfo : Type := mkRinfo {
  r_custom : bool;
  r_urn : fut (option string);
  r_id : fut (option string);
  r_expand : fut (list string)
}.

(** Everything serialisation depends on besides the value.  Simplification:
    the feature queries (settings.py:228-251) are given as answers. *)
Record cfg : Type := mkCfg {
  c_secrets : bool;                          (* monitor_supports_secrets *)
  c_refs : bool;                             (* monitor_supports_resource_references *)
  c_outvals : bool;                          (* monitor_supports_output_values *)
  c_transform : option (string -> string);   (* input_transformer *)
  c_class : nat -> list field;               (* the declared input types *)
  c_res : rsrc -> rinfo
}.

(** [_types.input_type_py_to_pulumi_names], _types.py:490-498, and the
    translation [py_name_to_pulumi_name.get(k) or k], rpc.py:198, 446. *)
Definition py_to_pulumi (fs : list field) : dict string :=
  dupdate [] (map (fun f => (f_py f, f_pulumi f)) fs).
Definition translate_declared (fs : list field) (k : string) : string :=
  match dget (py_to_pulumi fs) k with
  | Some p => if String.eqb p "" then k else p
  | None => k
  end.
(** [_types.input_type_types], _types.py:501-506, 769-814: keyed by Pulumi name. *)
Definition declared_types (fs : list field) : dict pty :=
  fold_left (fun acc f => match f_ty f with Some t => dset acc (f_pulumi f) t | None => acc end) fs [].

Definition transform (c : cfg) (k : string) : string :=
  match c_transform c with Some f => f k | None => k end.

(** rpc.py:246-252. *)
Definition norm_ty (t : option pty) : option pty :=
  match t with Some TyAny => None | _ => t end.

(** rpc.py:143-160 [_get_list_element_type]. *)
Definition element_type (t : option pty) : res (option pty) :=
  match t with
  | None => Ok None
  | Some TyListBare => Ok (Some TyAny)
  | Some (TyList e) => Ok (Some e)
  | Some _ => Err (Exn "AssertionError" "Unexpected type. Expected 'list'")
  end.

(** rpc.py:432-467: key translation and value types for a mapping. *)
Definition key_rule (c : cfg) (t : option pty) : string -> string :=
  match t with
  | None | Some TyDictBare => transform c
  | Some (TyInput cls) => translate_declared (c_class c cls)
  | Some _ => fun k => k
  end.
Definition value_rule (c : cfg) (t : option pty) : string -> option pty :=
  match t with
  | Some (TyInput cls) => fun k => dget (declared_types (c_class c cls)) k
  | Some (TyDict e) => fun _ => Some e
  | _ => fun _ => None
  end.

Definition ser_fn : Type := option pty -> bool -> fut (wire * list rsrc).

(** rpc.py:259-268: elements of a list, in order. *)
Fixpoint ser_elems (es : list ser_fn) (t : option pty) (keep : bool) : fut (list wire * list rsrc) :=
  match es with
  | [] => Done ([], [])
  | s :: es' =>
      let* (w, ds) := s t keep in
      let* (ws, ds') := ser_elems es' t keep in
      Done (w :: ws, ds ++ ds')
  end.

(** rpc.py:469-484: entries of a mapping, in order. *)
Fixpoint ser_entries (tr : string -> string) (ty : string -> option pty) (keep : bool)
    (es : list (string * ser_fn)) (acc : dict wire) : fut (dict wire * list rsrc) :=
  match es with
  | [] => Done (acc, [])
  | (k, s) :: es' =>
      let* (w, ds) := s (ty (tr k)) keep in
      let* (d, ds') := ser_entries tr ty keep es' (dset acc (tr k) w) in
      Done (d, ds ++ ds')
  end.

(** _types.py:509-525 [input_type_to_dict], on values paired with a flag for
    None. *)
Definition input_entries {A} (fs : list field) (vals : dict (bool * A)) : dict A :=
  fold_left (fun acc f => match dget vals (f_py f) with
                          | Some (false, s) => dset acc (f_pulumi f) s
                          | _ => acc
                          end) fs [].

(** Serialising [resource.urn] or [resource.id] (an Output of a string with
    the resource as dependency): rpc.py:366-416 with keep_output_values
    False. *)
Definition ser_string_output (r : rsrc) (f : fut (option string)) : fut (wire * list rsrc) :=
  let* o := f in
  Done (match o with Some s => WStr s | None => WStr UNKNOWN end, [r]).

(** [sorted(dependencies)] of a set of strings. *)
Fixpoint sinsert (s : string) (l : list string) : list string :=
  match l with
  | [] => [s]
  | x :: l' => match String.compare s x with
               | Lt => s :: l
               | Eq => l
               | Gt => x :: sinsert s l'
               end
  end.
Definition sort_strings (l : list string) : list string := fold_right sinsert [] l.

(** rpc.py:388-397 and runtime/resource.py:814-825: the URNs of the set of
    resources an output depends on.  Each resource's URN is awaited first
    (rpc.py:389-393), then its dependencies are expanded. *)
Fixpoint await_urns (c : cfg) (rs : list rsrc) : fut unit :=
  match rs with
  | [] => Done tt
  | r :: rs' => let* _ := r_urn (c_res c r) in await_urns c rs'
  end.
Fixpoint expand_all (c : cfg) (rs : list rsrc) : fut (list string) :=
  match rs with
  | [] => Done []
  | r :: rs' => let* us := r_expand (c_res c r) in
                let* us' := expand_all c rs' in Done (us ++ us')
  end.

Definition wsecret (w : wire) : wire := WStruct [(sig_key, WStr secret_sig); ("value", w)].

(** rpc.py:399-408: an output value. *)
Definition woutput (known secret : bool) (w : wire) (urns : list string) : wire :=
  WStruct ((sig_key, WStr output_sig)
           :: (if known then [("value", w)] else [])
           ++ (if secret then [("secret", WBool true)] else [])
           ++ (match urns with [] => [] | _ => [("dependencies", WList (map WStr urns))] end)).

(** rpc.py:229-490 [serialize_property].  Returns the wire value and the
    resources appended to [deps].  Not modelled: that serialising an output
    also extends the set object the output itself holds (line 386, modelled in
    [Model_Sets.v]); and a
    resource re-created from a reference ([VConstructed]) as an input. *)
Fixpoint ser (c : cfg) (v : pyval) (t0 : option pty) (keep : bool) {struct v} : fut (wire * list rsrc) :=
  let t := norm_ty t0 in
  match v with
  | VList l =>                                                   (* 256-268 *)
      match element_type t with
      | Err e => Fail e
      | Ok et =>
          let* (ws, ds) := ser_elems (map (fun x => ser c x) l) et keep in
          Done (WList ws, ds)
      end
  | VUnknown => Done (WStr UNKNOWN, [])                          (* 270-271 *)
  | VRes r =>                                                    (* 273-299 *)
      let i := c_res c r in
      if c_refs c then
        let* (u, ds) := ser_string_output r (r_urn i) in
        if r_custom i then
          let* (d, ds') := ser_string_output r (r_id i) in
          Done (WStruct [(sig_key, WStr resource_sig); ("urn", u); ("id", d)], ds ++ ds')
        else Done (WStruct [(sig_key, WStr resource_sig); ("urn", u)], ds)
      else ser_string_output r (if r_custom i then r_id i else r_urn i)
  | VFileAsset p => Done (WStruct [(sig_key, WStr asset_sig); ("path", WStr p)], [])     (* 301-325 *)
  | VStringAsset s => Done (WStruct [(sig_key, WStr asset_sig); ("text", WStr s)], [])
  | VRemoteAsset u => Done (WStruct [(sig_key, WStr asset_sig); ("uri", WStr u)], [])
  | VAssetArchive d =>                                           (* 327-337 *)
      let* (es, ds) := ser_entries (transform c) (fun _ => None) false
                         (map (fun kv => (fst kv, ser c (snd kv))) d) [] in
      Done (WStruct [(sig_key, WStr archive_sig); ("assets", WStruct es)], ds)
  | VFileArchive p => Done (WStruct [(sig_key, WStr archive_sig); ("path", WStr p)], []) (* 338-351 *)
  | VRemoteArchive u => Done (WStruct [(sig_key, WStr archive_sig); ("uri", WStr u)], [])
  | VAwait f =>                                                  (* 353-364 *)
      match f with
      | Done x => ser c x t keep
      | Fail e => Fail e
      | Pending => Pending
      end
  | VOut rs x known secret =>                                    (* 366-416 *)
      let* rs := rs in
      let* known := known in
      let* secret := secret in
      let* (w, pds) :=
        match x with
        | Done y => if contains_unknowns y then Done (WNull, []) else ser c y t false
        | Fail e => Fail e
        | Pending => Pending
        end in
      if keep && c_outvals c then
        let* _ := await_urns c (rs ++ pds) in
        let* urns := expand_all c (rs ++ pds) in
        Done (woutput known secret w (sort_strings urns), rs ++ pds)
      else if negb known then Done (WStr UNKNOWN, rs ++ pds)
      else if secret && c_secrets c then Done (wsecret w, rs ++ pds)
      else Done (w, rs ++ pds)
  | VInput cls fields =>                                         (* 418-429 *)
      let fs := c_class c cls in
      let* (es, ds) := ser_entries (fun k => k) (fun k => dget (declared_types fs) k) keep
          (input_entries fs (map (fun kv => (fst kv, (is_none (snd kv), ser c (snd kv)))) fields)) [] in
      Done (WStruct es, ds)
  | VDict d =>                                                   (* 431-484 *)
      let* (es, ds) := ser_entries (key_rule c t) (value_rule c t) keep
                         (map (fun kv => (fst kv, ser c (snd kv))) d) [] in
      Done (WStruct es, ds)
  | VNone => Done (WNull, [])                                    (* 486-490 *)
  | VBool b => Done (WBool b, [])
  | VNum z => Done (WNum z, [])
  | VStr s => Done (WStr s, [])
  | VOther _ => Fail (Exn "ValueError" "unexpected input of type")
  | VConstructed _ _ _ _ => Fail (Exn "NotModelled" "serialising a re-created resource")
  end.

(** rpc.py:163-225 [serialize_properties].  [typ] is the input type given for
    the whole bag, if any. *)
Definition top_key (c : cfg) (typ : option nat) : string -> string :=
  match typ with
  | Some cls => translate_declared (c_class c cls)
  | None => transform c
  end.
Definition top_type (c : cfg) (typ : option nat) (k : string) : option pty :=
  match typ with
  | Some cls => dget (declared_types (c_class c cls)) (top_key c typ k)
  | None => None
  end.
Fixpoint ser_props_loop (c : cfg) (typ : option nat) (keep : bool)
    (inputs : list (string * pyval)) (st : dict wire) (pd : dict (list rsrc))
  : fut (dict wire * dict (list rsrc)) :=
  match inputs with
  | [] => Done (st, pd)
  | (k, v) :: rest =>
      let* (w, ds) := ser c v (top_type c typ k) keep in
      match w with
      | WNull => ser_props_loop c typ keep rest st pd
      | _ => ser_props_loop c typ keep rest (dset st (top_key c typ k) w) (dset pd (top_key c typ k) ds)
      end
  end.
Definition serialize_properties (c : cfg) (typ : option nat) (keep : bool) (inputs : list (string * pyval))
  : fut (dict wire * dict (list rsrc)) :=
  ser_props_loop c typ keep inputs [] [].

(* ------------------------------------------------------------------ *)

(** rpc.py:636-667. *)
Definition is_rpc_secret (v : pyval) : bool :=
  match v with
  | VDict d => match dget d sig_key with Some (VStr s) => String.eqb s secret_sig | _ => false end
  | _ => false
  end.
Definition vsecret (v : pyval) : pyval := VDict [(sig_key, VStr secret_sig); ("value", v)].
Definition wrap_rpc_secret (v : pyval) : pyval := if is_rpc_secret v then v else vsecret v.
Definition unwrap_rpc_secret (v : pyval) : pyval :=
  match v with
  | VDict d => if is_rpc_secret v then match dget d "value" with Some x => x | None => v end else v
  | _ => v
  end.

(** asset.py: the constructors check their arguments. *)
Definition is_asset_or_archive (v : pyval) : bool :=
  match v with
  | VFileAsset _ | VStringAsset _ | VRemoteAsset _ | VAssetArchive _ | VFileArchive _ | VRemoteArchive _ => true
  | _ => false
  end.
Definition mk_string (build : string -> pyval) (w : wire) : res pyval :=
  match w with WStr s => Ok (build s) | _ => Err (Exn "TypeError" "must be a string") end.
Definition mk_asset_archive (v : pyval) : res pyval :=
  match v with
  | VDict d => if forallb (fun kv => is_asset_or_archive (snd kv)) d then Ok (VAssetArchive d)
               else Err (Exn "TypeError" "AssetArchive assets must contain only Assets or Archives")
  | _ => Err (Exn "TypeError" "AssetArchive assets must be a dictionary")
  end.

(** What deserialisation depends on: the mode, and the registered packages and
    modules.  [d_pkg name version] is [get_resource_package] (rpc.py:1174-1184)
    and [d_mod pkg mod version] is [get_resource_module] (rpc.py:1223-1234),
    both modelled in [Model_Registry.v]; an entry is known by a number. *)
Record dcfg : Type := mkDcfg {
  d_dry : bool;
  d_pkg : string -> string -> res (option nat);
  d_mod : string -> string -> string -> res (option nat)
}.

(** rpc.py:577-593: the constructor to use for a URN. *)
Definition d_find (dc : dcfg) (urn version : string) : res (option (nat * string * string)) :=
  let+ p := parse_urn urn in
  let+ found := if String.eqb (u_pkg p) "pulumi" && String.eqb (u_mod p) "providers"
                then d_pkg dc (u_tname p) version
                else d_mod dc (u_pkg p) (u_mod p) version in
  Ok (option_map (fun n => (n, u_name p, u_typ p)) found).

(** [str.startswith("__")] *)
Definition is_internal (k : string) : bool :=
  String.prefix "__" k && negb (String.eqb k "__provider").

Definition deser_fn : Type := bool -> res pyval.

Definition value_not_set {A} : res A := Err (Exn "ValueError" "Value not set").

Fixpoint all_strings (l : list pyval) : res (list string) :=
  match l with
  | [] => Ok []
  | VStr s :: l' => let+ r := all_strings l' in Ok (s :: r)
  | _ :: _ => Err (Exn "TypeError" "not a string")
  end.

(** rpc.py:604-633 [deserialize_output_value].  Simplification: dependencies
    other than a list of strings are an error. *)
Definition deser_output_value (es : dict (wire * deser_fn)) : res pyval :=
  let+ v := match dget es "value" with Some (_, f) => f false | None => Ok VNone end in
  let+ s := match dget es "secret" with
            | Some (_, f) => let+ b := f false in Ok (match b with VBool true => true | _ => false end)
            | None => Ok false end in
  let+ ds := match dget es "dependencies" with
             | Some (_, f) => let+ x := f false in
                              match x with VList l => all_strings l | _ => Err (Exn "TypeError" "not a list") end
             | None => Ok [] end in
  Ok (VO (new_output (Done (map RDep ds)) (Done v)
            (Done (match dget es "value" with Some _ => true | None => false end)) (Done s))).

(** rpc.py:571-601 [deserialize_resource]. *)
Definition deser_resource (dc : dcfg) (es : dict (wire * deser_fn)) (keep : bool) : res pyval :=
  match dget es "urn" with
  | None => value_not_set
  | Some (WStr urn, _) =>
      let+ version := match dget es "packageVersion" with
                      | None => Ok EmptyString
                      | Some (WStr s, _) => Ok s
                      | Some _ => Err (Exn "TypeError" "expected string") end in
      let+ found := d_find dc urn version in
      match found with
      | Some (ctor, name, typ) => Ok (VConstructed ctor name typ urn)
      | None =>
          match dget es "id" with
          | Some (WStr EmptyString, _) => Ok (if d_dry dc || keep then VUnknown else VNone)
          | Some (_, f) => f keep
          | None => Ok (VStr urn)
          end
      end
  | Some _ => Err (Exn "ValueError" "Cannot parse URN")
  end.

(** rpc.py:494-568 [deserialize_properties]: the entries of a struct, each with
    its raw value and its deserialisation ([fun keep_unknowns => ...]). *)
Fixpoint deser_entries (keep keep_internal : bool) (es : dict (wire * deser_fn)) : res (dict pyval) :=
  match es with
  | [] => Ok []
  | (k, (_, f)) :: es' =>
      if negb keep_internal && is_internal k then deser_entries keep keep_internal es'
      else
        let+ v := f keep in
        let+ d := deser_entries keep keep_internal es' in
        Ok (if is_none v then d else (k, v) :: d)
  end.

Definition deser_struct (dc : dcfg) (es : dict (wire * deser_fn)) (keep keep_internal : bool) : res pyval :=
  match dget es sig_key with
  | Some (WStr s, _) =>
      if String.eqb s asset_sig then
        match dget es "path", dget es "text", dget es "uri" with
        | Some (w, _), _, _ => mk_string VFileAsset w
        | None, Some (w, _), _ => mk_string VStringAsset w
        | None, None, Some (w, _) => mk_string VRemoteAsset w
        | None, None, None => Err (Exn "AssertionError" "Invalid asset encountered when unmarshalling resource property")
        end
      else if String.eqb s archive_sig then
        match dget es "assets", dget es "path", dget es "uri" with
        | Some (_, f), _, _ => let+ v := f false in mk_asset_archive v
        | None, Some (w, _), _ => mk_string VFileArchive w
        | None, None, Some (w, _) => mk_string VRemoteArchive w
        | None, None, None => Err (Exn "AssertionError" "Invalid archive encountered when unmarshalling resource property")
        end
      else if String.eqb s secret_sig then
        match dget es "value" with
        | Some (_, f) => let+ v := f false in Ok (wrap_rpc_secret v)
        | None => value_not_set
        end
      else if String.eqb s resource_sig then deser_resource dc es keep
      else if String.eqb s output_sig then deser_output_value es
      else Err (Exn "AssertionError" "Unrecognized signature")
  | Some _ => Err (Exn "AssertionError" "Unrecognized signature")
  | None => let+ d := deser_entries keep keep_internal es in Ok (VDict d)
  end.

Definition rmap {A B} (f : A -> res B) : list A -> res (list B) :=
  fix go (l : list A) : res (list B) :=
    match l with
    | [] => Ok []
    | x :: l' => let+ y := f x in let+ ys := go l' in Ok (y :: ys)
    end.

(** rpc.py:681-700: push secretness up one level. *)
Definition bubble_list (vs : list pyval) : pyval :=
  if existsb is_rpc_secret vs then wrap_rpc_secret (VList (map unwrap_rpc_secret vs)) else VList vs.
Definition bubble_dict (v : pyval) : pyval :=
  match v with
  | VDict d => if existsb (fun kv => is_rpc_secret (snd kv)) d
               then wrap_rpc_secret (VDict (map (fun kv => (fst kv, unwrap_rpc_secret (snd kv))) d))
               else v
  | _ => v
  end.

(** rpc.py:670-704 [deserialize_property]. *)
Fixpoint deser (dc : dcfg) (w : wire) (keep : bool) {struct w} : res pyval :=
  match w with
  | WStr s => Ok (if String.eqb s UNKNOWN then (if d_dry dc || keep then VUnknown else VNone) else VStr s)
  | WList l => let+ vs := rmap (fun x => deser dc x keep) l in Ok (bubble_list vs)
  | WStruct d =>
      let+ p := deser_struct dc (map (fun kv => (fst kv, (snd kv, deser dc (snd kv)))) d) keep false in
      Ok (bubble_dict p)
  | WNull => Ok VNone
  | WBool b => Ok (VBool b)
  | WNum z => Ok (VNum z)
  end.

Definition deserialize_properties (dc : dcfg) (d : dict wire) (keep keep_internal : bool) : res pyval :=
  deser_struct dc (map (fun kv => (fst kv, (snd kv, deser dc (snd kv)))) d) keep keep_internal.
