(** Independent specifications for the wire format (C10-C18, C20-C23). *)
From Verif Require Import Base PyVal Model_Output Model_Rpc.

(** Two declared properties of an input type with the same Pulumi name are
    the same Python property. *)
Definition class_ok (fs : list field) : Prop :=
  forall f g, In f fs -> In g fs -> f_pulumi f = f_pulumi g -> f_py f = f_py g.

(** [mentions c r v]: resource [r] occurs in value [v], directly or as a
    dependency of an output, at any depth.  The value behind an output is
    only looked at when it contains no unknowns (otherwise nothing of it is
    sent). *)
Inductive mentions (c : cfg) (r : rsrc) : pyval -> Prop :=
| M_res : mentions c r (VRes r)
| M_list x l : In x l -> mentions c r x -> mentions c r (VList l)
| M_dict k x d : In (k, x) d -> mentions c r x -> mentions c r (VDict d)
| M_archive k x d : In (k, x) d -> mentions c r x -> mentions c r (VAssetArchive d)
| M_input cls f x fields :
    In f (c_class c cls) -> dget fields (f_py f) = Some x -> mentions c r x ->
    mentions c r (VInput cls fields)
| M_await x : mentions c r x -> mentions c r (VAwait (Done x))
| M_out rs x k s : In r rs -> mentions c r (VOut (Done rs) x k s)
| M_out_value rs x k s :
    contains_unknowns x = false -> mentions c r x -> mentions c r (VOut rs (Done x) k s).

(** The value with what is behind not-known outputs removed. *)
Fixpoint erase_unknown (v : pyval) : pyval :=
  match v with
  | VList l => VList (map erase_unknown l)
  | VDict d => VDict (map (fun kv => (fst kv, erase_unknown (snd kv))) d)
  | VAssetArchive d => VAssetArchive (map (fun kv => (fst kv, erase_unknown (snd kv))) d)
  | VInput c d => VInput c (map (fun kv => (fst kv, erase_unknown (snd kv))) d)
  | VAwait (Done x) => VAwait (Done (erase_unknown x))
  | VOut rs (Done x) (Done false) s => VOut rs (Done VNone) (Done false) s
  | VOut rs (Done x) k s => VOut rs (Done (erase_unknown x)) k s
  | _ => v
  end.

(** What is behind every not-known output in [v] mentions no resource. *)
Inductive hides_resource (c : cfg) : pyval -> Prop :=
| HR_list x l : In x l -> hides_resource c x -> hides_resource c (VList l)
| HR_dict k x d : In (k, x) d -> hides_resource c x -> hides_resource c (VDict d)
| HR_archive k x d : In (k, x) d -> hides_resource c x -> hides_resource c (VAssetArchive d)
| HR_input cls k x d : In (k, x) d -> hides_resource c x -> hides_resource c (VInput cls d)
| HR_await x : hides_resource c x -> hides_resource c (VAwait (Done x))
| HR_here rs x s r : contains_unknowns x = false -> mentions c r x -> hides_resource c (VOut rs (Done x) (Done false) s)
| HR_inside rs x s : hides_resource c x -> hides_resource c (VOut rs (Done x) (Done true) s).

(** Inputs for which nothing is sent: None, an awaitable of such a value, and
    a known output of such a value (or of a value containing unknowns) that
    is not sent as a secret or as an output value. *)
Inductive sends_nothing (c : cfg) (keep : bool) : pyval -> Prop :=
| SN_none : sends_nothing c keep VNone
| SN_await x : sends_nothing c keep x -> sends_nothing c keep (VAwait (Done x))
| SN_out rs x s :
    keep && c_outvals c = false -> s && c_secrets c = false ->
    contains_unknowns x = true \/ sends_nothing c false x ->
    sends_nothing c keep (VOut (Done rs) (Done x) (Done true) (Done s)).

(** Names the wire format reserves: two leading underscores, except the
    property holding a dynamic provider. *)
Definition internal_key (k : string) : bool :=
  String.prefix "__" k && negb (String.eqb k "__provider").

(** Plain data as a user writes it. *)
Fixpoint plain (v : pyval) : Prop :=
  match v with
  | VNone | VBool _ | VNum _ => True
  | VStr s => s <> UNKNOWN
  | VList l => (fix go (l : list pyval) : Prop :=
                  match l with [] => True | x :: l' => plain x /\ go l' end) l
  | VDict d =>
      wf_dict d /\ ~ In sig_key (dkeys d) /\ (forall k, In k (dkeys d) -> internal_key k = false) /\
      (fix go (d : list (string * pyval)) : Prop :=
         match d with [] => True | kv :: d' => plain (snd kv) /\ go d' end) d
  | _ => False
  end.

(** Assets and archives. *)
Fixpoint asset_tree (v : pyval) : Prop :=
  match v with
  | VFileAsset _ | VStringAsset _ | VRemoteAsset _ | VFileArchive _ | VRemoteArchive _ => True
  | VAssetArchive d =>
      wf_dict d /\ ~ In sig_key (dkeys d) /\ (forall k, In k (dkeys d) -> internal_key k = false) /\
      (fix go (d : list (string * pyval)) : Prop :=
         match d with [] => True | kv :: d' => asset_tree (snd kv) /\ go d' end) d
  | _ => False
  end.

(** Plain data with assets and archives anywhere in it. *)
Fixpoint asset_data (v : pyval) : Prop :=
  match v with
  | VNone | VBool _ | VNum _ => True
  | VStr s => s <> UNKNOWN
  | VList l => (fix go (l : list pyval) : Prop :=
                  match l with [] => True | x :: l' => asset_data x /\ go l' end) l
  | VDict d =>
      wf_dict d /\ ~ In sig_key (dkeys d) /\ (forall k, In k (dkeys d) -> internal_key k = false) /\
      (fix go (d : list (string * pyval)) : Prop :=
         match d with [] => True | kv :: d' => asset_data (snd kv) /\ go d' end) d
  | _ => asset_tree v
  end.

(** The same data without null-valued map entries. *)
Fixpoint drop_nulls (v : pyval) : pyval :=
  match v with
  | VList l => VList (map drop_nulls l)
  | VDict d => VDict ((fix go (d : list (string * pyval)) :=
                 match d with
                 | [] => []
                 | (k, x) :: d' => if is_none x then go d' else (k, drop_nulls x) :: go d'
                 end) d)
  | _ => v
  end.

(** [exposed w w']: message [w'] occurs in [w], through list elements and
    the entries of ordinary structs that are not internal. *)
Inductive exposed (w' : wire) : wire -> Prop :=
| E_here : exposed w' w'
| E_list x l : In x l -> exposed w' x -> exposed w' (WList l)
| E_struct k x d : dget d sig_key = None -> In (k, x) d -> internal_key k = false ->
    exposed w' x -> exposed w' (WStruct d).

(** A secret is exposed in [w]: a struct with the secret signature. *)
Definition exposes_secret (w : wire) : Prop :=
  exists d, dget d sig_key = Some (WStr secret_sig) /\ exposed (WStruct d) w.

(** Any part of a message. *)
Inductive part (w' : wire) : wire -> Prop :=
| P_here : part w' w'
| P_list x l : In x l -> part w' x -> part w' (WList l)
| P_struct k x d : In (k, x) d -> part w' x -> part w' (WStruct d).

(** Python dict values: a message's struct keys are distinct. *)
Definition wf_wire (w : wire) : Prop := forall d, part (WStruct d) w -> wf_dict d.
(** Messages in which resource references carry string ids, and without
    output values. *)
Definition string_ids (w : wire) : Prop :=
  forall d, part (WStruct d) w -> dget d sig_key = Some (WStr resource_sig) ->
    match dget d "id" with Some (WStr _) | None => True | Some _ => False end.
Definition no_output_values (w : wire) : Prop :=
  forall d, part (WStruct d) w -> dget d sig_key <> Some (WStr output_sig).

(** [within x v]: [x] occurs in the Python value [v], through lists and
    dicts. *)
Inductive within (x : pyval) : pyval -> Prop :=
| W_here : within x x
| W_list y l : In y l -> within x y -> within x (VList l)
| W_dict k y d : In (k, y) d -> within x y -> within x (VDict d).

(** ... and through the values of outputs and the members of archives. *)
Inductive within_deep (x : pyval) : pyval -> Prop :=
| D_here : within_deep x x
| D_list y l : In y l -> within_deep x y -> within_deep x (VList l)
| D_dict k y d : In (k, y) d -> within_deep x y -> within_deep x (VDict d)
| D_archive k y d : In (k, y) d -> within_deep x y -> within_deep x (VAssetArchive d)
| D_out rs y k s : within_deep x y -> within_deep x (VOut rs (Done y) k s).

(** No dict carrying the signature key occurs in the value: no secret marker
    (or any other marker) is left. *)
Definition unmarked (v : pyval) : Prop := forall d, within (VDict d) v -> ~ In sig_key (dkeys d).
Definition deeply_unmarked (v : pyval) : Prop := forall d, within_deep (VDict d) v -> ~ In sig_key (dkeys d).

(** [v] is marked secret, with [x] inside. *)
Definition marked_secret (v x : pyval) : Prop := v = VDict [(sig_key, VStr secret_sig); ("value", x)].

(** Positions: list indices and map keys. *)
Inductive step : Type := Idx (n : nat) | Key (k : string).
(** [msg_at w p w']: [w'] is at position [p] of message [w]; secret wrappers
    are transparent; internal keys are not part of the value. *)
Inductive msg_at : wire -> list step -> wire -> Prop :=
| MA_here w : msg_at w [] w
| MA_list l n x p w' : nth_error l n = Some x -> msg_at x p w' -> msg_at (WList l) (Idx n :: p) w'
| MA_key d k x p w' :
    dget d sig_key = None -> dget d k = Some x -> internal_key k = false ->
    msg_at x p w' -> msg_at (WStruct d) (Key k :: p) w'
| MA_secret d x p w' :
    dget d sig_key = Some (WStr secret_sig) -> dget d "value" = Some x ->
    msg_at x p w' -> msg_at (WStruct d) p w'.
Inductive val_at : pyval -> list step -> pyval -> Prop :=
| VA_here v : val_at v [] v
| VA_list l n x p v : nth_error l n = Some x -> val_at x p v -> val_at (VList l) (Idx n :: p) v
| VA_key d k x p v : dget d k = Some x -> val_at x p v -> val_at (VDict d) (Key k :: p) v.

(** No struct with the given signature occurs in the message. *)
Definition without_sig (s : string) (w : wire) : Prop :=
  forall d, part (WStruct d) w -> dget d sig_key <> Some (WStr s).

(** [secret_at c keep x v]: a known secret output with value [x] occurs in
    [v], in a position that is sent: through lists, dicts and input-type
    objects whose sent names are distinct and neither reserved nor internal,
    awaitables and the values of other known outputs; outputs are not sent
    as output values. *)
Inductive secret_at (c : cfg) (keep : bool) (x : pyval) : pyval -> Prop :=
| SA_here rs : keep && c_outvals c = false -> contains_unknowns x = false ->
    secret_at c keep x (VOut rs (Done x) (Done true) (Done true))
| SA_list y l : In y l -> secret_at c keep x y -> secret_at c keep x (VList l)
| SA_dict k y d :
    In (k, y) d ->
    (forall t, NoDup (map (key_rule c t) (dkeys d)) /\ ~ In sig_key (map (key_rule c t) (dkeys d)) /\
               internal_key (key_rule c t k) = false) ->
    secret_at c keep x y -> secret_at c keep x (VDict d)
| SA_input cls f y fields :
    In f (c_class c cls) -> dget fields (f_py f) = Some y ->
    (forall g, In g (c_class c cls) -> f_pulumi g <> sig_key) -> internal_key (f_pulumi f) = false ->
    secret_at c keep x y -> secret_at c keep x (VInput cls fields)
| SA_await y : secret_at c keep x y -> secret_at c keep x (VAwait (Done y))
| SA_inside rs y s :
    keep && c_outvals c = false -> contains_unknowns y = false ->
    secret_at c false x y -> secret_at c keep x (VOut rs (Done y) (Done true) s).

(** Everything a value needs has completed. *)
Definition resources_ready (c : cfg) : Prop :=
  forall r, resolved (r_urn (c_res c r)) /\ resolved (r_id (c_res c r)) /\ resolved (r_expand (c_res c r)).

(** [sent_as c t k k']: under declared type [t] the map key [k] is to be
    sent as [k']. *)
Inductive sent_as (c : cfg) : option pty -> string -> string -> Prop :=
| S_untyped k : c_transform c = None -> sent_as c None k k
| S_translated k f : c_transform c = Some f -> sent_as c None k (f k)
| S_bare k k' : sent_as c None k k' -> sent_as c (Some TyDictBare) k k'
| S_dict e k : sent_as c (Some (TyDict e)) k k
| S_declared cls f : In f (c_class c cls) -> sent_as c (Some (TyInput cls)) (f_py f) (f_pulumi f)
| S_undeclared cls k : (forall f, In f (c_class c cls) -> f_py f <> k) -> sent_as c (Some (TyInput cls)) k k.

(** [entry_type c t k e]: in a map declared as [t] the entry sent as [k] is
    declared as [e]. *)
Inductive entry_type (c : cfg) : option pty -> string -> option pty -> Prop :=
| Et_untyped k : entry_type c None k None
| Et_bare k : entry_type c (Some TyDictBare) k None
| Et_dict e k : entry_type c (Some (TyDict e)) k (Some e)
| Et_declared cls f : In f (c_class c cls) -> entry_type c (Some (TyInput cls)) (f_pulumi f) (f_ty f)
| Et_undeclared cls k : (forall f, In f (c_class c cls) -> f_pulumi f <> k) ->
    entry_type c (Some (TyInput cls)) k None.

(** A class of inputs: each property declared once, under one Python name and
    one non-empty Pulumi name. *)
Definition class_declared (fs : list field) : Prop :=
  NoDup (map f_py fs) /\ NoDup (map f_pulumi fs) /\ (forall f, In f fs -> f_pulumi f <> "").

(** A bag of inputs is declared by a class, or not at all. *)
Definition bag_type (typ : option nat) : option pty := option_map TyInput typ.
(** No two of the keys [l] are sent under one name. *)
Definition distinct_names (c : cfg) (t : option pty) (l : list string) : Prop :=
  NoDup l /\ forall k1 k2 k', In k1 l -> In k2 l -> sent_as c t k1 k' -> sent_as c t k2 k' -> k1 = k2.
(** A type that says nothing. *)
Definition untyped (t : option pty) : Prop := t = None \/ t = Some TyAny.
(** A value that the SDK holds as a secret. *)
Definition is_secret (v : pyval) : Prop := exists d, v = VDict d /\ dget d sig_key = Some (VStr secret_sig).

(** Each declared property has one Python name and a non-empty Pulumi name. *)
Definition class_named (fs : list field) : Prop :=
  NoDup (map f_py fs) /\ forall f, In f fs -> f_pulumi f <> "".

(** [u] is [x], or [x] marked secret. *)
Definition maybe_secret (secret : bool) (u x : pyval) : Prop :=
  if secret then marked_secret u x else u = x /\ ~ is_secret u.

(** A message: a struct with distinct keys and no signature. *)
Definition top_message (d : dict wire) : Prop := dget d sig_key = None /\ wf_dict d.
