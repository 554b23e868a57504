(** Independent specifications for the exchange of values with the engine
    (C81, C82). *)
From Verif Require Import Base PyVal Model_Urn Model_Rpc Spec_Rpc Model_Engine.

(** The strings the protocol gives a meaning of their own: the seven
    placeholders for values that are not known, and the key that tells what
    kind of thing a struct is. *)
Definition sentinels : list string :=
  ["1c4a061d-8072-4f0a-a4cb-0ff528b18fe7"; "3eeb2bf0-c639-47a8-9e75-3b44932eb421";
   "04da6b54-80e4-46f7-96ec-b56ff0331ba9"; "6a19a0b0-7e62-4c92-b797-7f8e31da9cc2";
   "030794c1-ac77-496b-92df-f27374a8bd58"; "e48ece36-62e2-4504-bad9-02848725956a";
   "dd056dcd-154b-4c76-9bd3-c8f88648b5ff"].
Definition reserved_key : string := "4dabf18193072939515e22adb298388d".

(** A string the protocol leaves alone. *)
Definition ordinary (s : string) : Prop := ~ In s sentinels.
(** Names of the entries of an object. *)
Definition names_ok (ps : list (string * pval)) : Prop :=
  NoDup (map fst ps) /\ ~ In reserved_key (map fst ps).

(** The value of an unknown string, which is how the SDK reports every
    unknown value. *)
Definition unknown_value : pval := PComputed (PStr "").

(** The digest recorded with an asset or archive: none when the engine does
    not compute them. *)
Definition digest (h : option (pval -> res string)) (contents : pval) (d : string) : Prop :=
  match h with None => d = "" | Some f => f contents = Ok d end.

Definition asset_or_archive (p : pval) : Prop :=
  match p with PAsset _ _ _ _ | PArchive _ _ _ _ => True | _ => False end.

(** [elements t e]: in a list declared as [t] the elements are declared as
    [e]. *)
Inductive elements : option pty -> option pty -> Prop :=
| El_untyped : elements None None
| El_typed e : elements (Some (TyList e)) (Some e)
| El_bare : elements (Some TyListBare) None.
(** The resources behind an output: those it depends on and those in its
    value. *)
Definition behind (c : cfg) (rs : list rsrc) (x : pyval) (r : rsrc) : Prop :=
  In r rs \/ contains_unknowns x = false /\ mentions c r x.
Inductive increasing : list string -> Prop :=
| Inc_nil : increasing []
| Inc_one s : increasing [s]
| Inc_cons s s' l : String.compare s s' = Lt -> increasing (s' :: l) -> increasing (s :: s' :: l).
(** The dependencies reported for an output: the URNs standing for the
    resources behind it, all known, each once, in order. *)
Definition dependencies (c : cfg) (rs : list rsrc) (x : pyval) (us : list string) : Prop :=
  (forall r, behind c rs x r -> exists u l, r_urn (c_res c r) = Done u /\ r_expand (c_res c r) = Done l) /\
  increasing us /\ Forall ordinary us /\
  (forall u, In u us <-> exists r l, behind c rs x r /\ r_expand (c_res c r) = Done l /\ In u l).

(** [means c h t keep v p]: [p] is the property value the program means by
    [v], supplied where the type [t] is declared; [keep] when outputs are to
    arrive as output values. *)
Inductive means (c : cfg) (h : option (pval -> res string)) : option pty -> bool -> pyval -> pval -> Prop :=
| Me_any keep v p : means c h None keep v p -> means c h (Some TyAny) keep v p
| Me_none t keep : means c h t keep VNone PNull
| Me_bool t keep b : means c h t keep (VBool b) (PBool b)
| Me_num t keep z : means c h t keep (VNum z) (PNum z)
| Me_str t keep s : ordinary s -> means c h t keep (VStr s) (PStr s)
| Me_list t e keep l ps : elements t e -> all_mean c h e keep l ps -> means c h t keep (VList l) (PArr ps)
| Me_dict t keep d ps : entries_mean c h t keep d ps -> names_ok ps -> means c h t keep (VDict d) (PObj ps)
| Me_input t keep cls fields ps :
    fields_mean c h keep fields (c_class c cls) ps -> names_ok ps ->
    means c h t keep (VInput cls fields) (PObj ps)
| Me_unknown t keep : means c h t keep VUnknown unknown_value
(* assets and archives *)
| Me_file_asset t keep s d : s <> "" -> ordinary s -> digest h (PAsset "" "" s "") d ->
    means c h t keep (VFileAsset s) (PAsset d "" s "")
| Me_string_asset t keep s d : s <> "" -> ordinary s -> digest h (PAsset "" s "" "") d ->
    means c h t keep (VStringAsset s) (PAsset d s "" "")
| Me_remote_asset t keep s d : s <> "" -> ordinary s -> digest h (PAsset "" "" "" s) d ->
    means c h t keep (VRemoteAsset s) (PAsset d "" "" s)
| Me_file_archive t keep s d : s <> "" -> ordinary s -> digest h (PArchive "" None s "") d ->
    means c h t keep (VFileArchive s) (PArchive d None s "")
| Me_remote_archive t keep s d : s <> "" -> ordinary s -> digest h (PArchive "" None "" s) d ->
    means c h t keep (VRemoteArchive s) (PArchive d None "" s)
| Me_asset_archive t keep members ps d :
    members_mean c h members ps -> names_ok ps -> digest h (PArchive "" (Some ps) "" "") d ->
    means c h t keep (VAssetArchive members) (PArchive d (Some ps) "" "")
(* resources *)
| Me_component t keep r u : c_refs c = true -> r_custom (c_res c r) = false ->
    r_urn (c_res c r) = Done (Some u) -> ordinary u -> means c h t keep (VRes r) (PRef u None "")
| Me_custom t keep r u i : c_refs c = true -> r_custom (c_res c r) = true ->
    r_urn (c_res c r) = Done (Some u) -> ordinary u ->
    r_id (c_res c r) = Done (Some i) -> ordinary i -> i <> "" ->
    means c h t keep (VRes r) (PRef u (Some (PStr i)) "")
| Me_custom_new t keep r u : c_refs c = true -> r_custom (c_res c r) = true ->
    r_urn (c_res c r) = Done (Some u) -> ordinary u -> r_id (c_res c r) = Done None ->
    means c h t keep (VRes r) (PRef u (Some unknown_value) "")
| Me_component_urn t keep r u : c_refs c = false -> r_custom (c_res c r) = false ->
    r_urn (c_res c r) = Done (Some u) -> ordinary u -> means c h t keep (VRes r) (PStr u)
| Me_custom_id t keep r i : c_refs c = false -> r_custom (c_res c r) = true ->
    r_id (c_res c r) = Done (Some i) -> ordinary i -> means c h t keep (VRes r) (PStr i)
| Me_custom_id_new t keep r : c_refs c = false -> r_custom (c_res c r) = true ->
    r_id (c_res c r) = Done None -> means c h t keep (VRes r) unknown_value
(* awaitables and outputs *)
| Me_await t keep x p : means c h t keep x p -> means c h t keep (VAwait (Done x)) p
| Me_output t keep rs x p : keep && c_outvals c = false -> contains_unknowns x = false ->
    means c h t false x p ->
    means c h t keep (VOut (Done rs) (Done x) (Done true) (Done false)) p
| Me_secret t keep rs x p : keep && c_outvals c = false -> contains_unknowns x = false ->
    means c h t false x p ->
    means c h t keep (VOut (Done rs) (Done x) (Done true) (Done true)) (if c_secrets c then PSecret p else p)
| Me_output_unknown t keep rs x : keep && c_outvals c = false -> contains_unknowns x = true ->
    means c h t keep (VOut (Done rs) (Done x) (Done false) (Done false)) unknown_value
| Me_output_hidden t keep rs x p : keep && c_outvals c = false -> contains_unknowns x = false ->
    means c h t false x p ->
    means c h t keep (VOut (Done rs) (Done x) (Done false) (Done false)) unknown_value
| Me_kept t rs x s p us : c_outvals c = true -> contains_unknowns x = false -> means c h t false x p ->
    dependencies c rs x us ->
    means c h t true (VOut (Done rs) (Done x) (Done true) (Done s)) (POutput p true s us)
| Me_kept_unknown t rs x s us : c_outvals c = true -> contains_unknowns x = true ->
    dependencies c rs x us ->
    means c h t true (VOut (Done rs) (Done x) (Done false) (Done s)) (POutput PNull false s us)
| Me_kept_hidden t rs x s p us : c_outvals c = true -> contains_unknowns x = false -> means c h t false x p ->
    dependencies c rs x us ->
    means c h t true (VOut (Done rs) (Done x) (Done false) (Done s)) (POutput PNull false s us)
with all_mean (c : cfg) (h : option (pval -> res string)) : option pty -> bool -> list pyval -> list pval -> Prop :=
| All_nil e keep : all_mean c h e keep [] []
| All_cons e keep x l p ps : means c h e keep x p -> all_mean c h e keep l ps ->
    all_mean c h e keep (x :: l) (p :: ps)
with entries_mean (c : cfg) (h : option (pval -> res string))
  : option pty -> bool -> list (string * pyval) -> list (string * pval) -> Prop :=
| Ent_nil t keep : entries_mean c h t keep [] []
| Ent_cons t keep k k' e x d p ps : sent_as c t k k' -> entry_type c t k' e -> means c h e keep x p ->
    entries_mean c h t keep d ps -> entries_mean c h t keep ((k, x) :: d) ((k', p) :: ps)
with fields_mean (c : cfg) (h : option (pval -> res string))
  : bool -> list (string * pyval) -> list field -> list (string * pval) -> Prop :=
| Fl_nil keep fields : fields_mean c h keep fields [] []
| Fl_absent keep fields f fs ps : dget fields (f_py f) = None \/ dget fields (f_py f) = Some VNone ->
    fields_mean c h keep fields fs ps -> fields_mean c h keep fields (f :: fs) ps
| Fl_given keep fields f fs x p ps : dget fields (f_py f) = Some x -> x <> VNone ->
    means c h (f_ty f) keep x p -> fields_mean c h keep fields fs ps ->
    fields_mean c h keep fields (f :: fs) ((f_pulumi f, p) :: ps)
with members_mean (c : cfg) (h : option (pval -> res string)) : list (string * pyval) -> list (string * pval) -> Prop :=
| Mem_nil : members_mean c h [] []
| Mem_cons k x d p ps : sent_as c None k k -> asset_or_archive p -> means c h None false x p ->
    members_mean c h d ps -> members_mean c h ((k, x) :: d) ((k, p) :: ps).

Scheme means_mind := Minimality for means Sort Prop
  with all_mean_mind := Minimality for all_mean Sort Prop
  with entries_mean_mind := Minimality for entries_mean Sort Prop
  with fields_mean_mind := Minimality for fields_mean Sort Prop
  with members_mean_mind := Minimality for members_mean Sort Prop.
Combined Scheme means_all_mind from means_mind, all_mean_mind, entries_mean_mind, fields_mean_mind, members_mean_mind.

(** [bag_means c h typ keep inputs ps]: [ps] is what the program means by the
    input bag [inputs], declared by the class [typ] if any: one entry per
    input, in order, under the name it is to be sent with; inputs that mean
    null are left out. *)
Inductive bag_means (c : cfg) (h : option (pval -> res string)) (typ : option nat) (keep : bool)
  : list (string * pyval) -> list (string * pval) -> Prop :=
| Bag_nil : bag_means c h typ keep [] []
| Bag_null k k' e v inputs ps : sent_as c (bag_type typ) k k' -> entry_type c (bag_type typ) k' e ->
    means c h e keep v PNull -> bag_means c h typ keep inputs ps ->
    bag_means c h typ keep ((k, v) :: inputs) ps
| Bag_cons k k' e v p inputs ps : sent_as c (bag_type typ) k k' -> entry_type c (bag_type typ) k' e ->
    means c h e keep v p -> p <> PNull -> bag_means c h typ keep inputs ps ->
    bag_means c h typ keep ((k, v) :: inputs) ((k', p) :: ps).

(* ------------------------------------------------------------------ *)
(** C82: what a program is to see of a property value the engine reports. *)

(** A value that is not known, as this SDK understands it: an unknown
    string. *)
Inductive unknown_string : pval -> Prop :=
| Us_here s : unknown_string (PComputed (PStr s))
| Us_computed e : unknown_string (PComputed e) -> unknown_string (PComputed (PComputed e))
| Us_output e k s us : unknown_string (PComputed e) -> unknown_string (PComputed (POutput e k s us)).

(** The resource class for a URN: the package's for a provider resource,
    otherwise the module's. *)
Definition class_for (dc : dcfg) (u : urn_parts) (version : string) : res (option nat) :=
  if String.eqb (u_pkg u) "pulumi" && String.eqb (u_mod u) "providers"
  then d_pkg dc (u_tname u) version else d_mod dc (u_pkg u) (u_mod u) version.

(** [seen dc a unk p v s]: of the property value [p] the program sees the
    value [v], secret if [s].  [a] is what the request accepts; values that
    are not known are seen as unknown if [unk] and as nothing otherwise. *)
Inductive seen (dc : dcfg) (a : mopts) (unk : bool) : pval -> pyval -> bool -> Prop :=
| Se_null : seen dc a unk PNull VNone false
| Se_bool b : seen dc a unk (PBool b) (VBool b) false
| Se_num z : seen dc a unk (PNum z) (VNum z) false
| Se_str s : s <> "04da6b54-80e4-46f7-96ec-b56ff0331ba9" -> seen dc a unk (PStr s) (VStr s) false
| Se_arr l vs s : all_seen dc a unk l vs s -> seen dc a unk (PArr l) (VList vs) s
| Se_obj d vs s : NoDup (map fst d) -> ~ In reserved_key (map fst d) -> entries_seen dc a unk d vs s ->
    seen dc a unk (PObj d) (VDict vs) s
| Se_unknown e : unknown_string (PComputed e) ->
    seen dc a unk (PComputed e) (if unk then VUnknown else VNone) false
(* assets and archives *)
| Se_file_asset h p : p <> "" -> seen dc a unk (PAsset h "" p "") (VFileAsset p) false
| Se_string_asset h t : t <> "" -> seen dc a unk (PAsset h t "" "") (VStringAsset t) false
| Se_remote_asset h u : u <> "" -> seen dc a unk (PAsset h "" "" u) (VRemoteAsset u) false
| Se_file_archive h p : p <> "" -> seen dc a unk (PArchive h None p "") (VFileArchive p) false
| Se_remote_archive h u : u <> "" -> seen dc a unk (PArchive h None "" u) (VRemoteArchive u) false
| Se_asset_archive h ms vs : NoDup (map fst ms) -> ~ In reserved_key (map fst ms) ->
    members_seen dc a unk ms vs -> seen dc a unk (PArchive h (Some ms) "" "") (VAssetArchive vs) false
(* secrets, outputs *)
| Se_secret e v s : m_secrets a = true -> seen dc a unk e v s -> seen dc a unk (PSecret e) v true
| Se_revealed e v s : m_secrets a = false -> seen dc a unk e v s -> seen dc a unk (PSecret e) v s
| Se_output e v s secret us : seen dc a unk e v s ->
    seen dc a unk (POutput e true secret us) v (s || (secret && m_secrets a))
| Se_output_unknown e secret us :
    seen dc a unk (POutput e false secret us) (if unk then VUnknown else VNone) (secret && m_secrets a)
(* resources *)
| Se_resource urn id version u n : m_resources a = true ->
    parse_urn urn = Ok u -> class_for dc u version = Ok (Some n) ->
    seen dc a unk (PRef urn id version) (VConstructed n (u_name u) (u_typ u) urn) false
| Se_no_class urn version u : m_resources a = true ->
    parse_urn urn = Ok u -> class_for dc u version = Ok None ->
    seen dc a unk (PRef urn None version) (VStr urn) false
| Se_no_class_id urn i version u : m_resources a = true ->
    parse_urn urn = Ok u -> class_for dc u version = Ok None ->
    i <> "" -> i <> "04da6b54-80e4-46f7-96ec-b56ff0331ba9" ->
    seen dc a unk (PRef urn (Some (PStr i)) version) (VStr i) false
| Se_no_class_new urn e version u : m_resources a = true ->
    parse_urn urn = Ok u -> class_for dc u version = Ok None ->
    seen dc a unk (PRef urn (Some (PComputed e)) version) (if unk then VUnknown else VNone) false
| Se_urn urn version : m_resources a = false -> urn <> "04da6b54-80e4-46f7-96ec-b56ff0331ba9" ->
    seen dc a unk (PRef urn None version) (VStr urn) false
| Se_id urn i version : m_resources a = false -> i <> "04da6b54-80e4-46f7-96ec-b56ff0331ba9" ->
    seen dc a unk (PRef urn (Some (PStr i)) version) (VStr i) false
| Se_id_new urn e version : m_resources a = false -> unknown_string (PComputed e) ->
    seen dc a unk (PRef urn (Some (PComputed e)) version) (if unk then VUnknown else VNone) false
with all_seen (dc : dcfg) (a : mopts) (unk : bool) : list pval -> list pyval -> bool -> Prop :=
| Asn_nil : all_seen dc a unk [] [] false
| Asn_cons p l v vs s s' : seen dc a unk p v s -> all_seen dc a unk l vs s' ->
    all_seen dc a unk (p :: l) (v :: vs) (s || s')
with entries_seen (dc : dcfg) (a : mopts) (unk : bool) : list (string * pval) -> list (string * pyval) -> bool -> Prop :=
| Esn_nil : entries_seen dc a unk [] [] false
| Esn_internal k p d vs s w : internal_key k = true -> marshal a p = Ok w ->
    entries_seen dc a unk d vs s -> entries_seen dc a unk ((k, p) :: d) vs s
| Esn_nothing k p d vs s : internal_key k = false -> seen dc a unk p VNone false ->
    entries_seen dc a unk d vs s -> entries_seen dc a unk ((k, p) :: d) vs s
| Esn_cons k p d v vs s s' : internal_key k = false -> seen dc a unk p v s -> v <> VNone \/ s = true ->
    entries_seen dc a unk d vs s' -> entries_seen dc a unk ((k, p) :: d) ((k, v) :: vs) (s || s')
with members_seen (dc : dcfg) (a : mopts) (unk : bool) : list (string * pval) -> list (string * pyval) -> Prop :=
| Msn_nil : members_seen dc a unk [] []
| Msn_cons k p ms v vs : internal_key k = false -> asset_or_archive p -> seen dc a unk p v false ->
    members_seen dc a unk ms vs -> members_seen dc a unk ((k, p) :: ms) ((k, v) :: vs).

Scheme seen_mind := Minimality for seen Sort Prop
  with all_seen_mind := Minimality for all_seen Sort Prop
  with entries_seen_mind := Minimality for entries_seen Sort Prop
  with members_seen_mind := Minimality for members_seen Sort Prop.
Combined Scheme seen_all_mind from seen_mind, all_seen_mind, entries_seen_mind, members_seen_mind.

(** How a property of a resource or result carries its secretness until it
    becomes an output: a secret value is wrapped. *)
Definition carried (s : bool) (v : pyval) : pyval :=
  if s then VDict [(reserved_key, VStr "1b47061264138c4ac30d75fd1eb44270"); ("value", v)] else v.

(** [bag_seen dc a unk ki ps vs]: the properties the program sees of the
    reported bag [ps]; internal ones only if [ki]. *)
Inductive bag_seen (dc : dcfg) (a : mopts) (unk ki : bool) : list (string * pval) -> list (string * pyval) -> Prop :=
| Bs_nil : bag_seen dc a unk ki [] []
| Bs_internal k p w ps vs : ki = false -> internal_key k = true -> marshal a p = Ok w ->
    bag_seen dc a unk ki ps vs -> bag_seen dc a unk ki ((k, p) :: ps) vs
| Bs_nothing k p ps vs : ki = true \/ internal_key k = false -> seen dc a unk p VNone false ->
    bag_seen dc a unk ki ps vs -> bag_seen dc a unk ki ((k, p) :: ps) vs
| Bs_cons k p v s ps vs : ki = true \/ internal_key k = false -> seen dc a unk p v s -> v <> VNone \/ s = true ->
    bag_seen dc a unk ki ps vs -> bag_seen dc a unk ki ((k, p) :: ps) ((k, carried s v) :: vs).
