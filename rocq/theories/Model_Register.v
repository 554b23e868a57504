(** runtime/resource.py: registering, reading and getting resources, and
    runtime/rpc.py: resolving their outputs. *)
From Verif Require Import Base PyVal Model_Rpc Model_Translate.
Open Scope string_scope.

(** The outputs of a resource object: its URN, its id and one per property. *)
Inductive target : Type := TUrn | TId | TProp (key : string).
Definition target_eqb (a b : target) : bool :=
  match a, b with
  | TUrn, TUrn | TId, TId => true
  | TProp k, TProp k' => String.eqb k k'
  | _, _ => false
  end.

(** How an output is resolved: with a value, knownness, secretness and the
    resources it depends on, or with an exception. *)
Inductive outcome : Type :=
| OVal (v : tval) (known secret : bool) (deps : list rsrc)
| OExc (e : exn).

(** The calls made so far to resolve functions, in order.  Resolving an output
    again raises asyncio's InvalidStateError, but is recorded. *)
Definition log : Type := list (target * outcome).
Definition act (A : Type) : Type := log -> log * res A.
Definition ret {A} (a : A) : act A := fun l => (l, Ok a).
Definition raise {A} (e : exn) : act A := fun l => (l, Err e).
Definition abind {A B} (m : act A) (f : A -> act B) : act B :=
  fun l => let (l', r) := m l in match r with Ok a => f a l' | Err e => (l', Err e) end.
Notation "'do' x <- m ; k" := (abind m (fun x => k)) (at level 200, x pattern, m at level 100, k at level 200).

(** runtime/resource.py:195-213 [resource_output] and rpc.py:738-766
    [do_resolve]: the futures of one output are always set together. *)
Definition resolve (t : target) (o : outcome) : act unit := fun l =>
  ((l ++ [(t, o)])%list,
   if existsb (fun p => target_eqb t (fst p)) l then Err (Exn "InvalidStateError" "invalid state") else Ok tt).
Fixpoint seq_all (ms : list (act unit)) : act unit :=
  match ms with
  | [] => ret tt
  | m :: ms' => do _ <- m; seq_all ms'
  end.

(** rpc.py:724-783 [transfer_properties]: the properties with a resolver. *)
Definition resolvers (props : list string) : list string := filter (fun k => negb (smem k ["id"; "urn"])) props.

(** What resolution reads: the mode, the resource's own class (name
    translation, output types) and the resource object itself. *)
Record rcfg : Type := mkRcfg {
  c_dry : bool;                        (* settings.is_dry_run *)
  c_legacy : bool;                     (* settings.is_legacy_apply_enabled *)
  c_translate : string -> string;      (* rpc.py:1009-1018: [translate] *)
  c_types : string -> option oty;      (* rpc.py:1008: [types.get] *)
  c_out : ocfg;                        (* [translate_to_pass], metadata, classes *)
  c_deser : dcfg;
  c_self : rsrc
}.

(** rpc.py:1022-1046: [types.get(key)] and the translated values of one group of
    properties; [acc] is [all_properties]; [skip] tells which translated keys
    are left alone. *)
Fixpoint add_props (c : rcfg) (skip : dict tval -> string -> bool) (es : list (string * res pyval)) (acc : dict tval)
    : res (dict tval) :=
  match es with
  | [] => Ok acc
  | (k, v) :: es' =>
      let tk := c_translate c k in
      if skip acc tk then add_props c skip es' acc
      else
        let+ x := v in
        let+ tv := translate (c_out c) x (c_types c k) in
        add_props c skip es' (dset acc tk tv)
  end.

(** rpc.py:1020: [deserialize_properties(outputs).items()]. *)
Definition output_items (c : rcfg) (outputs : dict wire) : res (dict pyval) :=
  let+ v := deserialize_properties (c_deser c) outputs false false in
  match v with
  | VDict d => Ok d
  | _ => Err (Exn "AttributeError" "object has no attribute 'items'")
  end.

(** rpc.py:992-1057 [resolve_outputs] up to the call of [resolve_properties]. *)
Definition all_properties (c : rcfg) (serialized : dict wire) (outputs : dict wire) : res (dict tval) :=
  let+ items := output_items c outputs in
  let+ acc := add_props c (fun _ _ => false) (map (fun kv => (fst kv, Ok (snd kv))) items) [] in
  if negb (c_dry c) || c_legacy c then
    add_props c (fun acc tk => dmem acc tk) (map (fun kv => (fst kv, deser (c_deser c) (snd kv) false)) serialized) acc
  else Ok acc.
Definition translated_deps (c : rcfg) (deps : dict (list rsrc)) : dict (list rsrc) :=
  fold_left (fun acc kv => dset acc (c_translate c (fst kv)) (snd kv)) deps [].

Definition t_secret (v : tval) : bool := match v with TSecret _ => true | _ => false end.
Definition t_unwrap (v : tval) : tval := match v with TSecret x => x | _ => v end.
Definition t_none (v : tval) : bool := match v with TLeaf VNone => true | _ => false end.

(** rpc.py:756-758: [deps_union]. *)
Definition deps_union (c : rcfg) (deps : dict (list rsrc)) (k : string) : list rsrc :=
  (match dget deps k with Some ds => ds | None => [] end ++ [c_self c])%list.

(** rpc.py:1060-1112 [resolve_properties]. *)
Definition resolve_properties (c : rcfg) (rs : list string) (all : dict tval) (deps : dict (list rsrc)) : act unit :=
  do _ <- seq_all (map (fun kv : string * tval =>
      let (key, value) := kv in
      if smem key ["id"; "urn"] then ret tt
      else if negb (smem key rs) then ret tt
      else
        let is_secret := t_secret value in
        let value' := t_unwrap value in
        if negb (c_dry c) then resolve (TProp key) (OVal value' true is_secret (deps_union c deps key))
        else resolve (TProp key) (OVal value' (negb (t_none value')) is_secret (deps_union c deps key))) all);
  seq_all (map (fun key =>
      if negb (dmem all key) then
        resolve (TProp key) (OVal (TLeaf VNone) (negb (c_dry c)) false (deps_union c deps key))
      else ret tt) rs).

Definition resolve_outputs (c : rcfg) (rs : list string) (serialized outputs : dict wire) (deps : dict (list rsrc)) : act unit :=
  do all <- (fun l => (l, all_properties c serialized outputs));
  resolve_properties c rs all (translated_deps c deps).

(** rpc.py:1115-1126. *)
Definition resolve_outputs_due_to_exception (rs : list string) (e : exn) : act unit :=
  seq_all (map (fun k => resolve (TProp k) (OExc e)) rs).

(** settings.py:254-272: a gRPC error is always raised, as another exception. *)
Inductive answer (R : Type) : Type :=
| AResp (r : R)
| ARpcError (unavailable : bool) (details : string)
| AError (e : exn).
Arguments AResp {R}. Arguments ARpcError {R}. Arguments AError {R}.
Definition handle_grpc_error (unavailable : bool) (details : string) : res unit :=
  if unavailable then Err (Exn "RunError" "Resource monitor has terminated, shutting down")
  else Err (Exn "Exception" details).
Definition do_call {R} (a : answer R) : res (option R) :=
  match a with
  | AResp r => Ok (Some r)
  | ARpcError u d => let+ _ := handle_grpc_error u d in Ok None
  | AError e => Err e
  end.

(** RegisterResourceResponse; the id may be missing (resource.py:642). *)
Record response : Type := mkResponse {
  r_urn : string;
  r_id : option string;
  r_object : dict wire;
  r_deps : dict (list string)
}.

Definition vstr (s : option string) : tval := TLeaf (match s with Some x => VStr x | None => VNone end).
Definition nonempty (s : option string) : bool :=
  match s with Some x => negb (String.eqb x "") | None => false end.

(** What happens before and in the RPC.  [g_prepare]: [prepare_resource]'s
    serialised properties or its exception; [g_request]: building the request
    (translating options, timeouts, [create_urn]), which yields [mock_urn];
    [g_monitor]: the engine's answer, None without an engine. *)
Record reg : Type := mkReg {
  g_cfg : rcfg;
  g_custom : bool;
  g_props : list string;
  g_prepare : res (dict wire);
  g_request : res string;
  g_monitor : option (answer response)
}.

(** resource.py:513-607: the first try block. *)
Definition reg_call (g : reg) : res (dict wire * option response) :=
  let+ sp := g_prepare g in
  let+ mock_urn := g_request g in
  let+ resp := match g_monitor g with
               | None => Ok (Some (mkResponse mock_urn None sp []))
               | Some a => do_call a
               end in
  Ok (sp, resp).

(** resource.py:608-617: its exception handler; resource.py:663-675 the second
    one, which leaves alone what has been resolved. *)
Definition fail_all (custom urn_called id_called : bool) (rs : list string) (e : exn) : act unit :=
  do _ <- resolve_outputs_due_to_exception rs e;
  do _ <- (if urn_called then ret tt else resolve TUrn (OExc e));
  do _ <- (if custom && negb id_called then resolve TId (OExc e) else ret tt);
  raise e.

(** resource.py:469-677 [register_resource]: [do_register]. *)
Definition do_register (g : reg) : act unit := fun l =>
  let c := g_cfg g in
  let rs := resolvers (g_props g) in
  match reg_call g with
  | Err e => fail_all (g_custom g) false false rs e l
  | Ok (_, None) => (l, Ok tt)
  | Ok (sp, Some resp) =>
      match resolve TUrn (OVal (TLeaf (VStr (r_urn resp))) true false [c_self c]) l with
      | (l1, Err e) => fail_all (g_custom g) false false rs e l1
      | (l1, Ok _) =>
          match (if g_custom g then resolve TId (OVal (vstr (r_id resp)) (nonempty (r_id resp)) false [c_self c]) l1 else (l1, Ok tt)) with
          | (l2, Err e) => fail_all (g_custom g) true false rs e l2
          | (l2, Ok _) =>
              let deps := map (fun kv => (fst kv, map RDep (snd kv))) (r_deps resp) in
              match resolve_outputs c rs sp (r_object resp) deps l2 with
              | (l3, Err e) => fail_all (g_custom g) true (g_custom g) rs e l3
              | (l3, Ok _) => (l3, Ok tt)
              end
          end
      end
  end.

(** resource.py:352-466 [read_resource].  [d_id]: [serialize_property(opts.id)].
    Simplification: the id is a string, None when it is unknown. *)
Record read : Type := mkRead {
  d_cfg : rcfg;
  d_props : list string;
  d_prepare : res (dict wire);
  d_id : res (option string);
  d_request : res string;
  d_monitor : option (answer response)
}.
Definition read_call (g : read) : res (dict wire * option string * option response) :=
  let+ sp := d_prepare g in
  let+ id := d_id g in
  let+ mock_urn := d_request g in
  let+ resp := match d_monitor g with
               | None => Ok (Some (mkResponse mock_urn None sp []))
               | Some a => do_call a
               end in
  Ok (sp, id, resp).
Definition do_read (g : read) : act unit := fun l =>
  let c := d_cfg g in
  let rs := resolvers (d_props g) in
  match read_call g with
  | Err e => fail_all true false false rs e l
  | Ok (_, _, None) => (l, Err (Exn "AttributeError" "'NoneType' object has no attribute 'urn'"))
  | Ok (sp, id, Some resp) =>
      (do _ <- resolve TUrn (OVal (TLeaf (VStr (r_urn resp))) true false [c_self c]);
       do _ <- resolve TId (OVal (vstr id) true false [c_self c]);
       resolve_outputs c rs sp (r_object resp) []) l
  end.

(** resource.py:216-296 [get_resource].  The response of the engine's
    getResource function: its failures (reason, property) and its result. *)
Record invoke_response : Type := mkInvokeResponse {
  i_failures : list (string * string);
  i_return : dict wire
}.
Record get : Type := mkGet {
  t_cfg : rcfg;
  t_custom : bool;
  t_props : list string;
  t_prepare : res (dict wire);
  t_monitor : answer invoke_response
}.
Definition get_call (g : get) : res (dict wire * invoke_response) :=
  let+ sp := t_prepare g in
  let+ resp := do_call (t_monitor g) in
  match resp with
  | None => Err (Exn "AttributeError" "'NoneType' object has no attribute 'failures'")
  | Some r =>
      match i_failures r with
      | (reason, property) :: _ => Err (Exn "Exception" ("getResource failed: " ++ reason ++ " (" ++ property ++ ")"))
      | [] => Ok (sp, r)
      end
  end.
(** [resp[k]] of a Struct: struct_pb2 returns the field's value and raises if it
    is not set.  Simplification: nested structs and lists are opaque here. *)
Definition sget (d : dict wire) (k : string) : res wire :=
  match dget d k with Some w => Ok w | None => value_not_set end.
Definition raw (w : wire) : tval :=
  TLeaf (match w with WNull => VNone | WBool b => VBool b | WNum z => VNum z | WStr s => VStr s | _ => VOther 0 end).
Definition wtruthy (w : wire) : bool :=
  match w with
  | WNull => false | WBool b => b | WNum z => negb (Z.eqb z 0) | WStr s => negb (String.eqb s "")
  | WList l => match l with [] => false | _ => true end
  | WStruct d => match d with [] => false | _ => true end
  end.
Definition do_get (g : get) : act unit := fun l =>
  let c := t_cfg g in
  let rs := resolvers (t_props g) in
  match get_call g with
  | Err e => fail_all (t_custom g) false false rs e l
  | Ok (sp, r) =>
      (do urn <- (fun l => (l, sget (i_return r) "urn"));
       do _ <- resolve TUrn (OVal (raw urn) true false [c_self c]);
       do _ <- (if t_custom g then
                  do id <- (fun l => (l, sget (i_return r) "id"));
                  resolve TId (OVal (raw id) (wtruthy id) false [c_self c])
                else ret tt);
       do state <- (fun l => (l, sget (i_return r) "state"));
       match state with
       | WStruct d => resolve_outputs c rs sp d []
       | _ => raise (Exn "AttributeError" "object has no attribute 'items'")
       end) l
  end.
