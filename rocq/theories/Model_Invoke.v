(** runtime/invoke.py: calling provider functions *)
From Verif Require Import Base PyVal Model_Rpc Model_Translate Model_Register Model_Options Model_Resource.
Open Scope string_scope.

(** What a function call depends on: the serialisation and deserialisation
    context, the declared output types, the URN and id of provider resources
    and of resources, and whether resource references are accepted
    (environment variable PULUMI_DISABLE_RESOURCE_REFERENCES not set). *)
Record ienv : Type := mkIenv {
  e_cfg : cfg;
  e_dc : dcfg;
  e_oc : ocfg;
  e_prov_urn : provider -> fut (option string);
  e_prov_id : provider -> fut (option string);
  e_accept : bool
}.

(** ResourceInvokeRequest *)
Record invoke_request : Type := mkInvokeRequest {
  q_tok : string;
  q_args : dict wire;
  q_provider : option string;
  q_version : string;
  q_url : string;
  q_accept : bool
}.

(** What an invoke or call returns: None, plain data, or an instance of the
    result type. *)
Inductive ival : Type := INone | IPlain (v : pyval) | ITyped (t : tval).

Definition py_str (s : option string) : string := match s with Some x => x | None => "None" end.
Definition or_empty (s : option string) : string := match s with Some x => x | None => "" end.
(** [x or rpc.UNKNOWN] *)
Definition or_unknown (s : option string) : string :=
  match s with None | Some EmptyString => UNKNOWN | Some x => x end.

(** runtime/invoke.py:78-81 and 177-181: the reference of a provider. *)
Definition provider_reference (E : ienv) (p : option provider) : fut (option string) :=
  match p with
  | None => Done None
  | Some p =>
      let* urn := e_prov_urn E p in
      let* id := e_prov_id E p in
      Done (Some (py_str urn ++ "::" ++ or_unknown id))
  end.

(** runtime/invoke.py:72-74: the parent's provider is stored in the options
    object. *)
Definition inherit_provider (w : world) (h : iheap) (a : nat) (tok : string) : iheap :=
  let o := iget h a in
  match io_parent o, io_provider o with
  | Some p, None =>
      match wget w p with
      | Some r => iset h a (mkIopts (io_merge o) (io_parent o) (get_provider r tok) (io_version o) (io_plugin_download_url o))
      | None => h
      end
  | _, _ => h
  end.

(** grpc_error_to_exception(exn), runtime/settings.py:254-268, printed. *)
Definition grpc_message (unavailable : bool) (details : string) : string :=
  if unavailable then "Resource monitor has terminated, shutting down" else details.

(** runtime/invoke.py:118-129: the result. *)
Definition convert (E : ienv) (typ : option oty) (ret : dict wire) : res ival :=
  match ret with
  | [] => Ok INone                      (* an empty Struct is false *)
  | _ =>
      let+ v := deserialize_properties (e_dc E) ret false false in
      match typ with
      | None => Ok (IPlain v)
      | Some t => let+ r := translate (e_oc E) v (Some t) in Ok (ITyped r)
      end
  end.

(** _types.is_output_type: decorated with @output_type. *)
Definition is_output_type (t : oty) : bool := match t with OClass _ => true | _ => false end.
Definition bad_type (typ : option oty) : bool :=
  match typ with Some t => negb (is_output_type t) | None => false end.
Definition type_error : exn := Exn "TypeError" "Expected typ to be decorated with @output_type".
Definition no_monitor : exn := Exn "AttributeError" "'NoneType' object has no attribute".

(** runtime/invoke.py:113-116, 226-229: the message of a reported failure. *)
Definition failure_error (verb tok : string) (f : string * string) : exn :=
  Exn "Exception" (verb ++ " of " ++ tok ++ " failed: " ++ fst f ++ " (" ++ snd f ++ ")").

(** runtime/invoke.py:76-99: the request of an invoke. *)
Definition invoke_prepare (E : ienv) (o : iopts) (tok : string) (props : dict pyval) : fut invoke_request :=
  let* ref := provider_reference E (io_provider o) in
  let* sp := serialize_properties (e_cfg E) None false props in
  Done (mkInvokeRequest tok (fst sp) ref (or_empty (io_version o)) (or_empty (io_plugin_download_url o)) (e_accept E)).

(** runtime/invoke.py:101-129: from the engine's answer to the result. *)
Definition invoke_finish (E : ienv) (tok : string) (typ : option oty) (a : answer invoke_response) : res ival :=
  match a with
  | AError e => Err e
  | ARpcError u d => Err (Exn "Exception" ("invoke of " ++ tok ++ " failed: " ++ grpc_message u d))
  | AResp r =>
      match i_failures r with
      | f :: _ => Err (failure_error "invoke" tok f)
      | [] => convert E typ (i_return r)
      end
  end.

(** runtime/invoke.py:53-145 [invoke].  The result: the options objects
    afterwards, the requests sent, and what is returned or raised ([Pending]:
    an argument never resolves).  [monitor] is the engine. *)
Definition invoke (E : ienv) (w : world) (monitor : option (invoke_request -> answer invoke_response))
    (h : iheap) (tok : string) (props : dict pyval) (opts : option nat) (typ : option oty)
    : iheap * list invoke_request * fut ival :=
  let (h, a) := iensure h opts in
  if bad_type typ then (h, [], Fail type_error)
  else
    let h := inherit_provider w h a tok in
    match invoke_prepare E (iget h a) tok props with
    | Pending => (h, [], Pending)
    | Fail e => (h, [], Fail e)
    | Done req =>
        match monitor with
        | None => (h, [], Fail no_monitor)
        | Some m => (h, [req], of_res (invoke_finish E tok typ (m req)))
        end
    end.

(** CallRequest and CallResponse *)
Record call_request : Type := mkCallRequest {
  l_tok : string;
  l_args : dict wire;
  l_deps : dict (list string);
  l_provider : option string;
  l_version : string;
  l_url : string
}.
Record call_response : Type := mkCallResponse {
  lr_failures : list (string * string);
  lr_return : dict wire;
  lr_deps : dict (list string)
}.
(** The resource whose method is called: its [_provider], [_version] and
    [_plugin_download_url]. *)
Record call_self : Type := mkCallSelf {
  cs_provider : option provider;
  cs_version : option string;
  cs_url : option string
}.
(** The Output a call returns. *)
Record call_output : Type := mkCallOutput {
  co_deps : fut (list rsrc);
  co_val : fut ival;
  co_known : fut bool;
  co_secret : fut bool
}.

(** runtime/invoke.py:196-204: the URNs of the resources each argument depends
    on.  [set.add] ignores what is there already; the message type refuses an
    unknown URN (None). *)
Fixpoint dep_urns (E : ienv) (ds : list rsrc) (acc : list string) : fut (list string) :=
  match ds with
  | [] => Done acc
  | d :: ds' =>
      let* u := Model_Rpc.r_urn (c_res (e_cfg E) d) in
      match u with
      | None => Fail (Exn "TypeError" "bad argument type for built-in operation")
      | Some s => dep_urns E ds' (if smem s acc then acc else (acc ++ [s])%list)
      end
  end.
Fixpoint arg_deps (E : ienv) (pd : dict (list rsrc)) : fut (dict (list string)) :=
  match pd with
  | [] => Done []
  | (k, ds) :: pd' =>
      let* us := dep_urns E ds [] in
      let* rest := arg_deps E pd' in
      Done ((k, us) :: rest)
  end.

(** runtime/invoke.py:175-213: the request of a call. *)
Definition call_prepare (E : ienv) (self : option call_self) (tok : string) (props : dict pyval) : fut call_request :=
  let* ref := provider_reference E (match self with Some s => cs_provider s | None => None end) in
  let version := match self with Some s => or_empty (cs_version s) | None => "" end in
  let url := match self with Some s => or_empty (cs_url s) | None => "" end in
  let* sp := serialize_properties (e_cfg E) None true props in
  let* deps := arg_deps E (snd sp) in
  Done (mkCallRequest tok (fst sp) deps ref version url).

(** runtime/invoke.py:242-247: each secret property is unwrapped. *)
Definition unwrap_top (d : dict pyval) : dict pyval :=
  map (fun kv => (fst kv, if is_rpc_secret (snd kv) then unwrap_rpc_secret (snd kv) else snd kv)) d.
(** runtime/invoke.py:233-268: value, knownness, secretness, dependencies. *)
Definition call_result (E : ienv) (typ : option oty) (r : call_response) : res (ival * bool * bool * list rsrc) :=
  match lr_return r with
  | [] => Ok (INone, true, false, [])
  | ret =>
      let+ v := deserialize_properties (e_dc E) ret false false in
      let known := negb (contains_unknowns v) in
      match v with
      | VDict d =>
          let secret := existsb (fun kv => is_rpc_secret (snd kv)) d in
          let deps := map RDep (flat_map snd (lr_deps r)) in
          if known then
            match typ with
            | None => Ok (IPlain (VDict (unwrap_top d)), known, secret, deps)
            | Some t => let+ x := translate (e_oc E) (VDict (unwrap_top d)) (Some t) in Ok (ITyped x, known, secret, deps)
            end
          else Ok (INone, known, secret, deps)
      | _ => Err (Exn "AttributeError" "object has no attribute 'items'")
      end
  end.
(** runtime/invoke.py:215-283: from the engine's answer to the Output. *)
Definition call_answer (E : ienv) (tok : string) (typ : option oty) (a : answer call_response)
    : res (ival * bool * bool * list rsrc) :=
  let+ resp := do_call a in
  match resp with
  | None => Err (Exn "Exception" "unreachable: handle_grpc_error raises")
  | Some r =>
      match lr_failures r with
      | f :: _ => Err (failure_error "call" tok f)
      | [] => call_result E typ r
      end
  end.
Definition failed_output (e : exn) : call_output := mkCallOutput (Done []) (Fail e) (Fail e) (Fail e).

(** runtime/invoke.py:148-287 [call].  Simplification: Output.__init__'s check of
    the value for unknowns (output.py:88-114) is left out: a value is only set
    when it contains none. *)
Definition call (E : ienv) (monitor : option (call_request -> answer call_response))
    (tok : string) (props : dict pyval) (self : option call_self) (typ : option oty)
    : res (list call_request * call_output) :=
  if bad_type typ then Err type_error
  else Ok
    match call_prepare E self tok props with
    | Pending => ([], mkCallOutput Pending Pending Pending Pending)
    | Fail e => ([], failed_output e)
    | Done req =>
        match monitor with
        | None => ([], failed_output no_monitor)
        | Some m =>
            ([req],
             match call_answer E tok typ (m req) with
             | Err e => failed_output e
             | Ok (v, known, secret, deps) => mkCallOutput (Done deps) (Done v) (Done known) (Done secret)
             end)
        end
    end.
