(** References to other stacks from end to end: stack_reference.py, and the
    engine (Go: pkg/resource/deploy, pkg/backend) that reads the other stack. *)
From Verif Require Import Base PyVal Model_Rpc Model_Engine Model_Translate Model_Register Model_Deployment Model_Output Model_StackRef Model_State.
From Verif Require Model_Refactor.
Open Scope string_scope.

(** The state a deployment leaves, as far as it matters.  Simplifications: a
    resource is custom if it has an id, and the inputs and the other fields of
    resources are left out. *)
Definition snapshot_of (d : deployment) : list rstate :=
  map (fun kn : string * node =>
         mkRstate (fst kn) (Model_Refactor.type_of (fst kn)) (negb (String.eqb (n_id (snd kn)) "")) (n_id (snd kn)) [] (n_outputs (snd kn)) VNone)
    (p_news d).
(** pkg/resource/stack/checkpoint.go:123-132 [GetRootStackResource]. *)
Definition root_outputs (s : list rstate) : dict pval :=
  match find (fun r => String.eqb (t_type r) "pulumi:pulumi:Stack") s with Some r => t_outputs r | None => [] end.
(** A backend: how documents are written and encrypted in it and read again
    (see Model_State), and the stored states of its stacks by name. *)
Record backend : Type := mkBackend {
  b_json : wire -> string;
  b_unjson : string -> res wire;
  b_encrypt : list nat -> string -> res string;
  b_again : string -> res string;
  b_decrypt : string -> res string;
  b_depth : nat;          (* how deep secrets are read in secrets *)
  b_stacks : string -> option (list stored)
}.
(** pkg/backend/backend.go:297-321 [GetStackOutputs]. *)
Definition get_stack_outputs (b : backend) (name : string) : res (dict pval) :=
  match b_stacks b name with
  | None => go_error ("unknown stack " ++ name)
  | Some ss =>
      let+ snap := load_deployment (b_unjson b) (b_again b) (b_decrypt b) (b_depth b) ss in
      Ok (root_outputs snap)
  end.

(** builtins.go:241-244: sorting by name; Go's order of strings is that of
    their bytes. *)
Fixpoint insert_sorted (s : string) (l : list string) : list string :=
  match l with
  | [] => [s]
  | x :: l' => if String.leb s x then s :: l else x :: insert_sorted s l'
  end.
Definition sort_names (l : list string) : list string := fold_right insert_sorted [] l.

(** builtins.go:224-252 [readStackReference]. *)
Definition read_stack_reference (b : backend) (inputs : dict pval) : res (dict pval) :=
  match dget inputs "name" with
  | Some (PStr name) =>
      let+ outputs := get_stack_outputs b name in
      let secrets := map fst (filter (fun kv => contains_secrets (snd kv)) outputs) in
      Ok [("name", PStr name); ("outputs", PObj outputs); ("secretOutputNames", PArr (map PStr (sort_names secrets)))]
  | _ => Err (Exn "panic" "assertion failed")
  end.

(** source_eval.go:836-923 [ReadResource] with step.go:630-682 [ReadStep.Apply]
    and builtins.go:148-164 [Read], for a stack reference.  [urn]: the URN the
    engine generates.  Simplifications: no two resources have one URN, and the
    read is not a replacement. *)
Definition read_answer (b : backend) (accept_resources : bool) (urn id : string) (props : dict wire) : answer response :=
  let error {A} (e : exn) : answer A := match e with Exn cls m => ARpcError (String.eqb cls "panic") m end in
  match unmarshal_properties (mkUopts false None) props with
  | Err e => error e
  | Ok inputs =>
      if String.eqb id UNKNOWN then AResp (mkResponse urn None [] [])
      else match read_stack_reference b inputs with
      | Err e => error e
      | Ok outs =>
          match marshal_properties (mkMopts true accept_resources) outs with
          | Ok m => AResp (mkResponse urn None m [])
          | Err e => error e
          end
      end
  end.

(* ------------------------------------------------------------------ *)

(** stack_reference.py:94-104 [translate_output_property]. *)
Definition reference_translate (prop : string) : string :=
  if String.eqb prop "secretOutputNames" then "secret_output_names" else prop.
(** stack_reference.py:26-42: the annotations of the class. *)
Definition reference_types (k : string) : option oty :=
  if String.eqb k "name" then Some OOther
  else if String.eqb k "outputs" then Some ODictBare
  else if String.eqb k "secret_output_names" then Some (OList OOther)
  else None.
(** rpc.py:1006-1018: a StackReference has no types for its inputs, so the names
    are translated by the method at every depth. *)
Definition reference_rcfg (dry legacy : bool) (dc : dcfg) (self : rsrc) : rcfg :=
  mkRcfg dry legacy reference_translate reference_types
    (mkOcfg (fun _ => []) (fun _ _ => false) false reference_translate) dc self.

(** The value of an output as the program sees it; a StackReference has no
    output types or enums. *)
Fixpoint as_py (v : tval) : pyval :=
  match v with
  | TLeaf x => x
  | TList l => VList (map as_py l)
  | TDict d => VDict (map (fun kv => (fst kv, as_py (snd kv))) d)
  | TSecret x => as_py x
  | _ => VNone
  end.
(** rpc.py:724-783 [transfer_properties]: the Output of a property, once the
    resource is read. *)
Definition property (self : rsrc) (l : log) (k : string) : output :=
  match find (fun p => target_eqb (TProp k) (fst p)) l with
  | Some (_, OVal v known secret deps) => new_output (Done deps) (Done (as_py v)) (Done known) (Done secret)
  | Some (_, OExc e) => new_output (Done [self]) (Fail e) (Fail e) (Fail e)
  | None => new_output Pending Pending Pending Pending
  end.

(** The program that refers to another stack: its modes, what it can
    deserialise, and whether it accepts resources (resource.py:406-409). *)
Record referrer : Type := mkReferrer {
  f_dry : bool;
  f_legacy : bool;
  f_cfg : cfg;            (* what its monitor supports *)
  f_deser : dcfg;
  f_resources : bool;
  f_self : rsrc;
  f_urn : string
}.
(** stack_reference.py:44-68 [StackReference.__init__], and resource.py:352-466
    [read_resource]; the outputs and the names of the secret ones. *)
Definition stack_reference (f : referrer) (b : backend) (name : string) (stack_name : option string) : output * output :=
  let target := match stack_name with Some s => s | None => name end in
  let c := mkCfg (c_secrets (f_cfg f)) (c_refs (f_cfg f)) (c_outvals (f_cfg f)) (Some (fun k => k)) (c_class (f_cfg f)) (c_res (f_cfg f)) in
  let prepare := match serialize_properties c None false [("name", VStr target); ("outputs", VNone); ("secret_output_names", VNone)] with
                 | Done sp => Ok (fst sp)
                 | Fail e => Err e
                 | Pending => Err (Exn "" "pending")
                 end in
  let monitor := match prepare with
                 | Ok sp => read_answer b (f_resources f) (f_urn f) target sp
                 | Err e => AError e
                 end in
  let g := mkRead (reference_rcfg (f_dry f) (f_legacy f) (f_deser f) (f_self f)) ["name"; "outputs"; "secret_output_names"]
             prepare (Ok (Some target)) (Ok "") (Some monitor) in
  let l := fst (do_read g []) in
  (property (f_self f) l "outputs", property (f_self f) l "secret_output_names").
