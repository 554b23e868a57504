(** The outputs of components: runtime/resource.py registers them, the engine
    (Go: pkg/resource/deploy) keeps them, and whoever is given the URN of a
    component looks them up. *)
From Verif Require Import Base PyVal Model_Rpc Model_Engine Model_Translate Model_Register.
Open Scope string_scope.

(** The calls of [serialize_properties] here give no [input_transformer]. *)
Definition no_transform (c : cfg) : cfg :=
  mkCfg (c_secrets c) (c_refs c) (c_outvals c) None (c_class c) (c_res c).

(** RegisterResourceOutputsRequest. *)
Record outputs_request : Type := mkOutputsRequest { or_urn : string; or_outputs : dict wire }.

(** resource.py:680-712 [register_resource_outputs], called by
    [ComponentResource.register_outputs], resource.py:1121-1128: the requests
    sent and how it ends.  [urn]: the future of the resource's URN, whose value
    is None when it is not known (and then the field of the request is left
    empty); [monitor]: None without an engine.  [outputs.items()] of an Output
    is an Output, which cannot be called. *)
Definition register_resource_outputs (c : cfg) (urn : fut (option string)) (outputs : pyval)
    (monitor : option (outputs_request -> answer unit)) : fut (list outputs_request * res unit) :=
  let* u := urn in
  let* sp := match outputs with
             | VDict d => serialize_properties (no_transform c) None false d
             | VOut _ _ _ _ => Fail (Exn "TypeError" "'Output' object is not callable")
             | _ => Fail (Exn "AttributeError" "object has no attribute 'items'")
             end in
  let req := mkOutputsRequest (match u with Some s => s | None => "" end) (fst sp) in
  match monitor with
  | None => Done ([], Ok tt)
  | Some m => Done ([req], let+ _ := do_call (m req) in Ok tt)
  end.

(* ------------------------------------------------------------------ *)

(** deployment.go:117-131, 187 [news]: the resources of the running deployment
    by URN; step_generator.go:156-161 [urns]: the URNs that have been
    registered; step_executor.go:92 [pendingNews]: those whose outputs can
    still be registered.  [p_alive] is false once an error has ended the
    deployment. *)
Record node : Type := mkNode { n_id : string; n_outputs : dict pval }.
Record deployment : Type := mkDeployment {
  p_alive : bool;
  p_urns : list string;
  p_pending : list string;
  p_news : dict node
}.
Definition new_deployment : deployment := mkDeployment true [] [] [].
Definition stop (d : deployment) : deployment := mkDeployment false (p_urns d) (p_pending d) (p_news d).

(** What happens to a deployment: the step for a registered resource has been
    executed and left it with an id and outputs; outputs are registered. *)
Inductive devent : Type :=
| DResource (urn id : string) (outputs : dict pval)
| DOutputs (r : outputs_request).

(** source_eval.go:1254-1267: reading the request.  The digests of assets are
    computed. *)
Definition read_outputs (h : pval -> res string) (r : outputs_request) : res (dict pval) :=
  if String.eqb (or_urn r) "" then go_error "missing required URN"
  else unmarshal_properties (mkUopts false (Some h)) (or_outputs r).
Definition is_panic (e : exn) : bool := match e with Exn cls _ => String.eqb cls "panic" end.

(** step_generator.go:156-161 with step_executor.go:303-353 [executeStep], and
    151-164 [ExecuteRegisterResourceOutputs]: an assertion that fails ends the
    engine.  Simplifications: no plan is given, and steps that read or replace
    a resource are left out. *)
Definition dstep (h : pval -> res string) (d : deployment) (ev : devent) : deployment :=
  if negb (p_alive d) then d
  else match ev with
  | DResource urn id outs =>
      if smem urn (p_urns d) then stop d
      else mkDeployment true (urn :: p_urns d) (urn :: p_pending d) (dset (p_news d) urn (mkNode id outs))
  | DOutputs r =>
      match read_outputs h r with
      | Err e => if is_panic e then stop d else d
      | Ok outs =>
          if smem (or_urn r) (p_pending d) then
            mkDeployment true (p_urns d) (filter (fun u => negb (String.eqb u (or_urn r))) (p_pending d))
              (match dget (p_news d) (or_urn r) with
               | Some n => dset (p_news d) (or_urn r) (mkNode (n_id n) outs)
               | None => p_news d
               end)
          else stop d
      end
  end.
Definition drun (h : pval -> res string) (evs : list devent) : deployment := fold_left (dstep h) evs new_deployment.

(** source_eval.go:1251-1298: the answer to the program. *)
Definition outputs_answer (h : pval -> res string) (d : deployment) (r : outputs_request) : answer unit :=
  if negb (p_alive d) then ARpcError true "resource monitor shut down while sending resource outputs"
  else match read_outputs h r with
  | Err (Exn _ m) => if p_alive (dstep h d (DOutputs r)) then ARpcError false m else ARpcError true m
  | Ok _ => if p_alive (dstep h d (DOutputs r)) then AResp tt else ARpcError true "transport is closing"
  end.

(** source_eval.go:640-688 [Invoke] with builtins.go:277-292 [getResource]; the
    outputs are written with [acceptResources] of the request. *)
Definition get_resource_answer (d : deployment) (accept_resources : bool) (args : dict wire) : answer invoke_response :=
  if negb (p_alive d) then ARpcError true "resource monitor shut down"
  else match unmarshal_properties (mkUopts false None) args with
  | Err (Exn _ m) => ARpcError false m
  | Ok ps =>
      match dget ps "urn" with
      | Some (PStr urn) =>
          match dget (p_news d) urn with
          | None => ARpcError false ("invocation of pulumi:pulumi:getResource returned an error: unknown resource " ++ urn)
          | Some n =>
              match marshal_properties (mkMopts true accept_resources)
                      [("urn", PStr urn); ("id", PStr (n_id n)); ("state", PObj (n_outputs n))] with
              | Ok m => AResp (mkInvokeResponse [] m)
              | Err (Exn _ m) => ARpcError false m
              end
          end
      | _ => ARpcError true "transport is closing"   (* an assertion ends the engine *)
      end
  end.

(** resource.py:241-252: the request [get_resource] sends, and its answer.  It
    does not say that it accepts resources. *)
Definition asks_for (c : cfg) (urn : string) (d : deployment) : answer invoke_response :=
  match serialize_properties (no_transform c) None false [("urn", VStr urn)] with
  | Done (args, _) => get_resource_answer d false args
  | Fail e => AError e
  | Pending => AError (Exn "" "no answer")
  end.
