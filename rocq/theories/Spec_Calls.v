(** Specification for C96: method calls through the engine. *)
From Verif Require Import Base PyVal Model_Output Model_Rpc Spec_Rpc Model_Register Model_Resource Model_Invoke Spec_Meaning.
From Verif Require Model_Provider.

(** What a method is given for an argument with the data [x] and the secretness
    [s]: a value that means the same, or an Output of the data, or, if the data
    is not known throughout, an Output that is not known. *)
Inductive delivered (x : pyval) (s : bool) : pyval -> Prop :=
| Dl_same a : means true a x s -> delivered x s a
| Dl_output rs : ~ within VUnknown x -> delivered x s (VOut (Done rs) (Done x) (Done true) (Done s))
| Dl_unknown rs y s' : within VUnknown x -> delivered x s (VOut (Done rs) (Done y) (Done false) (Done s')).

(** An engine that passes the request to the provider whose implementation of
    the method is [method], and the provider's answer back. *)
Definition forwards (P : Model_Provider.penv) (method : dict pyval -> dict pyval * option (list (string * string)))
    (q : call_request) : answer call_response :=
  match Model_Provider.component_inputs P true (l_args q) (l_deps q) with
  | Done args =>
      match Model_Provider.call_reply P (fst (method args)) (snd (method args)) with
      | Done r => AResp (mkCallResponse (map (fun f => (snd f, fst f)) (Model_Provider.pr_failures r)) (Model_Provider.pr_return r) (Model_Provider.pr_deps r))
      | _ => AError (Exn "" "no answer")
      end
  | _ => AError (Exn "" "no answer")
  end.

(** The entry is left out: a null that is not secret. *)
Definition left_out (x : pyval) (s : bool) : Prop := x = VNone /\ s = false.

(** What the caller gets for the results [outputs], with the data [data] and the secretness [secret]. *)
Definition returned (P : Model_Provider.penv) (outputs : list (string * pyval)) (data : string -> pyval) (secret : string -> bool) (out : call_output) : Prop :=
  exists value known sec deps,
    out = mkCallOutput (Done deps) (Done value) (Done known) (Done sec) /\
    (sec = true <-> exists k v, In (k, v) outputs /\ secret k = true) /\
    (known = true <-> forall k v, In (k, v) outputs -> ~ within VUnknown (data k)) /\
    (forall x, In x deps <-> exists u k v r, x = RDep u /\ In (k, v) outputs /\ ~ left_out (data k) (secret k) /\
       mentions (Model_Provider.pv_cfg P) r v /\ Model_Rpc.r_urn (c_res (Model_Provider.pv_cfg P) r) = Done (Some u)) /\
    if known then
      (value = INone /\ (forall k v, In (k, v) outputs -> left_out (data k) (secret k))) \/
      (exists d, value = IPlain (VDict d) /\ d <> [] /\ wf_dict d /\
         forall k x, dget d k = Some x <-> (exists v, In (k, v) outputs) /\ x = data k /\ ~ left_out (data k) (secret k))
    else value = INone.
