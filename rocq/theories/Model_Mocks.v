(** runtime/mocks.py: the mock resource monitor *)
From Verif Require Import Base PyVal Model_Urn Model_Rpc Model_Register.
Open Scope string_scope.

(** mocks.py:66-126: what the user's mocks are called with. *)
Record mock_resource : Type := mkMockResource {
  mr_typ : string;
  mr_name : string;
  mr_inputs : pyval;
  mr_provider : string;
  mr_id : string;
  mr_custom : option bool
}.
Record mock_call : Type := mkMockCall { mc_token : string; mc_args : pyval; mc_provider : string }.
(** What [call] may return: a dict, or a pair of a dict and failures (property,
    reason), which may be None (mocks.py:189-196). *)
Inductive call_reply : Type :=
| ReplyDict (d : dict pyval)
| ReplyPair (d : dict pyval) (failures : option (list (string * string))).

(** The requests a monitor handles. *)
Inductive mrequest : Type :=
| QRegister (parent type name : string) (object : dict wire) (provider import_id : string) (custom : bool)
| QRead (parent type name : string) (properties : dict wire) (provider id : string)
| QInvoke (tok : string) (args : dict wire) (provider : string).
(** A request together with what the user's mock functions do when it is
    handled. *)
Record mevent : Type := mkMevent {
  ev_req : mrequest;
  ev_new : mock_resource -> res (option string * dict pyval);
  ev_call : mock_call -> res call_reply
}.
(** Responses; failures are (reason, property). *)
Inductive mresponse : Type :=
| PRegister (urn id : string) (object : dict wire)
| PRead (urn : string) (properties : dict wire)
| PInvoke (r : invoke_response).

(** The settings the monitor reads and the context of (de)serialisation. *)
Record menv : Type := mkMenv { m_stack : string; m_project : string; m_cfg : cfg; m_dc : dcfg }.
(** mocks.py:150-160: the registrations, by URN. *)
Definition mstate : Type := dict (option string * dict pyval).

(** mocks.py:162-168 [make_urn]. *)
Definition mock_type (parent type : string) : res string :=
  if String.eqb parent "" then Ok type
  else match split_cc parent with
       | _ :: _ :: q :: _ => Ok (slast (split_c "$" q) ++ "$" ++ type)
       | _ => Err (Exn "IndexError" "list index out of range")
       end.
Definition mock_urn (E : menv) (parent type name : string) : res string :=
  let+ t := mock_type parent type in
  Ok ("urn:pulumi:" ++ m_stack E ++ "::" ++ m_project E ++ "::" ++ t ++ "::" ++ name).

Definition opt_str (s : option string) : pyval := match s with Some x => VStr x | None => VNone end.
Definition id_field (s : option string) : string := match s with Some x => x | None => "" end.

(** mocks.py:176-184: the function the engine itself offers. *)
Definition get_registered (E : menv) (st : mstate) (args : pyval) : fut mresponse :=
  match args with
  | VDict d =>
      match dget d "urn" with
      | None => Fail (Exn "KeyError" "urn")
      | Some u =>
          match u with
          | VStr urn =>
              match dget st urn with
              | None => Fail (Exn "Exception" ("unknown resource " ++ urn))
              | Some (id, state) =>
                  let* sp := serialize_properties (m_cfg E) None false [("urn", VStr urn); ("id", opt_str id); ("state", VDict state)] in
                  Done (PInvoke (mkInvokeResponse [] (fst sp)))
              end
          | _ => Fail (Exn "Exception" "unknown resource")
          end
      end
  | _ => Fail (Exn "TypeError" "object is not subscriptable")
  end.
(** mocks.py:186-201: the user's function mock. *)
Definition run_call (E : menv) (f : mock_call -> res call_reply) (tok : string) (args : pyval) (provider : string) : fut mresponse :=
  let* reply := of_res (f (mkMockCall tok args provider)) in
  let* r := match reply with
            | ReplyDict d => Done (d, [])
            | ReplyPair d None => Fail (Exn "TypeError" "'NoneType' object is not iterable")
            | ReplyPair d (Some fs) => Done (d, map (fun f => (snd f, fst f)) fs)
            end in
  let* sp := serialize_properties (m_cfg E) None false (fst r) in
  Done (PInvoke (mkInvokeResponse (snd r) (fst sp))).

(** mocks.py:203-251: [ReadResource], [RegisterResource] and (170-201) [Invoke].
    Simplification: handlers run in threads, but each reads or writes the
    registrations at one point only, so handling a request is one step. *)
Definition handle (E : menv) (st : mstate) (ev : mevent) : mstate * fut mresponse :=
  match ev_req ev with
  | QInvoke tok args provider =>
      (st,
       let* a := of_res (deserialize_properties (m_dc E) args false false) in
       if String.eqb tok "pulumi:pulumi:getResource" then get_registered E st a
       else run_call E (ev_call ev) tok a provider)
  | QRead parent type name properties provider id =>
      let outcome :=
        let* inputs := of_res (deserialize_properties (m_dc E) properties false false) in
        let* reply := of_res (ev_new ev (mkMockResource type name inputs provider id None)) in
        let* sp := serialize_properties (m_cfg E) None false (snd reply) in
        let* urn := of_res (mock_urn E parent type name) in
        Done (urn, reply, fst sp) in
      match outcome with
      | Done (urn, reply, sp) => (dset st urn reply, Done (PRead urn sp))
      | Fail e => (st, Fail e)
      | Pending => (st, Pending)
      end
  | QRegister parent type name object provider import_id custom =>
      match mock_urn E parent type name with
      | Err e => (st, Fail e)
      | Ok urn =>
          if String.eqb type "pulumi:pulumi:Stack" then (st, Done (PRegister urn "" []))
          else
            let outcome :=
              let* inputs := of_res (deserialize_properties (m_dc E) object false false) in
              let* reply := of_res (ev_new ev (mkMockResource type name inputs provider import_id (Some custom))) in
              let* sp := serialize_properties (m_cfg E) None false (snd reply) in
              Done (reply, fst sp) in
            match outcome with
            | Done (reply, sp) => (dset st urn reply, Done (PRegister urn (id_field (fst reply)) sp))
            | Fail e => (st, Fail e)
            | Pending => (st, Pending)
            end
      end
  end.
(** A history of requests. *)
Fixpoint run_mocks (E : menv) (st : mstate) (evs : list mevent) : mstate :=
  match evs with
  | [] => st
  | ev :: evs' => run_mocks E (fst (handle E st ev)) evs'
  end.
