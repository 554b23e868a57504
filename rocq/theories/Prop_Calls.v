(** C96: method calls are transparent *)
From Verif Require Import Base PyVal Model_Output Model_Rpc Spec_Rpc Model_Translate Model_Register Model_Resource Model_Invoke Proof_Invoke Spec_Meaning Spec_Calls Proof_Calls.
From Verif Require Model_Provider.
Open Scope string_scope.

(** C96.  Full property: calling a method of a remote component through the
    engine is like calling it directly.  The method is given, for every
    argument, the caller's data with the caller's secretness, unknown where it
    was unknown; the caller gets an Output of the data the method returned,
    known iff that data is known, secret iff a part of it is, depending on the
    resources the results mention, and failed if the method reported failures.

    Missing: resources and declared types in arguments and results, a result
    type, and what C94 leaves out. *)
Theorem C96_call_partial : forall E P method tok props self data secret us us',
  c_transform (e_cfg E) = None -> c_secrets (e_cfg E) = true ->
  c_transform (Model_Provider.pv_cfg P) = None -> c_secrets (Model_Provider.pv_cfg P) = true ->
  (c_outvals (e_cfg E) = true -> urns_ready (e_cfg E)) ->
  (forall r, Model_Rpc.r_urn (c_res (e_cfg E) r) = Done (Some (us r))) ->
  (forall r, Model_Rpc.r_urn (c_res (Model_Provider.pv_cfg P) r) = Done (Some (us' r))) ->
  (forall p, exists u i, e_prov_urn E p = Done (Some u) /\ e_prov_id E p = Done i) ->
  (forall x, exists u, Model_Provider.pv_urn P x = Done u) ->
  (forall cls, class_ok (c_class (Model_Provider.pv_cfg P) cls)) ->
  wf_dict props -> ~ In "4dabf18193072939515e22adb298388d" (dkeys props) ->
  (forall k v, In (k, v) props -> means (c_outvals (e_cfg E)) v (data k) (secret k) /\
     (d_dry (Model_Provider.pv_dc P) = true \/ ~ within VUnknown (data k))) ->
  exists q args out,
    call E (Some (forwards P method)) tok props self None = Ok ([q], out) /\
    (* what the method is given *)
    Model_Provider.component_inputs P true (l_args q) (l_deps q) = Done args /\
    (forall k, In k (dkeys args) -> In k (dkeys props)) /\ wf_dict args /\
    (forall k v, In (k, v) props ->
       match dget args k with Some a => delivered (data k) (secret k) a | None => left_out (data k) (secret k) end) /\
    (* what the caller gets *)
    forall outputs failures odata osecret, method args = (outputs, failures) ->
      sendable_keys outputs ->
      (forall k v, In (k, v) outputs -> means false v (odata k) (osecret k) /\ (d_dry (e_dc E) = true \/ ~ within VUnknown (odata k))) ->
      match failures with
      | Some ((property, reason) :: _) =>
          let e := Exn "Exception" ("call of " ++ tok ++ " failed: " ++ reason ++ " (" ++ property ++ ")") in
          co_val out = Fail e /\ co_known out = Fail e /\ co_secret out = Fail e
      | _ => returned P outputs odata osecret out
      end.
Proof.
  intros E P method tok props self data secret us us' Ht Hs Ht' Hs' Hr Hu Hu' Hp Hx Hc W S H.
  destruct (arguments E P Ht Hs props data secret (fun pd => match arg_deps E pd with Done x => x | _ => [] end) Hr Hx W S H)
    as (st & pd & Es & args & A1 & A2 & A3 & A4).
  destruct (reference_done E (match self with Some s => cs_provider s | None => None end) Hp) as [ref Er].
  destruct (arg_deps_done E us pd) as [deps Ed]; [auto|]. rewrite Ed in A1.
  unfold call, call_prepare. cbn [bad_type]. rewrite Er, Es. cbn [fbind snd fst]. rewrite Ed. cbn [fbind].
  do 3 eexists. split; [reflexivity|]. cbn [l_args l_deps]. split; [exact A1|]. split; [exact A2|]. split; [exact A3|]. split; [exact A4|].
  intros outputs failures odata osecret Em So Ho.
  destruct (results E P Ht' Hs' us' outputs odata osecret failures tok Hu' Hc So Ho) as (r & R1 & R2 & R3).
  unfold forwards. cbn [l_args l_deps]. rewrite A1, Em. cbn [fst snd]. rewrite R1.
  destruct failures as [[|[property reason] fs]|]; [exact (R3 R2)| |exact (R3 R2)].
  rewrite R2. cbn. auto.
Qed.
Print Assumptions C96_call_partial.

(** A caller that sends Outputs as Outputs, a method that returns its argument
    and a secret, one result being unknown in the second case. *)
Definition cl_cfg : cfg :=
  mkCfg true true true None (fun _ => []) (fun _ => mkRinfo true (Done (Some "urn:r")) (Done (Some "id")) (Done ["urn:r"])).
Definition cl_dc : dcfg := mkDcfg true (fun _ _ => Ok None) (fun _ _ _ => Ok None).
Definition cl_env : ienv := mkIenv cl_cfg cl_dc (mkOcfg (fun _ => []) (fun _ _ => false) false (fun k => k)) (fun _ => Done (Some "urn:p")) (fun _ => Done (Some "p1")) true.
Definition cl_penv : Model_Provider.penv := Model_Provider.mkPenv cl_cfg cl_dc (fun _ => Done (Some "urn:r")) true.
Definition cl_props : dict pyval := [("host", VOut (Done [RObj 1]) (Done (VStr "h")) (Done true) (Done true)); ("none", VNone); ("port", VNum 80%Z)].
Definition cl_data (k : string) : pyval := if String.eqb k "host" then VStr "h" else if String.eqb k "port" then VNum 80%Z else VNone.
Definition cl_secret (k : string) : bool := String.eqb k "host".
Example C96_hypotheses_met :
  urns_ready cl_cfg /\ wf_dict cl_props /\ ~ In "4dabf18193072939515e22adb298388d" (dkeys cl_props) /\
  forall k v, In (k, v) cl_props -> means (c_outvals (e_cfg cl_env)) v (cl_data k) (cl_secret k) /\
     (d_dry (Model_Provider.pv_dc cl_penv) = true \/ ~ within VUnknown (cl_data k)).
Proof.
  split; [intros r; split; [cbn; eauto|]; eexists; split; [reflexivity|]; cbn; intuition discriminate|].
  split; [unfold wf_dict; cbn; repeat constructor; cbn; intuition discriminate|]. split; [cbn; intuition discriminate|].
  assert (N : ~ within VUnknown (VStr "h")) by (intros K; inversion K).
  intros k v [[= <- <-]|[[= <- <-]|[[= <- <-]|[]]]]; (split; [|now left]); cbn; [|constructor|constructor].
  apply (Me_out true [RObj 1] (VStr "h") (VStr "h") true false); [exact N|apply Me_str; discriminate|auto].
Qed.
(** The method gets the secret Output and the number, and no null. *)
Definition cl_given : option (dict pyval) :=
  match call cl_env (Some (forwards cl_penv (fun args => ([], None)))) "m:f" cl_props None None with
  | Ok ([q], _) => match Model_Provider.component_inputs cl_penv true (l_args q) (l_deps q) with Done a => Some a | _ => None end
  | _ => None
  end.
Example C96_given : cl_given = Some [("host", VOut (Done [RDep "urn:r"]) (Done (VStr "h")) (Done true) (Done true)); ("port", VNum 80%Z)].
Proof. vm_compute. reflexivity. Qed.
(** It returns its arguments; it returns something unknown; it fails. *)
Definition cl_out (method : dict pyval -> dict pyval * option (list (string * string))) : option call_output :=
  match call cl_env (Some (forwards cl_penv method)) "m:f" cl_props None None with Ok (_, out) => Some out | _ => None end.
Example C96_echo : cl_out (fun args => (args, Some [])) =
  Some (mkCallOutput (Done [RDep "urn:r"]) (Done (IPlain (VDict [("host", VStr "h"); ("port", VNum 80%Z)]))) (Done true) (Done true)).
Proof. vm_compute. reflexivity. Qed.
Example C96_unknown : cl_out (fun args => ([("a", VNum 1%Z); ("b", VList [VUnknown])], None)) =
  Some (mkCallOutput (Done []) (Done INone) (Done false) (Done false)).
Proof. vm_compute. reflexivity. Qed.
Example C96_failed : option_map co_val (cl_out (fun args => (args, Some [("host", "bad")]))) = Some (Fail (Exn "Exception" "call of m:f failed: bad (host)")).
Proof. vm_compute. reflexivity. Qed.
