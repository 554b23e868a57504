(** C24-C26: outputs of registered, read and looked up resources. *)
From Verif Require Import Base PyVal Model_Rpc Model_Translate Model_Register Spec_Register Proof_Register.
Open Scope string_scope.

(** C24.  Registering a resource with any distinct properties resolves its
    URN, its id and every property exactly once: all with the exception if
    preparing, building the request or the RPC fails; otherwise the URN and id
    with the engine's, and the properties all with values, or all with the
    exception if the response cannot be decoded.  The exception propagates. *)
Theorem C24_register_resolves : forall g l r, NoDup (g_props g) -> do_register g [] = (l, r) ->
  resolved_once (g_custom g) (g_props g) l /\
  ((exists e, r = Err e /\ fails_early (g_prepare g) (g_request g) (fun sp m => engine_answer sp m (g_monitor g)) e /\
      forall t o, In (t, o) l -> o = OExc e) \/
   (exists sp m resp, g_prepare g = Ok sp /\ g_request g = Ok m /\ engine_answer sp m (g_monitor g) (Ok resp) /\
      (exists o, In (TUrn, o) l /\ is_urn (g_cfg g) (r_urn resp) o) /\
      (g_custom g = true -> exists o, In (TId, o) l /\ is_id (g_cfg g) (r_id resp) o) /\
      ((r = Ok tt /\ forall k o, In (TProp k, o) l -> is_value o) \/
       (exists e, r = Err e /\ undecodable (g_cfg g) sp (r_object resp) e /\ forall k o, In (TProp k, o) l -> o = OExc e)))).
Proof. exact register_ok. Qed.
Print Assumptions C24_register_resolves.

(** C25, for reads by id and lookups by URN: as C24, when a response that
    arrives can be used (missing: responses that cannot, see the refutation). *)
Theorem C25_read_resolves_partial :
  (forall g l r, NoDup (d_props g) -> do_read g [] = (l, r) ->
     (forall sp m resp e, d_prepare g = Ok sp -> engine_answer sp m (d_monitor g) (Ok resp) -> ~ undecodable (d_cfg g) sp (r_object resp) e) ->
     resolved_once true (d_props g) l /\
     ((exists e, r = Err e /\ read_fails_early g e /\ forall t o, In (t, o) l -> o = OExc e) \/
      (exists sp id m resp, d_prepare g = Ok sp /\ d_id g = Ok id /\ d_request g = Ok m /\ engine_answer sp m (d_monitor g) (Ok resp) /\
         r = Ok tt /\ (exists o, In (TUrn, o) l /\ is_urn (d_cfg g) (r_urn resp) o) /\
         In (TId, OVal (TLeaf (match id with Some s => VStr s | None => VNone end)) true false [c_self (d_cfg g)]) l /\
         forall k o, In (TProp k, o) l -> is_value o))) /\
  (forall g l r, NoDup (t_props g) -> do_get g [] = (l, r) ->
     (forall sp resp, t_prepare g = Ok sp -> t_monitor g = AResp resp -> wf_dict (i_return resp) /\
        (i_failures resp = [] -> usable_result (t_cfg g) (t_custom g) sp (i_return resp))) ->
     resolved_once (t_custom g) (t_props g) l /\
     ((exists e, r = Err e /\ get_fails (t_prepare g) (t_monitor g) e /\ forall t o, In (t, o) l -> o = OExc e) \/
      (exists sp resp urn, t_prepare g = Ok sp /\ t_monitor g = AResp resp /\ i_failures resp = [] /\ r = Ok tt /\
         In ("urn", WStr urn) (i_return resp) /\ (exists o, In (TUrn, o) l /\ is_urn (t_cfg g) urn o)) \/
      (exists sp resp w, t_prepare g = Ok sp /\ t_monitor g = AResp resp /\ i_failures resp = [] /\ r = Ok tt /\
         In ("urn", w) (i_return resp) /\ (forall u, w <> WStr u)))).
Proof. exact (conj read_ok get_ok). Qed.
Print Assumptions C25_read_resolves_partial.

(** C26.  After a registration, read or lookup that succeeds, each property is
    resolved to the engine's value if it gave one; else to the input, in an
    update; else to None, known only in an update.  It is secret when that value
    is marked secret, and depends on the resource itself and the engine's
    dependencies for it (none for reads and lookups). *)
Theorem C26_resolution_precedence :
  (forall g l sp m resp, NoDup (g_props g) -> do_register g [] = (l, Ok tt) ->
     g_prepare g = Ok sp -> g_request g = Ok m -> engine_answer sp m (g_monitor g) (Ok resp) ->
     good_outputs (g_cfg g) sp (r_object resp) -> wf_dict (r_deps resp) -> no_clash (g_cfg g) (dkeys (r_deps resp)) ->
     forall k o, In (TProp k, o) l -> exists v known secret ds, o = OVal v known secret ds /\
       resolves_to (g_cfg g) sp (r_object resp) k v known secret /\ depends (g_cfg g) (r_deps resp) k ds) /\
  (forall g l sp id m resp, NoDup (d_props g) -> do_read g [] = (l, Ok tt) ->
     d_prepare g = Ok sp -> d_id g = Ok id -> d_request g = Ok m -> engine_answer sp m (d_monitor g) (Ok resp) ->
     good_outputs (d_cfg g) sp (r_object resp) ->
     forall k o, In (TProp k, o) l -> exists v known secret ds, o = OVal v known secret ds /\
       resolves_to (d_cfg g) sp (r_object resp) k v known secret /\ depends (d_cfg g) [] k ds) /\
  (forall g l sp resp state, NoDup (t_props g) -> do_get g [] = (l, Ok tt) ->
     t_prepare g = Ok sp -> t_monitor g = AResp resp -> wf_dict (i_return resp) -> In ("state", WStruct state) (i_return resp) ->
     good_outputs (t_cfg g) sp state ->
     forall k o, In (TProp k, o) l -> exists v known secret ds, o = OVal v known secret ds /\
       resolves_to (t_cfg g) sp state k v known secret /\ depends (t_cfg g) [] k ds).
Proof. exact (conj register_values (conj read_values get_values)). Qed.
Print Assumptions C26_resolution_precedence.

(* ---- a concrete case ---- *)
Definition ex_ocfg : ocfg := mkOcfg (fun _ => []) (fun _ _ => false) true (fun k => k).
Definition ex_dcfg (dry : bool) : dcfg := mkDcfg dry (fun _ _ => Ok None) (fun _ _ _ => Ok None).
Definition ex_rcfg (dry : bool) : rcfg := mkRcfg dry false
  (fun k => if String.eqb k "bucketName" then "bucket_name" else k) (fun _ => None) ex_ocfg (ex_dcfg dry) (RObj 3).
Definition ex_inputs : dict wire := [("bucketName", WStr "b"); ("size", WNum 4); ("acl", WStruct [(sig_key, WStr secret_sig); ("value", WStr "p")])].
Definition ex_resp : response := mkResponse "urn:pulumi:dev::p::t::n" (Some "i-1")
  [("bucketName", WStr "real"); ("extra", WNum 1)] [("bucketName", ["urn:a"; "urn:b"])].
Definition ex_reg (dry : bool) (a : answer response) : reg :=
  mkReg (ex_rcfg dry) true ["bucket_name"; "size"; "acl"; "arn"; "id"] (Ok ex_inputs) (Ok "mock") (Some a).

Example C24_C26_example :
  NoDup (g_props (ex_reg false (AResp ex_resp))) /\ good_outputs (ex_rcfg false) ex_inputs (r_object ex_resp) /\
  wf_dict (r_deps ex_resp) /\ no_clash (ex_rcfg false) (dkeys (r_deps ex_resp)) /\
  do_register (ex_reg false (AResp ex_resp)) [] =
    ([(TUrn, OVal (TLeaf (VStr "urn:pulumi:dev::p::t::n")) true false [RObj 3]);
      (TId, OVal (TLeaf (VStr "i-1")) true false [RObj 3]);
      (TProp "bucket_name", OVal (TLeaf (VStr "real")) true false [RDep "urn:a"; RDep "urn:b"; RObj 3]);
      (TProp "size", OVal (TLeaf (VNum 4)) true false [RObj 3]);
      (TProp "acl", OVal (TLeaf (VStr "p")) true true [RObj 3]);
      (TProp "arn", OVal (TLeaf VNone) true false [RObj 3])], Ok tt) /\
  snd (do_register (ex_reg true (AResp ex_resp)) []) = Ok tt /\
  In (TProp "size", OVal (TLeaf VNone) false false [RObj 3]) (fst (do_register (ex_reg true (AResp ex_resp)) [])) /\
  do_register (ex_reg true (ARpcError false "boom")) [] =
    ([(TProp "bucket_name", OExc (Exn "Exception" "boom")); (TProp "size", OExc (Exn "Exception" "boom"));
      (TProp "acl", OExc (Exn "Exception" "boom")); (TProp "arn", OExc (Exn "Exception" "boom"));
      (TUrn, OExc (Exn "Exception" "boom")); (TId, OExc (Exn "Exception" "boom"))], Err (Exn "Exception" "boom")).
Proof.
  split; [simpl; repeat constructor; simpl; intuition discriminate|].
  split; [|split; [simpl; repeat constructor; simpl; intuition discriminate|split; [intros a b [<-|[]] [<-|[]] _; reflexivity|repeat split; try reflexivity]]].
  - split; [simpl; repeat constructor; simpl; intuition discriminate|]. split; [simpl; intuition discriminate|].
    split; [|split; [simpl; repeat constructor; simpl; intuition discriminate|]]; intros a b Ha Hb; simpl in Ha, Hb;
      intuition (subst; try reflexivity; discriminate).
  - vm_compute. auto 10.
Qed.

Definition ex_read (r : response) : read :=
  mkRead (ex_rcfg false) ["bucket_name"; "arn"] (Ok []) (Ok (Some "i-9")) (Ok "mock") (Some (AResp r)).
Example C25_example :
  (forall sp m resp e, d_prepare (ex_read ex_resp) = Ok sp -> engine_answer sp m (d_monitor (ex_read ex_resp)) (Ok resp) ->
     ~ undecodable (d_cfg (ex_read ex_resp)) sp (r_object resp) e) /\
  snd (do_read (ex_read ex_resp) []) = Ok tt /\
  In (TId, OVal (TLeaf (VStr "i-9")) true false [RObj 3]) (fst (do_read (ex_read ex_resp) [])) /\
  usable_result (ex_rcfg false) true [] [("urn", WStr "u"); ("id", WStr ""); ("state", WStruct [("arn", WNum 3)])].
Proof.
  split; [|split; [reflexivity|split; [vm_compute; auto|]]].
  - intros sp m resp e [= <-] H. inversion H; subst. intros [K|[(v & K & Nd & _)|[(d & key & v & K & Hin & He)|(U & key & w & [] & _)]]].
    + vm_compute in K. discriminate.
    + vm_compute in K. injection K as <-. destruct (Nd _ eq_refl).
    + vm_compute in K. injection K as <-. simpl in Hin. destruct Hin as [[= <- <-]|[[= <- <-]|[]]]; discriminate.
  - split; [eexists; left; reflexivity|]. split; [intros _; eexists; right; left; reflexivity|].
    eexists. split; [right; right; left; reflexivity|].
    intros e [K|[(v & K & Nd & _)|[(d & key & v & K & Hin & He)|(U & key & w & [] & _)]]].
    + vm_compute in K. discriminate.
    + vm_compute in K. injection K as <-. destruct (Nd _ eq_refl).
    + vm_compute in K. injection K as <-. simpl in Hin. destruct Hin as [[= <- <-]|[]]. discriminate.
Qed.

(** C25 is false in general: when a response arrives but cannot be decoded, or
    lacks a field, some outputs are never resolved (whatever awaits them hangs). *)
Theorem C25_refuted :
  (exists g l r, NoDup (d_props g) /\ do_read g [] = (l, r) /\ In "arn" (d_props g) /\ ~ In (TProp "arn") (map fst l)) /\
  (exists g l r, NoDup (t_props g) /\ do_get g [] = (l, r) /\ ~ In TUrn (map fst l)).
Proof.
  split.
  - exists (ex_read (mkResponse "urn:x" None [("bucketName", WStruct [(sig_key, WStr "bogus")])] [])). do 2 eexists.
    split; [simpl; repeat constructor; simpl; intuition discriminate|]. split; [vm_compute; reflexivity|].
    split; [simpl; auto|]. simpl. intuition discriminate.
  - exists (mkGet (ex_rcfg false) true ["arn"] (Ok []) (AResp (mkInvokeResponse [] [("state", WStruct [])]))). do 2 eexists.
    split; [simpl; repeat constructor; simpl; intuition discriminate|]. split; [vm_compute; reflexivity|]. simpl. auto.
Qed.
Print Assumptions C25_refuted.
