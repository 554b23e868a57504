(** C53, C68: calling provider functions. *)
From Verif Require Import Base PyVal Model_Output Model_Rpc Spec_Rpc Model_Translate Model_Register
  Model_Options Model_Resource Spec_Resource Proof_Resource Model_Invoke Spec_Invoke Proof_Invoke Proof_RpcTop Prop_Rpc.
Open Scope string_scope.

(* ------------------------------------------------------------------ *)
(** C53, [invoke].  At most one request is sent, with the function's token and
    the serialised arguments.  A value is returned iff the engine answered
    without failures, and it is what the returned message says.  Otherwise an
    error is raised: one naming the function and the engine's error, one naming
    the function and the first failure, or the transport's own exception. *)
Theorem C53_invoke :
  forall E w m h tok props opts typ h' reqs r,
    invoke E w m h tok props opts typ = (h', reqs, r) ->
    length reqs <= 1 /\
    (forall v, r = Done v -> exists mon q resp, m = Some mon /\ reqs = [q] /\ mon q = AResp resp /\ i_failures resp = [] /\
       reads_as E typ (i_return resp) v) /\
    (forall mon q, m = Some mon -> In q reqs ->
       (exists st pd, serialize_properties (e_cfg E) None false props = Done (st, pd) /\ q_args q = st) /\
       q_tok q = tok /\ q_accept q = e_accept E /\
       match mon q with
       | AResp resp =>
           match i_failures resp with
           | (reason, property) :: _ => r = Fail (Exn "Exception" ("invoke of " ++ tok ++ " failed: " ++ reason ++ " (" ++ property ++ ")"))
           | [] => (forall v, r = Done v <-> reads_as E typ (i_return resp) v) /\ resolved r
           end
       | ARpcError false details => r = Fail (Exn "Exception" ("invoke of " ++ tok ++ " failed: " ++ details))
       | ARpcError true _ => exists msg, r = Fail (Exn "Exception" ("invoke of " ++ tok ++ " failed: " ++ msg))
       | AError e => r = Fail e
       end).
Proof. exact invoke_result. Qed.
Print Assumptions C53_invoke.

(** C53: when exactly a request is sent.  A result type that is not declared as an
    output type is a TypeError, and nothing is sent; otherwise, when provider and
    arguments resolve, [invoke] sends a request and [call] does. *)
Theorem C53_sent :
  forall E w mi mc h tok props opts self typ,
    (~ result_type typ -> snd (fst (invoke E w mi h tok props opts typ)) = [] /\
       (exists m, snd (invoke E w mi h tok props opts typ) = Fail (Exn "TypeError" m)) /\
       exists m, call E mc tok props self typ = Err (Exn "TypeError" m)) /\
    (result_type typ -> (forall p, exists u i, e_prov_urn E p = Done (Some u) /\ e_prov_id E p = Done i) ->
       (forall mon sp, mi = Some mon -> serialize_properties (e_cfg E) None false props = Done sp ->
          exists q, snd (fst (invoke E w mi h tok props opts typ)) = [q]) /\
       (forall mon sp us, mc = Some mon -> serialize_properties (e_cfg E) None true props = Done sp ->
          (forall k ds r, In (k, ds) (snd sp) -> In r ds -> Model_Rpc.r_urn (c_res (e_cfg E) r) = Done (Some (us r))) ->
          exists q out, call E mc tok props self typ = Ok ([q], out))).
Proof. exact request_sent. Qed.
Print Assumptions C53_sent.

(** C53, data in and data out: the engine can read exactly the arguments that
    were passed, and the caller gets exactly the data the function returned
    (null-valued entries dropped both ways, None for an empty result). *)
Theorem C53_invoke_data :
  forall E w mon h tok props opts typ h' q r c2 keep2 ans st2 pd2 dc2,
    invoke E w (Some mon) h tok props opts typ = (h', [q], r) ->
    (forall k, transform (e_cfg E) k = k) -> (forall k, transform c2 k = k) ->
    plain (VDict props) -> plain (VDict ans) ->
    serialize_properties c2 None keep2 ans = Done (st2, pd2) -> mon q = AResp (mkInvokeResponse [] st2) -> typ = None ->
    deserialize_properties dc2 (q_args q) false false = Ok (drop_nulls (VDict props)) /\
    r = Done (if match st2 with [] => true | _ => false end then INone else IPlain (drop_nulls (VDict ans))).
Proof. exact invoke_data. Qed.
Print Assumptions C53_invoke_data.

Definition ex_urn_of (p : provider) : string := "urn:prov:" ++ p_package p.
Definition ex_env : ienv :=
  mkIenv (ex_cfg true None) (ex_dc false) (mkOcfg (fun _ => []) (fun _ _ => false) false (fun k => k))
    (fun p => Done (Some (ex_urn_of p))) (fun p => Done (Some "id")) true.
Definition ex_monitor (q : invoke_request) : answer invoke_response :=
  if String.eqb (q_tok q) "aws:index:fail" then AResp (mkInvokeResponse [("bad", "p"); ("worse", "q")] [])
  else AResp (mkInvokeResponse [] [("out", WList (map snd (q_args q)))]).
Definition ex_parent : resource :=
  mkResource "my:index:Comp" false (new_ropts 0) (new_ropts 0) [] false None
    [("aws", mkProvider "aws" 1); ("gcp", mkProvider "gcp" 2)].
Definition ex_world : world := mkWorld [ex_parent] None.

Example C53_invoke_example :
  invoke ex_env ex_world (Some ex_monitor) [mkIopts 0 (Some 0) None (Some "1.0") None] "aws:index:get" [("a", VNum 1); ("b", VNone)] (Some 0) None
  = ([mkIopts 0 (Some 0) (Some (mkProvider "aws" 1)) (Some "1.0") None],
     [mkInvokeRequest "aws:index:get" [("a", WNum 1)] (Some "urn:prov:aws::id") "1.0" "" true],
     Done (IPlain (VDict [("out", VList [VNum 1])]))) /\
  snd (invoke ex_env ex_world (Some ex_monitor) [] "aws:index:fail" [] None None)
  = Fail (Exn "Exception" "invoke of aws:index:fail failed: bad (p)").
Proof. split; reflexivity. Qed.

(* ------------------------------------------------------------------ *)
(** C53, [call].  The request carries the function's token, the serialised
    arguments, each argument's dependencies as URNs, and the provider, version
    and plugin URL of the resource whose method it is. *)
Theorem C53_call_request :
  forall E mon tok props self typ reqs out q,
    (forall cls, class_declared (c_class (e_cfg E) cls)) -> (forall p, exists u, e_prov_urn E p = Done (Some u)) ->
    call E (Some mon) tok props self typ = Ok (reqs, out) -> In q reqs ->
    reqs = [q] /\ l_tok q = tok /\
    (exists pd, serialize_properties (e_cfg E) None true props = Done (l_args q, pd)) /\
    dkeys (l_deps q) = dkeys (l_args q) /\
    (distinct_names (e_cfg E) None (map fst props) ->
     forall k k' v us, In (k, v) props -> sent_as (e_cfg E) None k k' -> dget (l_deps q) k' = Some us ->
       NoDup us /\ forall u, In u us <-> exists r, mentions (e_cfg E) r v /\ Model_Rpc.r_urn (c_res (e_cfg E) r) = Done (Some u)) /\
    reference_of E (match self with Some s => cs_provider s | None => None end) (l_provider q) /\
    l_version q = match self with Some (mkCallSelf _ (Some v) _) => v | _ => "" end /\
    l_url q = match self with Some (mkCallSelf _ _ (Some v)) => v | _ => "" end.
Proof.
  intros E mon tok props self typ reqs out q Hc Hu H Hq.
  assert (Hn : forall cls, class_named (c_class (e_cfg E) cls)) by (intros cls; apply class_declared_named, Hc).
  destruct (call_request_spec _ _ _ _ _ _ _ _ _ (fun cls => class_declared_ok _ (Hc cls)) Hu H Hq) as (H1 & H2 & H3 & H4 & H5 & H6 & H7 & H8 & _).
  repeat (split; [assumption|]). split; [|repeat (split; [assumption|]); assumption].
  intros D k k' v us Hi Hk. rewrite <- (sent_top (e_cfg E) None k k' Hn Hk). exact (H5 (distinct_top _ None _ Hn D) k v us Hi).
Qed.
Print Assumptions C53_call_request.

(** The Output: known iff no property of the result contains an unknown; secret
    iff some property exposes a secret; depending on exactly the dependencies
    the engine returned; its value the result without secret marks.  If the
    engine reports failures or an error, or the result cannot be read, the
    Output fails, with no dependencies; nothing stays unresolved. *)
Theorem C53_call_output :
  forall E mon tok props self typ reqs out q,
    (forall cls, class_ok (c_class (e_cfg E) cls)) -> (forall p, exists u, e_prov_urn E p = Done (Some u)) ->
    call E (Some mon) tok props self typ = Ok (reqs, out) -> In q reqs ->
    let failed e := co_deps out = Done [] /\ co_val out = Fail e /\ co_known out = Fail e /\ co_secret out = Fail e in
    match mon q with
    | AError e => failed e
    | ARpcError false details => failed (Exn "Exception" details)
    | ARpcError true _ => exists msg, failed (Exn "RunError" msg)
    | AResp resp =>
        match lr_failures resp with
        | (reason, property) :: _ => failed (Exn "Exception" ("call of " ++ tok ++ " failed: " ++ reason ++ " (" ++ property ++ ")"))
        | [] =>
            (lr_return resp = [] -> co_deps out = Done [] /\ co_val out = Done INone /\ co_known out = Done true /\ co_secret out = Done false) /\
            (lr_return resp <> [] -> top_message (lr_return resp) -> (forall k w, dget (lr_return resp) k = Some w -> string_ids w) ->
             (exists e, failed e) \/
             exists d v known secret deps,
               out = mkCallOutput (Done deps) (Done v) (Done known) (Done secret) /\
               deserialize_properties (e_dc E) (lr_return resp) false false = Ok (VDict d) /\
               (known = true <-> ~ within VUnknown (VDict d)) /\
               (secret = true <-> exists k w, dget (lr_return resp) k = Some w /\ internal_key k = false /\ exposes_secret w) /\
               (forall x, In x deps <-> exists k us u, In (k, us) (lr_deps resp) /\ In u us /\ x = RDep u) /\
               (known = false -> v = INone) /\
               (known = true -> exists d',
                  (forall k x, dget d' k = Some x <->
                     exists u, dget d k = Some u /\ (marked_secret u x \/ ~ is_secret u /\ u = x)) /\
                  match typ with
                  | None => v = IPlain (VDict d')
                  | Some t => exists y, translate (e_oc E) (VDict d') (Some t) = Ok y /\ v = ITyped y
                  end))
        end
    end.
Proof.
  intros E mon tok props self typ reqs out q Hc Hu H Hq failed.
  destruct (call_request_spec _ _ _ _ _ _ _ _ _ Hc Hu H Hq) as (_ & _ & _ & _ & _ & _ & _ & _ & Ho).
  subst failed. unfold call_answer in Ho. destruct (mon q) as [resp|u d|e]; cbn [do_call rbind] in Ho.
  - destruct (lr_failures resp) as [|[reason property] fs]; [|subst out; simpl; auto].
    split.
    + intros En. unfold call_result in Ho. rewrite En in Ho. subst out. simpl. auto.
    + intros Hne Ht Hi. destruct (call_result E typ resp) as [[[[v known] secret] deps]|e] eqn:Er.
      * right. destruct (call_result_spec _ _ _ _ _ _ _ Hne Ht Hi Er) as (dd & D1 & D2 & D3 & D4 & D5 & D6). exists dd, v, known, secret, deps.
        split; [exact Ho|]. split; [exact D1|]. split; [exact D2|]. split; [exact D3|]. split; [exact D4|]. split; [exact D5|].
        intros K. destruct (D6 K) as (d' & F1 & F2). exists d'. split; [|exact F2].
        intros k x. rewrite F1. split; intros (u & U1 & U2); exists u; (split; [exact U1|]).
        -- destruct U2 as [U2|[U2 U3]]; [now left|right]. split; [|exact U3]. rewrite <- is_secret_iff. congruence.
        -- destruct U2 as [U2|[U2 U3]]; [now left|right]. split; [|exact U3]. rewrite <- is_secret_iff in U2. now destruct (is_rpc_secret u).
      * left. exists e. subst out. simpl. auto.
  - destruct u; cbn in Ho; subst out; cbn; [eexists|]; auto.
  - subst out. cbn. auto.
Qed.
Print Assumptions C53_call_output.

Definition ex_call_monitor (q : call_request) : answer call_response :=
  AResp (mkCallResponse [] [("r", wsecret (WStr "pw")); ("n", WNum 2)] [("r", ["urn:a"]); ("n", ["urn:b"; "urn:a"])]).
Example C53_call_example :
  call ex_env (Some ex_call_monitor) "aws:index:Bucket/get" [("self", VRes (RObj 1))] (Some (mkCallSelf (Some (mkProvider "aws" 1)) None (Some "u"))) None
  = Ok ([mkCallRequest "aws:index:Bucket/get"
           [("self", WStruct [(sig_key, WStr resource_sig); ("urn", WStr ex_urn); ("id", WStr "id-1")])]
           [("self", [ex_urn])] (Some "urn:prov:aws::id") "" "u"],
        mkCallOutput (Done [RDep "urn:a"; RDep "urn:b"; RDep "urn:a"]) (Done (IPlain (VDict [("r", VStr "pw"); ("n", VNum 2)]))) (Done true) (Done true)).
Proof. reflexivity. Qed.

(* ------------------------------------------------------------------ *)
(** C68.  In any sequence of invokes, each request names the provider that
    function's options call for, as the options were given.  Missing: an options
    object reused for a function of another package (see the refutation). *)
Theorem C68_invoke_provider_partial :
  forall E w m h l tok props b typ h' reqs r q,
    parents_exist w h -> (forall p, exists u, e_prov_urn E p = Done (Some u)) ->
    b < length h -> (forall c a, In c l -> n_opts c = Some a -> a < length h) ->
    (forall c, In c l -> n_opts c = Some b -> forall pkg, has_package (n_tok c) pkg <-> has_package tok pkg) ->
    invoke E w m (invokes E w m h l) tok props (Some b) typ = (h', reqs, r) -> In q reqs ->
    (exists p, expected_provider w (iget h b) tok p /\ reference_of E p (q_provider q)) /\
    q_version q = or_empty (io_version (iget h b)) /\ q_url q = or_empty (io_plugin_download_url (iget h b)).
Proof.
  intros E w m h l tok props b typ h' reqs r q H1 H2 H3 H4 H5. apply provider_selection; auto.
  intros c Hc Ho. specialize (H5 c Hc Ho).
  destruct (type_package (n_tok c)) as [p|] eqn:E1, (type_package tok) as [p'|] eqn:E2; auto.
  - apply type_package_spec in E1. apply H5 in E1. apply type_package_spec in E1. congruence.
  - apply type_package_spec in E1. apply H5 in E1. apply type_package_spec in E1. congruence.
  - apply type_package_spec in E2. apply H5 in E2. apply type_package_spec in E2. congruence.
Qed.
Print Assumptions C68_invoke_provider_partial.

Definition ex_opts : iheap := [mkIopts 0 (Some 0) None (Some "") None].
Example C68_example :
  parents_exist ex_world ex_opts /\
  let l := [mkInvocation "aws:index:get" [] (Some 0) None; mkInvocation "gcp:index:get" [] None None] in
  snd (fst (invoke ex_env ex_world (Some ex_monitor) (invokes ex_env ex_world (Some ex_monitor) ex_opts l) "aws:index:other" [] (Some 0) None))
  = [mkInvokeRequest "aws:index:other" [] (Some "urn:prov:aws::id") "" "" true].
Proof.
  split; [|reflexivity]. intros o p [<-|[]] [= <-]. now exists ex_parent.
Qed.

(** The first call stores the provider it found in the options object, and a
    later call for another package is sent to it. *)
Theorem C68_refuted :
  exists E w m h tok1 tok2 b q p,
    let h1 := fst (fst (invoke E w m h tok1 [] (Some b) None)) in
    iget h1 b <> iget h b /\
    snd (fst (invoke E w m h1 tok2 [] (Some b) None)) = [q] /\
    expected_provider w (iget h b) tok2 (Some p) /\ ~ reference_of E (Some p) (q_provider q).
Proof.
  exists ex_env, ex_world, (Some ex_monitor), ex_opts, "aws:index:get", "gcp:index:get", 0.
  eexists _, (mkProvider "gcp" 2). cbv zeta. split; [discriminate|]. split; [reflexivity|]. split.
  - change (Some (mkProvider "gcp" 2)) with (dget (s_providers ex_parent) "gcp"). eapply XP_parent with (a := 0); reflexivity.
  - intros (u & i & Hu & Hi & K). simpl in *. injection Hu as <-. injection Hi as <-. discriminate.
Qed.
Print Assumptions C68_refuted.
