(** C93: components constructed for the engine *)
From Verif Require Import Base PyVal Model_Output Model_Rpc Model_Cycle Spec_Cycle Spec_Urn Spec_Rpc.
From Verif Require Model_Deps Spec_Deps.
From Verif Require Import Prop_Urn.
From Verif Require Import Model_Options Spec_Options Model_Resource Spec_Resource Model_Request Spec_Request
  Model_Construct Spec_Construct Proof_Construct.
Open Scope string_scope.

(** C93.  Full property: when the engine asks a component provider to construct
    a component, and the provider creates it with the options it is given, the
    component is registered with the engine with the name, type, parent,
    protection, dependencies and aliases of the engine's request, and what is
    created in the component uses the providers of the request.

    Missing: the parent (see C93_refuted: a parent is never passed on, and
    without one the component cannot be created). *)
Theorem C93_component_partial : forall ord, (forall r l, same_set (ord r l) l) ->
  forall tf reg h w r props, honest tf -> reachable tf w -> w_root w = None ->
  good_request r -> cq_parent r <> "" -> not_registered reg r ->
  exists o h' w' n o',
    construct_options reg h r = Ok (o, h') /\
    new_component tf w (cq_type r) (cq_name r) props o = Ok (w', n, RRegister (cq_type r) (cq_name r) false props o') /\
    (* the component's registration *)
    (forall e g self project stack, surroundings e g self h' -> ready e false props (new_ropts 0) ->
       e_aliases e = component_aliases project stack (cq_type r) (cq_name r) o' ->
       exists g' rq, register_request_of ord e None g self (cq_type r) (cq_name r) false false props o' = Done (g', rq) /\
         rq_type rq = cq_type r /\ rq_name rq = cq_name r /\ rq_protect rq = cq_protect r /\
         (NoDup (rq_dependencies rq) /\ forall s, In s (rq_dependencies rq) <->
           (s <> "" /\ In s (cq_dependencies r)) \/
           exists k x y, depends_by (e_cfg e) false props k x /\ Spec_Deps.stands_for (e_object e x) y /\ Spec_Deps.has_urn y s /\
             Model_Deps.rs_id y <> self) /\
         (NoDup (rq_aliases rq) /\ forall s, In s (rq_aliases rq) <-> In s (cq_aliases r))) /\
    (* the registration of a custom resource created with the component as its parent *)
    (forall t name cprops copts w2 m t' name' custom' cprops' o2 e g self timeouts,
       ro_parent copts = Some n -> ro_provider copts = None -> ro_providers copts = None -> ro_transformations copts = None -> named t ->
       construct tf w' t name true cprops copts = Ok (w2, m, RRegister t' name' custom' cprops' o2) ->
       (forall i f, nth_error h' i = Some f -> e_provider e i = f) -> ~ cyclic (Spec_Deps.depends g) -> ready e false cprops' o2 ->
       Forall (fun a => exists s, a = Done (Some s)) (e_aliases e) -> timeouts_are e o2 timeouts ->
       exists g' rq, register_request_of ord e None g self t' name' custom' false cprops' o2 = Done (g', rq) /\
         e_urn e n = Done (Some (rq_parent rq)) /\
         (forall pkg, has_package t pkg -> rq_provider rq = match dget (cq_providers r) pkg with Some ref => ref | None => "" end) /\
         rq_protect rq = match ro_protect copts with Some b => b | None => cq_protect r end).
Proof.
  intros ord Ord tf reg h w r props Hon Re Ro G P N.
  destruct (component_registered ord Ord tf Hon reg h w r props Re Ro G P N)
    as (o & h' & w' & n & o' & E1 & E2 & E3 & Re' & Ro' & rr & Wn & Tn & Pn & K1 & K2).
  exists o, h', w', n, o'. split; [exact E1|]. split; [exact E2|]. split; [exact E3|].
  intros. eapply (child_registered ord Ord tf Hon r h' w' n rr); eauto.
Qed.
Print Assumptions C93_component_partial.

(** A component with two providers, one of them of its own package. *)
Definition cn_aws : string := "urn:pulumi:dev::shop::my:index:App$pulumi:providers:aws::west".
Definition cn_my : string := "urn:pulumi:dev::shop::pulumi:providers:my::default".
Definition cn_request : construct_request := mkConstruct "my:index:Comp" "comp" "urn:pulumi:dev::shop::my:index:App::app"
  ["urn:alias-1"; "urn:alias-2"; "urn:alias-1"] ["urn:dep-1"; "urn:dep-2"; "urn:dep-1"] true
  [("aws", cn_aws ++ "::id-1"); ("my", cn_my ++ "::04da6b54-80e4-46f7-96ec-b56ff0331ba9")].
Definition cn_reg : packages := fun k => if String.eqb k "gcp" then Some (fun _ _ u => ("gcp", Done (u, None))) else None.
Definition cn_tf (x : nat) : transformation := fun t name p o => Ok None.
Definition cn_cfg : cfg := mkCfg true true true None (fun _ => []) (fun _ => mkRinfo true (Done (Some "urn-x")) (Done (Some "id-x")) (Done ["urn-x"])).
Definition cn_env (o : ropts) (h : objects) : env := mkEnv false cn_cfg None
  (fun r => match r with RObj n => Model_Deps.Rsrc n false (Ok None) [] | RDep u => Model_Deps.Rsrc (100 + String.length u) false (Ok (Some u)) [] end)
  (fun n => Done (Some "urn:component"))
  (fun n => nth n h (Done ("urn:other", None)))
  (component_aliases "shop" "dev" "my:index:Comp" "comp" o) (fun _ => TOther) [] None.

Example C93_hypotheses :
  good_request cn_request /\ not_registered cn_reg cn_request /\ honest cn_tf /\ reachable cn_tf (mkWorld [] None).
Proof.
  split; [|split; [|split; [|constructor]]].
  - constructor; try discriminate.
    + repeat constructor; cbn; intuition discriminate.
    + intros pkg ref H. cbn in H. destruct (String.eqb_spec pkg "aws") as [->|_]; [|destruct (String.eqb_spec pkg "my") as [->|_]; [|discriminate]];
        injection H as <-.
      * exists cn_aws, "id-1", "dev", "shop", ["my:index:App"], "west".
        split; [plain|]. split; [plain|]. split; [constructor; [plain|constructor]|]. split; [plain|]. split; [discriminate|]. split; [plain|]. split; [plain|].
        split; [plain|]. split; [discriminate|]. split; reflexivity.
      * exists cn_my, "04da6b54-80e4-46f7-96ec-b56ff0331ba9", "dev", "shop", [], "default".
        split; [plain|]. split; [plain|]. split; [constructor|]. split; [plain|]. split; [discriminate|]. split; [plain|]. split; [plain|].
        split; [plain|]. split; [discriminate|]. split; reflexivity.
  - intros pkg [<-|[<-|[]]]; reflexivity.
  - intros x t name p o p' o' W E. discriminate.
Qed.

Definition cn_result : res (world * nat * request * objects) :=
  let+ oh := construct_options cn_reg [] cn_request in
  let+ r := new_component cn_tf (mkWorld [] None) "my:index:Comp" "comp" [] (fst oh) in Ok (r, snd oh).
Definition cn_child (n : nat) : ropts := mkRopts 0 (Some n) None None None None None None None None None None None None None None None None None.
(** The registrations of the component and of a bucket in it. *)
Definition cn_sent : res (list (string * list string * list string * string * string * bool)) :=
  let+ rh := cn_result in
  match rh with
  | (w, n, RRegister t name c p o, h) =>
      match register_request_of (fun _ l => l) (cn_env o h) None [] 7 t name c false p o with
      | Done (g, rq) =>
          let+ r2 := construct cn_tf w "aws:s3:Bucket" "b" true [] (cn_child n) in
          match r2 with
          | (w2, m, RRegister t2 name2 c2 p2 o2) =>
              match register_request_of (fun _ l => l) (cn_env o h) None g 8 t2 name2 c2 false p2 o2 with
              | Done (_, rq2) =>
                  Ok (map (fun q => (rq_name q, rq_dependencies q, rq_aliases q, rq_parent q, rq_provider q, rq_protect q)) [rq; rq2])
              | _ => Err (Exn "" "")
              end
          | _ => Err (Exn "" "")
          end
      | _ => Err (Exn "" "")
      end
  | _ => Err (Exn "" "")
  end.
Definition cn_objects : objects := [Done (cn_aws, Some "id-1"); Done (cn_my, Some "04da6b54-80e4-46f7-96ec-b56ff0331ba9")].
Example C93_example :
  cn_sent = Ok [("comp", ["urn:dep-1"; "urn:dep-2"], ["urn:alias-1"; "urn:alias-2"], "", "", true);
                ("b", [], ["urn:alias-1"; "urn:alias-2"], "urn:component", cn_aws ++ "::id-1", true)] /\
  match cn_result with Ok (_, h') => h' = cn_objects | Err _ => False end /\
  forall o, surroundings (cn_env o cn_objects) [] 7 cn_objects /\ ready (cn_env o cn_objects) false [] (new_ropts 0).
Proof.
  split; [vm_compute; reflexivity|]. split; [vm_compute; reflexivity|]. intros o. split; constructor.
  - intros i f H. exact (nth_error_nth _ _ _ H).
  - intros u. exists (100 + String.length u). split; [lia|reflexivity].
  - intros (a & b & [] & _).
  - intros a [].
  - intros cls. split; [constructor|]. split; [constructor|]. intros f [].
  - split; [constructor|]. intros k1 k2 k' [].
  - do 2 eexists. reflexivity.
  - intros n. eexists. reflexivity.
  - intros [|[|n]]; cbn; try (do 2 eexists; reflexivity). destruct n; do 2 eexists; reflexivity.
  - intros d [=].
  - intros r x [(d & [=] & _)|(k & v & [] & _)].
Qed.

(** The full property does not hold: the parent in the request is not used, and
    without one every construction fails. *)
Theorem C93_refuted :
  (* the engine's request names a parent, the registration does not *)
  (cq_parent cn_request = "urn:pulumi:dev::shop::my:index:App::app" /\
   match cn_sent with Ok ((_, _, _, parent, _, _) :: _) => parent = "" | _ => False end) /\
  (* no parent: the component cannot be created, whatever the request *)
  (forall reg h r o h' tf w props, cq_type r <> "" -> cq_name r <> "" -> cq_parent r = "" ->
     construct_options reg h r = Ok (o, h') ->
     new_component tf w (cq_type r) (cq_name r) props o =
       Err (Exn "AttributeError" "'DependencyResource' object has no attribute '_transformations'")).
Proof.
  split; [split; [reflexivity|vm_compute; reflexivity]|]. intros reg h r o h' tf w props T N P E.
  unfold construct_options in E. rewrite P in E. destruct (create_providers reg h (cq_providers r)) as [ps|]; [|discriminate].
  injection E as <- _. unfold new_component. cbn [co_parent].
  destruct (String.eqb_spec (cq_type r) ""); [contradiction|]. destruct (String.eqb_spec (cq_name r) ""); [contradiction|]. reflexivity.
Qed.
Print Assumptions C93_refuted.
