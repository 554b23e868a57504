(** C86: the requests sent for resources say what the program's options say. *)
From Verif Require Import Base PyVal Model_Output Model_Rpc Spec_Rpc Proof_RpcTop Model_Cycle Spec_Cycle.
From Verif Require Model_Deps Spec_Deps Proof_Deps.
From Verif Require Import Model_Options Spec_Options Model_Resource Spec_Resource Proof_Resource Model_Request Spec_Request Proof_Request.
Open Scope string_scope.

(** C86, registrations.  Once everything it waits for has resolved, the
    registration of a resource is sent, and it says what the options (as the
    transformations left them) say.  Missing: a remote component sends only
    its own provider when it has one; property paths are not translated; an
    alias that is not known makes the registration fail (see [C86_refuted]). *)
Theorem C86_registration_partial : forall ord, (forall r l, same_set (ord r l) l) ->
  forall tf w t name custom props given w' n t' name' custom' props' o' e g self remote timeouts,
  honest tf -> reachable tf w -> wf_opts given -> parent_exists w given -> named t ->
  construct tf w t name custom props given = Ok (w', n, RRegister t' name' custom' props' o') ->
  ~ cyclic (Spec_Deps.depends g) -> ready e remote props' o' ->
  Forall (fun a => exists s, a = Done (Some s)) (e_aliases e) -> timeouts_are e o' timeouts ->
  exists ts opts, applies w given ts /\ runs tf t name ts (props, given) (props', opts) /\
    exists g' rq, register_request_of ord e (w_root w) g self t' name' custom' remote props' o' = Done (g', rq) /\
      registration_says e w g g' self t name custom remote props' opts rq.
Proof. exact registration_ok. Qed.
Print Assumptions C86_registration_partial.

(** C86, reads.  The same for a resource read by its id, which may be promised
    or not known yet.  Missing: an id that is a secret makes the read fail. *)
Theorem C86_reading_partial : forall ord, (forall r l, same_set (ord r l) l) ->
  forall tf w t name custom props given w' n t' name' props' o' e g self v id,
  honest tf -> reachable tf w -> wf_opts given -> parent_exists w given -> named t ->
  construct tf w t name custom props given = Ok (w', n, RRead t' name' props' o') ->
  ~ cyclic (Spec_Deps.depends g) -> ready e false props' o' ->
  Forall (fun a => exists s, a = Done (Some s)) (e_aliases e) -> ro_id o' = Some v -> id_given (e_cfg e) v id ->
  exists ts opts, applies w given ts /\ runs tf t name ts (props, given) (props', opts) /\ ro_id opts = Some v /\ custom = true /\
    exists g' rq, read_request_of ord e (w_root w) g self t' name' props' o' = Done (g', rq) /\
      reading_says e w g g' self t name id props' opts rq.
Proof. exact reading_ok. Qed.
Print Assumptions C86_reading_partial.

(* ------------------------------------------------------------------ *)
(** Examples: a stack (0), a component with providers (1), and a bucket. *)
Definition q_tf (x : nat) : transformation := fun t name p o => Ok (Some ((p ++ [("tags", VDict [])])%list, o)).
Definition q_none : world := mkWorld [] None.
Definition q_w0 : world := match new_stack q_tf q_none "stack" with Ok w => w | Err _ => q_none end.
Definition q_comp : ropts := mkRopts 0 None None (Some true) None (Some (PList [mkProvider "aws" 1; mkProvider "gcp" 2]))
  None None None None None None None None None None None None None.
Definition q_w1 : world := match construct q_tf q_w0 "my:index:Comp" "comp" false [] q_comp with Ok (w, _, _) => w | Err _ => q_none end.
(** Depends on a resource, on what an output promises (and what the output itself
    depends on), on a component, and on an output that is not known. *)
Definition q_deps : pyval := VAwait (Done (VList
  [VRes (RObj 1); VOut (Done [RObj 2]) (Done (VAwait (Done (VRes (RObj 3))))) (Done true) (Done false);
   VOut (Done [RObj 4]) (Done VNone) (Done false) (Done false)])).
Definition q_opts : ropts := mkRopts 0 (Some 1) (Some q_deps) None None None (Some false) (Some ["bucket_name"; "extra"]) (Some "1.2.3")
  None (Some ["arn_text"; "tags"]) None (Some "import-id") (Some 5) (Some [7]) None (Some ["tags"]) (Some "https://plugins") (Some true).
Definition q_class : list field := [mkField "bucket_name" "bucketName" None; mkField "tags" "tags" (Some (TyDict TyAny))].
Definition q_cfg : cfg := mkCfg true true true None (fun _ => q_class) (fun _ => mkRinfo true (Done (Some "urn-x")) (Done (Some "id-x")) (Done ["urn-x"])).
(** Resource 3 is a component with children 31 and 32; 4 already depends on the new
    resource 9. *)
Definition q_object (r : rsrc) : Model_Deps.rsrc :=
  match r with
  | RObj 3 => Model_Deps.Rsrc 3 true (Ok None) [Model_Deps.Rsrc 31 false (Ok (Some "urn-31")) []; Model_Deps.Rsrc 32 false (Ok (Some "urn-32")) []]
  | RObj 1 => Model_Deps.Rsrc 1 false (Ok (Some "urn-1")) []
  | RObj 2 => Model_Deps.Rsrc 2 false (Ok (Some "urn-2")) []
  | _ => Model_Deps.Rsrc 4 false (Ok (Some "urn-4")) []
  end.
Definition q_env : env := mkEnv true q_cfg (Some 0) q_object (fun n => Done (Some (if Nat.eqb n 0 then "urn-stack" else "urn-comp")))
  (fun n => Done (if Nat.eqb n 1 then ("urn-aws", Some "id-aws") else ("urn-gcp", None)))
  [Done (Some "alias-1"); Done (Some "alias-2"); Done (Some "alias-1")]
  (fun _ => TDict [("create", VStr "5m"); ("other", VNum 1)]) [("arn_text", "arnText")] (Some "true").
Definition q_props : list (string * pyval) :=
  [("bucket_name", VOut (Done [RObj 2]) (Done (VStr "b")) (Done true) (Done false))].
Definition q_graph : dep_heap := [(4, [9])].

Lemma q_ready keep : ready q_env keep (q_props ++ [("tags", VDict [])])%list (set_provider q_opts (Some true) (Some (mkProvider "aws" 1))).
Proof.
  assert (Hn : forall cls, class_declared (c_class q_cfg cls)).
  { intros cls. split; [repeat constructor; simpl; intuition discriminate|]. split; [repeat constructor; simpl; intuition discriminate|].
    intros f [<-|[<-|[]]]; discriminate. }
  constructor.
  - exact Hn.
  - split; [repeat constructor; simpl; intuition discriminate|]. intros k1 k2 k' H1 H2 S1 S2.
    apply (sent_top q_cfg (Some 0) _ _ (fun c => class_declared_named _ (Hn c))) in S1, S2. simpl in H1, H2.
    destruct H1 as [<-|[<-|[]]]; destruct H2 as [<-|[<-|[]]]; try reflexivity; vm_compute in S1, S2; congruence.
  - destruct keep; do 2 eexists; reflexivity.
  - intros n. eexists. reflexivity.
  - intros n. simpl. destruct (Nat.eqb n 1); do 2 eexists; reflexivity.
  - intros d [= <-]. apply Dg_await, Rs_list. repeat constructor.
  - intros r x _ St. destruct r as [[|[|[|[|[|n]]]]]|]; simpl in St; inversion St; subst; try (do 4 eexists; reflexivity);
      repeat match goal with H : In _ _ |- _ => destruct H as [<-|H] | H : False |- _ => destruct H | H : In _ [] |- _ => destruct H end;
      match goal with H : Spec_Deps.stands_for _ x |- _ => inversion H; subst end; do 4 eexists; reflexivity.
Qed.
Lemma q_honest : honest q_tf.
Proof. intros x t name p o p' o' W. unfold q_tf. intros [= _ <-]. exact W. Qed.
Lemma q_reachable : reachable q_tf q_w1.
Proof.
  eapply (re_new _ q_w0 "my:index:Comp" "comp" false [] q_comp); [|exact I|intros n H; discriminate|reflexivity].
  eapply (re_stack _ q_none "stack"); [constructor|reflexivity].
Qed.
Lemma q_acyclic : ~ cyclic (Spec_Deps.depends q_graph).
Proof.
  intros (a & b & D & P). unfold Spec_Deps.depends in *. simpl in D. destruct (Nat.eqb_spec a 4) as [->|]; [|destruct D].
  destruct D as [<-|[]]. inversion P as [|? ? ? D']; subst. simpl in D'. exact D'.
Qed.

Example C86_registration_example :
  honest q_tf /\ reachable q_tf q_w1 /\ wf_opts q_opts /\ parent_exists q_w1 q_opts /\ named "aws:s3:Bucket" /\
  (exists w', construct q_tf q_w1 "aws:s3:Bucket" "b" true q_props q_opts =
     Ok (w', 2, RRegister "aws:s3:Bucket" "b" true (q_props ++ [("tags", VDict [])])%list (set_provider q_opts (Some true) (Some (mkProvider "aws" 1))))) /\
  ~ cyclic (Spec_Deps.depends q_graph) /\
  ready q_env false (q_props ++ [("tags", VDict [])])%list (set_provider q_opts (Some true) (Some (mkProvider "aws" 1))) /\
  Forall (fun a => exists s, a = Done (Some s)) (e_aliases q_env) /\
  timeouts_are q_env (set_provider q_opts (Some true) (Some (mkProvider "aws" 1))) (Some (Some "5m", None, None)) /\
  register_request_of (fun _ l => l) q_env (w_root q_w1) q_graph 9 "aws:s3:Bucket" "b" true false (q_props ++ [("tags", VDict [])])%list
    (set_provider q_opts (Some true) (Some (mkProvider "aws" 1))) =
  Done ([(4, [9]); (9, [1; 2; 31; 32])],
    mkRegister "aws:s3:Bucket" "b" "urn-comp" true [("bucketName", WStr "b"); ("tags", WStruct [])] true
      ["urn-1"; "urn-2"; "urn-31"; "urn-32"] "urn-aws::id-aws" [] [("bucketName", ["urn-2"]); ("tags", [])]
      false true ["bucketName"; "extra"] "1.2.3" "https://plugins" false ["arnText"; "tags"] "import-id"
      (Some (Some "5m", None, None)) ["alias-1"; "alias-2"] false ["tags"] true).
Proof.
  split; [exact q_honest|]. split; [exact q_reachable|]. split; [exact I|].
  split; [intros n [= <-]; eexists; reflexivity|]. split; [intros s H; discriminate|]. split; [eexists; reflexivity|].
  split; [exact q_acyclic|]. split; [exact (q_ready false)|]. split; [repeat constructor; eexists; reflexivity|].
  split; [eapply Ta_dict; reflexivity|]. reflexivity.
Qed.

Definition q_read_opts : ropts := mkRopts 0 (Some 1) None None None None None None (Some "1.2.3")
  None (Some ["arn_text"]) (Some (VOut (Done [RObj 1]) (Done (VAwait (Done (VStr "i-7")))) (Done true) (Done false))) None None None None None None None.
Example C86_reading_example :
  (exists w', construct q_tf q_w1 "aws:s3:Bucket" "b" true [] q_read_opts =
     Ok (w', 2, RRead "aws:s3:Bucket" "b" [] (set_provider q_read_opts (Some true) (Some (mkProvider "aws" 1))))) /\
  id_given (e_cfg q_env) (VOut (Done [RObj 1]) (Done (VAwait (Done (VStr "i-7")))) (Done true) (Done false)) "i-7" /\
  read_request_of (fun _ l => l) q_env (w_root q_w1) q_graph 9 "aws:s3:Bucket" "b" []
    (set_provider q_read_opts (Some true) (Some (mkProvider "aws" 1))) =
  Done (q_graph, mkReadRequest "i-7" "aws:s3:Bucket" "b" "urn-comp" [] [] "urn-aws::id-aws" "1.2.3" "" false ["arnText"]).
Proof.
  split; [eexists; reflexivity|]. split; [|reflexivity].
  apply Ig_output; [apply Ig_await, Ig_text|auto].
Qed.

(* ------------------------------------------------------------------ *)
(** C86 is false in general. *)
Definition q_remote : ropts := mkRopts 0 None None None None (Some (PList [mkProvider "aws" 1; mkProvider "gcp" 2]))
  None None None None None None None None None None None None None.
Definition q_env_alias : env := mkEnv true q_cfg (Some 0) q_object (e_urn q_env) (e_provider q_env) [Done None] (e_timeouts q_env) [] None.
Definition q_env_plain : env := mkEnv true q_cfg (Some 0) q_object (e_urn q_env) (e_provider q_env) [] (e_timeouts q_env) [] None.
Definition q_path : ropts := mkRopts 0 None None None None None
  None None None None None None None None None None (Some ["bucket_name"; "bucket_name.inner"]) None None.
Definition q_secret_id : ropts := mkRopts 0 None None None None None None None None
  None None (Some (VOut (Done []) (Done (VStr "i-7")) (Done true) (Done true))) None None None None None None None.

Theorem C86_refuted : forall ord g self,
  (* the providers given to a remote component for other packages are not sent *)
  (exists w' n o rq, construct q_tf q_w0 "aws:index:Remote" "r" false [] q_remote = Ok (w', n, RRegister "aws:index:Remote" "r" false [] o) /\
     option_gives q_remote "gcp" (mkProvider "gcp" 2) /\
     register_request_of ord q_env_plain (w_root q_w0) g self "aws:index:Remote" "r" false true [] o = Done (g, rq) /\
     rq_providers rq = [("aws", "urn-aws::id-aws")]) /\
  (* a path to a property is not translated *)
  (exists w' n o rq, construct q_tf q_w0 "aws:s3:Bucket" "b" true [] q_path = Ok (w', n, RRegister "aws:s3:Bucket" "b" true [] o) /\
     register_request_of ord q_env_plain (w_root q_w0) g self "aws:s3:Bucket" "b" true false [] o = Done (g, rq) /\
     rq_replace_on_changes rq = ["bucketName"; "bucket_name.inner"]) /\
  (* an alias that is not known: nothing is sent *)
  (exists w' n o m, construct q_tf q_w0 "aws:s3:Bucket" "b" true [] (new_ropts 0) = Ok (w', n, RRegister "aws:s3:Bucket" "b" true [] o) /\
     register_request_of ord q_env_alias (w_root q_w0) g self "aws:s3:Bucket" "b" true false [] o = Fail (Exn "TypeError" m)) /\
  (* a secret id: nothing is read *)
  (exists w' n o m, construct q_tf q_w0 "aws:s3:Bucket" "b" true [] q_secret_id = Ok (w', n, RRead "aws:s3:Bucket" "b" [] o) /\
     read_request_of ord q_env_plain (w_root q_w0) g self "aws:s3:Bucket" "b" [] o = Fail (Exn "TypeError" m)).
Proof.
  intros ord g self.
  split; [do 4 eexists; split; [reflexivity|]; split; [exists [mkProvider "aws" 1], []; split; [reflexivity|split; [reflexivity|intros q []]]|split; reflexivity]|].
  split; [do 4 eexists; split; [reflexivity|]; split; reflexivity|].
  split; do 4 eexists; split; reflexivity.
Qed.
Print Assumptions C86_refuted.
