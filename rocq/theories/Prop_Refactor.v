(** C98: resources are recognised in a program that was refactored. *)
From Verif Require Import Base Model_Urn Spec_Urn Proof_Urn Model_Refactor Spec_Refactor Proof_Refactor.
Open Scope string_scope.

(** C98 (part).  A program is deployed, then changed, perhaps moved to another
    project or stack, and deployed again.  [was] says which resource of the old
    program each one of the new program is, and the new program says so too:
    each resource is declared as it was, or has an alias for what changed - a
    child of a renamed, retyped or moved parent needs none.  If no other
    resource could be meant by the URN and the aliases of a resource, then the
    second deployment succeeds whenever the program can be deployed at all,
    each resource is taken to be exactly the one it was, the new ones are
    created, and exactly the resources the program has no longer are deleted. *)
Theorem C98_recognised_partial : forall old new before after was s0 r0 r1,
  proper_env old -> proper_env new -> Forall proper before -> Forall proper after ->
  deploy old s0 before = Ok r0 -> deploy new [] after = Ok r1 ->
  (forall i j d, nth_error after i = Some d -> was i = Some j ->
     exists o u, nth_error before j = Some o /\ nth_error (urns_of r0) j = Some u /\
       comes_from old new before after (urns_of r0) was d o u) ->
  (forall i i' j, (i < List.length after)%nat -> (i' < List.length after)%nat -> was i = Some j -> was i' = Some j -> i = i') ->
  (forall i info j u, nth_error (y_infos r1) i = Some info -> nth_error (urns_of r0) j = Some u ->
     In u (p_urn info :: p_aliases info) -> was i = Some j) ->
  exists r, deploy new (urns_of r0) after = Ok r /\ urns_of r = urns_of r1 /\
    (forall i, (i < List.length after)%nat ->
       match was i with
       | Some j => exists u, nth_error (urns_of r0) j = Some u /\ nth_error (y_taken r) i = Some (Existing u)
       | None => nth_error (y_taken r) i = Some Fresh
       end) /\
    (forall u, In u (y_deleted r) <->
       exists j, nth_error (urns_of r0) j = Some u /\ forall i, (i < List.length after)%nat -> was i <> Some j).
Proof. exact recognised. Qed.
Print Assumptions C98_recognised_partial.

(** Whatever its resources are called and whatever aliases they have: a program
    that has been deployed can be deployed again, where every resource is taken
    to be itself and nothing is deleted. *)
Theorem C98_again : forall v s0 ds r0, deploy v s0 ds = Ok r0 ->
  exists r, deploy v (urns_of r0) ds = Ok r /\ urns_of r = urns_of r0 /\
    y_taken r = map Existing (urns_of r0) /\ y_deleted r = [].
Proof. intros v s0 ds r0. exact (again v ds s0 r0). Qed.
Print Assumptions C98_again.

(* ---- programs ---- *)
Definition web : env := mkEnv "dev" "web".
Definition shop : env := mkEnv "dev" "shop".
Definition app_t : string := "my:index:App".
Definition bucket_t : string := "aws:s3:Bucket".
Definition same_but_name (n : string) : alias := AliasObj (Some n) None APDefault None None.

(** A component was renamed, given another type and moved to another project,
    with one alias for it all; its child, named after it, follows; one resource
    got a new name; one is new; one is gone. *)
Definition ex_before : list decl := [
  mkDecl "app" app_t Top [];
  mkDecl "app-logs" bucket_t (Under 0) [];
  mkDecl "data" bucket_t Top [];
  mkDecl "old" bucket_t Top []].
Definition ex_after : list decl := [
  mkDecl "extra" bucket_t Top [];
  mkDecl "store" "my:index:Store" Top [AliasObj (Some "app") (Some app_t) APDefault (Some "web") None];
  mkDecl "store-logs" bucket_t (Under 1) [];
  mkDecl "records" bucket_t Stack [AliasUrn "urn:pulumi:dev::web::aws:s3:Bucket::data"]].
Definition ex_was (i : nat) : option nat := match i with 1 => Some 0 | 2 => Some 1 | 3 => Some 2 | _ => None end.
Definition ex_r0 : deployed := Eval vm_compute in match deploy web [] ex_before with Ok y => y | Err _ => mkDeployed [] [] [] end.
Definition ex_r1 : deployed := Eval vm_compute in match deploy shop [] ex_after with Ok y => y | Err _ => mkDeployed [] [] [] end.

Ltac plain1 := match goal with
  | |- stack_name _ => split; [plain1|split; [discriminate|let x := fresh in let E := fresh in intros (x & E); discriminate E]]
  | |- piece _ => split; [no_sep|walk]
  | |- last_piece _ => split; [no_sep|let x := fresh in let E := fresh in intros (x & E); discriminate E]
  | |- type_word _ => split; [discriminate|split; [plain1|walk2]]
  | |- proper_env _ => split; plain1
  | |- proper_alias (AliasUrn _) => exact I
  | |- proper_alias _ => split; intros ? [= <-]; plain1
  | |- Forall _ [] => apply Forall_nil
  | |- Forall _ (_ :: _) => apply Forall_cons; plain1
  | |- proper _ => unfold proper; cbn [k_name k_type k_aliases]; split; [plain1|split; [plain1|split; [discriminate|plain1]]]
  end.
Example C98_example :
  exists r, deploy shop (urns_of ex_r0) ex_after = Ok r /\ urns_of r = urns_of ex_r1 /\
    (forall i, (i < 4)%nat ->
       match ex_was i with
       | Some j => exists u, nth_error (urns_of ex_r0) j = Some u /\ nth_error (y_taken r) i = Some (Existing u)
       | None => nth_error (y_taken r) i = Some Fresh
       end) /\
    (forall u, In u (y_deleted r) <->
       exists j, nth_error (urns_of ex_r0) j = Some u /\ forall i, (i < 4)%nat -> ex_was i <> Some j).
Proof.
  apply (C98_recognised_partial web shop ex_before ex_after ex_was [] ex_r0 ex_r1).
  - plain1.
  - plain1.
  - unfold ex_before. plain1.
  - unfold ex_after. plain1.
  - vm_compute. reflexivity.
  - vm_compute. reflexivity.
  - intros i j d Hd Hw. destruct i as [|[|[|[|i]]]]; try discriminate; injection Hw as <-; injection Hd as <-;
      eexists; eexists; (split; [reflexivity|]); (split; [reflexivity|]).
    + eapply Alias_top; [left; reflexivity|right; now split|now left|reflexivity|reflexivity|reflexivity|reflexivity].
    + apply In_place; [|reflexivity]. eapply Place_child; reflexivity.
    + apply Alias_urn. now left.
  - intros i i' j _ _ H H'. destruct i as [|[|[|[|i]]]], i' as [|[|[|[|i']]]]; cbn in H, H'; congruence.
  - intros i info j u Hi Hj Hu.
    destruct i as [|[|[|[|i]]]]; [| | | |now destruct i]; injection Hi as <-; cbn [p_urn p_aliases In] in Hu;
      (destruct j as [|[|[|[|j]]]]; [| | | |now destruct j]; injection Hj as <-;
       repeat (destruct Hu as [Hu|Hu]; [first [discriminate Hu|reflexivity]|]); contradiction).
Qed.

(** What the whole property would say: the alias of a resource names what it
    was.  The code does not keep it. *)
Definition outcome (r : res deployed) : option (list taken * list string) :=
  match r with Ok y => Some (y_taken y, y_deleted y) | Err _ => None end.

Theorem C98_refuted :
  (* a resource whose parent is given to be the stack is renamed: its alias
     does not help; without [parent], it does *)
  outcome (deploy web ["urn:pulumi:dev::web::aws:s3:Bucket::a"] [mkDecl "b" bucket_t Stack [same_but_name "a"]]) =
    Some ([Fresh], ["urn:pulumi:dev::web::aws:s3:Bucket::a"]) /\
  outcome (deploy web ["urn:pulumi:dev::web::aws:s3:Bucket::a"] [mkDecl "b" bucket_t Top [same_but_name "a"]]) =
    Some ([Existing "urn:pulumi:dev::web::aws:s3:Bucket::a"], []) /\
  (* the project of an alias is ignored for a resource with a parent *)
  outcome (deploy shop ["urn:pulumi:dev::web::my:index:App$aws:s3:Bucket::x"]
      [mkDecl "app" app_t Top []; mkDecl "x" bucket_t (Under 0) [AliasObj None None APDefault (Some "web") None]]) =
    Some ([Fresh; Fresh], ["urn:pulumi:dev::web::my:index:App$aws:s3:Bucket::x"]) /\
  (* a child that kept its name, which starts with the new name of its parent *)
  outcome (deploy web ["urn:pulumi:dev::web::my:index:App::app"; "urn:pulumi:dev::web::my:index:App$aws:s3:Bucket::shop-x"]
      [mkDecl "shop" "my:index:Shop" Top [AliasObj (Some "app") (Some app_t) APDefault None None]; mkDecl "shop-x" bucket_t (Under 0) []]) =
    Some ([Existing "urn:pulumi:dev::web::my:index:App::app"; Fresh], ["urn:pulumi:dev::web::my:index:App$aws:s3:Bucket::shop-x"]) /\
  (* a is renamed to b, and b to c: both are taken to be b, and a is deleted *)
  outcome (deploy web ["urn:pulumi:dev::web::aws:s3:Bucket::a"; "urn:pulumi:dev::web::aws:s3:Bucket::b"]
      [mkDecl "b" bucket_t Top [same_but_name "a"]; mkDecl "c" bucket_t Top [same_but_name "b"]]) =
    Some ([Existing "urn:pulumi:dev::web::aws:s3:Bucket::b"; Existing "urn:pulumi:dev::web::aws:s3:Bucket::b"], ["urn:pulumi:dev::web::aws:s3:Bucket::a"]) /\
  (* a resource that was under a component with an alias: the alias naming the
     component as its old parent covers the component's new name only *)
  outcome (deploy web ["urn:pulumi:dev::web::my:index:App::app"; "urn:pulumi:dev::web::my:index:App$aws:s3:Bucket::x"]
      [mkDecl "app" "my:index:Shop" Top [AliasObj None (Some app_t) APDefault None None];
       mkDecl "x" bucket_t Top [AliasObj None None (APUrn "urn:pulumi:dev::web::my:index:Shop::app") None None]]) =
    Some ([Existing "urn:pulumi:dev::web::my:index:App::app"; Fresh], ["urn:pulumi:dev::web::my:index:App$aws:s3:Bucket::x"]).
Proof. vm_compute. repeat split. Qed.
Print Assumptions C98_refuted.
