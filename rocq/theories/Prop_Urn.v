(** C29-C32: aliases and URNs. *)
From Verif Require Import Base Model_Urn Spec_Urn Proof_Urn.
Open Scope string_scope.

Ltac no_sep := let x := fresh in let y := fresh in let E := fresh in
  intros (x & y & E); apply (f_equal rest2) in E;
  let H := fresh in pose proof (rest2_sep x y) as H; rewrite <- E in H; vm_compute in H; lia.
Ltac walk := let x := fresh "x" in let E := fresh "E" in
  intros (x & E); repeat (destruct x as [|? x]; simpl in E; [discriminate|]; try discriminate; injection E as _ E).
Ltac walk2 := let x := fresh "x" in let y := fresh "y" in let E := fresh "E" in
  intros (x & y & E); repeat (destruct x as [|? x]; simpl in E; [discriminate|]; try discriminate; injection E as _ E).
Ltac no_start := let x := fresh "x" in let E := fresh "E" in intros (x & E); discriminate E.
Ltac plain := match goal with
  | |- stack_name _ => split; [plain|split; [discriminate|no_start]]
  | |- piece _ => split; [no_sep|walk]
  | |- last_piece _ => split; [no_sep|no_start]
  | |- ~ has_sep _ => no_sep
  | |- ~ has_char _ _ => walk2
  end.

(** C30.  For a stack, project, qualified type and name without the separator
    (and not ending in ":" where another part follows), parsing the URN gives
    back the name, the innermost type and its package, module and type name;
    different tuples have different URNs; a string is rejected exactly when it
    has fewer than two separators. *)
Theorem C30_urn_parts :
  (forall stack project q name, stack_name stack -> piece project -> piece q -> ~ has_sep name ->
     exists p, parse_urn (urn_of stack project q name) = Ok p /\
       u_name p = name /\
       (~ has_char "$" q -> u_typ p = q) /\
       (forall q' t, q = q' ++ "$" ++ t -> ~ has_char "$" t -> u_typ p = t) /\
       (forall a b t, u_typ p = a ++ ":" ++ b ++ ":" ++ t ->
          ~ has_char ":" a -> ~ has_char ":" b -> ~ has_char ":" t ->
          u_pkg p = a /\ u_mod p = b /\ u_tname p = t)) /\
  (forall s1 p1 q1 n1 s2 p2 q2 n2,
     stack_name s1 -> piece p1 -> piece q1 -> ~ has_sep n1 ->
     stack_name s2 -> piece p2 -> piece q2 -> ~ has_sep n2 ->
     urn_of s1 p1 q1 n1 = urn_of s2 p2 q2 n2 -> s1 = s2 /\ p1 = p2 /\ q1 = q2 /\ n1 = n2) /\
  (forall s, (exists p, parse_urn s = Ok p) <-> (exists a b c, s = a ++ "::" ++ b ++ "::" ++ c)).
Proof. exact (conj parse_urn_ok (conj urn_injective parse_urn_raises)). Qed.
Print Assumptions C30_urn_parts.

Example C30_hypotheses :
  stack_name "dev" /\ piece "shop" /\ piece "my:index:App$aws:s3/bucket:Bucket" /\ ~ has_sep "logs:1" /\
  (exists p, parse_urn (urn_of "dev" "shop" "my:index:App$aws:s3/bucket:Bucket" "logs:1") = Ok p /\
     u_typ p = "aws:s3/bucket:Bucket" /\ u_pkg p = "aws" /\ u_mod p = "s3/bucket" /\ u_tname p = "Bucket").
Proof.
  split; [plain|]. split; [plain|]. split; [plain|]. split; [plain|].
  eexists. split; [reflexivity|]. repeat split; reflexivity.
Qed.

(** C31.  The URN built for a resource under a parent keeps the parent's stack
    and project and extends its qualified type.  What is missing: parent names
    that contain the separator or start with ":" (see C31_refuted). *)
Theorem C31_create_urn_partial :
  (forall stack project q pname name type_, last_piece pname ->
     create_urn name type_ (ParentUrn (urn_of stack project q pname)) = urn_of stack project (q ++ "$" ++ type_) name) /\
  (forall stack project name type_,
     create_urn name type_ (NoParent project stack) = urn_of stack project type_ name).
Proof. exact (conj create_urn_parent create_urn_root). Qed.
Print Assumptions C31_create_urn_partial.

Example C31_hypotheses : last_piece "app" /\
  create_urn "logs" "aws:s3/bucket:Bucket" (ParentUrn "urn:pulumi:dev::shop::my:index:App::app")
  = "urn:pulumi:dev::shop::my:index:App$aws:s3/bucket:Bucket::logs".
Proof. split; [plain|]. reflexivity. Qed.

(** A legal resource name containing the separator: the child's URN does not
    extend the parent's type. *)
Theorem C31_refuted : exists stack project q pname name type_,
  stack_name stack /\ piece project /\ piece q /\
  create_urn name type_ (ParentUrn (urn_of stack project q pname)) <> urn_of stack project (q ++ "$" ++ type_) name.
Proof.
  exists "dev", "shop", "my:index:App", "a::b", "logs", "t:m:T".
  split; [plain|]. split; [plain|]. split; [plain|]. vm_compute. discriminate.
Qed.

(** C32.  The alias inherited from a parent alias: same stack, project and
    qualified type, and the child's name with the leading parent name
    replaced.  What is missing: alias names that contain the separator. *)
Theorem C32_inherited_alias_partial : forall stack project q n parent child ctype, last_piece n ->
  (forall r, child = parent ++ r ->
     inherited_child_alias child parent (urn_of stack project q n) ctype =
     urn_of stack project (q ++ "$" ++ ctype) (n ++ r)) /\
  ((forall r, child <> parent ++ r) ->
     inherited_child_alias child parent (urn_of stack project q n) ctype =
     urn_of stack project (q ++ "$" ++ ctype) child).
Proof. exact inherited_alias_ok. Qed.
Print Assumptions C32_inherited_alias_partial.

Example C32_hypotheses : last_piece "app" /\
  inherited_child_alias "newapp-function" "newapp" "urn:pulumi:dev::shop::awsx:ec2:Vpc::app" "aws:s3/bucket:Bucket"
  = "urn:pulumi:dev::shop::awsx:ec2:Vpc$aws:s3/bucket:Bucket::app-function".
Proof. split; [plain|]. reflexivity. Qed.

Theorem C32_refuted : exists stack project q n parent child ctype r,
  stack_name stack /\ piece project /\ piece q /\ child = parent ++ r /\
  inherited_child_alias child parent (urn_of stack project q n) ctype <>
  urn_of stack project (q ++ "$" ++ ctype) (n ++ r).
Proof.
  exists "dev", "shop", "my:index:App", "a::b", "app", "app-logs", "t:m:T", "-logs".
  split; [plain|]. split; [plain|]. split; [plain|]. split; [reflexivity|]. vm_compute. discriminate.
Qed.

(** C29.  The aliases of a resource, for own aliases given as URNs or objects
    and parents with any list of aliases, are exactly the expected ones, in
    order; there are N + M*(1+N) of them; what is sent is that list without
    repeats, in order of first occurrence.  Names of parents, of their aliases
    and of own aliases are ones whose URN parses back (C30). *)
Theorem C29_aliases :
  (forall project stack name type_ own parent,
     (forall n u l, parent = Some (n, u, l) -> last_piece (s_name u) /\ Forall (fun pa => last_piece (s_name pa)) l) ->
     (forall n t u pr st, In (ByParts n t (UnderUrn u) pr st) own -> last_piece (s_name u)) ->
     (forall n u l a, parent = Some (n, u, l) -> In a own -> good_surn (alias_denotes project stack name type_ (Some u) a)) ->
     all_aliases project stack (map model_alias own) name type_ (model_parent parent) =
     Ok (map render (expected_aliases project stack name type_ own parent))) /\
  (forall project stack name type_ own parent,
     List.length (expected_aliases project stack name type_ own parent) =
     (List.length own + match parent with Some (_, _, l) => List.length l * (1 + List.length own) | None => 0 end)%nat) /\
  (forall l, NoDup (unique_aliases l) /\ forall x, In x (unique_aliases l) <-> In x l) /\
  unique_aliases [] = [] /\
  (forall l x, (In x l -> unique_aliases (l ++ [x])%list = unique_aliases l) /\
               (~ In x l -> unique_aliases (l ++ [x])%list = (unique_aliases l ++ [x])%list)).
Proof. exact (conj aliases_ok (conj expected_count unique_ok)). Qed.
Print Assumptions C29_aliases.

Example C29_hypotheses :
  let pu := mkSurn "dev" "shop" [] "my:index:App" "app" in
  let pa := mkSurn "dev" "shop" [] "my:index:App" "oldapp" in
  let own := [ByParts (Some "app-store") None SameParent None None;
              ByParts None (Some "t:m:Old") NoParentAtAll (Some "mall") None;
              ByUrn (mkSurn "dev" "shop" ["x:y:Z"] "t:m:T" "third")] in
  let parent := Some ("app", pu, [pa]) in
  (forall n u l, parent = Some (n, u, l) -> last_piece (s_name u) /\ Forall (fun pa => last_piece (s_name pa)) l) /\
  (forall n t u pr st, In (ByParts n t (UnderUrn u) pr st) own -> last_piece (s_name u)) /\
  (forall n u l a, parent = Some (n, u, l) -> In a own -> good_surn (alias_denotes "shop" "dev" "app-logs" "t:m:T" (Some u) a)) /\
  map render (expected_aliases "shop" "dev" "app-logs" "t:m:T" own parent) =
  ["urn:pulumi:dev::shop::my:index:App$t:m:T::app-store";
   "urn:pulumi:dev::mall::t:m:Old::app-logs";
   "urn:pulumi:dev::shop::x:y:Z$t:m:T::third";
   "urn:pulumi:dev::shop::my:index:App$t:m:T::oldapp-logs";
   "urn:pulumi:dev::shop::my:index:App$t:m:T::oldapp-store";
   "urn:pulumi:dev::shop::my:index:App$t:m:Old::oldapp-logs";
   "urn:pulumi:dev::shop::my:index:App$t:m:T::third"].
Proof.
  cbv zeta. split; [|split; [|split]].
  - intros n u l [= <- <- <-]. split; [plain|]. constructor; [plain|constructor].
  - intros n t u pr st [H|[H|[H|[]]]]; discriminate.
  - intros n u l a [= <- <- <-] [<-|[<-|[<-|[]]]];
      (split; [simpl; plain|]; split; [simpl; plain|]; split; [|simpl; plain]; simpl;
       repeat (constructor; [split; plain|]); constructor).
  - reflexivity.
Qed.
