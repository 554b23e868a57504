(** C28: dependencies on components; C65: provider references. *)
From Verif Require Import Base Model_Cycle Spec_Cycle Model_Urn Model_Deps Spec_Urn Spec_Deps Proof_Deps Prop_Urn.
Open Scope string_scope.

(** C28.  Expanding dependencies gives exactly the URNs of what the given
    resources stand for (themselves, or for a local component what its
    children stand for), and raises if one of those URNs raises.  When a
    resource declares its dependencies (depends_on and per property), what is
    left out is exactly what already depends on it, so the graph stays
    acyclic; every property is given its own URNs and the resource all of
    them. *)
Theorem C28_dependencies : forall (ord : rid -> list rid -> list rid), (forall r l, same_set (ord r l) l) ->
  (forall g ds, (forall x, any_of ds x -> urn_ok x) ->
     exists urns, expand_dependencies ord None g ds = Ok (g, urns) /\ NoDup urns /\
       forall s, In s urns <-> exists x, any_of ds x /\ has_urn x s) /\
  (forall g ds st, expand_dependencies ord None g ds = Ok st -> forall x, any_of ds x -> urn_ok x) /\
  (forall self g depends_on props,
     ~ cyclic (depends g) -> wf_dict props ->
     (forall ds x, depends_on = Some ds -> any_of ds x -> urn_ok x) ->
     (forall k ds x, In (k, ds) props -> any_of ds x -> urn_ok x) ->
     let mentioned x := (exists ds, depends_on = Some ds /\ any_of ds x) \/
                        (exists k ds, In (k, ds) props /\ any_of ds x) in
     exists g' deps pds,
       resource_dependencies ord self g depends_on props = Ok (g', deps, pds) /\
       ~ cyclic (depends g') /\
       (forall a b, depends g' a b <->
          depends g a b \/ (a = self /\ (exists x, mentioned x /\ rs_id x = b) /\ ~ path (depends g') b self)) /\
       NoDup deps /\
       (forall s, In s deps <-> exists x, mentioned x /\ has_urn x s /\ depends g' self (rs_id x)) /\
       (forall k, match dget props k with
                  | None => dget pds k = None
                  | Some ds => exists urns, dget pds k = Some urns /\ NoDup urns /\
                       forall s, In s urns <-> exists x, any_of ds x /\ has_urn x s /\ depends g' self (rs_id x)
                  end)).
Proof.
  intros ord H. exact (conj (expand_none ord) (conj (expand_none_err ord) (resource_dependencies_ok ord H))).
Qed.
Print Assumptions C28_dependencies.

(** The tree of the SDK's comment: Comp1 stands for Cust1, Cust2, Cust3 and
    Remote1; and a resource 9 declaring Comp1 when Cust3 already depends on
    it. *)
Definition ex_comp1 : rsrc :=
  let res n u cs := Rsrc n false (Ok (Some u)) cs in
  Rsrc 1 true (Ok (Some "comp1"))
    [res 11 "cust1" [];
     Rsrc 12 true (Ok (Some "comp2")) [res 22 "cust2" [res 24 "cust4" []]; res 23 "cust3" []];
     res 13 "remote1" [Rsrc 33 true (Ok (Some "comp3")) [res 35 "cust5" []]]].
Example C28_example :
  (forall x, any_of [ex_comp1] x -> urn_ok x) /\ wf_dict [("p", [ex_comp1])] /\ ~ cyclic (depends [(23, [9])]) /\
  expand_dependencies (fun _ l => l) None [] [ex_comp1] = Ok ([], ["cust1"; "cust2"; "cust3"; "remote1"]) /\
  resource_dependencies (fun _ l => l) 9 [(23, [9])] (Some [Rsrc 4 false (Ok (Some "four")) []]) [("p", [ex_comp1])] =
  Ok ([(23, [9]); (9, [4; 11; 22; 13])], ["four"; "cust1"; "cust2"; "remote1"], [("p", ["cust1"; "cust2"; "remote1"])]).
Proof.
  split.
  { intros x Hx. apply leaves_any in Hx. simpl in Hx.
    repeat (destruct Hx as [<-|Hx]; [do 4 eexists; reflexivity|]). destruct Hx. }
  split; [repeat constructor; auto|].
  split.
  { intros (a & b & D & P). unfold depends in *. simpl in D. destruct (Nat.eqb_spec a 23) as [->|]; [|destruct D].
    destruct D as [<-|[]]. inversion P as [|? ? ? D']; subst. simpl in D'. exact D'. }
  split; reflexivity.
Qed.

(** C65.  The reference is URN, separator, id (the sentinel when the id is not
    known or empty); it parses back; a provider rebuilt from it has the same
    package and URN and the same reference; custom resources send one,
    remote components one for each package, the last of a list winning. *)
Theorem C65_provider_references :
  (forall p,
     (forall i, pv_id p = Some i -> i <> "" -> provider_reference p = pv_urn p ++ "::" ++ i) /\
     (pv_id p = None \/ pv_id p = Some "" ->
        provider_reference p = pv_urn p ++ "::" ++ "04da6b54-80e4-46f7-96ec-b56ff0331ba9")) /\
  (forall urn id, last_piece id -> parse_resource_reference (urn ++ "::" ++ id) = Ok (urn, id)) /\
  (forall p stack project ancestors name,
     stack_name stack -> piece project -> Forall piece ancestors ->
     pv_package p <> "" -> ~ has_char ":" (pv_package p) -> ~ has_char "$" (pv_package p) -> last_piece name ->
     pv_urn p = urn_of stack project (qualified ancestors ("pulumi:providers:" ++ pv_package p)) name ->
     (forall i, pv_id p = Some i -> last_piece i) ->
     exists q, dependency_provider (provider_reference p) = Ok q /\
       pv_package q = pv_package p /\ pv_urn q = pv_urn p /\ provider_reference q = provider_reference p) /\
  (forall p ps, remote_refs true (Some p) ps = [(pv_package p, provider_reference p)]) /\
  (forall m k, dget (remote_refs true None (PMap m)) k = option_map provider_reference (dget m k)) /\
  (forall l k ref, dget (remote_refs true None (PList l)) k = Some ref <->
     exists l1 q l2, l = (l1 ++ q :: l2)%list /\ pv_package q = k /\ Forall (fun x => pv_package x <> k) l2 /\
       ref = provider_reference q) /\
  (forall p ps, remote_refs false p ps = []) /\ remote_refs true None PNone = [] /\
  (forall p, single_ref true (Some p) = Some (provider_reference p)) /\
  single_ref true None = None /\ (forall p, single_ref false p = None).
Proof. exact (conj provider_reference_ok (conj parse_reference_ok (conj dependency_provider_ok remote_refs_ok))). Qed.
Print Assumptions C65_provider_references.

Example C65_hypotheses :
  let p := mkProvider "aws" "urn:pulumi:dev::shop::my:index:App$pulumi:providers:aws::west" None in
  stack_name "dev" /\ piece "shop" /\ Forall piece ["my:index:App"] /\
  ~ has_char ":" (pv_package p) /\ ~ has_char "$" (pv_package p) /\ last_piece "west" /\
  pv_urn p = urn_of "dev" "shop" (qualified ["my:index:App"] ("pulumi:providers:" ++ pv_package p)) "west" /\
  dependency_provider (provider_reference p) =
    Ok (mkProvider "aws" (pv_urn p) (Some "04da6b54-80e4-46f7-96ec-b56ff0331ba9")).
Proof.
  simpl. split; [plain|]. split; [plain|]. split; [constructor; [plain|constructor]|].
  split; [plain|]. split; [plain|]. split; [plain|]. split; reflexivity.
Qed.
