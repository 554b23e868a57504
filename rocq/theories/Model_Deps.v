(** Dependencies, parents, providers and aliases sent with a resource:
    runtime/resource.py:96-192 and 742-852. *)
From Verif Require Import Base Model_Cycle Model_Urn Model_Rpc.
Open Scope string_scope.

(** A resource object as seen when dependencies are expanded: its identity,
    whether it is a ComponentResource that is not remote
    (runtime/resource.py:802), what awaiting its [urn.future()] gives (a URN,
    nothing, or an exception), and its children (resource.py
    [_childResources]; the iteration order of the set is the order of the
    list).  Simplification: the children do not change while they are being
    iterated. *)
Inductive rsrc : Type :=
| Rsrc (r : rid) (local_component : bool) (urn : res (option string)) (children : list rsrc).
Definition rs_id (x : rsrc) : rid := let 'Rsrc r _ _ _ := x in r.

(** The dependency set being built and the cycle breaker's heap. *)
Definition dstate : Type := dep_heap * list string.

(** [deps.add(urn)], runtime/resource.py:811. *)
Definition sadd (u : string) (l : list string) : list string := if smem u l then l else l ++ [u].

Section WithOrder.
Variable ord : rid -> list rid -> list rid.

(** runtime/resource.py:807-811: the part of [_add_dependency] for a resource
    that is not a local component.  [Err] with the exception of the URN
    future; running out of fuel in the cycle breaker cannot happen (C27). *)
Definition add_leaf (from : option rid) (st : dstate) (r : rid) (urn : res (option string)) : res dstate :=
  let+ dec := match from with
              | None => Ok (true, fst st)
              | Some f => match declare_dependency ord (fst st) f r with
                          | Some bg => Ok bg
                          | None => Err (Exn "RecursionError" "")
                          end
              end in
  if fst dec : bool then
    let+ u := urn in
    match u with
    | Some s => if String.eqb s "" then Ok (snd dec, snd st) else Ok (snd dec, sadd s (snd st))
    | None => Ok (snd dec, snd st)
    end
  else Ok (snd dec, snd st).

(** runtime/resource.py:767-811 [_add_dependency]. *)
Fixpoint add_dependency (from : option rid) (st : dstate) (x : rsrc) {struct x} : res dstate :=
  let 'Rsrc r lc urn children := x in
  if lc then
    (fix loop (cs : list rsrc) (st : dstate) : res dstate :=
       match cs with
       | [] => Ok st
       | c :: cs' => let+ st' := add_dependency from st c in loop cs' st'
       end) children st
  else add_leaf from st r urn.

(** runtime/resource.py:814-825 [_expand_dependencies]. *)
Fixpoint expand_loop (from : option rid) (st : dstate) (ds : list rsrc) : res dstate :=
  match ds with
  | [] => Ok st
  | d :: ds' => let+ st' := add_dependency from st d in expand_loop from st' ds'
  end.
Definition expand_dependencies (from : option rid) (g : dep_heap) (ds : list rsrc) : res dstate :=
  expand_loop from (g, []) ds.

(** runtime/resource.py:828-852 [_resolve_depends_on_urns]: [outer] is the
    resolved depends_on Output (its resources, and its list or nothing when
    unknown); each element is the resolved inner Output (its resources and its
    value). *)
Definition depends_on_resources (outer_res : list rsrc) (inner : option (list (list rsrc * option rsrc))) : list rsrc :=
  (outer_res ++ flat_map (fun i => fst i ++ match snd i with Some d => [d] | None => [] end)
                         (match inner with Some l => l | None => [] end))%list.

(** runtime/resource.py:169-172: the loop over [property_dependencies_resources]. *)
Fixpoint property_deps_loop (from : option rid) (g : dep_heap) (deps : list string)
    (pds : list (string * list string)) (props : list (string * list rsrc))
  : res (dep_heap * list string * list (string * list string)) :=
  match props with
  | [] => Ok (g, deps, pds)
  | (key, ds) :: props' =>
      let+ st := expand_dependencies from g ds in
      property_deps_loop from (fst st) (fold_left (fun acc u => sadd u acc) (snd st) deps)
        (dset pds key (snd st)) props'
  end.

(** runtime/resource.py:106-111 and 167-172 [prepare_resource]: the URNs the
    registration depends on and the URNs by property. *)
Definition resource_dependencies (self : rid) (g : dep_heap)
    (depends_on : option (list rsrc)) (props : list (string * list rsrc))
  : res (dep_heap * list string * list (string * list string)) :=
  let+ explicit := match depends_on with
                   | Some ds => expand_dependencies (Some self) g ds
                   | None => Ok (g, [])
                   end in
  property_deps_loop (Some self) (fst explicit) (snd explicit) [] props.

End WithOrder.

(** A provider: its package, URN and id (nothing when not known). *)
Record provider : Type := mkProvider { pv_package : string; pv_urn : string; pv_id : option string }.

(** runtime/resource.py:150-152 and 162-165 [prepare_resource]. *)
Definition provider_reference (p : provider) : string :=
  provider_ref (pv_urn p)
    (match pv_id p with
     | Some i => if String.eqb i "" then UNKNOWN else i
     | None => UNKNOWN
     end).

(** [opts.providers]: not given, a mapping, or a sequence. *)
Inductive providers_opt : Type :=
| PNone
| PMap (m : list (string * provider))
| PList (l : list provider).

(** runtime/resource.py:742-764 [convert_providers]. *)
Definition convert_providers (p : option provider) (ps : providers_opt) : list (string * provider) :=
  match p with
  | Some q => [(pv_package q, q)]
  | None =>
      match ps with
      | PNone => []
      | PMap m => m
      | PList l => fold_left (fun acc q => dset acc (pv_package q) q) l []
      end
  end.

(** runtime/resource.py:143-165 [prepare_resource]: the single reference
    (custom resources) and the references by package (remote components). *)
Definition single_ref (custom : bool) (p : option provider) : option string :=
  if custom then option_map provider_reference p else None.
Definition remote_refs (remote : bool) (p : option provider) (ps : providers_opt) : list (string * string) :=
  if remote then map (fun nq => (fst nq, provider_reference (snd nq))) (convert_providers p ps) else [].

(** runtime/resource.py:132-141 [prepare_resource]: the parent's URN, given the
    URNs of [opts.parent] and of the root resource. *)
Definition parent_urn (ty : string) (opt_parent root : option (option string)) : option string :=
  match opt_parent with
  | Some u => u
  | None => if String.eqb ty "pulumi:pulumi:Stack" then Some ""
            else match root with Some u => u | None => Some "" end
  end.

(** resource.py:1188-1218 [DependencyProviderResource]: a provider known only
    by its reference. *)
Definition dependency_provider (ref : string) : res provider :=
  let+ ui := parse_resource_reference ref in
  let+ parts := parse_urn (fst ui) in
  Ok (mkProvider (u_tname parts) (fst ui) (Some (snd ui))).
