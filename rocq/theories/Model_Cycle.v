(** runtime/resource_cycle_breaker.py *)
From Verif Require Import Base.

(** A Python [Resource] object, known here only by identity. *)
Definition rid := nat.

(** Every resource object may carry the attribute
    [_direct_computed_dependencies], a set of resources.
    runtime/resource_cycle_breaker.py:21 ([_DEPENDENCIES_PROPERTY]).
    The heap of attributes is a list of (object, set) pairs; sets are lists
    without order guarantees (see [ord] below). *)
Definition dep_heap := list (rid * list rid).

(** runtime/resource_cycle_breaker.py:39-40 [_deps]: getattr with default [set()]. *)
Fixpoint deps_of (g : dep_heap) (r : rid) : list rid :=
  match g with
  | [] => []
  | (r', ds) :: g' => if Nat.eqb r r' then ds else deps_of g' r
  end.

(** Python set union with a singleton, runtime/resource_cycle_breaker.py:45. *)
Definition set_add (x : rid) (s : list rid) : list rid :=
  if nmem x s then s else s ++ [x].

(** runtime/resource_cycle_breaker.py:43-46 [_add_dep]: setattr. *)
Fixpoint add_dep (g : dep_heap) (f t : rid) : dep_heap :=
  match g with
  | [] => [(f, [t])]
  | (r, ds) :: g' =>
      if Nat.eqb f r then (r, set_add t ds) :: g' else (r, ds) :: add_dep g' f t
  end.

Section WithIterationOrder.

(** The order in which Python iterates a set is unspecified: it is an
    arbitrary function here, constrained in the theorems to keep the
    elements. *)
Variable ord : rid -> list rid -> list rid.

(** runtime/resource_cycle_breaker.py:59-70 [_with_transitive_deps].  The
    generator is modelled by the list of everything it yields together with
    the final [visited] set.  Python's recursion is bounded by the fuel, which
    [reachable] chooses from the size of the heap; running out is reported as
    [None] and the theorems show it never happens. *)
Fixpoint with_transitive_deps (fuel : nat) (g : dep_heap) (r : rid) (visited : list rid)
  : option (list rid * list rid) :=
  match fuel with
  | O => None
  | S fuel' =>
      if nmem r visited then Some ([], visited)
      else
        let fix loop (xs : list rid) (visited : list rid) : option (list rid * list rid) :=
          match xs with
          | [] => Some ([], visited)
          | x :: xs' =>
              match with_transitive_deps fuel' g x visited with
              | None => None
              | Some (ys, visited') =>
                  match loop xs' visited' with
                  | None => None
                  | Some (zs, visited'') => Some (ys ++ zs, visited'')
                  end
              end
          end in
        match loop (ord r (deps_of g r)) (r :: visited) with
        | None => None
        | Some (ys, visited') => Some (r :: ys, visited')
        end
  end.

Definition heap_size (g : dep_heap) : nat := length g.

(** runtime/resource_cycle_breaker.py:49-56 [_reachable].  The Python loop
    stops at the first hit; scanning the whole sequence gives the same
    boolean. *)
Definition reachable (g : dep_heap) (f t : rid) : option bool :=
  match with_transitive_deps (S (heap_size g)) g f [] with
  | None => None
  | Some (ys, _) => Some (existsb (Nat.eqb t) ys)
  end.

(** runtime/resource_cycle_breaker.py:24-36 [declare_dependency].  Returns the
    answer and the new heap. *)
Definition declare_dependency (g : dep_heap) (f t : rid) : option (bool * dep_heap) :=
  match reachable g t f with
  | None => None
  | Some true => Some (false, g)
  | Some false => Some (true, add_dep g f t)
  end.

(** A history of calls, starting from the empty heap. *)
Fixpoint declare_all (g : dep_heap) (calls : list (rid * rid)) : option (list bool * dep_heap) :=
  match calls with
  | [] => Some ([], g)
  | (f, t) :: calls' =>
      match declare_dependency g f t with
      | None => None
      | Some (b, g') =>
          match declare_all g' calls' with
          | None => None
          | Some (bs, g'') => Some (b :: bs, g'')
          end
      end
  end.

End WithIterationOrder.
