(** The set objects Outputs keep their resources in, and what sending values does to them. *)
From Coq Require Import List Arith Bool.
Import ListNotations.

(** What serialisation sees of a value: [SOut l x] is an Output whose set of
    resources is the set object [l] and whose value is [x] (output.py:88-114).
    Simplifications: maps and archives are lists of their values, awaitables
    are the values they give, and all other data is [SData]. *)
Inductive sval : Type :=
| SData
| SUnknown
| SList (l : list sval)
| SRes (r : nat)
| SOut (l : nat) (x : sval).

(** rpc.py:976-989 [contains_unknowns]. *)
Fixpoint has_unknown (v : sval) : bool :=
  match v with
  | SUnknown => true
  | SList l => existsb has_unknown l
  | _ => false
  end.

(** The set objects: their elements, without repetition. *)
Definition sets : Type := nat -> list nat.
Definition insert (s : list nat) (r : nat) : list nat := if existsb (Nat.eqb r) s then s else s ++ [r].
(** [set.update], and the same on the set object [l]. *)
Definition add_all (s : list nat) (rs : list nat) : list nat := fold_left insert rs s.
Definition update (h : sets) (l : nat) (rs : list nat) : sets :=
  fun l' => if Nat.eqb l' l then add_all (h l) rs else h l'.

(** The features of the monitor, and of each resource: whether it is custom,
    and the set objects of its Outputs [urn] and [id], which are created with
    [{res}], runtime/resource.py:213, resource.py:1185, 1210, 1218. *)
Record senv : Type := mkSenv {
  v_refs : bool;
  v_outvals : bool;
  v_custom : nat -> bool;
  v_urn : nat -> nat;
  v_id : nat -> nat
}.

(** A task that serialises, as the accesses it makes to set objects; between
    any two of them other tasks may run (a finer interleaving than the one of
    the event loop).  [Ret deps sent]: the collected dependencies and, for each
    Output sent as an Output, the resources whose URNs are sent with it. *)
Inductive task : Type :=
| Ret (deps : list nat) (sent : list (list nat))
| Crash                                        (* RuntimeError: Set changed size during iteration *)
| Read (l : nat) (k : list nat -> task)
| Update (l : nat) (rs : list nat) (k : task).

(** [for r in s], where [n] is the size of the set object [l] when the loop
    began: each [next] compares sizes.  [body r k]: the body, then [k]. *)
Fixpoint iterate (l n : nat) (s : list nat) (body : nat -> task -> task) (k : task) : task :=
  Read l (fun now => if Nat.eqb (length now) n then
                       match s with
                       | [] => k
                       | r :: s' => body r (iterate l n s' body k)
                       end
                     else Crash).
(** The same with what the bodies collect. *)
Fixpoint iterate_collect (l n : nat) (s : list nat) (from : nat -> nat) (acc : list nat) (k : list nat -> task) : task :=
  Read l (fun now => if Nat.eqb (length now) n then
                       match s with
                       | [] => k acc
                       | r :: s' => Read (from r) (fun ds => iterate_collect l n s' from (acc ++ ds) k)
                       end
                     else Crash).

(** rpc.py:229-490 [serialize_property], for what it does to sets of resources:
    lists 259-268, resources 273-299, Outputs 366-397, with [output.future()]
    None if the value contains unknowns, output.py:120-127;
    [_expand_dependencies], runtime/resource.py:814-825. *)
Fixpoint send (e : senv) (keep : bool) (v : sval) (k : list nat -> list (list nat) -> task) {struct v} : task :=
  match v with
  | SData | SUnknown => k [] []
  | SList l =>
      (fix elems (l : list sval) (k : list nat -> list (list nat) -> task) : task :=
         match l with
         | [] => k [] []
         | x :: l' => send e keep x (fun ds s => elems l' (fun ds' s' => k (ds ++ ds') (s ++ s')))
         end) l k
  | SRes r =>
      if v_refs e then
        Read (v_urn e r) (fun a => if v_custom e r then Read (v_id e r) (fun b => k (a ++ b) []) else k a [])
      else Read (if v_custom e r then v_id e r else v_urn e r) (fun a => k a [])
  | SOut l x =>
      Read l (fun own =>                                          (* 368-369 *)
      let rest (inner : list nat) (_ : list (list nat)) : task :=
        Update l inner                                            (* 386 *)
          (if keep && v_outvals e then
             Read l (fun s => iterate_collect l (length s) s (v_urn e) [] (fun urn_deps =>     (* 389-393 *)
             Update l urn_deps (Read l (fun s' =>                                             (* 395 *)
             iterate l (length s') s' (fun _ t => t) (k (own ++ inner) [s'])))))               (* 397 *)
           else k (own ++ inner) []) in
      if has_unknown x then rest [] [] else send e false x rest)
  end.
Definition start (e : senv) (keep : bool) (v : sval) : task := send e keep v Ret.

(** The event loop: any task may take the next step. *)
Definition step1 (h : sets) (t : task) : sets * task :=
  match t with
  | Ret _ _ | Crash => (h, t)
  | Read l k => (h, k (h l))
  | Update l rs k => (update h l rs, k)
  end.
Fixpoint step_nth (h : sets) (ts : list task) (i : nat) : sets * list task :=
  match ts, i with
  | [], _ => (h, [])
  | t :: ts', 0 => let (h', t') := step1 h t in (h', t' :: ts')
  | t :: ts', S i' => let (h', ts'') := step_nth h ts' i' in (h', t :: ts'')
  end.
Fixpoint run (h : sets) (ts : list task) (schedule : list nat) : sets * list task :=
  match schedule with
  | [] => (h, ts)
  | i :: rest => let (h', ts') := step_nth h ts i in run h' ts' rest
  end.

(** output.py:137-233 [Output.apply], for the sets: the set object of the result
    is that of this Output (180, 212, 218), unless the function returns an
    Output: then it is a new one ([fresh]), the union (201-202). *)
Definition apply_set (h : sets) (fresh l : nat) (returned : sval) : sets * sval :=
  match returned with
  | SOut l2 x => ((fun l' => if Nat.eqb l' fresh then add_all (h l) (h l2) else h l'), SOut fresh x)
  | x => (h, SOut l x)
  end.
