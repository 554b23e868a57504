(** runtime/stack.py: exporting stack outputs. *)
From Verif Require Import Base.
Open Scope string_scope.

(** Values that are neither dicts, nor have a [__dict__], nor are iterable, and
    strings (stack.py:235-255 [is_primitive]). *)
Inductive prim : Type := PNone | PBool (b : bool) | PNum (z : Z) | PStr (s : string) | POther (n : nat).
(** Dict keys: strings and others (of which [key.startswith] raises). *)
Inductive dkey : Type := KStr (s : string) | KOther (n : nat).
(** Python objects by address.  Attributes of objects are reached through their
    [__dict__], itself an object; the addresses in [OOutput] and [OAwait] are the
    values they resolve to. *)
Inductive obj : Type :=
| OPrim (p : prim)
| ODict (entries : list (dkey * nat))
| OOutput (value : nat)
| OAwait (value : nat)
| OResource (attrs urn : nat)
| OObject (attrs : nat)
| OIter (items : list nat).
Definition ograph : Type := list obj.
Definition obj_at (g : ograph) (a : nat) : obj := nth a g (OPrim PNone).

(** What is registered: [MOut a] is the output that applies [massage] to the
    value of the output or awaitable [a]; [MRef a] is the output [a] itself. *)
Inductive mval : Type :=
| MPrim (p : prim)
| MDict (d : list (string * mval))
| MList (l : list mval)
| MOut (a : nat)
| MRef (a : nat).

Definition out_of_fuel : exn := Exn "fuel" "".
Definition key_error : exn := Exn "AttributeError" "key has no attribute 'startswith'".
Definition item_error : exn := Exn "TypeError" "object does not support item assignment".
Definition private_key (s : string) : bool :=
  match s with String c _ => Ascii.eqb c "_" | EmptyString => false end.

(** stack.py:192-200: the entries of a dict; [rec] is the recursive call and
    [seen] the list the calls share. *)
Fixpoint fields (rec : nat -> list nat -> res (mval * list nat)) (es : list (dkey * nat)) (seen : list nat)
    : res (list (string * mval) * list nat) :=
  match es with
  | [] => Ok ([], seen)
  | (KOther _, _) :: _ => Err key_error
  | (KStr k, x) :: es' =>
      if private_key k then fields rec es' seen
      else
        let+ r := rec x seen in
        let+ rs := fields rec es' (snd r) in
        Ok ((k, fst r) :: fst rs, snd rs)
  end.
(** stack.py:224. *)
Fixpoint elements (rec : nat -> list nat -> res (mval * list nat)) (l : list nat) (seen : list nat)
    : res (list mval * list nat) :=
  match l with
  | [] => Ok ([], seen)
  | x :: l' =>
      let+ r := rec x seen in
      let+ rs := elements rec l' (snd r) in
      Ok (fst r :: fst rs, snd rs)
  end.
(** stack.py:163-224 [massage] and 227-232 [reference_contains].  [dry] is
    [is_dry_run()]. *)
Definition massage_body (rec : nat -> list nat -> res (mval * list nat)) (dry : bool) (g : ograph) (attr : nat) (seen : list nat)
    : res (mval * list nat) :=
  match obj_at g attr with
  | OPrim p => Ok (MPrim p, seen)
  | o =>
      if existsb (Nat.eqb attr) seen then
        Ok (match o with OResource _ urn => MRef urn | _ => MPrim PNone end, seen)
      else
        let seen' := (seen ++ [attr])%list in
        match o with
        | OPrim p => Ok (MPrim p, seen)
        | ODict es => let+ r := fields rec es seen' in Ok (MDict (fst r), snd r)
        | OOutput _ | OAwait _ => Ok (MOut attr, seen')
        | OResource d _ =>
            let+ r := rec d seen' in
            if dry then
              match fst r with
              | MDict l => Ok (MDict (dset l "@isPulumiResource" (MPrim (PBool true))), snd r)
              | _ => Err item_error
              end
            else Ok r
        | OObject d => rec d seen'
        | OIter l => let+ r := elements rec l seen' in Ok (MList (fst r), snd r)
        end
  end.
Fixpoint massage (fuel : nat) (dry : bool) (g : ograph) (attr : nat) (seen : list nat) {struct fuel} : res (mval * list nat) :=
  match fuel with
  | 0 => Err out_of_fuel
  | S fuel' => massage_body (massage fuel' dry g) dry g attr seen
  end.

(** The callbacks [apply(lambda v: massage(v, seen))] run later, in any order,
    each once its output is resolved, on the shared [seen] list. *)
Fixpoint pending (m : mval) : list nat :=
  match m with
  | MOut a => [a]
  | MDict d => flat_map (fun kv => pending (snd kv)) d
  | MList l => flat_map pending l
  | _ => []
  end.
Record exporting : Type := mkExporting { e_seen : list nat; e_waiting : list nat; e_results : list (nat * mval) }.
Definition value_of (g : ograph) (a : nat) : option nat :=
  match obj_at g a with OOutput v | OAwait v => Some v | _ => None end.
Inductive resolve (dry : bool) (g : ograph) : exporting -> exporting -> Prop :=
| do_resolve s l1 a l2 v m seen' : e_waiting s = (l1 ++ a :: l2)%list -> value_of g a = Some v ->
    massage (S (length g)) dry g v (e_seen s) = Ok (m, seen') ->
    resolve dry g s (mkExporting seen' (l1 ++ l2 ++ pending m)%list ((a, m) :: e_results s)).

(** stack.py:136-158 [Stack.__init__] and [Stack.output]: the program exports
    values and then returns or raises; [outputs] is the address of the (new)
    dict of exports.  The result is what was passed to [register_outputs], in
    order, and how the constructor ended. *)
Definition exports_dict (exports : list (string * nat)) : list (dkey * nat) :=
  map (fun kv => (KStr (fst kv), snd kv)) (fold_left (fun d kv => dset d (fst kv) (snd kv)) exports []).
Definition two_stacks : exn := Exn "Exception" "Only one root Pulumi Stack may be active at once".
Definition run_stack (root_set : bool) (dry : bool) (g : ograph) (exports : list (string * nat)) (outcome : res unit)
    : list mval * res unit :=
  if root_set then ([], Err two_stacks)
  else
    let g' := (g ++ [ODict (exports_dict exports)])%list in
    match massage (S (length g')) dry g' (length g) [] with
    | Ok (m, _) => ([m], outcome)
    | Err e => ([], Err e)
    end.
