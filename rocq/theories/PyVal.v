(** The Python values the SDK handles. *)
From Verif Require Import Base.

(** A Resource object: an ordinary object known by identity, or a
    [DependencyResource] (resource.py:1170-1185), known by its URN.
    Simplification: two DependencyResource objects with the same URN are
    identified. *)
Inductive rsrc : Type :=
| RObj (n : nat)
| RDep (urn : string).

Definition rsrc_eqb (a b : rsrc) : bool :=
  match a, b with
  | RObj n, RObj m => Nat.eqb n m
  | RDep u, RDep v => String.eqb u v
  | _, _ => false
  end.

(** Values.  Simplifications: numbers are integers (the wire carries doubles;
    only integers a double represents exactly are modelled); dict keys are
    strings; strings are sequences of 8-bit characters. *)
Inductive pyval : Type :=
| VNone
| VBool (b : bool)
| VNum (z : Z)
| VStr (s : string)
| VList (l : list pyval)
| VDict (d : list (string * pyval))
| VUnknown                                   (* output.py:511-520 [Unknown] *)
| VFileAsset (path : string)                 (* asset.py:29-41 *)
| VStringAsset (text : string)               (* asset.py:44-54 *)
| VRemoteAsset (uri : string)                (* asset.py:57-70 *)
| VAssetArchive (d : list (string * pyval))  (* asset.py:79-98 *)
| VFileArchive (path : string)               (* asset.py:101-112 *)
| VRemoteArchive (uri : string)              (* asset.py:115-125 *)
| VRes (r : rsrc)                            (* a Resource *)
| VConstructed (ctor : nat) (name typ urn : string)
    (* the Resource a registered module/package (number [ctor]) returned from
       [construct(name, typ, urn)], runtime/rpc.py:588, 593 *)
| VAwait (f : fut pyval)                     (* a coroutine or future, not an Output *)
| VOut (rs : fut (list rsrc)) (v : fut pyval) (known secret : fut bool)
    (* an Output: its four futures, output.py:76-86, 88-114 *)
| VInput (cls : nat) (fields : list (string * pyval))
    (* an instance of the @input_type class [cls]; [fields] is its __dict__,
       keyed by Python names, _types.py:665-684 *)
| VOther (n : nat).
    (* any other object (tuple, bytes, user object): not a legal protobuf value *)

Definition fut_all {A} (P : A -> Prop) (f : fut A) : Prop :=
  match f with Done v => P v | _ => True end.

(** Induction over nested values. *)
Section Ind.
  Variable P : pyval -> Prop.
  Hypothesis HNone : P VNone.
  Hypothesis HBool : forall b, P (VBool b).
  Hypothesis HNum : forall z, P (VNum z).
  Hypothesis HStr : forall s, P (VStr s).
  Hypothesis HList : forall l, Forall P l -> P (VList l).
  Hypothesis HDict : forall d, Forall (fun kv => P (snd kv)) d -> P (VDict d).
  Hypothesis HUnknown : P VUnknown.
  Hypothesis HFileAsset : forall s, P (VFileAsset s).
  Hypothesis HStringAsset : forall s, P (VStringAsset s).
  Hypothesis HRemoteAsset : forall s, P (VRemoteAsset s).
  Hypothesis HAssetArchive : forall d, Forall (fun kv => P (snd kv)) d -> P (VAssetArchive d).
  Hypothesis HFileArchive : forall s, P (VFileArchive s).
  Hypothesis HRemoteArchive : forall s, P (VRemoteArchive s).
  Hypothesis HRes : forall r, P (VRes r).
  Hypothesis HConstructed : forall c n t u, P (VConstructed c n t u).
  Hypothesis HAwait : forall f, fut_all P f -> P (VAwait f).
  Hypothesis HOut : forall rs v k s, fut_all P v -> P (VOut rs v k s).
  Hypothesis HInput : forall c d, Forall (fun kv => P (snd kv)) d -> P (VInput c d).
  Hypothesis HOther : forall n, P (VOther n).

  Fixpoint pyval_ind' (v : pyval) : P v :=
    let go_dict := fix go (d : list (string * pyval)) : Forall (fun kv => P (snd kv)) d :=
      match d with
      | [] => Forall_nil _
      | kv :: d' => Forall_cons kv (pyval_ind' (snd kv)) (go d')
      end in
    let go_fut := fun f : fut pyval =>
      match f return fut_all P f with
      | Done x => pyval_ind' x
      | Fail _ => I
      | Pending => I
      end in
    match v with
    | VNone => HNone
    | VBool b => HBool b
    | VNum z => HNum z
    | VStr s => HStr s
    | VList l => HList l
        ((fix go (l : list pyval) : Forall P l :=
            match l with
            | [] => Forall_nil _
            | x :: l' => Forall_cons x (pyval_ind' x) (go l')
            end) l)
    | VDict d => HDict d (go_dict d)
    | VUnknown => HUnknown
    | VFileAsset s => HFileAsset s
    | VStringAsset s => HStringAsset s
    | VRemoteAsset s => HRemoteAsset s
    | VAssetArchive d => HAssetArchive d (go_dict d)
    | VFileArchive s => HFileArchive s
    | VRemoteArchive s => HRemoteArchive s
    | VRes r => HRes r
    | VConstructed c n t u => HConstructed c n t u
    | VAwait f => HAwait f (go_fut f)
    | VOut rs x k s => HOut rs x k s (go_fut x)
    | VInput c d => HInput c d (go_dict d)
    | VOther n => HOther n
    end.
End Ind.

(** runtime/rpc.py:976-989 [contains_unknowns], on values without sharing or
    cycles (the version over object graphs is [Model_Unknowns.v]): only dicts
    and lists are traversed. *)
Fixpoint contains_unknowns (v : pyval) : bool :=
  match v with
  | VUnknown => true
  | VList l => existsb contains_unknowns l
  | VDict d => existsb (fun kv => contains_unknowns (snd kv)) d
  | _ => false
  end.

(** [value is not None] *)
Definition is_none (v : pyval) : bool := match v with VNone => true | _ => false end.
