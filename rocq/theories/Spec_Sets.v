(** Specification for C95: what a value depends on. *)
From Coq Require Import List Arith Bool.
Import ListNotations.
From Verif Require Import Model_Sets.

(** There is something unknown in the data of [v]. *)
Inductive not_known : sval -> Prop :=
| NK_here : not_known SUnknown
| NK_list x l : In x l -> not_known x -> not_known (SList l).

(** [needs h v r]: with the set objects holding [h], [v] depends on the resource [r]. *)
Inductive needs (h : sets) : sval -> nat -> Prop :=
| N_list x l r : In x l -> needs h x r -> needs h (SList l) r
| N_res r : needs h (SRes r) r
| N_own l x r : In r (h l) -> needs h (SOut l x) r
| N_value l x r : ~ not_known x -> needs h x r -> needs h (SOut l x) r.

(** [part v o]: the Output [o] is somewhere in [v], also in the values of Outputs. *)
Inductive part (o : sval) : sval -> Prop :=
| P_here l x : o = SOut l x -> part o o
| P_list x l : In x l -> part o x -> part o (SList l)
| P_value l x : part o x -> part o (SOut l x).

(** The Outputs of [v] that are not in the values of others, in order. *)
Inductive outermost : sval -> list sval -> Prop :=
| O_data : outermost SData []
| O_unknown : outermost SUnknown []
| O_res r : outermost (SRes r) []
| O_out l x : outermost (SOut l x) [SOut l x]
| O_nil : outermost (SList []) []
| O_cons x os l os' : outermost x os -> outermost (SList l) os' -> outermost (SList (x :: l)) (os ++ os').

(** The resources [s] are those [v] depends on. *)
Definition exactly (h : sets) (v : sval) (s : list nat) : Prop := forall r, In r s <-> needs h v r.

(** Set objects hold no element twice; those of the Outputs [urn] and [id] of a
    resource hold the resource. *)
Definition ready (e : senv) (h : sets) : Prop :=
  (forall l, NoDup (h l)) /\ forall r, h (v_urn e r) = [r] /\ h (v_id e r) = [r].

(** The Outputs of [vs], and the Outputs [urn] and [id] of resources. *)
Definition among (e : senv) (vs : list sval) (o : sval) : Prop :=
  (exists v, In v vs /\ part o v) \/ exists r, o = SOut (v_urn e r) SData \/ o = SOut (v_id e r) SData.

(** Outputs that keep their resources in the same set object depend on the same
    resources: true if no two Outputs share one, and if no Output holds Outputs
    or resources in its value. *)
Definition shares_agree (e : senv) (h : sets) (vs : list sval) : Prop :=
  forall l x y, among e vs (SOut l x) -> among e vs (SOut l y) -> forall r, needs h (SOut l x) r -> needs h (SOut l y) r.
