(** Specification for C102: what of a program's secrets is in the stored state. *)
From Verif Require Import Base PyVal Model_Rpc Spec_Rpc Model_Engine Spec_Engine Model_Register Model_Deployment Model_State Spec_State.

(** [same_public v v']: the values of the program differ only in what its known
    secret Outputs hold and depend on. *)
Inductive same_public : pyval -> pyval -> Prop :=
| Sp_same v : same_public v v
| Sp_list l l' : Forall2 same_public l l' -> same_public (VList l) (VList l')
| Sp_dict d d' : Forall2 (fun kv kv' => fst kv = fst kv' /\ same_public (snd kv) (snd kv')) d d' ->
    same_public (VDict d) (VDict d')
| Sp_input cls d d' : Forall2 (fun kv kv' => fst kv = fst kv' /\ same_public (snd kv) (snd kv')) d d' ->
    same_public (VInput cls d) (VInput cls d')
| Sp_await x x' : same_public x x' -> same_public (VAwait (Done x)) (VAwait (Done x'))
| Sp_output rs x x' known : same_public x x' ->
    same_public (VOut (Done rs) (Done x) (Done known) (Done false)) (VOut (Done rs) (Done x') (Done known) (Done false))
| Sp_secret rs rs' x x' :
    same_public (VOut (Done rs) (Done x) (Done true) (Done true)) (VOut (Done rs') (Done x') (Done true) (Done true)).

Definition same_public_bag : dict pyval -> dict pyval -> Prop :=
  Forall2 (fun kv kv' => fst kv = fst kv' /\ same_public (snd kv) (snd kv')).

(** The program registers the outputs [outputs] of the resource [urn], which are
    proper values, to a monitor that supports secrets, with the request [r]. *)
Definition registers (h : pval -> res string) (c : cfg) (urn : string) (outputs : dict pyval) (r : outputs_request) : Prop :=
  (forall cls, class_declared (c_class c cls)) /\ c_secrets c = true /\ urn <> ""%string /\
  (exists ps, bag_means (mkCfg (c_secrets c) (c_refs c) (c_outvals c) None (c_class c) (c_res c)) (Some h) None false outputs ps /\
     NoDup (map fst ps)) /\
  forall monitor, exists end_, register_resource_outputs c (Done (Some urn)) (VDict outputs) (Some monitor) = Done ([r], end_).

(** Two deployments in which the same things happen, except for what is in the
    secrets: in those the program registers, and in those of the resources that
    the providers answer with. *)
Inductive same_event (h : pval -> res string) : devent -> devent -> Prop :=
| Se_same ev : same_event h ev ev
| Se_resource urn id o o' : alike (PObj o) (PObj o') -> same_event h (DResource urn id o) (DResource urn id o')
| Se_outputs c urn outputs outputs' r r' : same_public_bag outputs outputs' ->
    registers h c urn outputs r -> registers h c urn outputs' r' -> same_event h (DOutputs r) (DOutputs r').
