From Verif Require Import Base Model_RpcManager.
From Coq Require Export Relations.Relation_Operators.

Definition reachable (all : bool) : mstate -> Prop := clos_refl_trans_1n _ (mstep all) start_state.
Definition ended (s : mstate) (i : nat) (r : res nat) : Prop := nth_error (m_status s) i = Some (Some r).
Definition succeeded (s : mstate) (i : nat) : Prop := exists v, ended s i (Ok v).
Definition failed (s : mstate) (i : nat) (e : exn) : Prop := ended s i (Err e).
Definition started (s : mstate) (i : nat) : Prop := i < length (m_status s).
(** RPC [i] is the first one that failed. *)
Definition first_failure (s : mstate) (i : nat) (e : exn) : Prop :=
  failed s i e /\ exists l1 l2, m_order s = l1 ++ i :: l2 /\ forall j, In j l1 -> succeeded s j.
