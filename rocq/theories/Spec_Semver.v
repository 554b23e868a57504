(** Precedence of semantic versions as a relation (semver.org, section 11). *)
From Verif Require Import Base Model_Semver.
Open Scope string_scope.

Inductive str_lt : string -> string -> Prop :=
| sl_empty c s : str_lt "" (String c s)
| sl_head c d s t : (N_of_ascii c < N_of_ascii d)%N -> str_lt (String c s) (String d t)
| sl_tail c s t : str_lt s t -> str_lt (String c s) (String c t).
Inductive ident_lt : ident -> ident -> Prop :=
| il_num n m : (n < m)%N -> ident_lt (INum n) (INum m)
| il_mixed n s : ident_lt (INum n) (IStr s)
| il_str s t : str_lt s t -> ident_lt (IStr s) (IStr t).
Inductive idents_lt : list ident -> list ident -> Prop :=
| isl_nil a p : idents_lt [] (a :: p)
| isl_head a b p q : ident_lt a b -> idents_lt (a :: p) (b :: q)
| isl_tail a p q : idents_lt p q -> idents_lt (a :: p) (a :: q).
(** A prerelease precedes its release. *)
Definition pre_lt (p q : list ident) : Prop := (p <> [] /\ q = []) \/ (p <> [] /\ q <> [] /\ idents_lt p q).
Definition vlt (a b : version) : Prop :=
  (v_major a < v_major b)%N \/
  (v_major a = v_major b /\ (v_minor a < v_minor b)%N) \/
  (v_major a = v_major b /\ v_minor a = v_minor b /\ (v_patch a < v_patch b)%N) \/
  (v_major a = v_major b /\ v_minor a = v_minor b /\ v_patch a = v_patch b /\ pre_lt (v_pre a) (v_pre b)).
(** Build metadata does not matter. *)
Definition veq (a b : version) : Prop :=
  v_major a = v_major b /\ v_minor a = v_minor b /\ v_patch a = v_patch b /\ v_pre a = v_pre b.
