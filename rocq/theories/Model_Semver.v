(** The [semver] library's Version, which the SDK compares and sorts by.  The
    library is not part of /repo; this is the precedence its documentation
    promises (semver.org, section 11).  Parsing is left as a function argument
    wherever it is used. *)
From Verif Require Import Base.
Open Scope string_scope.

Inductive ident : Type := INum (n : N) | IStr (s : string).
Record version : Type := mkVersion {
  v_major : N; v_minor : N; v_patch : N;
  v_pre : list ident;          (* prerelease, empty for a release *)
  v_build : string
}.

Definition then_cmp (c d : comparison) : comparison := match c with Eq => d | _ => c end.
Definition ident_cmp (a b : ident) : comparison :=
  match a, b with
  | INum n, INum m => N.compare n m
  | INum _, IStr _ => Lt
  | IStr _, INum _ => Gt
  | IStr s, IStr t => String.compare s t
  end.
Fixpoint idents_cmp (p q : list ident) : comparison :=
  match p, q with
  | [], [] => Eq
  | [], _ :: _ => Lt
  | _ :: _, [] => Gt
  | a :: p', b :: q' => then_cmp (ident_cmp a b) (idents_cmp p' q')
  end.
Definition pre_cmp (p q : list ident) : comparison :=
  match p, q with
  | [], [] => Eq
  | [], _ :: _ => Gt
  | _ :: _, [] => Lt
  | _, _ => idents_cmp p q
  end.
Definition version_cmp (a b : version) : comparison :=
  then_cmp (N.compare (v_major a) (v_major b))
    (then_cmp (N.compare (v_minor a) (v_minor b))
       (then_cmp (N.compare (v_patch a) (v_patch b)) (pre_cmp (v_pre a) (v_pre b)))).
Definition version_eqb (a b : version) : bool := match version_cmp a b with Eq => true | _ => false end.
Definition version_gtb (a b : version) : bool := match version_cmp a b with Gt => true | _ => false end.
Definition version_ltb (a b : version) : bool := match version_cmp a b with Lt => true | _ => false end.
