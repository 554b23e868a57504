(** Specifications for declared input and output types (C54). *)
From Verif Require Import Base PyVal Model_Types.
Open Scope string_scope.

(** A class that can be declared, whose properties do not clash. *)
Record well_declared (D : decl) : Prop := mkWD {
  wd_declared : declare D = Ok tt;
  wd_python : NoDup (map p_python (d_props D));
  wd_pulumi : NoDup (map p_pulumi (d_props D));
  wd_names : forall p, In p (d_props D) -> p_python p <> "";
  wd_translate : forall tr, d_translate D = Some tr -> d_input D = false ->
    forall p q, In p (d_props D) -> In q (d_props D) -> tr (p_pulumi p) = tr (p_pulumi q) -> p = q }.

(** The value a parameter gets: as given, else its default. *)
Inductive initial (args : dict pyval) (p : prop) : pyval -> Prop :=
| In_given v : dget args (p_python p) = Some v -> initial args p v
| In_default v : dget args (p_python p) = None -> p_default p = Some v -> initial args p v.

(** The value after the writes [ws], oldest first, to a property that was [v]. *)
Inductive last_written (name : string) : pyval -> list (string * pyval) -> pyval -> Prop :=
| LW_none v : last_written name v [] v
| LW_hit v x ws y : last_written name x ws y -> last_written name v ((name, x) :: ws) y
| LW_other v n x ws y : n <> name -> last_written name v ws y -> last_written name v ((n, x) :: ws) y.

Definition declared_name (D : decl) (n : string) : Prop := exists p, In p (d_props D) /\ p_python p = n.

(** A declaration that Python accepts: no empty names, and, unless the class has an __init__ of
    its own, no property without default after one with. *)
Definition accepted (D : decl) : Prop :=
  (forall p, In p (d_props D) -> p_pulumi p <> "") /\
  (d_init D = IAnnotations -> forall i j p q, i < j -> nth_error (d_props D) i = Some p -> nth_error (d_props D) j = Some q ->
     p_default p <> None -> p_default q <> None).
