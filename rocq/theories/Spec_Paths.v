(** Where values are found in properties, and how paths are written. *)
From Verif Require Import Base Model_Paths.
Open Scope string_scope.
Open Scope list_scope.

(** [v] is found in [t] at the path: fields of objects by name, items of lists by number. *)
Inductive at_path : tree -> path -> tree -> Prop :=
| at_here t : at_path t [] t
| at_field l n c p v : dget l n = Some c -> at_path c p v -> at_path (Obj l) (Name n :: p) v
| at_item l i c p v : nth_error l i = Some c -> at_path c p v -> at_path (Arr l) (Index (Z.of_nat i) :: p) v.

Definition prefix (p q : path) : Prop := exists r, q = p ++ r.

(** The inputs [t] are as recorded at the paths and below them, and as the program gave them where
    neither is inside the other. *)
Definition as_recorded (t old : tree) (paths : list path) : Prop :=
  forall p q v, In p paths -> (at_path t (p ++ q) v <-> at_path old (p ++ q) v).
Definition as_given (t new : tree) (paths : list path) : Prop :=
  forall q v, (forall p, In p paths -> ~ prefix p q /\ ~ prefix q p) -> (at_path t q v <-> at_path new q v).

(** How paths are written: names, separated by dots, and names in quotes or numbers in brackets. *)
Fixpoint over (ok : ascii -> Prop) (s : string) : Prop :=
  match s with "" => True | String c s => ok c /\ over ok s end.
Definition name (n : string) : Prop := n <> "" /\ over (fun c => c <> "."%char /\ c <> "["%char) n.
Definition bare (k : string) : Prop := over (fun c => c <> """"%char /\ c <> "\"%char) k.
Inductive decimal : string -> Z -> Prop :=
| d_none : decimal "" 0
| d_more s z d : decimal s z -> d < 10 -> decimal (s ++ String (ascii_of_nat (48 + d)) "")%string (10 * z + Z.of_nat d)%Z.
Inductive follows : string -> path -> Prop :=
| f_end : follows "" []
| f_name n s p : name n -> follows s p -> follows ("." ++ n ++ s)%string (Name n :: p)
| f_quoted k s p : bare k -> follows s p -> follows ("[""" ++ k ++ """]" ++ s)%string (Name k :: p)
| f_index ds z s p : ds <> "" -> decimal ds z -> (z < 2 ^ 63)%Z -> follows s p -> follows ("[" ++ ds ++ "]" ++ s)%string (Index z :: p)
| f_any s p : follows s p -> follows ("[*]" ++ s)%string (Name "*" :: p).
Inductive written : string -> path -> Prop :=
| w_name n s p : name n -> follows s p -> written (n ++ s)%string (Name n :: p)
| w_other s p : follows s p -> p <> [] -> written s p.

Definition ends_with_name (p : path) : Prop := exists q n, p = q ++ [Name n].
(** What the path is found in is an object. *)
Definition parent_in (t : tree) (p : path) : Prop := exists l, at_path t (removelast p) (Obj l).

(** A path covers another: it is a beginning of it, where * stands for any one key. *)
Inductive covers : path -> path -> Prop :=
| c_end q : covers [] q
| c_key k p q : covers p q -> covers (k :: p) (k :: q)
| c_any k p q : covers p q -> covers (Name "*" :: p) (k :: q).

(** What a provider tells of a change: that it is at a path, in its detailed account or by the keys
    that changed, and that it asks for a replacement. *)
Definition reports (d : diff) (q : path) : Prop :=
  (exists l s e, d_detailed d = Some l /\ In (s, e) l /\ written s q) \/ (exists s, In s (d_changed_keys d) /\ written s q).
Definition asks_replacement (d : diff) : Prop :=
  d_replace_keys d <> [] \/ exists l s k, d_detailed d = Some l /\ In (s, (k, true)) l.
Definition well_told (d : diff) : Prop :=
  forall s, ((exists l e, d_detailed d = Some l /\ In (s, e) l) \/ In s (d_changed_keys d)) -> exists q, written s q.
