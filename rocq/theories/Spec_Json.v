(** What a JSON text is (RFC 8259, for the values modelled), and what to_json should write. *)
From Coq Require Import DecimalString.
From Verif Require Import Base PyVal Model_Rpc Model_Argv.
Open Scope string_scope.
Open Scope list_scope.

(** White space between tokens. *)
Inductive blanks : string -> Prop :=
| B_none : blanks ""
| B_more n s : In n [32; 9; 10; 13] -> blanks s -> blanks (String (ascii_of_nat n) s).

(** A character of a string: itself, or escaped. *)
Definition hexes : list (nat * string) :=
  [(0, "0"); (1, "1"); (2, "2"); (3, "3"); (4, "4"); (5, "5"); (6, "6"); (7, "7"); (8, "8"); (9, "9");
   (10, "a"); (11, "b"); (12, "c"); (13, "d"); (14, "e"); (15, "f"); (10, "A"); (11, "B"); (12, "C"); (13, "D"); (14, "E"); (15, "F")].
Definition bs : string := String (ascii_of_nat 92) "".
Definition dq : string := String (ascii_of_nat 34) "".
Inductive character : nat -> string -> Prop :=
| C_itself n : 32 <= n < 256 -> n <> 34 -> n <> 92 -> character n (String (ascii_of_nat n) "")
| C_quote : character 34 (bs ++ dq)
| C_backslash : character 92 (bs ++ bs)
| C_slash : character 47 (bs ++ "/")
| C_n : character 10 (bs ++ "n")
| C_r : character 13 (bs ++ "r")
| C_t : character 9 (bs ++ "t")
| C_f : character 12 (bs ++ "f")
| C_b : character 8 (bs ++ "b")
| C_u a b x y : In (a, x) hexes -> In (b, y) hexes -> character (16 * a + b) (bs ++ "u00" ++ x ++ y).
Inductive characters : string -> string -> Prop :=
| S_end : characters "" ""
| S_more n s t u : character n t -> characters s u -> characters (String (ascii_of_nat n) s) (t ++ u).
Definition string_text (s t : string) : Prop := exists u, characters s u /\ t = (dq ++ u ++ dq)%string.

(** [text v t]: [t] is a JSON text of the value [v]; any white space is allowed between tokens. *)
Inductive text : pyval -> string -> Prop :=
| T_null : text VNone "null"
| T_true : text (VBool true) "true"
| T_false : text (VBool false) "false"
| T_num z : text (VNum z) (str_int z)
| T_str s t : string_text s t -> text (VStr s) t
| T_array0 w : blanks w -> text (VList []) ("[" ++ w ++ "]")
| T_array l t : elements l t -> text (VList l) ("[" ++ t ++ "]")
| T_object0 w : blanks w -> text (VDict []) ("{" ++ w ++ "}")
| T_object d t : members d t -> text (VDict d) ("{" ++ t ++ "}")
with elements : list pyval -> string -> Prop :=
| E_one w1 v t w2 : blanks w1 -> text v t -> blanks w2 -> elements [v] (w1 ++ t ++ w2)
| E_more w1 v t w2 l u : blanks w1 -> text v t -> blanks w2 -> elements l u -> elements (v :: l) (w1 ++ t ++ w2 ++ "," ++ u)
with members : list (string * pyval) -> string -> Prop :=
| M_one w1 k q w2 w3 v t w4 :
    blanks w1 -> string_text k q -> blanks w2 -> blanks w3 -> text v t -> blanks w4 ->
    members [(k, v)] (w1 ++ q ++ w2 ++ ":" ++ w3 ++ t ++ w4)
| M_more w1 k q w2 w3 v t w4 d u :
    blanks w1 -> string_text k q -> blanks w2 -> blanks w3 -> text v t -> blanks w4 -> members d u ->
    members ((k, v) :: d) (w1 ++ q ++ w2 ++ ":" ++ w3 ++ t ++ w4 ++ "," ++ u).
(** A document: white space around. *)
Definition document (v : pyval) (s : string) : Prop := exists w1 t w2, blanks w1 /\ text v t /\ blanks w2 /\ s = (w1 ++ t ++ w2)%string.

(** Plain data whose dicts have distinct keys. *)
Inductive plain_data : pyval -> Prop :=
| P_none : plain_data VNone
| P_bool b : plain_data (VBool b)
| P_num z : plain_data (VNum z)
| P_str s : plain_data (VStr s)
| P_list l : Forall plain_data l -> plain_data (VList l)
| P_dict d : NoDup (map fst d) -> Forall (fun kv => plain_data (snd kv)) d -> plain_data (VDict d).

(** The properties of an input object that are not None, under their Pulumi names. *)
Definition given (fields : dict pyval) (fs : list field) : dict pyval :=
  flat_map (fun f => match dget fields (f_py f) with Some VNone | None => [] | Some x => [(f_pulumi f, x)] end) fs.
(** [means v d]: the data [d] that the object [v] stands for: input types are dicts of
    their properties that are not None, under their Pulumi names. *)
Inductive means (classes : nat -> list field) : pyval -> pyval -> Prop :=
| N_none : means classes VNone VNone
| N_bool b : means classes (VBool b) (VBool b)
| N_num z : means classes (VNum z) (VNum z)
| N_str s : means classes (VStr s) (VStr s)
| N_list l l' : Forall2 (means classes) l l' -> means classes (VList l) (VList l')
| N_dict d d' : Forall2 (fun kv kv' => fst kv = fst kv' /\ means classes (snd kv) (snd kv')) d d' -> means classes (VDict d) (VDict d')
| N_input cls fields d' :
    Forall2 (fun kv kv' => fst kv = fst kv' /\ means classes (snd kv) (snd kv')) (given fields (classes cls)) d' ->
    means classes (VInput cls fields) (VDict d').
