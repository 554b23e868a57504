(** runtime/_json.py, and the part of the library module json it and the Automation API use *)
From Coq Require Import DecimalString.
From Verif Require Import Base PyVal Model_Rpc Model_Argv.
Open Scope string_scope.
Open Scope list_scope.

(* ------------------------------------------------------------------ *)
(** [json.dumps].  Library code, described by its documentation: ensure_ascii, separators
    ", " and ": ". *)

Definition hex_digit (n : nat) : ascii := ascii_of_nat (if Nat.ltb n 10 then 48 + n else 87 + n).
Definition quote : ascii := ascii_of_nat 34.
Definition backslash : ascii := ascii_of_nat 92.
(** One character of a string. *)
Definition escape (c : ascii) : string :=
  let n := nat_of_ascii c in
  if Nat.eqb n 34 then String backslash (String quote "")
  else if Nat.eqb n 92 then String backslash (String backslash "")
  else if Nat.eqb n 10 then String backslash "n"
  else if Nat.eqb n 13 then String backslash "r"
  else if Nat.eqb n 9 then String backslash "t"
  else if Nat.eqb n 12 then String backslash "f"
  else if Nat.eqb n 8 then String backslash "b"
  else if Nat.leb 32 n && Nat.leb n 126 then String c ""
  else String backslash (String "u" (String "0" (String "0" (String (hex_digit (n / 16)) (String (hex_digit (n mod 16)) ""))))).
Fixpoint escapes (s : string) : string :=
  match s with EmptyString => "" | String c s' => (escape c ++ escapes s')%string end.
Definition quoted (s : string) : string := String quote (escapes s ++ String quote "")%string.

Definition not_serializable {A} : res A := Err (Exn "TypeError" "Object is not JSON serializable").
Fixpoint commas (l : list string) : string :=
  match l with [] => "" | [t] => t | t :: l' => (t ++ ", " ++ commas l')%string end.
Fixpoint res_all {A} (l : list (res A)) : res (list A) :=
  match l with [] => Ok [] | m :: l' => let+ x := m in let+ xs := res_all l' in Ok (x :: xs) end.
Fixpoint dumps (v : pyval) : res string :=
  match v with
  | VNone => Ok "null"
  | VBool b => Ok (if b then "true" else "false")
  | VNum z => Ok (str_int z)
  | VStr s => Ok (quoted s)
  | VList l => let+ ts := res_all (map dumps l) in Ok ("[" ++ commas ts ++ "]")%string
  | VDict d =>
      let+ ts := res_all (map (fun kv => let+ t := dumps (snd kv) in Ok (quoted (fst kv) ++ ": " ++ t)%string) d) in
      Ok ("{" ++ commas ts ++ "}")%string
  | _ => not_serializable
  end.

(** _json.py:22-39 [_to_json_serializable_obj], with _types.py:509-525 [input_type_to_dict];
    [classes] are the declared input types. *)
Fixpoint to_serializable (classes : nat -> list field) (v : pyval) : pyval :=
  match v with
  | VList l => VList (map (to_serializable classes) l)
  | VInput cls fields =>
      VDict (fold_left (fun acc f =>
               match dget (map (fun kv => (fst kv, (is_none (snd kv), to_serializable classes (snd kv)))) fields) (f_py f) with
               | Some (false, x) => dset acc (f_pulumi f) x
               | _ => acc
               end) (classes cls) [])
  | VDict d => VDict (map (fun kv => (fst kv, to_serializable classes (snd kv))) d)
  | _ => v
  end.
(** _json.py:42-47 [to_json]. *)
Definition to_json (classes : nat -> list field) (v : pyval) : res string := dumps (to_serializable classes v).

(* ------------------------------------------------------------------ *)
(** [json.loads].  Simplifications: numbers with a fraction or exponent are not read, nor are
    escapes of characters above 255; leading zeros are accepted. *)

Definition blank_char (c : ascii) : bool :=
  let n := nat_of_ascii c in Nat.eqb n 32 || Nat.eqb n 9 || Nat.eqb n 10 || Nat.eqb n 13.
Fixpoint skip_blanks (s : string) : string :=
  match s with String c s' => if blank_char c then skip_blanks s' else s | EmptyString => "" end.
Definition hex_value (c : ascii) : option nat :=
  let n := nat_of_ascii c in
  if Nat.leb 48 n && Nat.leb n 57 then Some (n - 48)
  else if Nat.leb 97 n && Nat.leb n 102 then Some (n - 87)
  else if Nat.leb 65 n && Nat.leb n 70 then Some (n - 55)
  else None.
Definition unescape (c : ascii) : option ascii :=
  let n := nat_of_ascii c in
  if Nat.eqb n 34 || Nat.eqb n 92 || Nat.eqb n 47 then Some c
  else if Nat.eqb n 110 then Some (ascii_of_nat 10)
  else if Nat.eqb n 114 then Some (ascii_of_nat 13)
  else if Nat.eqb n 116 then Some (ascii_of_nat 9)
  else if Nat.eqb n 102 then Some (ascii_of_nat 12)
  else if Nat.eqb n 98 then Some (ascii_of_nat 8)
  else None.
Definition consc (c : ascii) (o : option (string * string)) : option (string * string) :=
  match o with Some (s, r) => Some (String c s, r) | None => None end.
(** After the opening quote: the string, and what follows the closing quote. *)
Fixpoint read_string (s : string) : option (string * string) :=
  match s with
  | EmptyString => None
  | String c s' =>
      if Ascii.eqb c quote then Some (EmptyString, s')
      else if Ascii.eqb c backslash then
        match s' with
        | EmptyString => None
        | String e s2 =>
            if Ascii.eqb e "u" then
              match s2 with
              | String h1 (String h2 (String h3 (String h4 s3))) =>
                  match hex_value h1, hex_value h2, hex_value h3, hex_value h4 with
                  | Some 0, Some 0, Some a, Some b => consc (ascii_of_nat (16 * a + b)) (read_string s3)
                  | _, _, _, _ => None
                  end
              | _ => None
              end
            else match unescape e with Some x => consc x (read_string s2) | None => None end
        end
      else if Nat.ltb (nat_of_ascii c) 32 then None
      else consc c (read_string s')
  end.
Definition num_char (c : ascii) : bool :=
  let n := nat_of_ascii c in Nat.eqb n 45 || (Nat.leb 48 n && Nat.leb n 57).
Fixpoint span_num (s : string) : string * string :=
  match s with
  | String c s' => if num_char c then let (a, b) := span_num s' in (String c a, b) else ("", s)
  | EmptyString => ("", "")
  end.
Definition read_num (s : string) : option (pyval * string) :=
  let (a, b) := span_num s in
  match a with
  | EmptyString => None
  | _ => match NilEmpty.int_of_string a with Some i => Some (VNum (Z.of_int i), b) | None => None end
  end.
(** [s] without the prefix [p]. *)
Fixpoint after (p s : string) : option string :=
  match p, s with
  | EmptyString, _ => Some s
  | String c p', String c' s' => if Ascii.eqb c c' then after p' s' else None
  | _, _ => None
  end.

Fixpoint read_value (n : nat) (s : string) {struct n} : option (pyval * string) :=
  match n with
  | O => None
  | S n =>
      match skip_blanks s with
      | EmptyString => None
      | String c r =>
          if Ascii.eqb c quote then match read_string r with Some (t, r') => Some (VStr t, r') | None => None end
          else if Ascii.eqb c "n" then match after "ull" r with Some r' => Some (VNone, r') | None => None end
          else if Ascii.eqb c "t" then match after "rue" r with Some r' => Some (VBool true, r') | None => None end
          else if Ascii.eqb c "f" then match after "alse" r with Some r' => Some (VBool false, r') | None => None end
          else if Ascii.eqb c "[" then
            match after "]" (skip_blanks r) with
            | Some r' => Some (VList [], r')
            | None => match read_elements n r with Some (l, r') => Some (VList l, r') | None => None end
            end
          else if Ascii.eqb c "{" then
            match after "}" (skip_blanks r) with
            | Some r' => Some (VDict [], r')
            | None => match read_members n r with Some (d, r') => Some (VDict (dupdate [] d), r') | None => None end
            end
          else read_num (String c r)
      end
  end
with read_elements (n : nat) (s : string) {struct n} : option (list pyval * string) :=
  match n with
  | O => None
  | S n =>
      match read_value n s with
      | None => None
      | Some (v, r) =>
          match skip_blanks r with
          | EmptyString => None
          | String c r' =>
              if Ascii.eqb c "]" then Some ([v], r')
              else if Ascii.eqb c "," then match read_elements n r' with Some (l, r2) => Some (v :: l, r2) | None => None end
              else None
          end
      end
  end
with read_members (n : nat) (s : string) {struct n} : option (list (string * pyval) * string) :=
  match n with
  | O => None
  | S n =>
      match after (String quote "") (skip_blanks s) with
      | None => None
      | Some r =>
          match read_string r with
          | None => None
          | Some (k, r1) =>
              match after ":" (skip_blanks r1) with
              | None => None
              | Some r2 =>
                  match read_value n r2 with
                  | None => None
                  | Some (v, r3) =>
                      match skip_blanks r3 with
                      | EmptyString => None
                      | String c r' =>
                          if Ascii.eqb c "}" then Some ([(k, v)], r')
                          else if Ascii.eqb c "," then match read_members n r' with Some (d, r4) => Some ((k, v) :: d, r4) | None => None end
                          else None
                      end
                  end
              end
          end
      end
  end.
Definition loads (s : string) : res pyval :=
  match read_value (S (2 * String.length s)) s with
  | Some (v, r) => if String.eqb (skip_blanks r) "" then Ok v else Err (Exn "JSONDecodeError" "Extra data")
  | None => Err (Exn "JSONDecodeError" "Expecting value")
  end.
