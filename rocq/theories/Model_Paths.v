(** Property paths, and what the engine makes of the options ignore_changes and
    replace_on_changes when a resource is registered that is recorded already. *)
From Verif Require Import Base.
Open Scope string_scope.
Open Scope list_scope.

(** sdk/go/common/resource/properties_path.go:12-14 [PropertyPath]. *)
Inductive key : Type := Name (n : string) | Index (i : Z).
Definition path : Type := list key.

(** strconv.ParseInt(segment, 10, 0), as called in properties_path.go:89: an optional sign and
    decimal digits, for a number that fits 64 bits. *)
Definition digit (c : ascii) : option Z :=
  let n := nat_of_ascii c in
  if Nat.leb 48 n && Nat.leb n 57 then Some (Z.of_nat (n - 48)) else None.
Fixpoint digits (acc : Z) (s : string) : option Z :=
  match s with
  | "" => Some acc
  | String c s' => match digit c with None => None | Some d => digits (10 * acc + d)%Z s' end
  end.
Definition parse_int (s : string) : option Z :=
  let number s := if String.eqb s "" then None else digits 0 s in
  let value := match s with
               | String "+" s' => number s'
               | String "-" s' => option_map Z.opp (number s')
               | _ => number s
               end in
  match value with
  | None => None
  | Some z => if ((- 2 ^ 63 <=? z) && (z <? 2 ^ 63))%Z then Some z else None
  end.

(** properties_path.go:62-79: the text after an opening quote, to the closing one: the key, and
    what follows. *)
Fixpoint quoted (s : string) : option (string * string) :=
  match s with
  | "" => None
  | String """" s' => Some ("", s')
  | String "\" (String """" s') => option_map (fun '(k, r) => (String """" k, r)) (quoted s')
  | String c s' => option_map (fun '(k, r) => (String c k, r)) (quoted s')
  end.
(** strings.IndexRune(path, ']') and the two parts around it. *)
Fixpoint bracketed (s : string) : option (string * string) :=
  match s with
  | "" => None
  | String "]" s' => Some ("", s')
  | String c s' => option_map (fun '(k, r) => (String c k, r)) (bracketed s')
  end.
(** properties_path.go:98-104: a name reaches to the next dot or opening bracket. *)
Fixpoint plain (s : string) : string * string :=
  match s with
  | "" => ("", "")
  | String "." _ => ("", s)
  | String "[" _ => ("", s)
  | String c s' => let '(k, r) := plain s' in (String c k, r)
  end.
(** properties_path.go:48-107 [ParsePropertyPath]; [None] are its errors.  [n] bounds the number of
    turns of its loop, each of which takes a character at least. *)
Fixpoint parse_from (n : nat) (s : string) : option path :=
  match n with
  | O => None
  | S n =>
      match s with
      | "" => Some []
      | String "." s' => parse_from n s'
      | String "[" (String """" s') =>
          match quoted s' with
          | Some (k, String "]" r) => option_map (cons (Name k)) (parse_from n r)
          | _ => None
          end
      | String "[" s' =>
          match bracketed s' with
          | None => None
          | Some (seg, r) =>
              if String.eqb seg "*" then option_map (cons (Name "*")) (parse_from n r)
              else match parse_int seg with
                   | None => None
                   | Some i => option_map (cons (Index i)) (parse_from n r)
                   end
          end
      | _ => let '(k, r) := plain s in option_map (cons (Name k)) (parse_from n r)
      end
  end.
Definition parse (s : string) : option path := parse_from (S (String.length s)) s.

(** sdk/go/common/resource/properties.go:31-36 [PropertyValue].  [Leaf] stands for all the values
    without parts: strings, numbers, assets, references, unknown ones. *)
Inductive tree : Type := Leaf (v : string) | Null | Secret (t : tree) | Arr (l : list tree) | Obj (l : dict tree).

(** properties_path.go:111-135 [Get], one step and all steps. *)
Definition child (t : tree) (k : key) : option tree :=
  match t, k with
  | Arr l, Index i => if (i <? 0)%Z then None else nth_error l (Z.to_nat i)
  | Obj l, Name n => dget l n
  | _, _ => None
  end.
Fixpoint get (t : tree) (p : path) : option tree :=
  match p with
  | [] => Some t
  | k :: p => match child t k with Some c => get c p | None => None end
  end.
Fixpoint set_nth {A} (l : list A) (i : nat) (x : A) : list A :=
  match l, i with
  | [], _ => []
  | _ :: l, O => x :: l
  | y :: l, S i => y :: set_nth l i x
  end.
Definition set_child (t : tree) (k : key) (c : tree) : option tree :=
  match t, k with
  | Arr l, Index i => if (i <? 0)%Z || (Z.of_nat (length l) <=? i)%Z then None else Some (Arr (set_nth l (Z.to_nat i) c))
  | Obj l, Name n => Some (Obj (dset l n c))
  | _, _ => None
  end.
Definition delete_child (t : tree) (k : key) : option tree :=
  match t, k with
  | Arr l, Index i => if (i <? 0)%Z || (Z.of_nat (length l) <=? i)%Z then None else Some (Arr (set_nth l (Z.to_nat i) Null))
  | Obj l, Name n => Some (Obj (ddel l n))
  | _, _ => None
  end.
(** properties_path.go:139-168 [Set] and 236-267 [Delete]: the value is changed where the last
    key of the path is found; [None] if a part of the path is missing. *)
Fixpoint alter (last : tree -> key -> option tree) (t : tree) (p : path) : option tree :=
  match p with
  | [] => None
  | [k] => last t k
  | k :: p =>
      match child t k with
      | None => None
      | Some c => match alter last c p with None => None | Some c' => set_child t k c' end
      end
  end.
Definition set (t : tree) (p : path) (v : tree) : option tree := alter (fun t k => set_child t k v) t p.
Definition delete (t : tree) (p : path) : option tree := alter delete_child t p.
(** properties_path.go:273-303 [Contains]. *)
Fixpoint contains (p other : path) : bool :=
  match p, other with
  | [], _ => true
  | _ :: _, [] => false
  | Index i :: p, Index j :: other => (i =? j)%Z && contains p other
  | Index _ :: _, Name _ :: _ => false
  | Name n :: p, k :: other => (String.eqb n "*" || match k with Name m => String.eqb n m | Index _ => false end) && contains p other
  end.

(** pkg/resource/deploy/step_generator.go:1423-1457 [processIgnoreChanges].

    The copy of the inputs is a new map with the same values in it (properties.go:193-199): what
    is changed below a value of it changes in the program's properties as well, until the value
    itself has been replaced in the copy.  So there is the copy, the program's properties, and the
    names that no longer lead to the same value.  Where a value of the recorded inputs has been
    taken over, it is shared with the recorded state; since all that is ever stored at a path is
    what is recorded there, this is not looked at. *)
Record ignoring : Type := mkIgnoring { i_copy : tree; i_goal : tree; i_apart : list string }.
Inductive ignored : Type := Ignored (inputs goal : tree) | Invalid | Crash.
Definition on_both (change : tree -> option tree) (p : path) (g : ignoring) : option ignoring :=
  match change (i_copy g) with
  | None => None
  | Some c =>
      match p with
      | [Name n] => Some (mkIgnoring c (i_goal g) (n :: i_apart g))
      | Name n :: _ :: _ =>
          if smem n (i_apart g) then Some (mkIgnoring c (i_goal g) (i_apart g))
          else Some (mkIgnoring c (match change (i_goal g) with Some c' => c' | None => i_goal g end) (i_apart g))
      | _ => Some (mkIgnoring c (i_goal g) (i_apart g))
      end
  end.
Inductive turn : Type := Fine (g : ignoring) | Missing | Assertion.
Definition ignore_one (old : tree) (g : ignoring) (s : string) : turn :=
  match parse s with
  | None => Fine g
  | Some p =>
      match get old p, get (i_goal g) p with
      | Some v, Some _ => match on_both (fun t => set t p v) p g with Some g' => Fine g' | None => Assertion end
      | Some v, None => match on_both (fun t => set t p v) p g with Some g' => Fine g' | None => Missing end
      | None, Some _ => match on_both (fun t => delete t p) p g with Some g' => Fine g' | None => Missing end
      | None, None => Fine g
      end
  end.
Fixpoint ignore_all (old : tree) (g : ignoring) (bad : bool) (names : list string) : ignored :=
  match names with
  | [] => if bad then Invalid else Ignored (i_copy g) (i_goal g)
  | s :: names =>
      match ignore_one old g s with
      | Fine g' => ignore_all old g' bad names
      | Missing => ignore_all old g true names
      | Assertion => Crash
      end
  end.
Definition process_ignore_changes (inputs old : tree) (names : list string) : ignored :=
  ignore_all old (mkIgnoring inputs inputs []) false names.

(** sdk/go/common/resource/plugin/provider.go:120-236, 270-304: what a provider answers to Diff. *)
Inductive kind : Type := Add | Change | Delete.
Record diff : Type := mkDiff {
  d_changes : bool;
  d_detailed : option (list (string * (kind * bool)));
  d_replace_keys : list string;
  d_changed_keys : list string
}.
Definition replaces (d : diff) : bool :=
  match d_detailed d with Some l => existsb (fun e => snd (snd e)) l | None => false end ||
  match d_replace_keys d with [] => false | _ => true end.

Fixpoint parse_all (names : list string) : option (list path) :=
  match names with
  | [] => Some []
  | s :: names => match parse s, parse_all names with Some p, Some l => Some (p :: l) | _, _ => None end
  end.
Fixpoint detail (paths : list path) (l : list (string * (kind * bool))) : option (list (string * (kind * bool))) :=
  match l with
  | [] => Some []
  | (s, (k, r)) :: l =>
      match parse s, detail paths l with
      | Some q, Some l' => Some ((s, (k, r || existsb (fun p => contains p q) paths)) :: l')
      | _, _ => None
      end
  end.
(** step_generator.go:1513-1610 [applyReplaceOnChanges]; [None] are its errors.  The keys that are
    a reason for a replacement are kept with repetitions. *)
Definition replace_on_changes (names : list string) (init_errors : bool) (d : diff) : option diff :=
  if negb (d_changes d) && negb init_errors then Some d
  else
    match parse_all names with
    | None => None
    | Some paths =>
        match (match d_detailed d with None => Some None | Some l => option_map Some (detail paths l) end) with
        | None => None
        | Some detailed =>
            let keys := filter (fun k => match parse k with None => false | Some q => existsb (fun p => contains p q) paths end) (d_changed_keys d) in
            let init := init_errors && existsb (fun p => contains p [Name "#initerror"]) paths in
            Some (mkDiff (d_changes d || init)
                    (if init then option_map (fun l => l ++ [("#initerror", (Change, true))]) detailed else detailed)
                    (d_replace_keys d ++ keys ++ (if init then ["#initerror"] else []))
                    (d_changed_keys d))
        end
    end.

(** What is known of the registration of a recorded resource: whether it was deleted for another's
    replacement before (recreating), whether it was read only (external), whether the update is to
    replace it (--replace), whether it is a target, and whether its last creation or update was
    left unfinished (its record has initialization errors). *)
Record situation : Type := mkSituation {
  x_old : dict tree;
  x_recreating : bool;
  x_external : bool;
  x_replace : bool;
  x_target : bool;
  x_init_errors : bool
}.
Inductive planned : Type :=
| Refuses | Crashes
| Keeps (inputs : tree) | Updates (inputs : tree) | Replaces (inputs : tree).
(** step_generator.go:372-380, 468-494, 580-671 and 724-903: the steps for a custom resource that
    is recorded, and the inputs recorded for it.  [check] is the provider's Check, given the
    recorded inputs and the new ones; [answer] is its Diff, for the recorded inputs and the checked
    ones, or what the engine finds for them if the provider leaves the answer open
    (1365-1392 [diffResource]).  Left out:
    failing checks, changes of the provider, imports, protection, policies and plans. *)
Definition register (check : option tree -> tree -> tree) (answer : tree -> tree -> diff) (ignores replaces_on : list string) (x : situation) (goal : dict tree) : planned :=
  match process_ignore_changes (Obj goal) (Obj (x_old x)) ignores with
  | Crash => Crashes
  | Invalid => Refuses
  | Ignored processed goal' =>
      let inputs := if x_recreating x || x_external x || x_replace x then check None goal' else check (Some (Obj (x_old x))) processed in
      if x_recreating x || x_external x then Replaces inputs
      else if negb (x_target x) then Keeps inputs
      else
        let d := if x_replace x then mkDiff true None ["id"] [] else answer (Obj (x_old x)) inputs in
        match replace_on_changes replaces_on (x_init_errors x) d with
        | None => Refuses
        | Some d' =>
            if d_changes d' then
              if replaces d' then Replaces (if x_replace x then inputs else check None goal') else Updates inputs
            else if x_init_errors x then Updates inputs
            else Keeps inputs
        end
  end.
