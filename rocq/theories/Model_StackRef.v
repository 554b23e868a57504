(** stack_reference.py: the outputs of another stack *)
From Verif Require Import Base PyVal Model_Output.
Open Scope string_scope.

(** [lambda l: l[1].get(l[0])] (stack_reference.py:76) and [lambda l: l[1][l[0]]]
    (89). *)
Definition lookup_or_none (v : pyval) : res pyval :=
  match v with
  | VList [VStr n; VDict d] => Ok (match dget d n with Some x => x | None => VNone end)
  | VList [_; VDict _] => Ok VNone
  | _ => Err (Exn "AttributeError" "object has no attribute 'get'")
  end.
Definition lookup_or_raise (v : pyval) : res pyval :=
  match v with
  | VList [VStr n; VDict d] => match dget d n with Some x => Ok x | None => Err (Exn "KeyError" n) end
  | VList [_; VDict _] => Err (Exn "KeyError" "")
  | _ => Err (Exn "TypeError" "object is not subscriptable")
  end.

(** [name in names]. *)
Definition listed (n names : pyval) : fut bool :=
  match n, names with
  | VStr s, VList l => Done (existsb (fun x => match x with VStr y => String.eqb s y | _ => false end) l)
  | _, VList _ => Done false
  | _, _ => Fail (Exn "TypeError" "argument is not iterable")
  end.

(** stack_reference.py:106-123 [__is_secret_name]. *)
Definition is_secret_name (dry : bool) (outputs names : output) (name : pyval) : fut bool :=
  let* k1 := o_known (from_input dry name) in
  let* k := (if k1 then o_known names else Done false) in
  if negb k then o_secret outputs
  else
    let* ns := future names false in
    match ns with
    | VNone => o_secret outputs
    | _ => let* n := future (from_input dry name) false in listed n ns
    end.

(** stack_reference.py:70-92 [get_output], [require_output]. *)
Definition fetch (dry : bool) (lookup : pyval -> res pyval) (outputs names : output) (name : pyval) : res output :=
  let+ all := output_all dry [VO (from_input dry name); VO outputs] [] in
  let value := apply dry all lookup false in
  Ok (new_output (o_res value) (future value false) (o_known value) (is_secret_name dry outputs names name)).
Definition get_output (dry : bool) := fetch dry lookup_or_none.
Definition require_output (dry : bool) := fetch dry lookup_or_raise.
