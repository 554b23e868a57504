(** Custom timeouts: how they are read, kept in the state, and given to providers.

    Models sdk/python/lib/pulumi/runtime/resource.py:531-554,
    pkg/resource/deploy/source_eval.go:1058-1081, 1371-1378,
    pkg/resource/deploy/step.go:230-240, 355-375, 460-490. *)
From Coq Require Import List Bool Ascii String NArith.
Import ListNotations.
Open Scope N_scope.

Definition text := list ascii.
Definition text_eqb (a b : text) : bool := if list_eq_dec ascii_dec a b then true else false.
Definition lit (s : string) : text := list_ascii_of_string s.

Definition digit (c : ascii) : bool := (48 <=? N_of_ascii c) && (N_of_ascii c <=? 57).
Definition digit_value (c : ascii) : N := N_of_ascii c - 48.

(** The units of Go's time.ParseDuration in nanoseconds, without those that are
    not ASCII. *)
Definition units : list (text * N) :=
  [(lit "ns", 1); (lit "us", 1000); (lit "ms", 1000000); (lit "s", 1000000000);
   (lit "m", 60000000000); (lit "h", 3600000000000)].

Fixpoint find_unit (u : text) (l : list (text * N)) : option N :=
  match l with
  | [] => None
  | (v, n) :: r => if text_eqb u v then Some n else find_unit u r
  end.

(** A number and its unit. *)
Fixpoint take_digits (t : text) (acc : N) : N * text :=
  match t with
  | c :: r => if digit c then take_digits r (10 * acc + digit_value c) else (acc, t)
  | [] => (acc, [])
  end.
Fixpoint take_unit (t : text) : text * text :=
  match t with
  | c :: r => if digit c || Ascii.eqb c "." then ([], t)
              else let (u, w) := take_unit r in (c :: u, w)
  | [] => ([], [])
  end.

Definition max_duration : N := 9223372036854775807.

(** time.ParseDuration, as generateTimeoutInSeconds uses it (source_eval.go:1371-1378).
    Simplified: signs and fractions are left out, that is, what has them is refused
    here. Nanoseconds are given instead of seconds in floating point. *)
Fixpoint parse_parts (fuel : nat) (t : text) (sum : N) : option N :=
  match fuel with
  | O => None
  | S k =>
      match t with
      | [] => Some sum
      | c :: _ =>
          if digit c then
            let (n, r) := take_digits t 0 in
            let (u, w) := take_unit r in
            match find_unit u units with
            | None => None
            | Some m => if max_duration <? sum + n * m then None else parse_parts k w (sum + n * m)
            end
          else None
      end
  end.

Definition parse_duration (t : text) : option N :=
  if text_eqb t (lit "0") then Some 0
  else match t with
       | [] => None
       | _ => parse_parts (S (List.length t)) t 0
       end.

(** The custom timeouts of the options of a resource, as they are sent
    (resource.py:531-554): what is not given is the empty text. *)
Record given := { g_create : text; g_update : text; g_delete : text }.

(** resource.CustomTimeouts (sdk/go/common/resource/custom_timeouts.go:3-7); 0 is
    none. *)
Record timeouts := { t_create : N; t_update : N; t_delete : N }.

Definition parse_one (t : text) : option N :=
  match t with
  | [] => Some 0
  | _ => parse_duration t
  end.

(** source_eval.go:1058-1081. *)
Definition parse_given (g : given) : option timeouts :=
  match parse_one (g_create g) with
  | None => None
  | Some c =>
      match parse_one (g_delete g) with
      | None => None
      | Some d =>
          match parse_one (g_update g) with
          | None => None
          | Some u => Some {| t_create := c; t_update := u; t_delete := d |}
          end
      end
  end.

(** What providers are asked to do for a resource, and whether it is done. [Kept]
    is that a resource is left the same. Each thing that is created has a number. *)
Inductive kind := Create | Update | Delete | Kept.
Record event := { e_kind : kind; e_thing : nat; e_time : N; e_done : bool }.

(** What the engine decides for a resource that is registered again. *)
Inductive decision := Same | Change | Replace | ReplaceFirst.

(** A run, for one URN: the resource is registered with these timeouts, or it is
    not, or the stack is refreshed, which may find it gone. What providers answer is
    arbitrary: [ok1] is for the first operation and [ok2] for the one after it; that an
    operation fails in part is as if it is done. [reach] is whether the deployment
    comes to its deletes, and [oks n] is whether the n-th of them is done. *)
Inductive run :=
| Register (g : given) (d : decision) (ok1 ok2 reach : bool) (oks : nat -> bool)
| Absent (reach : bool) (oks : nat -> bool)
| Refresh (gone : bool).

(** The state: the resource, if there is one, and those that are replaced and still
    to be deleted, with their timeouts (resource_state.go:44). *)
Record state := { s_cur : option (nat * timeouts); s_old : list (nat * timeouts); s_next : nat }.

Definition start : state := {| s_cur := None; s_old := []; s_next := 0 |}.

(** CreateStep.Apply (step.go:230-240), UpdateStep.Apply (step.go:460-490),
    DeleteStep.Apply (step.go:355-375), SameStep. *)
Definition create_event (x : nat) (t : timeouts) (ok : bool) : event :=
  {| e_kind := Create; e_thing := x; e_time := t_create t; e_done := ok |}.
Definition update_event (x : nat) (t : timeouts) (ok : bool) : event :=
  {| e_kind := Update; e_thing := x; e_time := t_update t; e_done := ok |}.
Definition delete_event (x : nat) (t : timeouts) (ok : bool) : event :=
  {| e_kind := Delete; e_thing := x; e_time := t_delete t; e_done := ok |}.
Definition kept_event (x : nat) : event :=
  {| e_kind := Kept; e_thing := x; e_time := 0; e_done := true |}.

(** The deletes at the end of a deployment (step_generator.go, GenerateDeletes). *)
Fixpoint delete_all (oks : nat -> bool) (n : nat) (l : list (nat * timeouts))
  : list (nat * timeouts) * list event :=
  match l with
  | [] => ([], [])
  | (x, t) :: r =>
      let (r', ev) := delete_all oks (S n) r in
      (if oks n then r' else (x, t) :: r', delete_event x t (oks n) :: ev)
  end.

Definition finish (reach : bool) (oks : nat -> bool) (st : state) (ev : list event)
  : state * list event :=
  if reach then
    let (l, ev') := delete_all oks 0 (s_old st) in
    ({| s_cur := s_cur st; s_old := l; s_next := s_next st |}, ev ++ ev')
  else (st, ev).

(** One run. A registration with timeouts that cannot be read fails before
    anything is done; a step that fails ends the deployment without its deletes. *)
Definition step (st : state) (r : run) : state * list event :=
  match r with
  | Refresh gone =>
      ({| s_cur := if gone then None else s_cur st; s_old := s_old st; s_next := s_next st |}, [])
  | Absent reach oks =>
      match s_cur st with
      | None => finish reach oks st []
      | Some o =>
          (* it is one of those to be deleted, and if this fails it stays *)
          if reach then
            if oks 0%nat then
              let (l, ev) := delete_all oks 1 (s_old st) in
              ({| s_cur := None; s_old := l; s_next := s_next st |},
               delete_event (fst o) (snd o) true :: ev)
            else (st, [delete_event (fst o) (snd o) false])
          else (st, [])
      end
  | Register g d ok1 ok2 reach oks =>
      match parse_given g with
      | None => (st, [])
      | Some t =>
          let x := s_next st in
          match s_cur st with
          | None =>
              if ok1 then
                finish reach oks {| s_cur := Some (x, t); s_old := s_old st; s_next := S x |}
                  [create_event x t true]
              else ({| s_cur := None; s_old := s_old st; s_next := S x |}, [create_event x t false])
          | Some (y, o) =>
              match d with
              | Same =>
                  finish reach oks {| s_cur := Some (y, t); s_old := s_old st; s_next := x |} [kept_event y]
              | Change =>
                  if ok1 then
                    finish reach oks {| s_cur := Some (y, t); s_old := s_old st; s_next := x |}
                      [update_event y t true]
                  else (st, [update_event y t false])
              | Replace =>
                  if ok1 then
                    finish reach oks
                      {| s_cur := Some (x, t); s_old := (y, o) :: s_old st; s_next := S x |}
                      [create_event x t true]
                  else ({| s_cur := s_cur st; s_old := s_old st; s_next := S x |},
                        [create_event x t false])
              | ReplaceFirst =>
                  if ok1 then
                    if ok2 then
                      finish reach oks {| s_cur := Some (x, t); s_old := s_old st; s_next := S x |}
                        [delete_event y o true; create_event x t true]
                    else ({| s_cur := None; s_old := s_old st; s_next := S x |},
                          [delete_event y o true; create_event x t false])
                  else (st, [delete_event y o false])
              end
          end
      end
  end.

(** The runs one after another, each with what providers are asked in it. *)
Fixpoint history (st : state) (l : list run) : list (run * list event) :=
  match l with
  | [] => []
  | r :: l' => let (st', ev) := step st r in (r, ev) :: history st' l'
  end.
