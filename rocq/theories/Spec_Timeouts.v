(** What timeouts are to be, in terms of the options of runs and the operations
    that providers are asked for. *)
From Coq Require Import List Bool Ascii String NArith.
From Verif Require Import Model_Timeouts.
Import ListNotations.
Open Scope N_scope.

(** The time of a text: none for the empty text. *)
Definition time_of (t : text) (n : N) : Prop :=
  t = [] /\ n = 0 \/ t <> [] /\ parse_duration t = Some n.

(** The options of the run. *)
Definition options (r : run) (g : given) : Prop :=
  match r with Register g' _ _ _ _ _ => g' = g | _ => False end.

(** In these events the resource is created, updated or left the same. *)
Definition touched (x : nat) (ev : list event) : Prop :=
  exists e, In e ev /\ e_thing e = x /\ e_done e = true
    /\ (e_kind e = Create \/ e_kind e = Update \/ e_kind e = Kept).

(** [g] are the options of the last run in which [x] is touched. *)
Definition last_given (h : list (run * list event)) (x : nat) (g : given) : Prop :=
  exists h1 r ev h2, h = h1 ++ (r, ev) :: h2 /\ options r g /\ touched x ev
    /\ forall r' ev', In (r', ev') h2 -> ~ touched x ev'.

(** A duration in words: numbers with units. *)
Inductive unit_name := Hours | Minutes | Seconds | Millis.
Definition unit_text (u : unit_name) : text :=
  match u with Hours => lit "h" | Minutes => lit "m" | Seconds => lit "s" | Millis => lit "ms" end.
Definition unit_time (u : unit_name) : N :=
  match u with
  | Hours => 60 * 60 * 1000000000 | Minutes => 60 * 1000000000
  | Seconds => 1000000000 | Millis => 1000000
  end.

(** Digits, none of them missing, and the number they stand for. *)
Definition number (t : text) : Prop := t <> [] /\ forall c, In c t -> 48 <= N_of_ascii c <= 57.
Definition value (t : text) : N := fold_left (fun n c => 10 * n + (N_of_ascii c - 48)) t 0.

Definition written (l : list (text * unit_name)) : text :=
  flat_map (fun p => fst p ++ unit_text (snd p)) l.
Definition total (l : list (text * unit_name)) : N :=
  fold_right (fun p n => value (fst p) * unit_time (snd p) + n) 0 l.
