(** C145 and C146: custom timeouts. *)
From Coq Require Import List Bool Ascii String NArith Lia.
From Verif Require Import Model_Timeouts Spec_Timeouts Proof_Timeouts.
Import ListNotations.
Open Scope N_scope.

Section Props.
Context (l : list run) (h1 h2 : list (run * list event)) (r : run) (ev : list event) (e : event).

(** C145: creates and updates get the timeouts of the options they are for ... *)
Theorem C145_create :
  history start l = h1 ++ (r, ev) :: h2 -> In e ev -> e_kind e = Create ->
  exists g, options r g /\ time_of (g_create g) (e_time e).
Proof.
  intros H I K. pose proof (history_ok l [] start inv_start _ _ _ _ H _ I) as O.
  unfold event_ok in O. rewrite K in O. exact O.
Qed.

Theorem C145_update :
  history start l = h1 ++ (r, ev) :: h2 -> In e ev -> e_kind e = Update ->
  exists g, options r g /\ time_of (g_update g) (e_time e).
Proof.
  intros H I K. pose proof (history_ok l [] start inv_start _ _ _ _ H _ I) as O.
  unfold event_ok in O. rewrite K in O. exact O.
Qed.

(** ... and deletes those of the last run that created, updated or kept what is
    deleted. *)
Theorem C145_delete :
  history start l = h1 ++ (r, ev) :: h2 -> In e ev -> e_kind e = Delete ->
  exists g, last_given h1 (e_thing e) g /\ time_of (g_delete g) (e_time e).
Proof.
  intros H I K. pose proof (history_ok l [] start inv_start _ _ _ _ H _ I) as O.
  unfold event_ok in O. rewrite K in O. exact O.
Qed.

(** With timeouts that cannot be read nothing is done. *)
Theorem C145_refused g :
  history start l = h1 ++ (r, ev) :: h2 -> options r g ->
  (forall n, ~ time_of (g_create g) n) \/ (forall n, ~ time_of (g_update g) n)
  \/ (forall n, ~ time_of (g_delete g) n) ->
  ev = [].
Proof.
  intros H O B.
  assert (P : parse_given g = None).
  { destruct (parse_given g) as [t|] eqn:P; auto. exfalso.
    apply parse_given_times in P. destruct P as (C & U & D), B as [B|[B|B]]; eapply B; eauto. }
  assert (X : forall m st k1, history st m = k1 ++ (r, ev) :: h2 -> ev = []).
  { clear H. induction m as [|r0 m IH]; intros st k1 E; cbn [history] in E; [destruct k1; discriminate E|].
    destruct (step st r0) as [st' ev0] eqn:S.
    destruct k1 as [|p k1]; cbn in E; inversion E; subst; eauto.
    destruct r; cbn in O; try contradiction. subst. cbn [step] in S. rewrite P in S. inversion S; auto. }
  eapply X; eauto.
Qed.
End Props.

(** C146: what is written with hours, minutes, seconds and milliseconds is as long
    as it says. Proved for whole numbers. *)
Theorem C146_duration_partial p :
  p <> [] -> Forall (fun q => number (fst q)) p -> total p <= 9223372036854775807 ->
  parse_duration (written p) = Some (total p).
Proof. apply parse_written. Qed.

(** Refuted: a day, as it is documented, is not understood, and nothing is done. *)
Theorem C146_refuted_days :
  parse_duration (lit "1d") = None
  /\ forall st d ok1 ok2 reach oks,
       step st (Register {| g_create := lit "1d"; g_update := []; g_delete := [] |} d ok1 ok2 reach oks) = (st, []).
Proof. split; [vm_compute; reflexivity|]. intros; reflexivity. Qed.

(** Cases. *)
Example some_duration :
  let p := [(lit "1", Hours); (lit "30", Minutes); (lit "500", Millis)] in
  written p = lit "1h30m500ms" /\ p <> [] /\ Forall (fun q => number (fst q)) p
  /\ total p = 5400500000000 /\ total p <= 9223372036854775807.
Proof.
  cbv zeta. split; [reflexivity|split; [discriminate|]]. split; [|split; [reflexivity|vm_compute; discriminate]].
  assert (N : forall t, t <> [] -> forallb digit t = true -> number t).
  { intros t H F. split; auto. intros c I. rewrite forallb_forall in F. apply digit_spec; auto. }
  repeat (apply Forall_cons; [apply N; [discriminate|reflexivity]|]). constructor.
Qed.

(** Created, updated, kept with another timeout for deletes, replaced with yet
    another one; the one that is replaced is deleted with the timeout of the run
    before, and the other one, in the end, with its own. *)
Definition with_times (c u d : string) : given := {| g_create := lit c; g_update := lit u; g_delete := lit d |}.
Example some_history :
  map snd (history start
    [Register (with_times "5m" "" "10s") Same true true true (fun _ => true);
     Register (with_times "5m" "7s" "10s") Change true true true (fun _ => true);
     Register (with_times "" "" "20s") Same true true true (fun _ => true);
     Register (with_times "6m" "" "30s") Replace true true true (fun _ => true);
     Absent true (fun _ => true)])
  = [[{| e_kind := Create; e_thing := 0; e_time := 300000000000; e_done := true |}];
     [{| e_kind := Update; e_thing := 0; e_time := 7000000000; e_done := true |}];
     [{| e_kind := Kept; e_thing := 0; e_time := 0; e_done := true |}];
     [{| e_kind := Create; e_thing := 1; e_time := 360000000000; e_done := true |};
      {| e_kind := Delete; e_thing := 0; e_time := 20000000000; e_done := true |}];
     [{| e_kind := Delete; e_thing := 1; e_time := 30000000000; e_done := true |}]].
Proof. vm_compute. reflexivity. Qed.

Print Assumptions C145_create.
Print Assumptions C145_update.
Print Assumptions C145_delete.
Print Assumptions C145_refused.
Print Assumptions C146_duration_partial.
Print Assumptions C146_refuted_days.
