(** C130: what an update with targets leaves out. *)
From Verif Require Import Base Model_Paths Model_Lost Proof_Lost.
Open Scope string_scope.
Open Scope list_scope.

(** C130.  What updates with targets leave out is made by the next update without: after it the
    resource exists with the inputs its program gives it, as its provider checks them.  Proved for
    providers that compare with the inputs the resource exists with.

    Missing: providers that leave it to the engine to find out what has changed; see the
    counterexample. *)
Theorem C130_made_partial : forall check (answer : tree -> tree -> tree -> diff),
  (forall existing recorded checked, existing <> checked -> d_changes (answer existing recorded checked) = true) ->
  forall w history w1 goal w2, updates check answer w history = Some w1 -> update check answer w1 true goal = Some w2 ->
    w_applied w2 = check (Some (Obj (w_recorded w1))) (Obj goal) \/ w_applied w2 = check None (Obj goal).
Proof.
  intros check answer A w history w1 goal w2 _ U. unfold update, register, process_ignore_changes in U. cbn in U.
  set (i := check (Some (Obj (w_recorded w1))) (Obj goal)) in *. set (d := answer (w_applied w1) (Obj (w_recorded w1)) i) in *.
  destruct (replace_on_changes [] false d) as [d'|] eqn:E; [|discriminate].
  assert (D : d_changes d' = d_changes d).
  { unfold replace_on_changes in E. destruct (negb (d_changes d) && negb false); [congruence|]. cbn in E.
    destruct (match d_detailed d with Some l => option_map Some (detail [] l) | None => Some None end) as [l|]; [|discriminate]. injection E as <-. cbn. apply orb_false_r. }
  destruct (d_changes d') eqn:Q.
  - destruct (replaces d'); injection U as <-; [now right|now left].
  - injection U as <-. left. cbn. assert (X : ~ (w_applied w1 <> i)).
    { intro N. pose proof (A _ (Obj (w_recorded w1)) _ N) as Y. fold d in Y. congruence. }
    destruct (tree_dec (w_applied w1) i) as [->|N]; [reflexivity|now destruct X].
Qed.
Print Assumptions C130_made_partial.

Definition as_is (_ : option tree) (t : tree) : tree := t.
Definition size_of (t : tree) : string := match get t [Name "size"] with Some (Leaf s) => s | _ => "" end.
(** The engine's comparison of the recorded inputs, for resources with one property. *)
Definition left_open : tree -> tree -> tree -> diff := fun _ recorded checked =>
  if String.eqb (size_of recorded) (size_of checked) then mkDiff false None [] [] else mkDiff true None [] ["size"].
Definition compares : tree -> tree -> tree -> diff := fun existing _ checked =>
  if tree_dec existing checked then mkDiff false None [] [] else mkDiff true None [] [].
Definition size (s : string) : dict tree := [("size", Leaf s)].

Example C130_case :
  (forall existing recorded checked, existing <> checked -> d_changes (compares existing recorded checked) = true) /\
  update as_is compares (mkWorld (size "1") (Obj (size "1"))) false (size "2") = Some (mkWorld (size "2") (Obj (size "1"))) /\
  updates as_is compares (mkWorld (size "1") (Obj (size "1"))) [(false, size "2"); (true, size "2")] = Some (mkWorld (size "2") (Obj (size "2"))).
Proof.
  split; [|split; vm_compute; reflexivity]. intros existing recorded checked N. unfold compares. now destruct (tree_dec existing checked).
Qed.

(** With a provider that leaves the answer open, a change that one update leaves out is recorded,
    and never made however often the program is run. *)
Theorem C130_refuted : forall n,
  updates as_is left_open (mkWorld (size "1") (Obj (size "1"))) ((false, size "2") :: repeat (true, size "2") n) =
    Some (mkWorld (size "2") (Obj (size "1"))).
Proof. intro n. cbn. induction n as [|n IH]; [reflexivity|]. cbn. exact IH. Qed.
Print Assumptions C130_refuted.
