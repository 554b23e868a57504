(** Properties C138 and C139. *)
From Coq Require Import Permutation.
From Verif Require Import Base Model_Retain Proof_Retain.
Open Scope string_scope.
Open Scope list_scope.

(** C138 (partial): while the record and every program along the way set [retain_on_delete], nothing
    that exists is ever removed: whatever the changes, replacements, removals and failures.  Missing:
    that it takes effect with the very update that sets it. *)
Theorem C138_retained_partial : forall (P : Type) (pr : provider P) (w : world P) (history : list (option (goal P) * luck)),
  (forall e, In e (pending w) \/ live w = Some e -> e_retain e = true) ->
  (forall g lk, In (Some g, lk) history -> g_retain g = true) ->
  forall id, In id (map fst (things w)) -> In id (map fst (things (operates pr w history))).
Proof. intros P pr w h R G. exact (operates_retained P pr h w R G). Qed.

(** C138: from the first update that succeeds with [retain_on_delete] set, whatever was recorded before,
    all that then exists stays, as long as the programs keep the option. *)
Theorem C138_since_partial : forall (P : Type) (pr : provider P) (w w' : world P) (g : goal P) lk (history : list (option (goal P) * luck)),
  g_retain g = true -> operate pr w (Some g) lk = (w', true) ->
  (forall g' lk', In (Some g', lk') history -> g_retain g' = true) ->
  forall id, In id (map fst (things w')) -> In id (map fst (things (operates pr w' history))).
Proof.
  intros P pr w w' g lk h R E G. apply (C138_retained_partial P pr w' h); auto.
  destruct (operate_records P pr w g lk w' E) as [A [e [B [C _]]]]. intros e' [H|H]; [rewrite A in H; destruct H|].
  rewrite B in H. inversion H; subst. congruence.
Qed.

(** C138: a resource recorded with [retain_on_delete] and no protection that is no longer declared, or
    is destroyed, leaves the record and stays as it is. *)
Theorem C138_released_partial : forall (P : Type) (pr : provider P) (l : list (string * P)) (e : entry P) lk,
  e_retain e = true -> e_protect e = false ->
  operate pr (mkWorld l (Some e) []) None lk = (mkWorld l None [], true).
Proof. intros P pr l e lk R N. unfold operate. cbn. unfold delete. now rewrite R, N. Qed.

(** C138, the converse: without [retain_on_delete], an operation that succeeds in removing it has deleted it
    and nothing else. *)
Theorem C138_deleted_partial : forall (P : Type) (pr : provider P) (l : list (string * P)) (e : entry P) lk w',
  e_retain e = false ->
  operate pr (mkWorld l (Some e) []) None lk = (w', true) ->
  live w' = None /\ forall id p, In (id, p) (things w') <-> In (id, p) l /\ id <> e_id e.
Proof.
  intros P pr l e lk w' R. unfold operate. cbn. unfold delete. rewrite R. destruct (negb false && e_protect e); [discriminate|].
  destruct (deletes lk (e_id e)); intros E; inversion E; subst. cbn. split; auto. intros id p. unfold drop. rewrite filter_In. cbn.
  split; intros [A B]; split; auto.
  - intros ->. now rewrite String.eqb_refl in B.
  - apply Bool.negb_true_iff, String.eqb_neq. exact B.
Qed.

Definition lucky : luck := mkLuck (fun _ => true) true.
Definition stuck : luck := mkLuck (fun _ => false) true.
Definition longest (ids : list string) : string := fold_right String.append "r" ids.
Lemma longest_fresh : forall ids, ~ In (longest ids) ids.
Proof.
  assert (L : forall a b, String.length (a ++ b)%string = String.length a + String.length b) by (induction a; cbn; auto).
  assert (M : forall ids id, In id ids -> String.length id < String.length (longest ids)).
  { induction ids as [|x ids IH]; cbn; intros id []; rewrite L.
    - subst x. assert (1 <= String.length (longest ids)); [|unfold longest in *; lia].
      clear. induction ids as [|x ids IH]; cbn; auto. unfold longest in IH. destruct x; cbn; lia.
    - apply IH in H. unfold longest in H. lia. }
  intros ids H. apply M in H. lia.
Qed.
(** A provider of numbers: 0 to 9 can be updated in place, others need a new resource. *)
Definition numbers : provider nat :=
  mkProvider (fun _ i => Some i) (fun a b => if Nat.eqb a b then Same else if Nat.ltb b 10 then Changed else Needs_replacement) longest.
Definition empty : world nat := mkWorld [] None [].
Definition goal_of (i : nat) (retain protect : bool) : option (goal nat) := Some (mkGoal i retain protect).

(** C138 fails in general: the update that sets [retain_on_delete] and needs a replacement still
    deletes what was there: what is looked at is the recorded option. *)
Theorem C138_refuted : exists (P : Type) (pr : provider P) (before : option (goal P)) (g : goal P) (id : string),
  (forall ids, ~ In (fresh pr ids) ids) /\
  let w := operates pr (mkWorld [] None []) [(before, lucky)] in
  g_retain g = true /\ map fst (things w) = [id]
  /\ snd (operate pr w (Some g) lucky) = true /\ ~ In id (map fst (things (fst (operate pr w (Some g) lucky)))).
Proof.
  exists nat, numbers, (goal_of 1 false false), (mkGoal 20 true false), "r". split; [exact longest_fresh|].
  cbn. repeat split; auto. intros [H|[]]. discriminate.
Qed.

(** C139 (partial): whatever went wrong before, with creations, updates and deletions failing at any
    point, the next operation in which they all work succeeds and leaves nothing behind: exactly the
    declared resource exists and is recorded, or nothing if none is declared.  Missing: programs that set
    [protect] or [retain_on_delete]. *)
Theorem C139_recovers_partial : forall (P : Type) (pr : provider P) (history : list (option (goal P) * luck)) (d : option (goal P)) (lk : luck),
  (forall ids, ~ In (fresh pr ids) ids) ->
  (forall old i, check pr old i <> None) ->
  (forall g lk0, In (Some g, lk0) history \/ d = Some g -> g_retain g = false /\ g_protect g = false) ->
  (forall id, deletes lk id = true) -> works lk = true ->
  let (w, ok) := operate pr (operates pr (mkWorld [] None []) history) d lk in
  ok = true /\ pending w = []
  /\ match d with
     | Some _ => exists e, live w = Some e /\ map fst (things w) = [e_id e]
     | None => live w = None /\ things w = []
     end.
Proof.
  intros P pr h d lk F C G D W.
  assert (E : exact P (operates pr (mkWorld [] None []) h)).
  { apply operates_exact; auto. - split; [constructor|]. split; [constructor|]. intros e []. - intros g lk0 H. apply (G g lk0). now left. }
  assert (GD : forall g, d = Some g -> g_retain g = false /\ g_protect g = false) by (intros g H; apply (G g lk); now right).
  pose proof (operate_lucky P pr _ d lk E GD C D W) as A. pose proof (operate_exact P pr F _ d lk E GD) as B.
  destruct (operate pr (operates pr (mkWorld [] None []) h) d lk) as [w ok]. cbn in B. destruct A as [A1 [A2 A3]]. split; auto. split; auto.
  destruct B as [_ [PM _]]. unfold lives in PM. rewrite A2, app_nil_r in PM. destruct d as [g|].
  - destruct (live w) as [e|]; [|congruence]. exists e. split; auto. cbn in PM. apply Permutation_sym, Permutation_length_1_inv in PM. exact PM.
  - split; auto. rewrite A3 in PM. cbn in PM. apply Permutation_sym, Permutation_nil in PM. destruct (things w); auto. discriminate.
Qed.

(** A replacement whose deletion fails twice, and a destroy afterwards. *)
Example C139_case : operate numbers (operates numbers empty [(goal_of 1 false false, lucky); (goal_of 20 false false, stuck); (goal_of 30 false false, stuck)])
    (goal_of 30 false false) lucky = (mkWorld [("rrr", 30)] (Some (mkEntry "rrr" 30 false false)) [], true)
  /\ map e_id (pending (operates numbers empty [(goal_of 1 false false, lucky); (goal_of 20 false false, stuck); (goal_of 30 false false, stuck)])) = ["r"]
  /\ operate numbers (operates numbers empty [(goal_of 1 false false, lucky); (goal_of 20 false false, stuck)]) None lucky = (empty, true)
  /\ (forall ids, ~ In (fresh numbers ids) ids) /\ (forall old i, check numbers old i <> None).
Proof. repeat split; [exact longest_fresh | discriminate]. Qed.
Example C138_case : map fst (things (operates numbers empty [(goal_of 1 true false, lucky); (goal_of 20 true false, lucky); (None, lucky); (goal_of 3 true false, lucky)]))
  = ["rrrr"; "rr"; "r"].
Proof. reflexivity. Qed.

(** C139 fails in general: unprotect a resource together with a change that replaces it, and let the
    deletion of the old one fail: the old one is still recorded as protected, and from then on every
    update and destroy fails and changes nothing, whatever the program and however well all goes. *)
Theorem C139_refuted : exists (P : Type) (pr : provider P) (history : list (option (goal P) * luck)),
  (forall ids, ~ In (fresh pr ids) ids) /\ (forall old i, check pr old i <> None) /\
  let w := operates pr (mkWorld [] None []) history in
  length (things w) = 2 /\
  forall later d lk, operates pr w later = w /\ snd (operate pr w d lk) = false.
Proof.
  exists nat, numbers, [(goal_of 1 false true, lucky); (goal_of 20 false false, stuck)].
  split; [exact longest_fresh|]. split; [discriminate|]. cbn. split; auto.
  intros later d lk. split; [|reflexivity]. induction later as [|[d' lk'] later IH]; auto.
Qed.

Print Assumptions C138_retained_partial.
Print Assumptions C138_since_partial.
Print Assumptions C138_released_partial.
Print Assumptions C138_deleted_partial.
Print Assumptions C138_refuted.
Print Assumptions C139_recovers_partial.
Print Assumptions C139_refuted.
