(** Saving the state of a stack (backends with files). *)
From Verif Require Import Base Model_Lock Model_Save Spec_Save Proof_Save.
From Coq Require Import Lia.
Open Scope string_scope.
Open Scope list_scope.

(* ------------------------------------------------------------------ *)
(** C113.  A command that dies or fails while it saves a state leaves the old state or
    the new one.
    Partial: if the stack's state is already kept in the way that is asked for
    (compressed or not), then after any number of steps [n], and whichever of them
    fail, the state to be read is the old one or the new one. *)
Theorem C113_old_or_new_partial : forall (D : Type) path (r : nat -> io) clock gzip (d : D) b n, later clock b -> kept_as gzip path b ->
  let b' := perform_all b (firstn n (save_stack path r clock gzip d)) in
  current path b' = current path b \/ current path b' = Some d.
Proof. intros D path r clock gzip d b n. apply crash_current. Qed.
Print Assumptions C113_old_or_new_partial.
(** Otherwise, if the copies could be made, the old one is in a copy. *)
Theorem C113_not_lost_partial : forall (D : Type) path (r : nat -> io) clock gzip (d : D) b n x, later clock b -> r 0 = Fine -> r 2 = Fine -> current path b = Some x ->
  let b' := perform_all b (firstn n (save_stack path r clock gzip d)) in
  current path b' = Some x \/ current path b' = Some d \/
  exists key t, (key = (path ++ ".bak")%string \/ key = (path ++ ".gz.bak")%string) /\ dget b' key = Some (x, t).
Proof.
  intros D path r clock gzip d b n x L R0 R2 C. cbn zeta. destruct (not_lost path r clock gzip d b n x L R0 R2 C) as [H|[H|(key & t & K & H)]]; auto.
  right; right. exists key, t. split; [|exact H]. destruct K as [->|E]; [now left|right]. rewrite E. apply sapp_assoc.
Qed.
Print Assumptions C113_not_lost_partial.
(** A state that was saved successfully is the one to be read, in whichever way the one
    before was kept, and whatever else failed. *)
Theorem C113_saved : forall (D : Type) path (r : nat -> io) clock gzip (d : D) b, later clock b ->
  succeeded (save_stack path r clock gzip d) = true -> current path (perform_all b (save_stack path r clock gzip d)) = Some d.
Proof. intros D path r clock gzip d b. apply saved_current. Qed.
Print Assumptions C113_saved.
(** Saving succeeds if one of the first thirteen attempts to write does. *)
Theorem C113_persistent : forall (D : Type) path (r : nat -> io) clock gzip (d : D),
  succeeded (save_stack path r clock gzip d) = true <-> exists i, i < 13 /\ r (4 + i) = Fine.
Proof. intros D path r clock gzip d. apply persistent. Qed.
Print Assumptions C113_persistent.
(** Other files are as before. *)
Theorem C113_others : forall (D : Type) path (r : nat -> io) clock gzip (d : D) b n key,
  key <> path -> key <> (path ++ ".gz")%string -> key <> (path ++ ".bak")%string -> key <> (path ++ ".gz.bak")%string ->
  dget (perform_all b (firstn n (save_stack path r clock gzip d))) key = dget b key.
Proof. intros D path r clock gzip d b n key N1 N2 N3 N4. apply others_kept; auto. now rewrite sapp_assoc. Qed.
Print Assumptions C113_others.
(** A stack whose state is kept in the other way loses it when the command dies, or when
    all attempts to write fail, even if everything else works.  If the copy could
    not be made either, which is not noticed, the state is nowhere. *)
Theorem C113_refuted : forall (D : Type) path (x d : D) t (gzip : bool),
  let b := [(if gzip then path else (path ++ ".gz")%string, (x, t))] in
  let clock := fun i => t + 1 + i in
  current path b = Some x /\ later clock b /\
  (exists n, current path (perform_all b (firstn n (save_stack path (fun _ => Fine) clock gzip d))) = None) /\
  (exists r, (forall i, i < 4 -> r i = Fine) /\ succeeded (save_stack path r clock gzip d) = false /\ current path (perform_all b (save_stack path r clock gzip d)) = None) /\
  (exists r, r 1 = Fine /\ r 3 = Fine /\ perform_all b (save_stack path r clock gzip d) = []).
Proof. intros D path x d t gzip. apply switching. Qed.
Print Assumptions C113_refuted.
Example C113_case :
  let b := [(".pulumi/stacks/dev.json", ("old", 3)); (".pulumi/stacks/dev.json.gz", ("older", 2)); (".pulumi/stacks/prod.json", ("prod", 5))] in
  let r := fun i => match i with 0 => Fault false | 4 => Fault true | 5 => Fault false | _ => Fine end in
  later (fun i => 6 + i) b /\ kept_as false ".pulumi/stacks/dev.json" b /\ current ".pulumi/stacks/dev.json" b = Some "old" /\
  let ops := save_stack ".pulumi/stacks/dev.json" r (fun i => 6 + i) false "new" in
  succeeded ops = true /\ perform_all b ops =
    [(".pulumi/stacks/dev.json", ("new", 12)); (".pulumi/stacks/prod.json", ("prod", 5)); (".pulumi/stacks/dev.json.bak", ("old", 8))].
Proof.
  cbn zeta. split.
  - intros key d t i E. cbn [dget] in E. repeat match type of E with (if ?c then _ else _) = _ => destruct c; [injection E as <- <-; lia|] end. discriminate.
  - split; [right; exists "old", 3; split; [reflexivity|intros d' t' [= <- <-]; lia]|]. repeat split; reflexivity.
Qed.
