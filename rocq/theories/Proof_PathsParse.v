(** Paths written as documented are read as what they mean. *)
From Verif Require Import Base Model_Paths Spec_Paths.
Open Scope string_scope.
Open Scope list_scope.

Definition stop (s : string) : Prop := s = "" \/ exists c r, s = String c r /\ (c = "."%char \/ c = "["%char).

Lemma plain_name n s : over (fun c => c <> "."%char /\ c <> "["%char) n -> stop s -> plain (n ++ s)%string = (n, s).
Proof.
  induction n as [|c n IH]; cbn [over append]; intros O St.
  - destruct St as [->|(c & r & -> & [->| ->])]; reflexivity.
  - destruct O as [[A B] O]. specialize (IH O St).
    destruct c as [[] [] [] [] [] [] [] []]; try (now cbn; rewrite IH); congruence.
Qed.

Lemma quoted_bare k r : bare k -> quoted (k ++ String """" r)%string = Some (k, r).
Proof.
  unfold bare. induction k as [|c k IH]; cbn [over append]; [reflexivity|]. intros [[A B] O]. specialize (IH O).
  destruct c as [[] [] [] [] [] [] [] []]; try (now cbn; rewrite IH); congruence.
Qed.

Definition isdigit (c : ascii) : Prop := exists d, d < 10 /\ c = ascii_of_nat (48 + d).
Lemma digit_of d : d < 10 -> digit (ascii_of_nat (48 + d)) = Some (Z.of_nat d).
Proof. intro L. do 10 (destruct d as [|d]; [reflexivity|]). lia. Qed.
Lemma digits_app s t acc : digits acc (s ++ t)%string = match digits acc s with Some z => digits z t | None => None end.
Proof.
  revert acc. induction s as [|c s IH]; intro acc; cbn; [reflexivity|]. destruct (digit c); [apply IH|reflexivity].
Qed.
Lemma decimal_digits s z : decimal s z -> digits 0 s = Some z /\ over isdigit s /\ (0 <= z)%Z.
Proof.
  induction 1 as [|s z d D (E & O & P) L]; [repeat split; cbn; trivial; lia|]. repeat split; [|clear E D|lia].
  - rewrite digits_app, E. cbn [digits]. now rewrite digit_of.
  - induction s as [|c s IH]; cbn in *; [split; trivial; now exists d|]. destruct O. split; trivial. now apply IH.
Qed.
Lemma bracketed_digits ds r : over isdigit ds -> bracketed (ds ++ String "]" r)%string = Some (ds, r).
Proof.
  induction ds as [|c ds IH]; cbn [over append]; [reflexivity|]. intros [(d & L & ->) O]. specialize (IH O).
  do 10 (destruct d as [|d]; [cbn; now rewrite IH|]). lia.
Qed.
Lemma parse_int_decimal ds z : ds <> "" -> decimal ds z -> (z < 2 ^ 63)%Z -> parse_int ds = Some z.
Proof.
  intros N D B. apply decimal_digits in D as (E & O & P). destruct ds as [|c ds]; [easy|]. destruct O as [(d & L & ->) _].
  unfold parse_int.
  assert (R : (- 2 ^ 63 <=? z)%Z && (z <? 2 ^ 63)%Z = true) by (apply andb_true_intro; split; [apply Z.leb_le; lia|apply Z.ltb_lt; lia]).
  assert (Q : parse_int (String (ascii_of_nat (48 + d)) ds) = match digits 0 (String (ascii_of_nat (48 + d)) ds) with
      | None => None | Some z => if ((- 2 ^ 63 <=? z) && (z <? 2 ^ 63))%Z then Some z else None end).
  { clear -L. do 10 (destruct d as [|d]; [reflexivity|]). lia. }
  change (parse_int (String (ascii_of_nat (48 + d)) ds) = Some z). rewrite Q, E, R. reflexivity.
Qed.

Lemma follows_stop s p : follows s p -> stop s.
Proof. destruct 1; [now left|right..]; cbn; eexists _, _; split; eauto. Qed.

Lemma parse_name n c s : over (fun c => c <> "."%char /\ c <> "["%char) (String c n) -> forall m,
  parse_from (S m) (String c n ++ s)%string = let '(k, r) := plain (String c n ++ s)%string in option_map (cons (Name k)) (parse_from m r).
Proof.
  intros [[A B] _] m. destruct c as [[] [] [] [] [] [] [] []]; try reflexivity; congruence.
Qed.
Lemma name_read n s p m : name n -> stop s -> parse_from m s = Some p -> parse_from (S m) (n ++ s)%string = Some (Name n :: p).
Proof.
  intros [N O] St E. destruct n as [|c n]; [easy|]. rewrite parse_name; trivial. rewrite plain_name; trivial. now rewrite E.
Qed.
Lemma append_length s t : String.length (s ++ t)%string = String.length s + String.length t.
Proof. induction s; cbn; congruence. Qed.
Lemma append_assoc s t u : ((s ++ t) ++ u = s ++ (t ++ u))%string.
Proof. induction s; cbn; congruence. Qed.

Lemma follows_read s p : follows s p -> forall m, String.length s < m -> parse_from m s = Some p.
Proof.
  induction 1 as [|n s p Nn F IH|k s p B F IH|ds z s p Ne D Bd F IH|s p F IH]; intros m L.
  - destruct m; [lia|reflexivity].
  - rewrite append_length in L. cbn in L. rewrite append_length in L. destruct m as [|m]; [lia|].
    change (parse_from (S m) ("." ++ n ++ s)%string) with (parse_from m (n ++ s)%string).
    destruct m as [|m]; [lia|]. apply name_read; trivial; [now apply follows_stop in F|].
    apply IH. destruct n; [destruct Nn; easy|cbn in L; lia].
  - rewrite !append_length in L. cbn in L. destruct m as [|m]; [lia|].
    change (parse_from (S m) ("[""" ++ k ++ """]" ++ s)%string) with
      (match quoted (k ++ """]" ++ s)%string with
       | Some (k, String "]" r) => option_map (cons (Name k)) (parse_from m r) | _ => None end).
    change (k ++ """]" ++ s)%string with (k ++ String """" (String "]" s))%string. rewrite quoted_bare; trivial. rewrite IH; [reflexivity|lia].
  - rewrite !append_length in L. cbn in L. destruct m as [|m]; [lia|]. pose proof (parse_int_decimal _ _ Ne D Bd) as Pi.
    apply decimal_digits in D as (_ & O & _). pose proof (bracketed_digits ds s O) as Br. destruct ds as [|c ds]; [easy|].
    assert (E : parse_from (S m) ("[" ++ String c ds ++ "]" ++ s)%string = match bracketed (String c ds ++ String "]" s)%string with
       | None => None
       | Some (seg, r) => if String.eqb seg "*" then option_map (cons (Name "*")) (parse_from m r)
              else match parse_int seg with None => None | Some i => option_map (cons (Index i)) (parse_from m r) end end).
    { destruct O as [(d & Ld & ->) _]. do 10 (destruct d as [|d]; [reflexivity|]). lia. }
    rewrite E, Br. destruct (String.eqb_spec (String c ds) "*") as [Q|_].
    { exfalso. injection Q as -> ->. destruct O as [(d & Ld & Q) _]. do 10 (destruct d as [|d]; [discriminate|]). lia. }
    rewrite Pi, IH; [reflexivity|lia].
  - rewrite append_length in L. cbn in L. destruct m as [|m]; [lia|].
    change (option_map (cons (Name "*")) (parse_from m s) = Some (Name "*" :: p)). now rewrite IH by lia.
Qed.

Theorem written_read s p : written s p -> parse s = Some p.
Proof.
  destruct 1 as [n s p Nn F|s p F _]; unfold parse; [|apply follows_read; trivial; lia].
  rewrite append_length. apply name_read; trivial; [now apply follows_stop in F|]. apply follows_read; trivial.
  destruct Nn as [Nn _]. destruct n; [easy|cbn; lia].
Qed.
