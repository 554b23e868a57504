(** A JSON document is still the same document after its lines have been captured. *)
From Coq Require Import DecimalString DecimalZ.
From Verif Require Import Base PyVal Model_Rpc Model_Argv Model_Cmd Model_Json Spec_Json Proof_Json.
Open Scope string_scope.
Open Scope list_scope.

Definition clean (s : string) : string := join nl (map rstrip (readlines s)).

Lemma clean_nl s : clean (String newline s) = if String.eqb s "" then "" else String newline (clean s).
Proof.
  unfold clean. cbn [readlines]. rewrite Ascii.eqb_refl. destruct s as [|c s]; [reflexivity|].
  cbn [String.eqb]. cbn [map]. change (rstrip (String newline "")) with "".
  destruct (readlines (String c s)) as [|l ls] eqn:E.
  - cbn [readlines] in E. destruct (Ascii.eqb c newline); [discriminate|]. destruct (readlines s); discriminate.
  - reflexivity.
Qed.
Lemma join_first l ls x : join nl ((String x l) :: ls) = String x (join nl (l :: ls)).
Proof. destruct ls; reflexivity. Qed.
Lemma join_empty ls : join nl ("" :: ls) = match ls with [] => "" | _ => String newline (join nl ls) end.
Proof. destruct ls; reflexivity. Qed.
Lemma rstrip_newline : is_space newline = true.
Proof. reflexivity. Qed.
Lemma readlines_lines s : Forall (fun l => exists a, (l = a \/ l = (a ++ nl)%string) /\ rstrip l = rstrip a /\ forall b, (rstrip a <> String newline b)) (readlines s).
Proof.
  induction s as [|c s IH]; cbn [readlines]; [constructor|].
  destruct (Ascii.eqb_spec c newline) as [->|Hc].
  - constructor; [|exact IH]. exists "". split; [now right|]. split; [reflexivity|]. intros b [=].
  - destruct (readlines s) as [|l ls].
    + constructor; [|constructor]. exists (String c ""). split; [now left|]. split; [reflexivity|]. intros b. cbn [rstrip]. destruct (is_space c); congruence.
    + apply Forall_cons_iff in IH as [(a & Ha & Hr & Hb) IH]. constructor; [|exact IH].
      exists (String c a). split; [destruct Ha as [->| ->]; [now left|now right]|]. cbn [rstrip]. rewrite Hr. split; [reflexivity|].
      intros b. destruct (rstrip a); [destruct (is_space c)|]; congruence.
Qed.
Lemma clean_solid c s : c <> newline -> is_space c = false -> clean (String c s) = String c (clean s).
Proof.
  intros Hc Hs. unfold clean. cbn [readlines]. rewrite (proj2 (Ascii.eqb_neq _ _) Hc).
  destruct (readlines s) as [|l ls] eqn:E; cbn [map rstrip]; rewrite ?Hs; [reflexivity|].
  rewrite <- join_first. destruct (rstrip l); reflexivity.
Qed.
Lemma clean_space c s : c <> newline -> is_space c = true ->
  clean (String c s) = match clean s with String d _ => if Ascii.eqb d newline then clean s else String c (clean s) | EmptyString => "" end.
Proof.
  intros Hc Hs. unfold clean. cbn [readlines]. rewrite (proj2 (Ascii.eqb_neq _ _) Hc).
  pose proof (readlines_lines s) as Hl.
  destruct (readlines s) as [|l ls] eqn:E; cbn [map rstrip]; rewrite ?Hs; [reflexivity|].
  apply Forall_cons_iff in Hl as [(a & _ & Hr & Hb) _]. rewrite <- Hr in Hb.
  destruct (rstrip l) as [|d t].
  - rewrite join_empty. destruct (map rstrip ls) as [|x xs]; [reflexivity|]. cbv iota. rewrite Ascii.eqb_refl. reflexivity.
  - rewrite !join_first. destruct (Ascii.eqb_spec d newline) as [->|]; [exfalso; now apply (Hb t)|]. reflexivity.
Qed.

Lemma clean_blank w : blanks w -> forall r, exists w', blanks w' /\ clean (w ++ r) = (w' ++ clean r)%string.
Proof.
  induction 1 as [|n s Hn Hs IH]; intros r.
  - exists "". split; [constructor|reflexivity].
  - destruct (IH r) as (w' & Hw & E). change (String (ascii_of_nat n) s ++ r)%string with (String (ascii_of_nat n) (s ++ r)).
    assert (Hsame : clean (String (ascii_of_nat n) (s ++ r)) = clean (s ++ r) \/ clean (String (ascii_of_nat n) (s ++ r)) = String (ascii_of_nat n) (clean (s ++ r))).
    { destruct (Ascii.eqb_spec (ascii_of_nat n) newline) as [->|Hc].
      - rewrite clean_nl. destruct (String.eqb_spec (s ++ r) "") as [->|]; auto.
      - rewrite clean_space; [|exact Hc|]. 
        + destruct (clean (s ++ r)) as [|d t]; [now left|]. destruct (Ascii.eqb d newline); auto.
        + destruct Hn as [<-|[<-|[<-|[<-|[]]]]]; reflexivity. }
    destruct Hsame as [-> | ->]; rewrite E.
    + exists w'. auto.
    + exists (String (ascii_of_nat n) w'). split; [now constructor|reflexivity].
Qed.

Fixpoint solid (s : string) : Prop :=
  match s with EmptyString => True | String c s' => is_space c = false /\ solid s' end.
Lemma clean_token t : solid t -> forall r, clean (t ++ r) = (t ++ clean r)%string.
Proof.
  induction t as [|c t IH]; intros H r; [reflexivity|]. destruct H as [Hc H]. cbn [append].
  rewrite clean_solid; [now rewrite IH| |exact Hc]. intros ->. discriminate.
Qed.
Fixpoint printable (s : string) : Prop :=
  match s with EmptyString => True | String c s' => 32 <= nat_of_ascii c /\ printable s' end.
Lemma printable_app a b : printable a -> printable b -> printable (a ++ b).
Proof. induction a; simpl; tauto. Qed.
Lemma clean_inside u : printable u -> forall r d t, clean r = String d t -> d <> newline -> clean (u ++ r) = (u ++ clean r)%string.
Proof.
  induction u as [|c u IH]; intros H r d t Hr Hd; [reflexivity|]. destruct H as [Hc H]. cbn [append].
  assert (Hn : c <> newline). { intros ->. revert Hc. change (nat_of_ascii newline) with 10. lia. }
  assert (E : clean (u ++ r) = (u ++ clean r)%string) by exact (IH H r d t Hr Hd).
  destruct (is_space c) eqn:Hs; [|now rewrite clean_solid, E].
  rewrite clean_space, E by assumption. destruct u as [|e u].
  - cbn [append]. rewrite Hr. rewrite (proj2 (Ascii.eqb_neq _ _) Hd). reflexivity.
  - cbn [append]. destruct (Ascii.eqb_spec e newline) as [->|]; [|reflexivity].
    destruct H as [H _]. revert H. change (nat_of_ascii newline) with 10. lia.
Qed.

Lemma hex_printable a x : In (a, x) hexes -> printable x.
Proof. intros H. repeat (destruct H as [[= <- <-]|H]; [repeat split; apply Nat.leb_le; reflexivity|]). easy. Qed.
Ltac concrete := repeat split; apply Nat.leb_le; reflexivity.
Lemma character_printable n t : character n t -> printable t.
Proof.
  destruct 1; try concrete.
  - split; [|exact I]. rewrite code; lia.
  - apply printable_app; [concrete|]. apply printable_app; [concrete|]. apply printable_app; eapply hex_printable; eassumption.
Qed.
Lemma characters_printable s u : characters s u -> printable u.
Proof. induction 1; [exact I|]. apply printable_app; [now apply character_printable with n|assumption]. Qed.
Lemma clean_string s t : string_text s t -> forall r, clean (t ++ r) = (t ++ clean r)%string.
Proof.
  intros (u & Hu & ->) r. rewrite !sapp_assoc. apply characters_printable in Hu.
  rewrite clean_token by (split; [reflexivity|exact I]). f_equal.
  assert (E : clean (dq ++ r) = (dq ++ clean r)%string) by (apply clean_token; split; [reflexivity|exact I]).
  rewrite (clean_inside u Hu (dq ++ r) (ascii_of_nat 34) (clean r)); [now rewrite E|exact E|discriminate].
Qed.
Lemma num_solid s : all_num s -> solid s.
Proof.
  induction s as [|c s IH]; [easy|]. intros [Hc H]. split; [|auto].
  unfold num_char in Hc. unfold is_space. apply orb_true_iff in Hc as [Hc|Hc].
  - apply Nat.eqb_eq in Hc. rewrite Hc. reflexivity.
  - apply andb_true_iff in Hc as [H1 H2]. apply Nat.leb_le in H1, H2.
    rewrite (proj2 (Nat.leb_gt (nat_of_ascii c) 13)) by lia. rewrite (proj2 (Nat.leb_gt (nat_of_ascii c) 32)) by lia. now rewrite !andb_false_r.
Qed.

Ltac token := rewrite (clean_token _ ltac:(repeat split)).
Lemma clean_text :
  (forall v t, text v t -> forall r, exists t', text v t' /\ clean (t ++ r) = (t' ++ clean r)%string) /\
  (forall l t, elements l t -> forall r, exists t', elements l t' /\ clean (t ++ r) = (t' ++ clean r)%string) /\
  (forall d t, members d t -> forall r, exists t', members d t' /\ clean (t ++ r) = (t' ++ clean r)%string).
Proof.
  apply json_ind.
  - intros r. exists "null". split; [constructor|]. apply clean_token. repeat split.
  - intros r. exists "true". split; [constructor|]. apply clean_token. repeat split.
  - intros r. exists "false". split; [constructor|]. apply clean_token. repeat split.
  - intros z r. exists (str_int z). split; [constructor|]. apply clean_token, num_solid, str_int_num.
  - intros s t H r. exists t. split; [now constructor|]. now apply clean_string with s.
  - intros w Hw r. destruct (clean_blank w Hw ("]" ++ r)) as (w' & Hw' & E). exists ("[" ++ w' ++ "]")%string. split; [now constructor|].
    rewrite !sapp_assoc. rewrite (clean_token "[") by (repeat split). rewrite E, (clean_token "]") by (repeat split). reflexivity.
  - intros l t Hl IH r. destruct (IH ("]" ++ r)%string) as (t' & Ht & E). exists ("[" ++ t' ++ "]")%string. split; [now constructor|].
    rewrite !sapp_assoc. rewrite (clean_token "[") by (repeat split). rewrite E, (clean_token "]") by (repeat split). reflexivity.
  - intros w Hw r. destruct (clean_blank w Hw ("}" ++ r)) as (w' & Hw' & E). exists ("{" ++ w' ++ "}")%string. split; [now constructor|].
    rewrite !sapp_assoc. rewrite (clean_token "{") by (repeat split). rewrite E, (clean_token "}") by (repeat split). reflexivity.
  - intros d t Hd IH r. destruct (IH ("}" ++ r)%string) as (t' & Ht & E). exists ("{" ++ t' ++ "}")%string. split; [now constructor|].
    rewrite !sapp_assoc. rewrite (clean_token "{") by (repeat split). rewrite E, (clean_token "}") by (repeat split). reflexivity.
  - intros w1 v t w2 H1 Ht IH H2 r.
    destruct (clean_blank w2 H2 r) as (w2' & H2' & E2). destruct (IH (w2 ++ r)%string) as (t' & Ht' & E).
    destruct (clean_blank w1 H1 (t ++ w2 ++ r)%string) as (w1' & H1' & E1).
    exists (w1' ++ t' ++ w2')%string. split; [now constructor|]. rewrite !sapp_assoc, E1, E, E2. reflexivity.
  - intros w1 v t w2 l u H1 Ht IH H2 Hl IHl r.
    destruct (IHl r) as (u' & Hu' & Eu).
    destruct (clean_blank w2 H2 ("," ++ u ++ r)) as (w2' & H2' & E2). destruct (IH (w2 ++ "," ++ u ++ r)%string) as (t' & Ht' & E).
    destruct (clean_blank w1 H1 (t ++ w2 ++ "," ++ u ++ r)%string) as (w1' & H1' & E1).
    exists (w1' ++ t' ++ w2' ++ "," ++ u')%string. split; [now constructor|].
    rewrite !sapp_assoc, E1, E, E2, (clean_token ",") by (repeat split). rewrite Eu. reflexivity.
  - intros w1 k q w2 w3 v t w4 H1 Hq H2 H3 Ht IH H4 r.
    destruct (clean_blank w4 H4 r) as (w4' & H4' & E4). destruct (IH (w4 ++ r)%string) as (t' & Ht' & E).
    destruct (clean_blank w3 H3 (t ++ w4 ++ r)%string) as (w3' & H3' & E3).
    destruct (clean_blank w2 H2 (":" ++ w3 ++ t ++ w4 ++ r)%string) as (w2' & H2' & E2).
    destruct (clean_blank w1 H1 (q ++ w2 ++ ":" ++ w3 ++ t ++ w4 ++ r)%string) as (w1' & H1' & E1).
    exists (w1' ++ q ++ w2' ++ ":" ++ w3' ++ t' ++ w4')%string. split; [now constructor|].
    rewrite !sapp_assoc, E1, (clean_string _ _ Hq), E2, (clean_token ":") by (repeat split). rewrite E3, E, E4. reflexivity.
  - intros w1 k q w2 w3 v t w4 d u H1 Hq H2 H3 Ht IH H4 Hd IHd r.
    destruct (IHd r) as (u' & Hu' & Eu).
    destruct (clean_blank w4 H4 ("," ++ u ++ r)) as (w4' & H4' & E4). destruct (IH (w4 ++ "," ++ u ++ r)%string) as (t' & Ht' & E).
    destruct (clean_blank w3 H3 (t ++ w4 ++ "," ++ u ++ r)%string) as (w3' & H3' & E3).
    destruct (clean_blank w2 H2 (":" ++ w3 ++ t ++ w4 ++ "," ++ u ++ r)%string) as (w2' & H2' & E2).
    destruct (clean_blank w1 H1 (q ++ w2 ++ ":" ++ w3 ++ t ++ w4 ++ "," ++ u ++ r)%string) as (w1' & H1' & E1).
    exists (w1' ++ q ++ w2' ++ ":" ++ w3' ++ t' ++ w4' ++ "," ++ u')%string. split; [now constructor|].
    rewrite !sapp_assoc, E1, (clean_string _ _ Hq), E2, (clean_token ":") by (repeat split). rewrite E3, E, E4, (clean_token ",") by (repeat split). rewrite Eu. reflexivity.
Qed.
Lemma clean_document v s : document v s -> document v (clean s).
Proof.
  intros (w1 & t & w2 & H1 & Ht & H2 & ->).
  destruct (clean_blank w2 H2 "") as (w2' & H2' & E2). rewrite sapp_nil in E2.
  destruct (proj1 clean_text _ _ Ht w2) as (t' & Ht' & E). destruct (clean_blank w1 H1 (t ++ w2)) as (w1' & H1' & E1).
  exists w1', t', w2'. repeat split; try assumption. rewrite E1, E, E2. change (clean "") with "". now rewrite sapp_nil.
Qed.
Lemma loads_captured v s : document v s -> plain_data v -> loads (clean s) = Ok v.
Proof. intros H Hp. apply loads_document; [now apply clean_document|exact Hp]. Qed.
