(** Lemmas about JSON texts: reading and writing. *)
From Coq Require Import DecimalString DecimalZ.
From Verif Require Import Base PyVal Model_Rpc Model_Argv Model_Json Spec_Json.
Open Scope string_scope.
Open Scope list_scope.

Scheme text_mut := Minimality for text Sort Prop
  with elements_mut := Minimality for elements Sort Prop
  with members_mut := Minimality for members Sort Prop.
Combined Scheme json_ind from text_mut, elements_mut, members_mut.

Lemma sapp_assoc (a b c : string) : ((a ++ b) ++ c = a ++ (b ++ c))%string.
Proof. induction a; simpl; congruence. Qed.
Lemma sapp_nil (a : string) : (a ++ "" = a)%string.
Proof. induction a; simpl; congruence. Qed.
Lemma sapp_len (a b : string) : String.length (a ++ b) = String.length a + String.length b.
Proof. induction a; simpl; congruence. Qed.

(* ------------------------------------------------------------------ *)
(** Characters. *)

Lemma code n : n < 256 -> nat_of_ascii (ascii_of_nat n) = n.
Proof. intros H. now apply nat_ascii_embedding. Qed.
Lemma eqb_code n m : n < 256 -> m < 256 -> Ascii.eqb (ascii_of_nat n) (ascii_of_nat m) = Nat.eqb n m.
Proof.
  intros Hn Hm. destruct (Ascii.eqb_spec (ascii_of_nat n) (ascii_of_nat m)) as [E|E].
  - apply (f_equal nat_of_ascii) in E. rewrite !code in E by assumption. subst. now rewrite Nat.eqb_refl.
  - symmetry. apply Nat.eqb_neq. congruence.
Qed.
Lemma eqb_code' c m : m < 256 -> Ascii.eqb c (ascii_of_nat m) = Nat.eqb (nat_of_ascii c) m.
Proof. intros H. rewrite <- (ascii_nat_embedding c) at 1. apply eqb_code; [apply nat_ascii_bounded|exact H]. Qed.

Lemma hexes_value a x : In (a, x) hexes -> a < 16 /\ exists c, x = String c "" /\ hex_value c = Some a.
Proof.
  intros H. unfold hexes in H. cbn [In] in H.
  repeat (destruct H as [H|H]; [injection H as <- <-; split; [lia|eexists; split; [reflexivity|reflexivity]]|]).
  destruct H.
Qed.

Lemma read_character n t u : character n t -> read_string (t ++ u) = consc (ascii_of_nat n) (read_string u).
Proof.
  destruct 1.
  - change (String (ascii_of_nat n) "" ++ u)%string with (String (ascii_of_nat n) u). cbn [read_string].
    unfold quote, backslash. rewrite !eqb_code by lia.
    rewrite (proj2 (Nat.eqb_neq n 34)) by lia. rewrite (proj2 (Nat.eqb_neq n 92)) by lia.
    rewrite code by lia. rewrite (proj2 (Nat.ltb_ge n 32)) by lia. reflexivity.
  - reflexivity.
  - reflexivity.
  - reflexivity.
  - reflexivity.
  - reflexivity.
  - reflexivity.
  - reflexivity.
  - reflexivity.
  - apply hexes_value in H as (_ & c & -> & Hc). apply hexes_value in H0 as (_ & d & -> & Hd).
    cbn -[hex_value Nat.mul Nat.add consc].
    rewrite Hc, Hd. reflexivity.
Qed.
Lemma read_characters s u rest : characters s u -> read_string (u ++ dq ++ rest) = Some (s, rest).
Proof.
  induction 1.
  - reflexivity.
  - rewrite sapp_assoc. rewrite (read_character n) by assumption. rewrite IHcharacters. reflexivity.
Qed.

(* ------------------------------------------------------------------ *)
(** Blanks and numbers. *)

Lemma skip_app w s : blanks w -> skip_blanks (w ++ s) = skip_blanks s.
Proof.
  induction 1 as [|n w Hn Hw IH]; [reflexivity|].
  change (String (ascii_of_nat n) w ++ s)%string with (String (ascii_of_nat n) (w ++ s)). cbn [skip_blanks].
  replace (blank_char (ascii_of_nat n)) with true; [exact IH|].
  cbn [In] in Hn. destruct Hn as [<-|[<-|[<-|[<-|[]]]]]; reflexivity.
Qed.
Lemma skip_blank w : blanks w -> skip_blanks w = "".
Proof. intros H. rewrite <- (sapp_nil w). rewrite skip_app by assumption. reflexivity. Qed.

Definition ok_rest (s : string) : Prop := match s with EmptyString => True | String c _ => num_char c = false end.
Fixpoint all_num (s : string) : Prop := match s with EmptyString => True | String c s' => num_char c = true /\ all_num s' end.
Lemma span_app a rest : all_num a -> ok_rest rest -> span_num (a ++ rest) = (a, rest).
Proof.
  induction a as [|c a IH]; intros Ha Hr.
  - destruct rest; [reflexivity|]. cbn [append span_num]. simpl in Hr. now rewrite Hr.
  - destruct Ha as [Hc Ha]. cbn [append span_num]. rewrite Hc. now rewrite (IH Ha Hr).
Qed.
Lemma digits_num d : all_num (NilEmpty.string_of_uint d).
Proof. induction d; simpl; auto. Qed.
Lemma str_int_num z : all_num (str_int z).
Proof. unfold str_int. destruct (Z.to_int z); simpl; auto using digits_num. Qed.
Lemma str_int_cons z : exists c s, str_int z = String c s.
Proof.
  destruct (str_int z) as [|c s] eqn:E; eauto. exfalso. unfold str_int in E.
  pose proof (NilEmpty.isi (Z.to_int z)) as H. rewrite E in H. cbn in H. injection H as H.
  pose proof (DecimalZ.of_to z) as Hz. rewrite <- H in Hz. cbn in Hz. subst z. discriminate H.
Qed.
Lemma read_num_spec z rest : ok_rest rest -> read_num (str_int z ++ rest) = Some (VNum z, rest).
Proof.
  intros Hr. unfold read_num. rewrite span_app by auto using str_int_num.
  destruct (str_int_cons z) as (c & s & E). rewrite E at 1. cbv iota.
  unfold str_int. rewrite NilEmpty.isi. rewrite DecimalZ.of_to. reflexivity.
Qed.
Lemma num_first z : exists c s, str_int z = String c s /\ num_char c = true.
Proof. destruct (str_int_cons z) as (c & s & E). exists c, s. split; [exact E|]. pose proof (str_int_num z) as H. rewrite E in H. apply H. Qed.

(** The first character of a text decides how it is read. *)
Lemma num_char_not c m : num_char c = true -> m < 256 -> num_char (ascii_of_nat m) = false -> Ascii.eqb c (ascii_of_nat m) = false.
Proof. intros H Hm Hn. destruct (Ascii.eqb_spec c (ascii_of_nat m)); [|reflexivity]. congruence. Qed.
Lemma num_not_blank c : num_char c = true -> blank_char c = false.
Proof.
  unfold num_char, blank_char. intros H.
  apply orb_true_iff in H as [H|H].
  - apply Nat.eqb_eq in H. rewrite H. reflexivity.
  - apply andb_true_iff in H as [H1 H2]. apply Nat.leb_le in H1, H2.
    rewrite !orb_false_iff. repeat split; apply Nat.eqb_neq; lia.
Qed.

(** What a text starts with: not a blank. *)
Definition starts (s : string) : Prop := match s with EmptyString => False | String c _ => blank_char c = false end.
Lemma starts_skip s rest : starts s -> skip_blanks (s ++ rest) = (s ++ rest)%string.
Proof. destruct s as [|c s]; [easy|]. cbn. now intros ->. Qed.
Lemma text_starts v t : text v t -> starts t.
Proof.
  destruct 1; try reflexivity.
  - destruct (num_first z) as (c & s & -> & H). simpl. now apply num_not_blank.
  - destruct H as (u & _ & ->). reflexivity.
Qed.
Lemma string_starts s t : string_text s t -> starts t.
Proof. intros (u & _ & ->). reflexivity. Qed.
Lemma text_not_close v t : text v t -> forall c s, t = String c s -> Ascii.eqb "]" c = false /\ Ascii.eqb "}" c = false.
Proof.
  destruct 1; intros c0 s0 E; try (injection E as <- _; split; reflexivity).
  - destruct (num_first z) as (c & s & E2 & H). rewrite E2 in E. injection E as <- _.
    destruct (Ascii.eqb_spec "]" c); [subst; discriminate|]. destruct (Ascii.eqb_spec "}" c); [subst; discriminate|]. auto.
  - destruct H as (u & _ & ->). injection E as <- _. split; reflexivity.
Qed.

Lemma ok_blank w s : blanks w -> ok_rest s -> ok_rest (w ++ s).
Proof.
  destruct 1 as [|n w Hn Hw]; [auto|]. intros _. simpl.
  destruct Hn as [<-|[<-|[<-|[<-|[]]]]]; reflexivity.
Qed.

Lemma read_keyword n w (t r : string) : blanks w -> starts t ->
  read_value (S n) (w ++ t ++ r) =
    match (t ++ r)%string with
    | EmptyString => None
    | String c r =>
          if Ascii.eqb c quote then match read_string r with Some (t, r') => Some (VStr t, r') | None => None end
          else if Ascii.eqb c "n" then match after "ull" r with Some r' => Some (VNone, r') | None => None end
          else if Ascii.eqb c "t" then match after "rue" r with Some r' => Some (VBool true, r') | None => None end
          else if Ascii.eqb c "f" then match after "alse" r with Some r' => Some (VBool false, r') | None => None end
          else if Ascii.eqb c "[" then
            match after "]" (skip_blanks r) with
            | Some r' => Some (VList [], r')
            | None => match read_elements n r with Some (l, r') => Some (VList l, r') | None => None end
            end
          else if Ascii.eqb c "{" then
            match after "}" (skip_blanks r) with
            | Some r' => Some (VDict [], r')
            | None => match read_members n r with Some (d, r') => Some (VDict (dupdate [] d), r') | None => None end
            end
          else read_num (String c r)
    end.
Proof. intros Hw Ht. cbn [read_value]. rewrite skip_app by assumption. rewrite starts_skip by assumption. reflexivity. Qed.

Lemma elements_not_close l t rest : elements l t -> after "]" (skip_blanks (t ++ rest)) = None.
Proof.
  destruct 1 as [w1 v t w2 H1 Ht H2|w1 v t w2 l u H1 Ht H2 Hu]; rewrite !sapp_assoc, skip_app by assumption;
    rewrite starts_skip by (eapply text_starts; eassumption); pose proof (text_starts _ _ Ht) as Hs;
    pose proof (text_not_close _ _ Ht) as Hc; destruct t as [|c t]; try easy;
    destruct (Hc c t eq_refl) as [Hb _]; cbn [append after]; now rewrite Hb.
Qed.
Lemma members_not_close d t rest : members d t -> after "}" (skip_blanks (t ++ rest)) = None.
Proof.
  destruct 1; rewrite !sapp_assoc, skip_app by assumption;
    rewrite starts_skip by (eapply string_starts; eassumption);
    destruct H0 as (u0 & _ & ->); reflexivity.
Qed.
Lemma dupdate_same {A} (d : dict A) : NoDup (map fst d) -> forall acc, (forall k, In k (map fst acc) -> ~ In k (map fst d)) -> dupdate acc d = acc ++ d.
Proof.
  unfold dupdate. induction d as [|[k v] d IH]; intros Hd acc Ha; simpl.
  - now rewrite app_nil_r.
  - inversion Hd; subst. rewrite IH; [|assumption|].
    + assert (Hk : ~ In k (map fst acc)) by (intros C; apply (Ha k C); now left).
      assert (Hs : dset acc k v = acc ++ [(k, v)]).
      { clear -Hk. induction acc as [|[k' v'] acc IH]; [reflexivity|]. simpl in *.
        destruct (String.eqb_spec k k') as [->|]; [tauto|]. rewrite IH by tauto. reflexivity. }
      rewrite Hs. rewrite <- app_assoc. reflexivity.
    + intros x Hx Hx2. apply (dkeys_dset acc k v x) in Hx as [->|Hx]; [contradiction|]. apply (Ha x Hx). now right.
Qed.

(* ------------------------------------------------------------------ *)
(** Every text is read back. *)

Lemma read_key k q rest : string_text k q ->
  exists r, after (String quote "") (skip_blanks (q ++ rest)) = Some r /\ read_string r = Some (k, rest).
Proof.
  intros (u & Hu & ->). rewrite !sapp_assoc. exists (u ++ dq ++ rest)%string. split; [reflexivity|]. now apply read_characters.
Qed.
Lemma colon s : after ":" (skip_blanks (":" ++ s)) = Some s.
Proof. reflexivity. Qed.
Local Opaque append.
Lemma read_all :
  (forall v t, text v t -> forall n w rest, 2 * String.length t + 1 <= n -> blanks w -> ok_rest rest -> plain_data v ->
     read_value n (w ++ t ++ rest) = Some (v, rest)) /\
  (forall l t, elements l t -> forall n rest, 2 * String.length t + 2 <= n -> Forall plain_data l ->
     read_elements n (t ++ "]" ++ rest) = Some (l, rest)) /\
  (forall d t, members d t -> forall n rest, 2 * String.length t + 2 <= n -> Forall (fun kv => plain_data (snd kv)) d ->
     read_members n (t ++ "}" ++ rest) = Some (d, rest)).
Proof.
  apply json_ind.
  - intros n w rest Hn Hw Hr _. destruct n; [lia|]. rewrite read_keyword by easy. reflexivity.
  - intros n w rest Hn Hw Hr _. destruct n; [lia|]. rewrite read_keyword by easy. reflexivity.
  - intros n w rest Hn Hw Hr _. destruct n; [lia|]. rewrite read_keyword by easy. reflexivity.
  - intros z n w rest Hn Hw Hr _. destruct n; [lia|].
    destruct (num_first z) as (c & s & E & Hc).
    rewrite read_keyword by (try assumption; rewrite E; simpl; now apply num_not_blank).
    rewrite E at 1. change (String c s ++ rest)%string with (String c (s ++ rest)). cbv iota.
    unfold quote. change "n"%char with (ascii_of_nat 110). change "t"%char with (ascii_of_nat 116). change "f"%char with (ascii_of_nat 102).
    change "["%char with (ascii_of_nat 91). change "{"%char with (ascii_of_nat 123).
    rewrite !num_char_not by (reflexivity || lia || assumption).
    change (String c (s ++ rest)) with (String c s ++ rest)%string. rewrite <- E. now apply read_num_spec.
  - intros s t (u & Hu & ->) n w rest Hn Hw Hr _. destruct n; [lia|]. rewrite read_keyword by easy.
    rewrite !sapp_assoc. change (dq ++ u ++ dq ++ rest)%string with (String quote (u ++ dq ++ rest)). cbv iota.
    change (Ascii.eqb quote quote) with true. cbv iota. rewrite (read_characters s) by assumption. reflexivity.
  - intros w Hw n w0 rest Hn Hw0 Hr _. destruct n; [lia|]. rewrite read_keyword by easy.
    rewrite !sapp_assoc. change ("[" ++ w ++ "]" ++ rest)%string with (String "[" (w ++ "]" ++ rest)). cbn -[after append skip_blanks].
    rewrite skip_app by assumption. reflexivity.
  - intros l t Hl IH n w rest Hn Hw Hr Hp. destruct n; [lia|]. rewrite read_keyword by easy.
    rewrite !sapp_assoc. change ("[" ++ t ++ "]" ++ rest)%string with (String "[" (t ++ "]" ++ rest)).
    cbn -[after append skip_blanks read_elements].
    rewrite (elements_not_close l) by assumption.
    rewrite IH; [reflexivity| |now inversion Hp].
    rewrite !sapp_len in Hn. simpl in Hn. lia.
  - intros w Hw n w0 rest Hn Hw0 Hr _. destruct n; [lia|]. rewrite read_keyword by easy.
    rewrite !sapp_assoc. change ("{" ++ w ++ "}" ++ rest)%string with (String "{" (w ++ "}" ++ rest)). cbn -[after append skip_blanks].
    rewrite skip_app by assumption. reflexivity.
  - intros d t Hd IH n w rest Hn Hw Hr Hp. destruct n; [lia|]. rewrite read_keyword by easy.
    rewrite !sapp_assoc. change ("{" ++ t ++ "}" ++ rest)%string with (String "{" (t ++ "}" ++ rest)).
    cbn -[after append skip_blanks read_members].
    rewrite (members_not_close d) by assumption. inversion Hp; subst.
    rewrite IH; [|rewrite !sapp_len in Hn; simpl in Hn; lia|assumption].
    rewrite (dupdate_same d) by (auto; simpl; tauto). reflexivity.
  - intros w1 v t w2 H1 Ht IH H2 n rest Hn Hp. destruct n; [lia|]. inversion Hp; subst. rewrite !sapp_len in Hn.
    cbn [read_elements]. rewrite !sapp_assoc. rewrite IH; [|lia|assumption|apply ok_blank; [assumption|reflexivity]|assumption].
    rewrite skip_app by assumption. reflexivity.
  - intros w1 v t w2 l u H1 Ht IH H2 Hl IHl n rest Hn Hp. destruct n; [lia|]. inversion Hp; subst. rewrite !sapp_len in Hn. simpl in Hn.
    cbn [read_elements]. rewrite !sapp_assoc. rewrite IH; [|lia|assumption|apply ok_blank; [assumption|reflexivity]|assumption].
    rewrite skip_app by assumption. change ("," ++ u ++ "]" ++ rest)%string with (String "," (u ++ "]" ++ rest)).
    change (skip_blanks (String "," (u ++ "]" ++ rest))) with (String "," (u ++ "]" ++ rest)). cbv iota.
    change (Ascii.eqb "," "]") with false. change (Ascii.eqb "," ",") with true. cbv iota. rewrite IHl by (assumption || lia). reflexivity.
  - intros w1 k q w2 w3 v t w4 H1 Hq H2 H3 Ht IH H4 n rest Hn Hp. destruct n; [lia|]. inversion Hp; subst. cbn [snd] in *.
    rewrite !sapp_len in Hn. cbn [read_members]. rewrite !sapp_assoc, skip_app by assumption. 
    match goal with |- context [skip_blanks (q ++ ?r)] => destruct (read_key k q r Hq) as (r0 & -> & ->) end.
    rewrite skip_app by assumption. rewrite colon.
    rewrite IH; [|lia|assumption|apply ok_blank; [assumption|reflexivity]|assumption].
    rewrite skip_app by assumption. reflexivity.
  - intros w1 k q w2 w3 v t w4 d u H1 Hq H2 H3 Ht IH H4 Hd IHd n rest Hn Hp. destruct n; [lia|]. inversion Hp; subst. cbn [snd] in *.
    rewrite !sapp_len in Hn. simpl in Hn. cbn [read_members]. rewrite !sapp_assoc, skip_app by assumption. 
    match goal with |- context [skip_blanks (q ++ ?r)] => destruct (read_key k q r Hq) as (r0 & -> & ->) end.
    rewrite skip_app by assumption. rewrite colon.
    rewrite IH; [|lia|assumption|apply ok_blank; [assumption|reflexivity]|assumption].
    rewrite skip_app by assumption. change ("," ++ u ++ "}" ++ rest)%string with (String "," (u ++ "}" ++ rest)).
    change (skip_blanks (String "," (u ++ "}" ++ rest))) with (String "," (u ++ "}" ++ rest)). cbv iota.
    change (Ascii.eqb "," "}") with false. change (Ascii.eqb "," ",") with true. cbv iota. rewrite IHd by (assumption || lia). reflexivity.
Qed.
Local Transparent append.

Lemma loads_document v s : document v s -> plain_data v -> loads s = Ok v.
Proof.
  intros (w1 & t & w2 & H1 & Ht & H2 & ->) Hp. unfold loads.
  rewrite (proj1 read_all v t); auto.
  - now rewrite skip_blank.
  - rewrite !sapp_len. lia.
  - rewrite <- (sapp_nil w2). apply ok_blank; [assumption|exact I].
Qed.

(* ------------------------------------------------------------------ *)
(** What is written is a text. *)

Lemma hex_digit_hexes n : n < 16 -> In (n, String (hex_digit n) "") hexes.
Proof. intros H. do 16 (destruct n as [|n]; [cbn; tauto|]). lia. Qed.
Lemma escape_character c : character (nat_of_ascii c) (escape c).
Proof.
  unfold escape. pose proof (nat_ascii_bounded c) as Hb.
  destruct (Nat.eqb_spec (nat_of_ascii c) 34) as [->|N1]; [constructor|].
  destruct (Nat.eqb_spec (nat_of_ascii c) 92) as [->|N2]; [constructor|].
  destruct (Nat.eqb_spec (nat_of_ascii c) 10) as [->|N3]; [constructor|].
  destruct (Nat.eqb_spec (nat_of_ascii c) 13) as [->|N4]; [constructor|].
  destruct (Nat.eqb_spec (nat_of_ascii c) 9) as [->|N5]; [constructor|].
  destruct (Nat.eqb_spec (nat_of_ascii c) 12) as [->|N6]; [constructor|].
  destruct (Nat.eqb_spec (nat_of_ascii c) 8) as [->|N7]; [constructor|].
  destruct (Nat.leb_spec 32 (nat_of_ascii c)); cbn [andb].
  1: destruct (Nat.leb_spec (nat_of_ascii c) 126).
  - rewrite <- (ascii_nat_embedding c) at 2. apply C_itself; assumption || lia.
  - rewrite (Nat.div_mod (nat_of_ascii c) 16) at 1 by lia.
    apply (C_u (nat_of_ascii c / 16) (nat_of_ascii c mod 16) (String (hex_digit (nat_of_ascii c / 16)) "") (String (hex_digit (nat_of_ascii c mod 16)) ""));
      apply hex_digit_hexes; [apply Nat.div_lt_upper_bound; lia|apply Nat.mod_upper_bound; lia].
  - rewrite (Nat.div_mod (nat_of_ascii c) 16) at 1 by lia.
    apply (C_u (nat_of_ascii c / 16) (nat_of_ascii c mod 16) (String (hex_digit (nat_of_ascii c / 16)) "") (String (hex_digit (nat_of_ascii c mod 16)) ""));
      apply hex_digit_hexes; [apply Nat.div_lt_upper_bound; lia|apply Nat.mod_upper_bound; lia].
Qed.
Lemma quoted_text s : string_text s (quoted s).
Proof.
  exists (escapes s). split; [|reflexivity]. induction s as [|c s IH]; [constructor|].
  cbn [escapes]. rewrite <- (ascii_nat_embedding c) at 1. constructor; [apply escape_character|exact IH].
Qed.

Lemma res_all_Forall2 {A B} (f : A -> res B) l ts : res_all (map f l) = Ok ts -> Forall2 (fun x t => f x = Ok t) l ts.
Proof.
  revert ts. induction l as [|x l IH]; simpl; intros ts H.
  - injection H as <-. constructor.
  - destruct (f x) as [t|] eqn:E; [|discriminate]. simpl in H. destruct (res_all (map f l)) as [ts'|]; [|discriminate].
    injection H as <-. constructor; auto.
Qed.
Lemma res_all_ok {A B} (f : A -> res B) l ts : Forall2 (fun x t => f x = Ok t) l ts -> res_all (map f l) = Ok ts.
Proof. induction 1; simpl; [reflexivity|]. rewrite H. simpl. rewrite IHForall2. reflexivity. Qed.

Lemma blank_space : blanks " ".
Proof. apply (B_more 32); [cbn; tauto|constructor]. Qed.
Lemma commas_elements l ts w : Forall2 text l ts -> l <> [] -> blanks w -> elements l (w ++ commas ts).
Proof.
  intros H. revert w. induction H as [|v t l ts Hv Hl IH]; intros w Hn Hw; [easy|].
  destruct Hl as [|v' t' l ts Hv' Hl].
  - cbn [commas]. rewrite <- (sapp_nil t). apply E_one; [assumption|assumption|constructor].
  - change (commas (t :: t' :: ts)) with (t ++ ", " ++ commas (t' :: ts))%string.
    change (t ++ ", " ++ commas (t' :: ts))%string with (t ++ "" ++ "," ++ (" " ++ commas (t' :: ts)))%string.
    apply E_more; [assumption|assumption|constructor|]. apply IH; [discriminate|apply blank_space].
Qed.
Definition member_text (kv : string * pyval) (t : string) : Prop := exists u, text (snd kv) u /\ t = (quoted (fst kv) ++ ": " ++ u)%string.
Lemma commas_members d ts w : Forall2 member_text d ts -> d <> [] -> blanks w -> members d (w ++ commas ts).
Proof.
  intros H. revert w. induction H as [|[k v] t l ts (u & Hu & ->) Hl IH]; intros w Hn Hw; [easy|]. cbn [fst snd] in *.
  destruct Hl as [|v' t' l ts Hv' Hl].
  - cbn [commas]. rewrite <- (sapp_nil u).
    change (quoted k ++ ": " ++ u ++ "")%string with (quoted k ++ "" ++ ":" ++ " " ++ u ++ "")%string.
    apply M_one; [assumption|apply quoted_text|constructor|apply blank_space|assumption|constructor].
  - change (commas (_ :: t' :: ts)) with ((quoted k ++ ": " ++ u) ++ ", " ++ commas (t' :: ts))%string. rewrite !sapp_assoc.
    change (quoted k ++ ": " ++ u ++ ", " ++ commas (t' :: ts))%string with (quoted k ++ "" ++ ":" ++ " " ++ u ++ "" ++ "," ++ (" " ++ commas (t' :: ts)))%string.
    apply M_more; [assumption|apply quoted_text|constructor|apply blank_space|assumption|constructor|].
    apply IH; [discriminate|apply blank_space].
Qed.

Lemma dumps_text v : forall s, dumps v = Ok s -> text v s.
Proof.
  induction v using pyval_ind'; intros tx Ht; try discriminate; cbn in Ht.
  - injection Ht as <-. constructor.
  - injection Ht as <-. destruct b; constructor.
  - injection Ht as <-. constructor.
  - injection Ht as <-. constructor. apply quoted_text.
  - destruct (res_all (map dumps l)) as [ts|] eqn:E; [|discriminate]. injection Ht as <-.
    apply res_all_Forall2 in E. destruct l as [|x l].
    + inversion E; subst. apply (T_array0 ""). constructor.
    + change ("[" ++ commas ts ++ "]")%string with ("[" ++ ("" ++ commas ts) ++ "]")%string. apply T_array.
      apply (commas_elements _ _ ""); [|discriminate|constructor].
      clear -H E. induction E; inversion H; subst; constructor; auto.
  - match type of Ht with rbind ?m _ = _ => destruct m as [ts|] eqn:E end; [|discriminate]. injection Ht as <-.
    apply res_all_Forall2 in E. destruct d as [|x l].
    + inversion E; subst. apply (T_object0 ""). constructor.
    + change ("{" ++ commas ts ++ "}")%string with ("{" ++ ("" ++ commas ts) ++ "}")%string. apply T_object.
      apply (commas_members _ _ ""); [|discriminate|constructor].
      clear -H E. induction E as [|[k v] t0 l0 ts0 Ht El IH]; inversion H; subst; constructor; auto.
      cbn [fst snd] in *. destruct (dumps v) as [u|] eqn:Eu; [|discriminate]. injection Ht as <-. exists u. split; [auto|reflexivity].
Qed.
Lemma dumps_plain v : plain_data v -> exists s, dumps v = Ok s.
Proof.
  induction v using pyval_ind'; intros Hp; inversion Hp; subst; try (cbn; eauto; fail).
  - cbn. assert (E : exists ts, Forall2 (fun x t => dumps x = Ok t) l ts).
    { clear Hp. induction l as [|x l IH]; [exists []; constructor|]. apply Forall_cons_iff in H as [Hx Hl]. apply Forall_cons_iff in H1 as [Px Pl].
      destruct (Hx Px) as [t Ht]. destruct (IH Hl Pl) as [ts Hts]. exists (t :: ts). now constructor. }
    destruct E as [ts E]. rewrite (res_all_ok _ _ _ E). cbn. eauto.
  - cbn [dumps]. assert (E : exists ts, Forall2 (fun kv t => (let+ t := dumps (snd kv) in Ok (quoted (fst kv) ++ ": " ++ t)%string) = Ok t) d ts).
    { clear Hp H1. induction d as [|x l IH]; [exists []; constructor|]. apply Forall_cons_iff in H as [Hx Hl]. apply Forall_cons_iff in H2 as [Px Pl].
      destruct (Hx Px) as [t Ht]. destruct (IH Hl Pl) as [ts Hts]. eexists (_ :: ts). constructor; [|exact Hts]. rewrite Ht. reflexivity. }
    destruct E as [ts E]. rewrite (res_all_ok _ _ _ E). cbn [rbind]. eauto.
Qed.
Lemma text_document v t : text v t -> document v t.
Proof. intros H. exists "", t, "". repeat split; try constructor; auto. cbn. now rewrite sapp_nil. Qed.
(** Texts are unambiguous. *)
Lemma document_unique v v' s : document v s -> document v' s -> plain_data v -> plain_data v' -> v = v'.
Proof. intros H H' P P'. apply loads_document in H; [|assumption]. apply loads_document in H'; [|assumption]. congruence. Qed.

(* ------------------------------------------------------------------ *)
(** to_json. *)

Section Means.
  Variable classes : nat -> list field.
  Hypothesis Hnames : forall cls, NoDup (map f_pulumi (classes cls)).

  (** The loop of input_type_to_dict. *)
  Lemma props_loop (fields : dict pyval) fs : forall acc,
    NoDup (map f_pulumi fs) -> (forall f, In f fs -> ~ In (f_pulumi f) (dkeys acc)) ->
    fold_left (fun acc f =>
        match dget (map (fun kv => (fst kv, (is_none (snd kv), to_serializable classes (snd kv)))) fields) (f_py f) with
        | Some (false, x) => dset acc (f_pulumi f) x
        | _ => acc
        end) fs acc
    = acc ++ map (fun kv => (fst kv, to_serializable classes (snd kv))) (given fields fs).
  Proof.
    assert (Hget : forall k, dget (map (fun kv => (fst kv, (is_none (snd kv), to_serializable classes (snd kv)))) fields) k
        = option_map (fun x => (is_none x, to_serializable classes x)) (dget fields k)).
    { intros k. induction fields as [|[k' x] fields IH]; [reflexivity|]. simpl. destruct (String.eqb k k'); [reflexivity|exact IH]. }
    induction fs as [|f fs IH]; intros acc Hn Ha; simpl.
    - now rewrite app_nil_r.
    - simpl in Hn. inversion Hn; subst. rewrite Hget.
      assert (Hd : forall x, dset acc (f_pulumi f) x = acc ++ [(f_pulumi f, x)]).
      { intros x. assert (Hk : ~ In (f_pulumi f) (dkeys acc)) by (apply Ha; now left). clear -Hk.
        induction acc as [|[k' v'] acc IH]; [reflexivity|]. simpl in *.
        destruct (String.eqb_spec (f_pulumi f) k') as [Ek|]; [exfalso; apply Hk; left; exact (eq_sym Ek)|]. rewrite IH by (intros Hi; apply Hk; now right). reflexivity. }
      assert (Hstep : forall x, fold_left (fun acc f =>
          match dget (map (fun kv => (fst kv, (is_none (snd kv), to_serializable classes (snd kv)))) fields) (f_py f) with
          | Some (false, x) => dset acc (f_pulumi f) x
          | _ => acc
          end) fs (dset acc (f_pulumi f) x) = acc ++ (f_pulumi f, x) :: map (fun kv => (fst kv, to_serializable classes (snd kv))) (given fields fs)).
      { intros x. rewrite IH; [|assumption|].
        - rewrite Hd, <- app_assoc. reflexivity.
        - intros g Hg Hin. apply dkeys_dset in Hin as [E|Hin].
          + apply H1. rewrite <- E. now apply in_map.
          + revert Hin. apply Ha. now right. }
      destruct (dget fields (f_py f)) as [x|] eqn:E; cbn [option_map].
      + destruct x; cbn [is_none]; try apply Hstep.
        apply IH; [assumption|]. intros g Hg. apply Ha. now right.
      + apply IH; [assumption|]. intros g Hg. apply Ha. now right.
  Qed.
  Lemma serializable_input cls fields :
    to_serializable classes (VInput cls fields) = VDict (map (fun kv => (fst kv, to_serializable classes (snd kv))) (given fields (classes cls))).
  Proof. cbn [to_serializable]. rewrite props_loop; [reflexivity|apply Hnames|easy]. Qed.

  Lemma given_Forall (P : pyval -> Prop) fields fs : Forall (fun kv => P (snd kv)) fields -> Forall (fun kv => P (snd kv)) (given fields fs).
  Proof.
    intros H. apply Forall_forall. intros [p x] Hin. unfold given in Hin. apply in_flat_map in Hin as (f & Hf & Hin).
    destruct (dget fields (f_py f)) as [y|] eqn:E; [|easy].
    assert (Hy : P y). { rewrite Forall_forall in H. apply dget_In in E. exact (H _ E). }
    destruct y; cbn in Hin; try (destruct Hin as [[= <- <-]|[]]; exact Hy). easy.
  Qed.

  Lemma means_dict_map (d d' : dict pyval) :
    Forall (fun kv => forall d, means classes (snd kv) d -> to_serializable classes (snd kv) = d) d ->
    Forall2 (fun kv kv' => fst kv = fst kv' /\ means classes (snd kv) (snd kv')) d d' ->
    map (fun kv => (fst kv, to_serializable classes (snd kv))) d = d'.
  Proof.
    intros H H2. revert H. induction H2 as [|[k v] [k' v'] d d' [E Hm] H2 IH]; intros H; [reflexivity|].
    apply Forall_cons_iff in H as [Hv H]. cbn [fst snd map] in *. rewrite (Hv _ Hm), (IH H), E. reflexivity.
  Qed.
  Lemma means_serializable v : forall d, means classes v d -> to_serializable classes v = d.
  Proof.
    induction v using pyval_ind'; intros d0 Hm; inversion Hm; subst; try reflexivity.
    - cbn. f_equal. clear Hm. induction H1 as [|x y l l' Hxy Hl IH]; [reflexivity|].
      apply Forall_cons_iff in H as [Hx H]. cbn. rewrite (Hx _ Hxy), (IH H). reflexivity.
    - cbn. f_equal. now apply means_dict_map.
    - rewrite serializable_input. f_equal. apply means_dict_map; [|assumption].
      apply (given_Forall (fun v => forall d, means classes v d -> to_serializable classes v = d)). assumption.
  Qed.

  Lemma serializable_means v : forall s, dumps (to_serializable classes v) = Ok s -> means classes v (to_serializable classes v).
  Proof.
    assert (Hd : forall d ts, Forall (fun kv => forall s, dumps (to_serializable classes (snd kv)) = Ok s -> means classes (snd kv) (to_serializable classes (snd kv))) d ->
      res_all (map (fun kv => let+ t := dumps (snd kv) in Ok (quoted (fst kv) ++ ": " ++ t)%string) (map (fun kv => (fst kv, to_serializable classes (snd kv))) d)) = Ok ts ->
      Forall2 (fun kv kv' => fst kv = fst kv' /\ means classes (snd kv) (snd kv')) d (map (fun kv => (fst kv, to_serializable classes (snd kv))) d)).
    { induction d as [|[k x] d IH]; intros ts H E; [constructor|]. cbn [map res_all fst snd] in *.
      apply Forall_cons_iff in H as [Hx H]. cbn [fst snd] in Hx.
      destruct (dumps (to_serializable classes x)) as [t|] eqn:Ex; [|discriminate]. cbn [rbind] in E.
      destruct (res_all _) as [ts'|] eqn:E2; [|discriminate]. constructor; [split; [reflexivity|exact (Hx _ eq_refl)]|]. exact (IH ts' H eq_refl). }
    induction v using pyval_ind'; intros s0 Hs; try discriminate; try (constructor; fail).
    - cbn in Hs. destruct (res_all _) as [ts|] eqn:E; [|discriminate]. cbn [to_serializable]. constructor. clear Hs. revert ts E.
      induction l as [|x l IH]; intros ts E; [constructor|]. apply Forall_cons_iff in H as [Hx H]. cbn [map res_all] in *.
      destruct (dumps (to_serializable classes x)) as [t|] eqn:Ex; [|discriminate]. cbn [rbind] in E.
      destruct (res_all _) as [ts'|] eqn:E2; [|discriminate]. constructor; [exact (Hx _ eq_refl)|]. exact (IH H ts' eq_refl).
    - cbn [to_serializable dumps] in *. destruct (res_all _) as [ts|] eqn:E; [|discriminate]. constructor. now apply (Hd d ts).
    - rewrite serializable_input in *. cbn [dumps] in Hs. destruct (res_all _) as [ts|] eqn:E; [|discriminate]. constructor. apply (Hd _ ts); [|exact E].
      apply (given_Forall (fun v => forall s, dumps (to_serializable classes v) = Ok s -> means classes v (to_serializable classes v))). assumption.
  Qed.
End Means.

Lemma res_all_err {A B} (f : A -> res B) l e : res_all (map f l) = Err e -> exists x, In x l /\ f x = Err e.
Proof.
  induction l as [|x l IH]; [discriminate|]. cbn. destruct (f x) as [t|e'] eqn:E; cbn.
  - destruct (res_all (map f l)) as [ts|e'']; cbn; [discriminate|]. intros [= ->]. destruct (IH eq_refl) as (y & Hy & Ey). exists y. auto.
  - intros [= ->]. exists x. auto.
Qed.
Lemma dumps_error v : forall e, dumps v = Err e -> exists m, e = Exn "TypeError" m.
Proof.
  induction v using pyval_ind'; intros e He; try discriminate; try (injection He as <-; eauto; fail).
  - cbn in He. destruct (res_all _) as [ts|e'] eqn:E; [discriminate|]. injection He as <-.
    apply res_all_err in E as (x & Hx & Ex). rewrite Forall_forall in H. eauto.
  - cbn [dumps] in He. destruct (res_all _) as [ts|e'] eqn:E; [discriminate|]. injection He as <-.
    apply res_all_err in E as (x & Hx & Ex). rewrite Forall_forall in H.
    destruct (dumps (snd x)) eqn:E2; [discriminate|]. injection Ex as <-. exact (H x Hx _ E2).
Qed.
