(** Proofs about default providers. *)
From Coq Require Import List Bool Ascii String Arith Lia.
From Verif Require Import Model_DefaultProv Spec_DefaultProv.
Import ListNotations.

Lemma text_eqb_true a b : text_eqb a b = true <-> a = b.
Proof. unfold text_eqb; destruct (list_eq_dec ascii_dec a b); split; congruence. Qed.

Lemma split_first (c : ascii) a1 a2 b1 b2 :
  ~ In c a1 -> ~ In c a2 -> a1 ++ c :: b1 = a2 ++ c :: b2 -> a1 = a2 /\ b1 = b2.
Proof.
  revert a2; induction a1 as [|x a1 IH]; intros [|y a2] N1 N2 E; cbn in *.
  - inversion E; auto.
  - inversion E; subst. exfalso; apply N2; auto.
  - inversion E; subst. exfalso; apply N1; auto.
  - inversion E; subst.
    destruct (IH a2) as [-> ->]; auto.
Qed.

Lemma split_last (c : ascii) a1 a2 b1 b2 :
  ~ In c b1 -> ~ In c b2 -> a1 ++ c :: b1 = a2 ++ c :: b2 -> a1 = a2 /\ b1 = b2.
Proof.
  intros N1 N2 E.
  apply (f_equal (@rev ascii)) in E.
  rewrite !rev_app_distr in E; cbn in E; rewrite <- !app_assoc in E; cbn in E.
  apply split_first in E.
  - destruct E as [E1 E2].
    apply (f_equal (@rev ascii)) in E1, E2. rewrite !rev_involutive in *. auto.
  - rewrite <- in_rev; auto.
  - rewrite <- in_rev; auto.
Qed.

Lemma digits_no t c : digits t -> ~ (48 <= nat_of_ascii c <= 57) -> ~ In c t.
Proof. intros [_ D] N I; auto. Qed.

Lemma join_no sep c l :
  c <> sep -> Forall (fun t => ~ In c t) l -> ~ In c (join sep l).
Proof.
  intros N F. induction F as [|x l Fx F IH]; cbn; auto.
  destruct l as [|y l]; auto.
  intros I. apply in_app_or in I. destruct I as [I|[I|I]]; auto.
Qed.

Lemma join_inj sep l1 l2 :
  Forall (fun t => ~ In sep t) l1 -> Forall (fun t => ~ In sep t) l2 ->
  l1 <> [] -> l2 <> [] -> join sep l1 = join sep l2 -> l1 = l2.
Proof.
  intros F1; revert l2. induction F1 as [|x l1 Fx F1 IH]; intros l2 F2 N1 N2 E; [congruence|].
  destruct F2 as [|y l2 Fy F2]; [congruence|].
  destruct l1 as [|x' l1], l2 as [|y' l2].
  - cbn in E; congruence.
  - cbn [join] in E. exfalso; apply Fx. rewrite E. apply in_or_app; right; left; auto.
  - cbn [join] in E. exfalso; apply Fy. rewrite <- E. apply in_or_app; right; left; auto.
  - change (x ++ sep :: join sep (x' :: l1) = y ++ sep :: join sep (y' :: l2)) in E.
    apply split_first in E; auto. destruct E as [-> E].
    f_equal. apply IH; auto; discriminate.
Qed.

Definition pre_string (l : list text) : text :=
  match l with [] => [] | l => "-"%char :: join "."%char l end.
Definition build_string (l : list text) : text :=
  match l with [] => [] | l => "+"%char :: join "."%char l end.

Lemma part_no c l : c <> "."%char -> Forall part l -> (forall t, part t -> ~ In c t) ->
  ~ In c (join "."%char l).
Proof.
  intros N F P. apply join_no; auto.
  eapply Forall_impl; [|exact F]; auto.
Qed.

Lemma parts_dot l : Forall part l -> Forall (fun t => ~ In "."%char t) l.
Proof. intros F; eapply Forall_impl; [|exact F]; intros t [_ [D _]]; exact D. Qed.

Lemma pre_no_plus l : Forall part l -> ~ In "+"%char (pre_string l).
Proof.
  destruct l as [|x l]; [intros _ []|]. intros F [E|I]; [discriminate E|].
  revert I. apply part_no; auto; [discriminate|]. intros t [_ [_ [P _]]]; exact P.
Qed.

Lemma pre_inj l1 l2 : Forall part l1 -> Forall part l2 -> pre_string l1 = pre_string l2 -> l1 = l2.
Proof.
  intros F1 F2 E. destruct l1 as [|x l1], l2 as [|y l2]; cbn [pre_string] in E; auto; try discriminate E.
  inversion E. apply (join_inj "."%char); auto using parts_dot; discriminate.
Qed.

Lemma build_inj l1 l2 : Forall part l1 -> Forall part l2 -> build_string l1 = build_string l2 -> l1 = l2.
Proof.
  intros F1 F2 E. destruct l1 as [|x l1], l2 as [|y l2]; cbn [build_string] in E; auto; try discriminate E.
  inversion E. apply (join_inj "."%char); auto using parts_dot; discriminate.
Qed.

Lemma prebuild_inj p1 p2 b1 b2 :
  Forall part p1 -> Forall part p2 -> Forall part b1 -> Forall part b2 ->
  pre_string p1 ++ build_string b1 = pre_string p2 ++ build_string b2 -> p1 = p2 /\ b1 = b2.
Proof.
  intros P1 P2 B1 B2 E.
  assert (N1 := pre_no_plus _ P1). assert (N2 := pre_no_plus _ P2).
  destruct b1 as [|x b1], b2 as [|y b2]; cbn [build_string] in E.
  - rewrite !app_nil_r in E. split; auto using pre_inj.
  - rewrite app_nil_r in E. exfalso; apply N1. rewrite E. apply in_or_app; right; left; auto.
  - rewrite app_nil_r in E. exfalso; apply N2. rewrite <- E. apply in_or_app; right; left; auto.
  - apply split_first in E; auto. destruct E as [E1 E2].
    split; [auto using pre_inj|]. apply (join_inj "."%char); auto using parts_dot; discriminate.
Qed.

(** Digits end where a pre-release or build begins. *)
Lemma patch_inj a1 a2 s1 s2 :
  digits a1 -> digits a2 ->
  (forall c t, s1 = c :: t -> ~ (48 <= nat_of_ascii c <= 57)) ->
  (forall c t, s2 = c :: t -> ~ (48 <= nat_of_ascii c <= 57)) ->
  a1 ++ s1 = a2 ++ s2 -> a1 = a2 /\ s1 = s2.
Proof.
  intros [_ D1] [_ D2] H1 H2. revert a2 D2. induction a1 as [|x a1 IH]; intros [|y a2] D2 E; cbn in *; auto.
  - exfalso. eapply H1; [exact E|]. apply D2; auto.
  - exfalso. eapply H2; [symmetry; exact E|]. apply D1; auto.
  - inversion E; subst. destruct (IH (fun c I => D1 c (or_intror I)) a2) as [-> ->]; auto.
Qed.

Lemma tail_head p b : forall c t, pre_string p ++ build_string b = c :: t -> ~ (48 <= nat_of_ascii c <= 57).
Proof.
  intros c t E. destruct p, b; cbn in E; try discriminate E;
    inversion E; subst; cbn; lia.
Qed.

Lemma version_string_alt v :
  version_string v = v_major v ++ "."%char :: v_minor v ++ "."%char :: v_patch v
                       ++ pre_string (v_pre v) ++ build_string (v_build v).
Proof. unfold version_string, pre_string, build_string. destruct (v_pre v), (v_build v); reflexivity. Qed.

Lemma colon_pre l : Forall part l -> ~ In ":"%char (pre_string l).
Proof.
  destruct l as [|x l]; [intros _ []|]. intros F [E|I]; [discriminate E|].
  revert I. apply part_no; auto; [discriminate|]. intros t [_ [_ [_ P]]]; exact P.
Qed.
Lemma colon_build l : Forall part l -> ~ In ":"%char (build_string l).
Proof.
  destruct l as [|x l]; [intros _ []|]. intros F [E|I]; [discriminate E|].
  revert I. apply part_no; auto; [discriminate|]. intros t [_ [_ [_ P]]]; exact P.
Qed.

Lemma version_no_colon v : proper_version v -> ~ In ":"%char (version_string v).
Proof.
  intros (D1 & D2 & D3 & P & B). rewrite version_string_alt. intros I.
  apply in_app_or in I; destruct I as [I|[I|I]]; [exact (digits_no _ ":"%char D1 ltac:(cbn; lia) I)|discriminate I|].
  apply in_app_or in I; destruct I as [I|[I|I]]; [exact (digits_no _ ":"%char D2 ltac:(cbn; lia) I)|discriminate I|].
  apply in_app_or in I; destruct I as [I|I]; [exact (digits_no _ ":"%char D3 ltac:(cbn; lia) I)|].
  apply in_app_or in I; destruct I as [I|I]; [exact (colon_pre _ P I)|exact (colon_build _ B I)].
Qed.

Definition base (r : request) : text :=
  r_pkg r ++ match r_version r with None => [] | Some v => "-"%char :: version_string v end.

Definition proper_request (r : request) : Prop :=
  proper_package (r_pkg r) /\ (forall v, r_version r = Some v -> proper_version v) /\ proper_url (r_url r).

Lemma base_no_colon r : proper_request r -> ~ In ":"%char (base r).
Proof.
  intros ([_ P] & V & _) I. unfold base in I. apply in_app_or in I. destruct I as [I|I]; [auto|].
  destruct (r_version r) as [v|]; [|destruct I].
  destruct I as [I|I]; [discriminate I|]. revert I. apply version_no_colon; auto.
Qed.

Lemma base_inj r1 r2 :
  proper_request r1 -> proper_request r2 -> base r1 = base r2 ->
  r_pkg r1 = r_pkg r2 /\ r_version r1 = r_version r2.
Proof.
  intros ([P1 _] & V1 & _) ([P2 _] & V2 & _) E. unfold base in E.
  destruct (r_version r1) as [v1|], (r_version r2) as [v2|].
  - specialize (V1 _ eq_refl). specialize (V2 _ eq_refl).
    destruct V1 as (D1 & D2 & D3 & Q1 & B1). destruct V2 as (D4 & D5 & D6 & Q2 & B2).
    rewrite !version_string_alt in E.
    assert (N1 : forall v p, digits (v_major v) -> without "."%char p -> ~ In "."%char (p ++ "-"%char :: v_major v)).
    { intros v p D P I. apply in_app_or in I. destruct I as [I|[I|I]]; [auto|discriminate I|].
      revert I; apply digits_no; auto; cbn; lia. }
    assert (E' : (r_pkg r1 ++ "-"%char :: v_major v1) ++ "."%char :: v_minor v1 ++ "."%char :: v_patch v1
                   ++ pre_string (v_pre v1) ++ build_string (v_build v1)
               = (r_pkg r2 ++ "-"%char :: v_major v2) ++ "."%char :: v_minor v2 ++ "."%char :: v_patch v2
                   ++ pre_string (v_pre v2) ++ build_string (v_build v2)).
    { rewrite <- !app_assoc. exact E. }
    apply split_first in E'; [|apply N1; auto|apply N1; auto].
    destruct E' as [Ea Eb].
    apply split_last in Ea; [|apply digits_no; auto; cbn; lia|apply digits_no; auto; cbn; lia].
    destruct Ea as [Ep Em].
    apply split_first in Eb; [|apply digits_no; auto; cbn; lia|apply digits_no; auto; cbn; lia].
    destruct Eb as [En Ec].
    apply patch_inj in Ec; auto; try apply tail_head.
    destruct Ec as [Eo Ed].
    apply prebuild_inj in Ed; auto. destruct Ed as [Ee Ef].
    split; auto. destruct v1, v2; cbn in *; congruence.
  - exfalso. rewrite app_nil_r in E. apply P2. rewrite <- E.
    apply in_or_app; right. right. rewrite version_string_alt. apply in_or_app; right; left; auto.
  - exfalso. rewrite app_nil_r in E. apply P1. rewrite E.
    apply in_or_app; right. right. rewrite version_string_alt. apply in_or_app; right; left; auto.
  - rewrite !app_nil_r in E. auto.
Qed.

Lemma request_string_alt r :
  request_string r = base r ++ match r_url r with [] => [] | u => "-"%char :: u end.
Proof. unfold request_string, base. rewrite <- app_assoc. reflexivity. Qed.

Lemma url_colon u : proper_url u -> u <> [] -> In ":"%char u.
Proof.
  intros [->|(s & rest & c & -> & _)]; [congruence|]. intros _. apply in_or_app; right; left; auto.
Qed.

Lemma string_inj r1 r2 :
  proper_request r1 -> proper_request r2 -> request_string r1 = request_string r2 -> r1 = r2.
Proof.
  intros R1 R2 E. rewrite !request_string_alt in E.
  assert (C1 := base_no_colon _ R1). assert (C2 := base_no_colon _ R2).
  assert (H : base r1 = base r2 /\ r_url r1 = r_url r2).
  { destruct R1 as (_ & _ & U1). destruct R2 as (_ & _ & U2).
    destruct (r_url r1) as [|x u1] eqn:E1, (r_url r2) as [|y u2] eqn:E2.
    - rewrite !app_nil_r in E; auto.
    - exfalso. rewrite app_nil_r in E. apply C1. rewrite E. apply in_or_app; right; right.
      apply url_colon; [auto|discriminate].
    - exfalso. rewrite app_nil_r in E. apply C2. rewrite <- E. apply in_or_app; right; right.
      apply url_colon; [auto|discriminate].
    - destruct U1 as [U1|(s1 & t1 & c1 & U1 & _ & N1 & M1)]; [discriminate U1|].
      destruct U2 as [U2|(s2 & t2 & c2 & U2 & _ & N2 & M2)]; [discriminate U2|].
      rewrite U1, U2 in *.
      assert (E' : (base r1 ++ "-"%char :: s1) ++ ":"%char :: t1 ++ [c1]
                 = (base r2 ++ "-"%char :: s2) ++ ":"%char :: t2 ++ [c2])
        by (rewrite <- !app_assoc; exact E).
      assert (N : forall r s, ~ In ":"%char (base r) -> without ":"%char s -> ~ In ":"%char (base r ++ "-"%char :: s)).
      { intros r s A B I. apply in_app_or in I. destruct I as [I|[I|I]]; auto. discriminate I. }
      apply split_first in E'; [|apply N; auto|apply N; auto].
      destruct E' as [Ea Eb].
      apply split_last in Ea; auto. destruct Ea as [Ea ->]. split; auto. rewrite Eb; auto. }
  destruct H as [Hb Hu]. destruct (base_inj _ _ R1 R2 Hb) as [Hp Hv].
  destruct r1, r2; cbn in *; congruence.
Qed.

(** URLs. *)
Lemma trim_app u : trim_slash (u ++ ["/"%char]) = u.
Proof. unfold trim_slash. rewrite rev_app_distr; cbn. apply rev_involutive. Qed.

Lemma trim_other u c : c <> "/"%char -> trim_slash (u ++ [c]) = u ++ [c].
Proof.
  intros N. unfold trim_slash. rewrite rev_app_distr; cbn [rev app].
  destruct c as [[] [] [] [] [] [] [] []]; try reflexivity. congruence.
Qed.

Lemma trim_proper u : proper_url u -> trim_slash u = u.
Proof.
  intros [->|(s & rest & c & -> & N & _)]; [reflexivity|].
  rewrite app_comm_cons, app_assoc. apply trim_other; auto.
Qed.

Lemma request_url c u : asks_url c u -> r_url (request_of c) = u.
Proof.
  intros [P A]. unfold request_of, parse_request, new_request.
  assert (E : trim_slash (c_url c) = u).
  { destruct A as [->|[_ ->]]; [apply trim_proper; auto|apply trim_app]. }
  destruct (c_version c); cbn [r_url]; rewrite E; auto using trim_proper.
Qed.

Lemma request_pkg c : r_pkg (request_of c) = c_pkg c.
Proof. unfold request_of, parse_request; destruct (c_version c); reflexivity. Qed.
Lemma request_version c : r_version (request_of c) = c_version c.
Proof. unfold request_of, parse_request; destruct (c_version c); reflexivity. Qed.

Lemma request_proper c : proper c -> proper_request (request_of c).
Proof.
  intros (P & V & u & U). red. rewrite request_pkg, request_version, (request_url _ _ U).
  split; [auto|split; [auto|]]. exact (proj1 U).
Qed.

Lemma same_request c d : same c d -> request_of c = request_of d.
Proof.
  intros (P & V & U). unfold request_of, parse_request, new_request. rewrite P, V.
  assert (E : trim_slash (c_url c) = trim_slash (c_url d)).
  { destruct U as [->|(u & x & N & [[-> ->]|[-> ->]])]; auto;
      change (u ++ [x; "/"%char]) with (u ++ [x] ++ ["/"%char]);
      rewrite app_assoc, trim_app, trim_other; auto. }
  rewrite E. reflexivity.
Qed.

(** Runs. *)
Section Run.
Context (s : setting) (config : text -> option text)
  (defaults : text -> option version * text) (engine : nat -> option text).

Definition backs (st : state) (k : text) (f : ref) : Prop :=
  exists n r ev id, nth_error (s_log st) n = Some (r, ev) /\ request_string r = k
    /\ new_event config defaults r = Some ev /\ engine n = Some id /\ f = made ev id.

Record inv (P : request -> Prop) (st : state) : Prop := {
  i_cache : forall k f, lookup k (s_cache st) = Some f -> backs st k f;
  i_log : s_cancelled st = false ->
          forall r ev, In (r, ev) (s_log st) -> lookup (request_string r) (s_cache st) <> None;
  i_nodup : NoDup (map (fun e => request_string (fst e)) (s_log st));
  i_from : forall r ev, In (r, ev) (s_log st) ->
           P r /\ should_deny s (r_pkg r) = Some false /\ new_event config defaults r = Some ev }.

Definition grows (st st' : state) : Prop := exists l, s_log st' = s_log st ++ l.

Lemma backs_grows st st' k f : grows st st' -> backs st k f -> backs st' k f.
Proof.
  intros [l E] (n & r & ev & id & N & K & V & G & F).
  exists n, r, ev, id. split; [|auto]. rewrite E, nth_error_app1; auto.
  apply nth_error_Some. congruence.
Qed.

Lemma handle_ok P st r st' a :
  inv P st -> P r -> handle s config defaults engine st r = (st', a) ->
  inv P st' /\ grows st st' /\ (forall f, a = Got f -> backs st' (request_string r) f
     /\ should_deny s (r_pkg r) = Some false)
  /\ (a = Denied -> should_deny s (r_pkg r) = Some true)
  /\ (a = Failed -> should_deny s (r_pkg r) = None \/ config (r_pkg r) = None)
  /\ (a = Cancelled -> s_cancelled st' = true).
Proof.
  intros I Pr H. unfold handle in H.
  destruct (s_cancelled st) eqn:C.
  { inversion H; subst. split; [auto|split; [exists []; rewrite app_nil_r; auto|]].
    repeat split; intros; try discriminate; auto. }
  destruct (should_deny s (r_pkg r)) as [[]|] eqn:D.
  { inversion H; subst. split; [auto|split; [exists []; rewrite app_nil_r; auto|]].
    split; [intros; discriminate|]. repeat split; intros; try discriminate; auto. }
  2:{ inversion H; subst. split; [auto|split; [exists []; rewrite app_nil_r; auto|]].
    split; [intros; discriminate|]. repeat split; intros; try discriminate; auto. }
  destruct (lookup (request_string r) (s_cache st)) as [f|] eqn:L.
  { inversion H; subst. split; [auto|split; [exists []; rewrite app_nil_r; auto|]].
    split.
    - intros f0 E; inversion E; subst. split; auto. apply (i_cache _ _ I); auto.
    - repeat split; intros; discriminate. }
  destruct (new_event config defaults r) as [ev|] eqn:V.
  2:{ inversion H; subst. split; [auto|split; [exists []; rewrite app_nil_r; auto|]].
    split; [intros; discriminate|]. split; [intros; discriminate|]. split; [|intros; discriminate].
    intros _; right. unfold new_event in V. destruct (config (r_pkg r)); [discriminate|auto]. }
  assert (ND : NoDup (map (fun e => request_string (fst e)) (s_log st ++ [(r, ev)]))).
  { rewrite map_app. cbn [map fst]. assert (ND0 := NoDup_rev (i_nodup _ _ I)).
    rewrite <- (rev_involutive (map _ (s_log st) ++ [request_string r])).
    apply NoDup_rev. rewrite rev_app_distr; cbn [rev app]. constructor; auto.
    rewrite <- in_rev. intros Hin. apply in_map_iff in Hin. destruct Hin as ([r0 ev0] & E & Hin).
    cbn [fst] in E. apply (i_log _ _ I C _ _ Hin). rewrite E; auto. }
  assert (FR : forall r0 ev0, In (r0, ev0) (s_log st ++ [(r, ev)]) ->
     P r0 /\ should_deny s (r_pkg r0) = Some false /\ new_event config defaults r0 = Some ev0).
  { intros r0 ev0 Hin. apply in_app_or in Hin. destruct Hin as [Hin|[Hin|[]]].
    - eapply i_from; eauto.
    - inversion Hin; subst; auto. }
  destruct (engine (List.length (s_log st))) as [id|] eqn:G; inversion H; subst; clear H.
  - assert (GR : grows st {| s_cache := (request_string r, made ev id) :: s_cache st;
        s_log := s_log st ++ [(r, ev)]; s_cancelled := false |}) by (exists [(r, ev)]; auto).
    assert (B : backs {| s_cache := (request_string r, made ev id) :: s_cache st;
        s_log := s_log st ++ [(r, ev)]; s_cancelled := false |} (request_string r) (made ev id)).
    { exists (List.length (s_log st)), r, ev, id. cbn [s_log].
      rewrite nth_error_app2, Nat.sub_diag by auto. cbn; auto. }
    split; [|split; [auto|split; [|repeat split; intros; discriminate]]].
    + constructor; cbn [s_cache s_log s_cancelled]; auto.
      * intros k f Lk. cbn [lookup] in Lk. destruct (text_eqb k (request_string r)) eqn:T.
        -- apply text_eqb_true in T. inversion Lk; subst; auto.
        -- eapply backs_grows; [exact GR|]. apply (i_cache _ _ I); auto.
      * intros _ r0 ev0 Hin. cbn [lookup]. destruct (text_eqb _ _) eqn:T; [discriminate|].
        apply in_app_or in Hin. destruct Hin as [Hin|[Hin|[]]].
        -- apply (i_log _ _ I C _ _ Hin).
        -- inversion Hin; subst. assert (X : request_string r0 = request_string r0) by auto.
           apply text_eqb_true in X. congruence.
    + intros f E; inversion E; subst; auto.
  - assert (GR : grows st {| s_cache := s_cache st;
        s_log := s_log st ++ [(r, ev)]; s_cancelled := true |}) by (exists [(r, ev)]; auto).
    split; [|split; [auto|split; [intros; discriminate|repeat split; intros; try discriminate; auto]]].
    constructor; cbn [s_cache s_log s_cancelled]; auto.
    + intros k f Lk. eapply backs_grows; [exact GR|]. apply (i_cache _ _ I); auto.
    + discriminate.
Qed.

Lemma grows_refl st : grows st st.
Proof. exists []; rewrite app_nil_r; auto. Qed.
Lemma grows_trans a b c : grows a b -> grows b c -> grows a c.
Proof. intros [l E] [m F]. exists (l ++ m). rewrite F, E, app_assoc; auto. Qed.

(** What is true of each answer, seen from the end of the run. *)
Definition answered (st : state) (c : call) (a : answer) : Prop :=
  (forall f, c_explicit c = Some f -> a = Got f)
  /\ (c_explicit c = None ->
      (forall f, a = Got f -> backs st (request_string (request_of c)) f
                 /\ should_deny s (c_pkg c) = Some false)
      /\ (a = Denied -> should_deny s (c_pkg c) = Some true)
      /\ (a = Failed -> should_deny s (c_pkg c) = None \/ config (c_pkg c) = None)
      /\ (a = Cancelled -> s_cancelled st = true)).

Lemma handle_cancelled st r : s_cancelled st = true ->
  s_cancelled (fst (handle s config defaults engine st r)) = true.
Proof. intros C. unfold handle. rewrite C. exact C. Qed.

Lemma run_cancelled l : forall st, s_cancelled st = true ->
  s_cancelled (fst (run s config defaults engine st l)) = true.
Proof.
  induction l as [|c l IH]; intros st C; cbn [run]; auto.
  destruct (answer_call s config defaults engine st c) as [st1 a] eqn:A.
  assert (C1 : s_cancelled st1 = true).
  { unfold answer_call in A. destruct (c_explicit c).
    - inversion A; subst; auto.
    - rewrite <- (handle_cancelled st (request_of c) C), A; auto. }
  specialize (IH st1 C1). destruct (run s config defaults engine st1 l); auto.
Qed.

Lemma run_ok P l : forall st, inv P st -> (forall c, In c l -> c_explicit c = None -> P (request_of c)) ->
  inv P (fst (run s config defaults engine st l))
  /\ grows st (fst (run s config defaults engine st l))
  /\ forall i c, nth_error l i = Some c ->
       exists a, nth_error (snd (run s config defaults engine st l)) i = Some a
         /\ answered (fst (run s config defaults engine st l)) c a.
Proof.
  induction l as [|c l IH]; intros st I Pl; cbn [run].
  { split; [exact I|split; [apply grows_refl|]]. intros [|i] c0 E; discriminate E. }
  destruct (answer_call s config defaults engine st c) as [st1 a] eqn:A.
  assert (K : inv P st1 /\ grows st st1 /\ answered st1 c a).
  { unfold answer_call in A. destruct (c_explicit c) as [f|] eqn:X.
    - inversion A; subst. split; [auto|split; [apply grows_refl|]]. split; intros; congruence.
    - destruct (handle_ok P _ _ _ _ I (Pl _ (or_introl eq_refl) X) A) as (I1 & G1 & B1 & B2 & B3 & B4).
      rewrite request_pkg in *. split; [auto|split; [auto|]]. split; [intros; congruence|].
      intros _. auto. }
  destruct K as (I1 & G1 & A1).
  destruct (IH st1 I1) as (I2 & G2 & A2).
  { intros c0 H0; apply Pl; right; auto. }
  assert (RC := run_cancelled l st1).
  destruct (run s config defaults engine st1 l) as [st2 as_] eqn:R. cbn [fst snd] in *.
  split; [auto|split; [eapply grows_trans; eauto|]].
  intros [|i] c0 E; cbn [nth_error] in *; [|auto].
  inversion E; subst c0. exists a; split; auto.
  destruct A1 as [Ax A1]. split; [exact Ax|]. intros X. specialize (A1 X).
  destruct A1 as (B1 & B2 & B3 & B4). split; [|split; [auto|split; auto]].
  intros f Ef. destruct (B1 f Ef). split; auto. eapply backs_grows; eauto.
Qed.

Lemma inv_start P : inv P start.
Proof.
  constructor; cbn.
  - discriminate.
  - intros _ r ev [].
  - constructor.
  - intros r ev [].
Qed.

Lemma nodup_nth {A B} (f : A -> B) l i j a b :
  NoDup (map f l) -> nth_error l i = Some a -> nth_error l j = Some b -> f a = f b -> i = j.
Proof.
  intros N Ei Ej F.
  assert (Li : i < List.length (map f l)).
  { rewrite map_length. apply nth_error_Some; congruence. }
  apply (proj1 (NoDup_nth_error (map f l)) N i j Li).
  rewrite (map_nth_error f _ _ Ei), (map_nth_error f _ _ Ej), F; auto.
Qed.

Lemma backs_same P st k f g : inv P st -> backs st k f -> backs st k g -> f = g.
Proof.
  intros I (n & r & ev & id & N & K & V & G & F) (n' & r' & ev' & id' & N' & K' & V' & G' & F').
  assert (n = n').
  { eapply (nodup_nth (fun e => request_string (fst e))); [exact (i_nodup _ _ I)|exact N|exact N'|].
    cbn. congruence. }
  subst n'. congruence.
Qed.

Lemma event_serves c r ev :
  proper c -> r = request_of c -> new_event config defaults r = Some ev ->
  serves config defaults c ev /\ g_name ev = request_name r.
Proof.
  intros (Pp & Pv & u & U) -> E. unfold new_event in E. rewrite request_pkg, request_version, (request_url _ _ U) in E.
  destruct (config (c_pkg c)) as [cf|] eqn:C; [|discriminate E]. inversion E; subst ev; clear E.
  split; [|reflexivity]. unfold serves; cbn [g_pkg g_config g_version g_url].
  split; [auto|split; [auto|]].
  split; [intros v ->; auto|]. split; [intros ->; auto|].
  split.
  - intros u' U' N. assert (u' = u) by (rewrite <- (request_url _ _ U), <- (request_url _ _ U'); auto).
    subst. destruct u; congruence.
  - intros Z. assert (u = []).
    { destruct U as [_ [U|[N U]]]; [congruence|]. rewrite Z in U. destruct u; discriminate U. }
    subst u; auto.
Qed.
End Run.

(** Names of versions that are no builds. *)
Lemma flat_inj l1 l2 :
  Forall (without "_"%char) l1 -> Forall (without "_"%char) l2 ->
  flat_map (fun p => "_"%char :: p) l1 = flat_map (fun p => "_"%char :: p) l2 -> l1 = l2.
Proof.
  intros F1; revert l2. induction F1 as [|x l1 Fx F1 IH]; intros l2 F2 E; destruct F2 as [|y l2 Fy F2];
    cbn [flat_map app] in E; auto; try discriminate E.
  inversion E as [E']; clear E.
  destruct l1 as [|x' l1], l2 as [|y' l2]; cbn [flat_map app] in E'.
  - rewrite !app_nil_r in E'. congruence.
  - rewrite app_nil_r in E'. exfalso; apply Fx. rewrite E'. apply in_or_app; right; left; auto.
  - rewrite app_nil_r in E'. exfalso; apply Fy. rewrite <- E'. apply in_or_app; right; left; auto.
  - apply split_first in E'; auto. destruct E' as [-> E']. f_equal. apply IH; auto.
    cbn [flat_map app]. f_equal. exact E'.
Qed.

Lemma flat_head l c t : flat_map (fun p => "_"%char :: p) l = c :: t -> ~ (48 <= nat_of_ascii c <= 57).
Proof. destruct l; cbn [flat_map app]; intros E; inversion E; subst. cbn; lia. Qed.

Lemma name_inj v1 v2 p1 p2 :
  (forall v, v1 = Some v -> proper_version v /\ unbuilt v) ->
  (forall v, v2 = Some v -> proper_version v /\ unbuilt v) ->
  request_name {| r_version := v1; r_pkg := p1; r_url := [] |}
  = request_name {| r_version := v2; r_pkg := p2; r_url := [] |} -> v1 = v2.
Proof.
  intros H1 H2 E. unfold request_name in E; cbn [r_version r_url] in E. rewrite !app_nil_r in E.
  apply app_inv_head in E.
  destruct v1 as [v1|], v2 as [v2|]; auto; try discriminate E.
  destruct (H1 _ eq_refl) as [(D1 & D2 & D3 & _) [S1 R1]].
  destruct (H2 _ eq_refl) as [(D4 & D5 & D6 & _) [S2 R2]].
  rewrite S1, S2 in E. cbn [flat_map app] in E. rewrite !app_nil_r in E.
  inversion E as [E']. clear E.
  apply split_first in E'; [|apply digits_no; auto; cbn; lia|apply digits_no; auto; cbn; lia].
  destruct E' as [Ea E'].
  apply split_first in E'; [|apply digits_no; auto; cbn; lia|apply digits_no; auto; cbn; lia].
  destruct E' as [Eb Ec].
  apply patch_inj in Ec; auto; try (intros; eapply flat_head; eauto).
  destruct Ec as [Ec Ed]. apply flat_inj in Ed; auto.
  destruct v1, v2; cbn in *; congruence.
Qed.

(** The setting. *)
Lemma white_spec c : white c = true <-> (nat_of_ascii c = 32 \/ 9 <= nat_of_ascii c <= 13).
Proof.
  unfold white. rewrite orb_true_iff, andb_true_iff, Nat.eqb_eq, !Nat.leb_le. tauto.
Qed.

Lemma drop_white_all a b : all_white a -> drop_white (a ++ b) = drop_white b.
Proof.
  induction a as [|c a IH]; intros W; cbn; auto.
  assert (X : white c = true) by (apply white_spec, W; left; auto).
  rewrite X. apply IH. intros x I; apply W; right; auto.
Qed.

Lemma drop_white_solid p b : solid p -> p <> [] -> drop_white (p ++ b) = p ++ b.
Proof.
  intros S N. destruct p as [|c p]; [congruence|]. cbn.
  destruct (white c) eqn:X; auto. apply white_spec in X. exfalso; eapply S; [left; reflexivity|auto].
Qed.

Lemma all_white_rev a : all_white a -> all_white (rev a).
Proof. intros W c I. apply W, in_rev; auto. Qed.
Lemma solid_rev a : solid a -> solid (rev a).
Proof. intros W c I. apply W, in_rev; auto. Qed.

Lemma drop_white_none b : all_white b -> drop_white b = [].
Proof. intros W. rewrite <- (app_nil_r b), drop_white_all; auto. Qed.

Lemma trim_stands t p : solid p -> stands_for t p -> trim_space t = p.
Proof.
  intros S (a & b & Wa & Wb & ->). unfold trim_space. rewrite drop_white_all by auto.
  destruct p as [|c p].
  - cbn [app]. rewrite (drop_white_none b); auto.
  - rewrite drop_white_solid; [|auto|discriminate].
    rewrite rev_app_distr, drop_white_all by auto using all_white_rev.
    rewrite <- (app_nil_r (rev (c :: p))), drop_white_solid.
    + rewrite app_nil_r. apply rev_involutive.
    + apply solid_rev; auto.
    + intros E. apply (f_equal (@rev ascii)) in E. rewrite rev_involutive in E. discriminate E.
Qed.

Lemma drop_white_split t : exists a, all_white a /\ t = a ++ drop_white t.
Proof.
  induction t as [|c t (a & W & E)]; [exists []; split; [intros c []|auto]|].
  cbn. destruct (white c) eqn:X.
  - exists (c :: a). split; [|cbn; f_equal; auto].
    intros x [->|I]; [apply white_spec; auto|auto].
  - exists []. split; [intros x []|auto].
Qed.

Lemma stands_trim t : stands_for t (trim_space t).
Proof.
  unfold trim_space. destruct (drop_white_split t) as (a & Wa & Ea).
  destruct (drop_white_split (rev (drop_white t))) as (b & Wb & Eb).
  exists a, (rev b). split; [auto|split; [apply all_white_rev; auto|]].
  rewrite Ea at 1. f_equal. rewrite <- rev_app_distr, <- Eb, rev_involutive; auto.
Qed.

Lemma star_solid : solid (lit "*").
Proof. intros c [<-|[]]; cbn; lia. Qed.

Lemma barred_deny s p : solid p -> barred s p -> should_deny s p <> Some false.
Proof.
  intros S (l & t & -> & I & H). cbn [should_deny].
  assert (T : text_eqb (trim_space t) (lit "*") || text_eqb (trim_space t) p = true).
  { destruct H as [H|H]; apply trim_stands in H; auto using star_solid; rewrite H;
      apply orb_true_iff; [left|right]; apply text_eqb_true; auto. }
  induction l as [|[u|] l IH]; [destruct I| |]; cbn [deny_loop].
  - destruct I as [I|I].
    + inversion I; subst. rewrite T. discriminate.
    + destruct (text_eqb (trim_space u) (lit "*") || text_eqb (trim_space u) p); [discriminate|]. apply IH; exact I.
  - discriminate.
Qed.

Lemma deny_barred s p : should_deny s p = Some true -> barred s p.
Proof.
  destruct s as [| | |l]; try discriminate. cbn [should_deny]. intros D.
  assert (exists t, In (Text t) l /\ (trim_space t = lit "*" \/ trim_space t = p)) as (t & I & H).
  { induction l as [|[u|] l IH]; cbn [deny_loop] in D; try discriminate.
    destruct (_ || _) eqn:X.
    - exists u; split; [left; auto|]. apply orb_true_iff in X. rewrite !text_eqb_true in X; auto.
    - destruct (IH D) as (t & I & H). exists t; split; [right|]; auto. }
  exists l, t. split; [auto|split; [auto|]].
  destruct H as [<-|<-]; [left|right]; apply stands_trim.
Qed.

Lemma understood_some s p : understood s -> should_deny s p <> None.
Proof.
  intros [->|[->|[l ->]]]; cbn; try discriminate.
  induction l as [|t l IH]; cbn; [discriminate|]. destruct (_ || _); [discriminate|auto].
Qed.

Lemma some_understood s p : should_deny s p = Some false -> understood s.
Proof.
  destruct s as [| | |l]; cbn [should_deny]; try discriminate.
  - left; auto.
  - right; left; auto.
  - intros D. right; right.
    induction l as [|[u|] l IH]; cbn [deny_loop] in D; try discriminate.
    + exists []; auto.
    + destruct (text_eqb (trim_space u) (lit "*") || text_eqb (trim_space u) p); [discriminate|].
      destruct (IH D) as [m E]. inversion E; subst. exists (u :: m); auto.
Qed.

Lemma cancelled_engine s config defaults engine l : forall st,
  s_cancelled (fst (run s config defaults engine st l)) = true ->
  s_cancelled st = true \/ exists n, engine n = None.
Proof.
  induction l as [|c l IH]; intros st; cbn [run]; auto.
  destruct (answer_call s config defaults engine st c) as [st1 a] eqn:A.
  specialize (IH st1). destruct (run s config defaults engine st1 l) as [st2 as_]; cbn [fst] in *.
  intros C. destruct (IH C) as [C1|E]; auto.
  unfold answer_call in A. destruct (c_explicit c); [inversion A; subst; auto|].
  unfold handle in A.
  destruct (s_cancelled st) eqn:C0; auto.
  destruct (should_deny s (r_pkg (request_of c))) as [[]|]; try (inversion A; subst; congruence).
  destruct (lookup _ _); try (inversion A; subst; congruence).
  destruct (new_event _ _ _); try (inversion A; subst; congruence).
  destruct (engine (List.length (s_log st))) eqn:G; [inversion A; subst; discriminate C1|eauto].
Qed.
