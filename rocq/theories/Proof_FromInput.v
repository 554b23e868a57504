(** Proofs about Output.all and Output.from_input. *)
From Verif Require Import Base PyVal Model_Output Spec_Output Proof_Output.

Lemma gather_done {A} (l : list (fut A)) (r : list A) :
  Forall2 (fun f a => f = Done a) l r -> gather l = Done r.
Proof. induction 1; simpl; subst; auto. now rewrite IHForall2. Qed.

Lemma gather_resolved {A} (l : list (fut A)) :
  Forall resolved l -> resolved (gather l).
Proof.
  unfold resolved. induction 1 as [|x l Hx _ IH]; simpl; [congruence|].
  destruct x; try congruence. destruct (gather l); congruence.
Qed.

Record info : Type := mkInfo { i_rs : list rsrc; i_v : pyval; i_k : bool; i_s : bool }.

Definition has_info (o : output) (i : info) : Prop :=
  settled o (i_rs i) (i_v i) (i_k i) (i_s i) /\
  (i_k i = true -> contains_unknowns (i_v i) = false).

Lemma Forall2_map_l {A B C} (R : B -> C -> Prop) (f : A -> B) l m :
  Forall2 (fun a c => R (f a) c) l m -> Forall2 R (map f l) m.
Proof. induction 1; simpl; auto. Qed.

Lemma Forall2_map_r {A B C} (R : A -> C -> Prop) (f : B -> C) l m :
  Forall2 (fun a b => R a (f b)) l m -> Forall2 R l (map f m).
Proof. induction 1; simpl; auto. Qed.

Lemma Forall2_imp {A B} (R S : A -> B -> Prop) l m :
  (forall a b, R a b -> S a b) -> Forall2 R l m -> Forall2 S l m.
Proof. induction 2; auto. Qed.

Lemma all_parts os is :
  Forall2 has_info os is ->
  all_resources os = Done (concat (map i_rs is)) /\
  all_known os = Done (forallb (fun b => b) (map i_k is)) /\
  all_secret os = Done (existsb (fun b => b) (map i_s is)) /\
  gather (map (fun o => future o true) os) = Done (map i_v is).
Proof.
  intros H. unfold all_resources, all_known, all_secret.
  rewrite (gather_done (map o_res os) (map i_rs is)),
          (gather_done (map o_known os) (map i_k is)),
          (gather_done (map o_secret os) (map i_s is)),
          (gather_done (map (fun o => future o true) os) (map i_v is)); auto.
  all: apply Forall2_map_l, Forall2_map_r; eapply Forall2_imp; [|exact H];
    intros a b ((A & B & C & D) & E); auto.
  unfold future. now rewrite B.
Qed.

Lemma contains_unknowns_list vs :
  contains_unknowns (VList vs) = existsb contains_unknowns vs.
Proof. reflexivity. Qed.

Lemma forallb_no_unknown is :
  Forall (fun i => i_k i = true -> contains_unknowns (i_v i) = false) is ->
  forallb (fun b => b) (map i_k is) = true ->
  existsb contains_unknowns (map i_v is) = false.
Proof.
  induction 1 as [|i is H _ IH]; simpl; auto.
  intros E. apply andb_true_iff in E as [E1 E2]. rewrite H, IH; auto.
Qed.

Lemma Forall2_right {A B} (R : A -> B -> Prop) (P : B -> Prop) l m :
  (forall a b, R a b -> P b) -> Forall2 R l m -> Forall P m.
Proof. induction 2; constructor; eauto. Qed.

Lemma andb_absorb a b : (a = true -> b = true) -> a && b = a.
Proof. destruct a, b; intuition congruence. Qed.

Lemma all_list_info os is :
  Forall2 has_info os is ->
  has_info (all_list os)
    (mkInfo (concat (map i_rs is)) (VList (map i_v is))
            (forallb (fun b => b) (map i_k is)) (existsb (fun b => b) (map i_s is))).
Proof.
  intros H. destruct (all_parts os is H) as (A & B & C & D).
  assert (W : forallb (fun b => b) (map i_k is) = true ->
              contains_unknowns (VList (map i_v is)) = false).
  { apply forallb_no_unknown. eapply Forall2_right; [|exact H]. now intros ? ? [_ ?]. }
  unfold has_info, settled, all_list, new_output; simpl. rewrite A, B, C, D; simpl.
  simpl in W. destruct (forallb (fun b => b) (map i_k is)); simpl.
  - rewrite W by auto. repeat split; auto.
  - repeat split; auto.
Qed.

Lemma combine_unknowns ks vs : length ks = length vs ->
  existsb (fun kv : string * pyval => contains_unknowns (snd kv)) (combine ks vs)
  = existsb contains_unknowns vs.
Proof.
  revert vs. induction ks as [|k ks IH]; intros [|v vs] H; simpl in *; try lia; auto.
  now rewrite IH by lia.
Qed.

Lemma Forall2_len {A B} (R : A -> B -> Prop) l m : Forall2 R l m -> length l = length m.
Proof. induction 1; simpl; auto. Qed.

Lemma all_dict_info kos is :
  Forall2 has_info (map snd kos) is ->
  has_info (all_dict kos)
    (mkInfo (concat (map i_rs is)) (VDict (combine (map fst kos) (map i_v is)))
            (forallb (fun b => b) (map i_k is)) (existsb (fun b => b) (map i_s is))).
Proof.
  intros H. destruct (all_parts _ is H) as (A & B & C & D).
  assert (L : length (map fst kos) = length (map i_v is)).
  { rewrite !map_length. apply Forall2_len in H. now rewrite map_length in H. }
  assert (W : forallb (fun b => b) (map i_k is) = true ->
              contains_unknowns (VDict (combine (map fst kos) (map i_v is))) = false).
  { intros E. simpl. rewrite combine_unknowns by auto. revert E.
    apply forallb_no_unknown. eapply Forall2_right; [|exact H]. now intros ? ? [_ ?]. }
  unfold has_info, settled, all_dict, new_output; simpl. rewrite A, B, C, D; simpl.
  simpl in W. destruct (forallb (fun b => b) (map i_k is)); simpl.
  - rewrite W by auto. repeat split; auto.
  - repeat split; auto.
Qed.

(* ------------------------------------------------------------------ *)
(** Unfolding the nested fixpoints of the specification. *)

Lemma settled_list l : settled_value (VList l) <-> Forall settled_value l.
Proof.
  simpl. induction l as [|x l IH]; simpl; [intuition|].
  rewrite IH. split; [intros [A B]; auto|intros H; inv H; auto].
Qed.
Definition dsettled (d : list (string * pyval)) : Prop := Forall (fun kv => settled_value (snd kv)) d.
Lemma settled_dict_aux d :
  (fix go (d : list (string * pyval)) : Prop :=
    match d with [] => True | kv :: d' => settled_value (snd kv) /\ go d' end) d <-> dsettled d.
Proof.
  unfold dsettled. induction d as [|x l IH]; simpl; [intuition|].
  rewrite IH. split; [intros [A B]; auto|intros H; inv H; auto].
Qed.

Lemma unwrapped_list_fu l : fully_unwrapped (VList l) <-> Forall fully_unwrapped l.
Proof.
  simpl. induction l as [|x l IH]; simpl; [intuition|].
  rewrite IH. split; [intros [A B]; auto|intros H; inv H; auto].
Qed.
Lemma fu_dict_aux d :
  (fix go (d : list (string * pyval)) : Prop :=
    match d with [] => True | kv :: d' => fully_unwrapped (snd kv) /\ go d' end) d
  <-> Forall (fun kv => fully_unwrapped (snd kv)) d.
Proof.
  induction d as [|x l IH]; simpl; [intuition|].
  rewrite IH. split; [intros [A B]; auto|intros H; inv H; auto].
Qed.

(** No input-type object nested in [v]. *)
Fixpoint input_free (v : pyval) : Prop :=
  let all_d := fix go (d : list (string * pyval)) : Prop :=
    match d with [] => True | kv :: d' => input_free (snd kv) /\ go d' end in
  match v with
  | VList l => (fix go (l : list pyval) : Prop :=
                  match l with [] => True | x :: l' => input_free x /\ go l' end) l
  | VDict d => all_d d
  | VInput _ _ => False
  | VAwait (Done x) => input_free x
  | VOut _ (Done x) _ _ => input_free x
  | _ => True
  end.
Lemma input_free_list l : input_free (VList l) <-> Forall input_free l.
Proof.
  simpl. induction l as [|x l IH]; simpl; [intuition|].
  rewrite IH. split; [intros [A B]; auto|intros H; inv H; auto].
Qed.
Lemma input_free_dict d : input_free (VDict d) <-> Forall (fun kv => input_free (snd kv)) d.
Proof.
  simpl. induction d as [|x l IH]; simpl; [intuition|].
  rewrite IH. split; [intros [A B]; auto|intros H; inv H; auto].
Qed.

(* ------------------------------------------------------------------ *)

Definition dep_of (dry : bool) (v : pyval) (r : rsrc) : Prop :=
  exists o rs, nested dry o v /\ o_res o = Done rs /\ In r rs.
Definition secret_in (dry : bool) (v : pyval) : Prop :=
  exists o, nested dry o v /\ o_secret o = Done true.
Definition all_known_in (dry : bool) (v : pyval) : Prop :=
  (forall o, nested dry o v -> o_known o = Done true) /\ ~ bare_unknown dry v.

(** The whole characterisation, by one induction. *)
Definition fi_spec (dry : bool) (v : pyval) (i : info) : Prop :=
  has_info (from_input dry v) i /\
  (forall r, In r (i_rs i) <-> dep_of dry v r) /\
  (i_s i = true <-> secret_in dry v) /\
  fully_unwrapped (i_v i) /\
  (dry = true -> i_k i = true -> all_known_in dry v) /\
  (all_known_in dry v -> i_k i = true) /\
  (dry = false \/ i_k i = true \/ input_free v -> i_v i = unwrapped dry v).

Lemma from_input_out dry rs x k s :
  from_input dry (VOut rs x k s) =
  apply dry {| o_res := rs; o_val := x; o_known := k; o_secret := s |}
        (fun y => Ok (VO (from_input dry y))) true.
Proof.
  simpl. unfold apply, apply_call, apply_run; simpl.
  destruct rs; auto. destruct k; auto. destruct s; auto. destruct x; auto.
  destruct (dry && negb (a0 || true)); auto.
  destruct (dry && (negb a0 && true && negb (contains_unknowns a2))); auto.
Qed.

Lemma from_input_await dry f :
  from_input dry (VAwait f) = apply dry (of_fut f) (fun y => Ok (VO (from_input dry y))) true.
Proof.
  simpl. unfold apply, apply_call, apply_run, of_fut, new_output; simpl.
  destruct f as [v| |]; simpl; auto.
  destruct (dry && negb (negb (contains_unknowns v) || true)); auto.
  destruct (dry && (negb (negb (contains_unknowns v)) && true && negb (contains_unknowns v))); auto.
Qed.

Lemma has_info_wf o i : has_info o i -> well_formed o.
Proof.
  intros ((A & B & C & D) & E) H. rewrite C in H. injection H as H. eauto.
Qed.

Lemma nested_leaf_prompt dry o v :
  nested dry o v ->
  match v with
  | VOut _ _ _ _ | VList _ | VDict _ | VInput _ _ | VAwait _ => True
  | _ => False
  end.
Proof. destruct 1; auto. exact I. Qed.

Lemma bare_leaf dry v :
  bare_unknown dry v ->
  match v with
  | VOut _ _ _ _ | VList _ | VDict _ | VInput _ _ | VAwait _ | VUnknown => True
  | _ => False
  end.
Proof. destruct 1; exact I. Qed.

Definition is_leaf (v : pyval) : Prop :=
  match v with
  | VOut _ _ _ _ | VInput _ _ | VAwait _ => False
  | VList (_ :: _) | VDict (_ :: _) => False
  | _ => True
  end.

Lemma leaf_spec dry v : is_leaf v -> fi_spec dry v (mkInfo [] v (negb (contains_unknowns v)) false).
Proof.
  intros L.
  assert (N : forall o, ~ nested dry o v).
  { intros o H. destruct H; simpl in L; auto; destruct l || destruct d; simpl in *; tauto. }
  assert (E : from_input dry v = of_value v).
  { destruct v; simpl in L |- *; auto; try contradiction; destruct l || destruct d; auto; contradiction. }
  unfold fi_spec; simpl. rewrite E. repeat split.
  - simpl. now rewrite negb_true_iff.
  - intros [].
  - intros (o & rs & H & _). now apply N in H.
  - discriminate.
  - intros (o & H & _). now apply N in H.
  - destruct v; simpl in L |- *; auto; try contradiction; destruct l || destruct d; simpl; auto; contradiction.
  - intros o Ho. now apply N in Ho.
  - intros B. apply negb_true_iff in H0.
    destruct v; simpl in L; try contradiction; try (now apply bare_leaf in B); try discriminate.
    + destruct l; [|contradiction]. inv B. contradiction.
    + destruct d; [|contradiction]. inv B. contradiction.
  - intros [_ B]. destruct v; simpl in L |- *; auto; try contradiction.
    + destruct l; [auto|contradiction].
    + destruct d; [auto|contradiction].
    + exfalso. apply B. constructor.
  - intros _. destruct v; simpl in L |- *; auto; try contradiction; destruct l || destruct d; simpl; auto; contradiction.
Qed.

(** Collecting the informations of the elements. *)
Lemma choose {A} (R : A -> info -> Prop) (l : list A) :
  Forall (fun a => exists i, R a i) l -> exists is, Forall2 R l is.
Proof.
  induction 1 as [|a l [i Hi] _ [is IH]]; [exists []; auto|exists (i :: is); auto].
Qed.

Lemma F2_exists {A} (R : A -> info -> Prop) (P : info -> Prop) (Q : A -> Prop) l is :
  (forall a i, R a i -> (P i <-> Q a)) -> Forall2 R l is ->
  ((exists i, In i is /\ P i) <-> (exists a, In a l /\ Q a)).
Proof.
  intros HR. induction 1 as [|a i l is H HF IH].
  - split; intros (? & [] & _).
  - simpl. split.
    + intros (j & [<-|Hj] & Pj).
      * exists a. split; auto. now apply (HR a i).
      * destruct IH as [IH _]. destruct IH as (b & Hb & Qb); [eauto|]. exists b; auto.
    + intros (b & [<-|Hb] & Qb).
      * exists i. split; auto. now apply (HR a i).
      * destruct IH as [_ IH]. destruct IH as (j & Hj & Pj); [eauto|]. exists j; auto.
Qed.

Lemma F2_forall {A} (R : A -> info -> Prop) (P : info -> Prop) (Q : A -> Prop) l is :
  (forall a i, R a i -> P i -> Q a) -> Forall2 R l is ->
  (forall i, In i is -> P i) -> (forall a, In a l -> Q a).
Proof.
  intros HR. induction 1 as [|a i l is H HF IH]; intros HP b; simpl; [easy|].
  intros [<-|Hb]; [|apply IH; auto; intros; apply HP; now right].
  apply (HR a i H). apply HP; now left.
Qed.

Lemma F2_forall' {A} (R : A -> info -> Prop) (P : info -> Prop) (Q : A -> Prop) l is :
  (forall a i, R a i -> Q a -> P i) -> Forall2 R l is ->
  (forall a, In a l -> Q a) -> (forall i, In i is -> P i).
Proof.
  intros HR. induction 1 as [|a i l is H HF IH]; intros HP b; simpl; [easy|].
  intros [<-|Hb]; [|apply IH; auto; intros; apply HP; now right].
  apply (HR a i H). apply HP; now left.
Qed.

Lemma In_concat_map is r : In r (concat (map i_rs is)) <-> exists i, In i is /\ In r (i_rs i).
Proof.
  rewrite in_concat. split.
  - intros (x & Hx & Hr). apply in_map_iff in Hx as (i & <- & Hi). eauto.
  - intros (i & Hi & Hr). exists (i_rs i). split; auto. now apply in_map.
Qed.
Lemma existsb_map_s is : existsb (fun b => b) (map i_s is) = true <-> exists i, In i is /\ i_s i = true.
Proof.
  rewrite existsb_exists. split.
  - intros (b & Hb & ->). apply in_map_iff in Hb as (i & E & Hi). eauto.
  - intros (i & Hi & E). exists true. split; auto. rewrite <- E. now apply in_map.
Qed.
Lemma forallb_map_k is : forallb (fun b => b) (map i_k is) = true <-> forall i, In i is -> i_k i = true.
Proof.
  rewrite forallb_forall. split.
  - intros H i Hi. apply H. now apply in_map.
  - intros H b Hb. apply in_map_iff in Hb as (i & <- & Hi). auto.
Qed.

(** Elements [a] of a container carry the value [val a]; the container's
    nested outputs are those of its elements. *)
Section Container.
  Context {A : Type} (val : A -> pyval) (dry : bool) (l : list A) (is : list info).
  Hypothesis HF : Forall2 (fun a i => fi_spec dry (val a) i) l is.
  Variable c : pyval.
  Hypothesis Hn : forall o, nested dry o c <-> exists a, In a l /\ nested dry o (val a).
  Hypothesis Hb : bare_unknown dry c <-> exists a, In a l /\ bare_unknown dry (val a).

  Lemma cont_deps r : In r (concat (map i_rs is)) <-> dep_of dry c r.
  Proof.
    rewrite In_concat_map.
    rewrite (F2_exists (fun a i => fi_spec dry (val a) i) (fun i => In r (i_rs i)) (fun a => dep_of dry (val a) r) l is); eauto.
    - unfold dep_of. split.
      + intros (a & Ha & o & rs & N & B & C). exists o, rs. rewrite Hn. eauto.
      + intros (o & rs & N & B & C). apply Hn in N as (a & Ha & N). exists a. split; auto. eauto.
    - intros a i (_ & H & _). apply H.
  Qed.

  Lemma cont_secret : existsb (fun b => b) (map i_s is) = true <-> secret_in dry c.
  Proof.
    rewrite existsb_map_s.
    rewrite (F2_exists (fun a i => fi_spec dry (val a) i) (fun i => i_s i = true) (fun a => secret_in dry (val a)) l is); eauto.
    - unfold secret_in. split.
      + intros (a & Ha & o & N & B). exists o. rewrite Hn. eauto.
      + intros (o & N & B). apply Hn in N as (a & Ha & N). exists a. split; auto. eauto.
    - intros a i (_ & _ & H & _). apply H.
  Qed.

  Lemma cont_known : dry = true -> forallb (fun b => b) (map i_k is) = true -> all_known_in dry c.
  Proof.
    intros Hd. rewrite forallb_map_k. intros H.
    assert (K : forall a, In a l -> all_known_in dry (val a)).
    { eapply F2_forall; [|exact HF|exact H]. simpl.
      intros a i (_ & _ & _ & _ & K & _) Hk. auto. }
    split.
    - intros o N. apply Hn in N as (a & Ha & N). apply (proj1 (K a Ha)); auto.
    - intros B. apply Hb in B as (a & Ha & B). now apply (proj2 (K a Ha)).
  Qed.

  Lemma cont_known' : all_known_in dry c -> forallb (fun b => b) (map i_k is) = true.
  Proof.
    intros [K1 K2]. rewrite forallb_map_k.
    apply (F2_forall' (fun a i => fi_spec dry (val a) i) (fun i => i_k i = true)
             (fun a => all_known_in dry (val a)) l is); auto.
    - intros a i (_ & _ & _ & _ & _ & K & _) Hk. auto.
    - intros a Ha. split.
      + intros o N. apply K1. apply Hn. eauto.
      + intros B. apply K2. apply Hb. eauto.
  Qed.

  Lemma cont_unwrapped : Forall fully_unwrapped (map i_v is).
  Proof.
    apply Forall_forall. intros x Hx. apply in_map_iff in Hx as (i & <- & Hi).
    revert i Hi. apply (F2_forall' (fun a i => fi_spec dry (val a) i) (fun i => fully_unwrapped (i_v i))
       (fun _ => True) l is); auto.
    intros a i (_ & _ & _ & F & _) _. exact F.
  Qed.

  Lemma cont_values :
    dry = false \/ forallb (fun b => b) (map i_k is) = true \/ Forall (fun a => input_free (val a)) l ->
    map i_v is = map (fun a => unwrapped dry (val a)) l.
  Proof.
    clear Hn Hb. revert HF. induction 1 as [|a i l' is' H HF' IH]; simpl; auto.
    intros Hc. f_equal.
    - destruct H as (_ & _ & _ & _ & _ & _ & H). apply H.
      destruct Hc as [?|[Hc|Hc]]; auto.
      + apply andb_true_iff in Hc as [? ?]; auto.
      + inv Hc; auto.
    - apply IH; auto. destruct Hc as [?|[Hc|Hc]]; auto.
      + apply andb_true_iff in Hc as [? ?]; auto.
      + inv Hc; auto.
  Qed.
End Container.

Lemma map_snd_pair (f : pyval -> output) (d : list (string * pyval)) :
  map snd (map (fun kv => (fst kv, f (snd kv))) d) = map (fun kv => f (snd kv)) d.
Proof. now rewrite map_map. Qed.
Lemma map_fst_pair {B} (f : pyval -> B) (d : list (string * pyval)) :
  map fst (map (fun kv => (fst kv, f (snd kv))) d) = map fst d.
Proof. now rewrite map_map. Qed.

Lemma combine_map {A B C} (f : A -> B) (g : A -> C) (l : list A) :
  combine (map f l) (map g l) = map (fun a => (f a, g a)) l.
Proof. induction l; simpl; congruence. Qed.

Lemma combine_snd_forall (P : pyval -> Prop) ks (vs : list pyval) :
  Forall P vs -> Forall (fun kv : string * pyval => P (snd kv)) (combine ks vs).
Proof.
  intros H. revert ks. induction H; intros [|k ks]; simpl; auto.
Qed.

Lemma has_info_spec {A} (val : A -> pyval) dry l is :
  Forall2 (fun a i => fi_spec dry (val a) i) l is ->
  Forall2 has_info (map (fun a => from_input dry (val a)) l) is.
Proof.
  intros H. apply Forall2_map_l. eapply Forall2_imp; [|exact H]. intros a b K; apply K.
Qed.

Lemma list_case dry x l is :
  Forall2 (fun a i => fi_spec dry a i) (x :: l) is ->
  fi_spec dry (VList (x :: l))
    (mkInfo (concat (map i_rs is)) (VList (map i_v is))
            (forallb (fun b => b) (map i_k is)) (existsb (fun b => b) (map i_s is))).
Proof.
  intros HF.
  assert (Hn : forall o, nested dry o (VList (x :: l)) <-> exists a, In a (x :: l) /\ nested dry o a).
  { intros o; split.
    - intros N. inv N; eauto.
    - intros (a & Ha & N). econstructor; eauto. }
  assert (Hb : bare_unknown dry (VList (x :: l)) <-> exists a, In a (x :: l) /\ bare_unknown dry a).
  { split.
    - intros N. inv N; eauto.
    - intros (a & Ha & N). econstructor; eauto. }
  split; [|split; [|split; [|split; [|split; [|split]]]]]; simpl i_rs; simpl i_v; simpl i_k; simpl i_s.
  - change (from_input dry (VList (x :: l))) with (all_list (map (from_input dry) (x :: l))).
    apply all_list_info. exact (has_info_spec (fun a => a) dry (x :: l) is HF).
  - intros r. exact (cont_deps (fun a => a) dry (x :: l) is HF _ Hn r).
  - exact (cont_secret (fun a => a) dry (x :: l) is HF _ Hn).
  - apply unwrapped_list_fu. exact (cont_unwrapped (fun a => a) dry (x :: l) is HF).
  - exact (cont_known (fun a => a) dry (x :: l) is HF _ Hn Hb).
  - exact (cont_known' (fun a => a) dry (x :: l) is HF _ Hn Hb).
  - intros Hc. change (unwrapped dry (VList (x :: l))) with (VList (map (unwrapped dry) (x :: l))).
    f_equal. apply (cont_values (fun a => a) dry (x :: l) is HF).
    destruct Hc as [?|[?|Hc]]; auto. right; right. now apply input_free_list.
Qed.

Lemma dict_parts dry (d : list (string * pyval)) is :
  Forall2 (fun kv i => fi_spec dry (snd kv) i) d is ->
  has_info (all_dict (map (fun kv => (fst kv, from_input dry (snd kv))) d))
    (mkInfo (concat (map i_rs is)) (VDict (combine (map fst d) (map i_v is)))
            (forallb (fun b => b) (map i_k is)) (existsb (fun b => b) (map i_s is))).
Proof.
  intros HF. rewrite <- (map_fst_pair (from_input dry) d).
  apply all_dict_info. rewrite map_snd_pair.
  exact (has_info_spec (fun kv : string * pyval => snd kv) dry d is HF).
Qed.

Lemma dict_case dry x l is :
  Forall2 (fun kv i => fi_spec dry (snd kv) i) (x :: l) is ->
  fi_spec dry (VDict (x :: l))
    (mkInfo (concat (map i_rs is)) (VDict (combine (map fst (x :: l)) (map i_v is)))
            (forallb (fun b => b) (map i_k is)) (existsb (fun b => b) (map i_s is))).
Proof.
  intros HF.
  assert (Hn : forall o, nested dry o (VDict (x :: l)) <-> exists a : string * pyval, In a (x :: l) /\ nested dry o (snd a)).
  { intros o; split.
    - intros N. inv N. exists (k, x0). auto.
    - intros ((k & v) & Ha & N). econstructor; eauto. }
  assert (Hb : bare_unknown dry (VDict (x :: l)) <-> exists a : string * pyval, In a (x :: l) /\ bare_unknown dry (snd a)).
  { split.
    - intros N. inv N. exists (k, x0). auto.
    - intros ((k & v) & Ha & N). econstructor; eauto. }
  pose (val := fun kv : string * pyval => snd kv).
  split; [|split; [|split; [|split; [|split; [|split]]]]]; simpl i_rs; simpl i_v; simpl i_k; simpl i_s.
  - exact (dict_parts dry (x :: l) is HF).
  - intros r. exact (cont_deps val dry (x :: l) is HF _ Hn r).
  - exact (cont_secret val dry (x :: l) is HF _ Hn).
  - cbn [fully_unwrapped]. apply fu_dict_aux. apply (combine_snd_forall fully_unwrapped (map fst (x :: l)) (map i_v is)).
    exact (cont_unwrapped val dry (x :: l) is HF).
  - exact (cont_known val dry (x :: l) is HF _ Hn Hb).
  - exact (cont_known' val dry (x :: l) is HF _ Hn Hb).
  - intros Hc. cbn [unwrapped]. apply (f_equal VDict).
    rewrite <- (combine_map fst (fun kv => unwrapped dry (snd kv)) (x :: l)).
    apply (f_equal (combine (map fst (x :: l)))). apply (cont_values val dry (x :: l) is HF).
    destruct Hc as [?|[?|Hc]]; auto. right; right. now apply input_free_dict in Hc.
Qed.

Lemma input_case dry c x l is :
  Forall2 (fun kv i => fi_spec dry (snd kv) i) (x :: l) is ->
  exists i, fi_spec dry (VInput c (x :: l)) i.
Proof.
  intros HF.
  assert (Hn : forall o, nested dry o (VInput c (x :: l)) <-> exists a : string * pyval, In a (x :: l) /\ nested dry o (snd a)).
  { intros o; split.
    - intros N. inv N. exists (k, x0). auto.
    - intros ((k & v) & Ha & N). econstructor; eauto. }
  assert (Hb : bare_unknown dry (VInput c (x :: l)) <-> exists a : string * pyval, In a (x :: l) /\ bare_unknown dry (snd a)).
  { split.
    - intros N. inv N. exists (k, x0). auto.
    - intros ((k & v) & Ha & N). econstructor; eauto. }
  pose (val := fun kv : string * pyval => snd kv).
  pose proof (dict_parts dry (x :: l) is HF) as HP.
  pose proof (cont_deps val dry (x :: l) is HF _ Hn) as HD.
  pose proof (cont_secret val dry (x :: l) is HF _ Hn) as HS.
  pose proof (cont_known val dry (x :: l) is HF _ Hn Hb) as HK.
  pose proof (cont_known' val dry (x :: l) is HF _ Hn Hb) as HK'.
  pose proof (cont_unwrapped val dry (x :: l) is HF) as HU.
  pose proof (cont_values val dry (x :: l) is HF) as HV.
  assert (E : from_input dry (VInput c (x :: l)) =
    apply dry (all_dict (map (fun kv => (fst kv, from_input dry (snd kv))) (x :: l))) (rebuild_input c) false)
    by reflexivity.
  set (k := forallb (fun b => b) (map i_k is)) in *.
  set (s := existsb (fun b => b) (map i_s is)) in *.
  set (rs := concat (map i_rs is)) in *.
  set (d' := combine (map fst (x :: l)) (map i_v is)) in *.
  destruct HP as [HP HPw]. simpl in HP, HPw.
  destruct (dry && negb k) eqn:D.
  - (* preview, not known: the object is not rebuilt *)
    apply andb_true_iff in D as [-> D]. apply negb_true_iff in D.
    exists (mkInfo rs VNone false s). unfold fi_spec; simpl i_rs; simpl i_v; simpl i_k; simpl i_s.
    rewrite E. rewrite D in *.
    split; [split; [eapply apply_skips; eauto|discriminate]|].
    split; [exact HD|]. split; [exact HS|]. split; [exact I|].
    split; [discriminate|]. split; [exact HK'|].
    intros [?|[?|[]]]; discriminate.
  - exists (mkInfo (rs ++ []) (VInput c d') true (s || false)).
    assert (HA : settled (apply dry (all_dict (map (fun kv => (fst kv, from_input dry (snd kv))) (x :: l)))
                     (rebuild_input c) false) (rs ++ []) (VInput c d') true (s || false)).
    { apply apply_runs with (v := VDict d') (k := k) (x := VInput c d'); auto.
      - destruct dry, k; simpl in D; auto; discriminate.
      - rewrite passed_norwu. reflexivity.
      - apply (Y_plain (VInput c d')). reflexivity. }
    rewrite app_nil_r, orb_false_r in HA |- *.
    assert (HVal : Forall (fun kv : string * pyval => fully_unwrapped (snd kv)) d')
      by (now apply combine_snd_forall).
    unfold fi_spec; simpl i_rs; simpl i_v; simpl i_k; simpl i_s. rewrite E.
    split; [split; [exact HA|auto]|].
    split; [exact HD|]. split; [exact HS|].
    split; [cbn [fully_unwrapped]; now apply fu_dict_aux|].
    split.
    { intros -> _. simpl in D. apply negb_false_iff in D. apply HK; auto. }
    split; [auto|].
    intros _. cbn [unwrapped]. f_equal. unfold d'.
    rewrite HV; [apply combine_map|].
    destruct dry; simpl in D; auto. right; left. now apply negb_false_iff in D.
Qed.

Lemma nested_of_inner dry o rs x k s :
  o = {| o_res := rs; o_val := Done x; o_known := k; o_secret := s |} ->
  forall p, nested dry p (VOut rs (Done x) k s) <->
    p = o \/ ((dry = false \/ k = Done true \/ contains_unknowns x = true) /\ nested dry p x).
Proof.
  intros -> p. split.
  - intros N. inv N; auto. destruct p; simpl in *; subst; auto.
  - intros [->|[C N]]; [apply (N_here dry {| o_res := rs; o_val := Done x; o_known := k; o_secret := s |})|].
    now constructor.
Qed.

Lemma contains_bare dry x : contains_unknowns x = true -> bare_unknown dry x.
Proof.
  induction x using pyval_ind'; simpl; try discriminate; intros E.
  - apply existsb_exists in E as (y & Hy & Ey). rewrite Forall_forall in H.
    econstructor; eauto.
  - apply existsb_exists in E as ((k & y) & Hy & Ey). rewrite Forall_forall in H.
    apply (B_dict dry k y); auto. apply (H (k, y) Hy Ey).
  - constructor.
Qed.

(** A value with [contains_unknowns] is never known after unwrapping, even in
    an update. *)

Lemma out_case dry rs x k s i :
  (k = true -> contains_unknowns x = false) ->
  fi_spec dry x i ->
  exists j, fi_spec dry (VOut (Done rs) (Done x) (Done k) (Done s)) j.
Proof.
  intros W HI. set (o := {| o_res := Done rs; o_val := Done x; o_known := Done k; o_secret := Done s |}).
  assert (So : settled o rs x k s) by (unfold settled, o; simpl; auto).
  pose proof (nested_of_inner dry o (Done rs) x (Done k) (Done s) eq_refl) as Hn.
  destruct (dry && negb k && negb (contains_unknowns x)) eqn:D.
  - apply andb_true_iff in D as [D D3]. apply andb_true_iff in D as [-> D2].
    apply negb_true_iff in D2, D3. subst k.
    exists (mkInfo (rs ++ []) VUnknown false (s || false)).
    assert (HA : settled (from_input true (VOut (Done rs) (Done x) (Done false) (Done s)))
                  (rs ++ []) VUnknown false (s || false)).
    { rewrite from_input_out.
      apply apply_runs with (v := x) (k := false) (x := VO (of_value VUnknown)); auto.
      - unfold passed; simpl. now rewrite D3.
      - apply Y_output. discriminate. }
    rewrite app_nil_r, orb_false_r in HA |- *.
    assert (Hn' : forall p, nested true p (VOut (Done rs) (Done x) (Done false) (Done s)) <-> p = o).
    { intros p. rewrite Hn. split; [|auto]. intros [?|[[?|[?|?]] _]]; auto; congruence. }
    unfold fi_spec; simpl i_rs; simpl i_v; simpl i_k; simpl i_s.
    split; [split; [exact HA|discriminate]|].
    split. { intros r. unfold dep_of. split.
      - intros Hr. exists o, rs. rewrite Hn'. auto.
      - intros (p & rs' & N & E & Hr). apply Hn' in N. subst p. simpl in E. congruence. }
    split. { unfold secret_in. split.
      - intros ->. exists o. rewrite Hn'. auto.
      - intros (p & N & E). apply Hn' in N. subst p. simpl in E. congruence. }
    split; [exact I|]. split; [discriminate|].
    split. { intros [K _]. assert (K' := K o (proj2 (Hn' o) eq_refl)). simpl in K'. congruence. }
    intros _. simpl. now rewrite D3.
  - destruct HI as ((HS & HW) & HD & HSec & HU & HK & HK' & HV).
    exists (mkInfo (rs ++ i_rs i) (i_v i) (i_k i) (s || i_s i)).
    assert (HA : settled (from_input dry (VOut (Done rs) (Done x) (Done k) (Done s)))
                  (rs ++ i_rs i) (i_v i) (i_k i) (s || i_s i)).
    { rewrite from_input_out.
      apply apply_runs with (v := x) (k := k) (x := VO (from_input dry x)); auto.
      - unfold passed. rewrite andb_true_r. rewrite <- andb_assoc in D. now rewrite D.
      - apply settled_yields; auto. intros E. destruct HS as (_ & A & B & _).
        rewrite B in E. injection E as E. eauto. }
    assert (Hc : dry = false \/ Done k = Done true \/ contains_unknowns x = true).
    { destruct dry, k, (contains_unknowns x); simpl in D; auto; discriminate. }
    unfold fi_spec; simpl i_rs; simpl i_v; simpl i_k; simpl i_s.
    split; [split; [exact HA|exact HW]|].
    split. { intros r. rewrite in_app_iff, HD. unfold dep_of. split.
      - intros [Hr|(p & rs' & N & E & Hr)].
        + exists o, rs. rewrite Hn. auto.
        + exists p, rs'. rewrite Hn. auto.
      - intros (p & rs' & N & E & Hr). apply Hn in N as [->|[_ N]].
        + simpl in E. left. congruence.
        + right. eauto. }
    split. { rewrite orb_true_iff, HSec. unfold secret_in. split.
      - intros [->|(p & N & E)]; [exists o|exists p]; rewrite Hn; auto.
      - intros (p & N & E). apply Hn in N as [->|[_ N]].
        + simpl in E. left. congruence.
        + right. eauto. }
    split; [exact HU|].
    assert (HB : bare_unknown dry (VOut (Done rs) (Done x) (Done k) (Done s)) <-> bare_unknown dry x).
    { split; [intros B; inv B; auto|intros; now constructor]. }
    split.
    { intros Hd Hk. destruct (HK Hd Hk) as [K1 K2]. split.
      - intros p N. apply Hn in N as [->|[_ N]]; auto. simpl.
        destruct k; auto. destruct Hc as [?|[?|C]]; try congruence.
        exfalso. apply K2. now apply contains_bare.
      - now rewrite HB. }
    split.
    { intros [K1 K2]. apply HK'. split.
      - intros p N. apply K1. apply Hn. auto.
      - now rewrite <- HB. }
    intros Hv. simpl. rewrite D. apply HV. simpl in Hv. tauto.
Qed.

Lemma from_input_spec dry v : settled_value v -> exists i, fi_spec dry v i.
Proof.
  induction v using pyval_ind'; intros Hs;
    try (eexists; apply leaf_spec; exact I).
  - destruct l as [|x l]; [eexists; apply leaf_spec; exact I|].
    apply settled_list in Hs.
    destruct (choose (fun a i => fi_spec dry a i) (x :: l)) as [is HF].
    { rewrite Forall_forall in *. intros a Ha. apply H; auto. }
    eexists. eapply list_case; eauto.
  - destruct d as [|x l]; [eexists; apply leaf_spec; exact I|].
    apply (settled_dict_aux (x :: l)) in Hs. unfold dsettled in Hs.
    destruct (choose (fun kv i => fi_spec dry (snd kv) i) (x :: l)) as [is HF].
    { rewrite Forall_forall in *. intros a Ha. apply H; auto. }
    eexists. eapply dict_case; eauto.
  - destruct f as [x| |]; try contradiction. simpl in H, Hs.
    destruct (H Hs) as [i HI].
    assert (E : from_input dry (VAwait (Done x)) =
      from_input dry (VOut (Done []) (Done x) (Done (negb (contains_unknowns x))) (Done false))).
    { rewrite from_input_await, from_input_out. reflexivity. }
    destruct (out_case dry [] x (negb (contains_unknowns x)) false i) as [j Hj]; auto.
    { now rewrite negb_true_iff. }
    set (o := {| o_res := Done []; o_val := Done x; o_known := Done (negb (contains_unknowns x)); o_secret := Done false |}).
    pose proof (nested_of_inner dry o (Done []) x (Done (negb (contains_unknowns x))) (Done false) eq_refl) as Hn.
    assert (Ha : forall p, nested dry p (VAwait (Done x)) <-> nested dry p x).
    { intros p; split; [intros N; inv N; auto|now constructor]. }
    assert (Hcond : dry = false \/ Done (negb (contains_unknowns x)) = Done true \/ contains_unknowns x = true)
      by (destruct (contains_unknowns x); auto).
    destruct Hj as (J1 & J2 & J3 & J4 & J5 & J6 & J7).
    exists j. unfold fi_spec. rewrite E.
    assert (HB1 : bare_unknown dry (VAwait (Done x)) <-> bare_unknown dry x)
      by (split; [intros B; inv B; auto|intros; now constructor]).
    assert (HB2 : bare_unknown dry (VOut (Done []) (Done x) (Done (negb (contains_unknowns x))) (Done false)) <-> bare_unknown dry x)
      by (split; [intros B; inv B; auto|intros; now constructor]).
    split; [exact J1|].
    split. { intros r. rewrite J2. unfold dep_of. split; intros (p & rs & N & A & B).
      - apply Hn in N as [->|[_ N]]; [simpl in A; injection A as <-; destruct B|].
        exists p, rs. rewrite Ha. auto.
      - apply Ha in N. exists p, rs. rewrite Hn. auto. }
    split. { rewrite J3. unfold secret_in. split; intros (p & N & A).
      - apply Hn in N as [->|[_ N]]; [simpl in A; discriminate|]. exists p. now rewrite Ha.
      - apply Ha in N. exists p. rewrite Hn. auto. }
    split; [exact J4|].
    split. { intros Hd Hk. destruct (J5 Hd Hk) as [K1 K2]. split.
      - intros p N. apply K1. apply Hn. right. apply Ha in N. auto.
      - rewrite HB1, <- HB2. exact K2. }
    split. { intros [K1 K2]. apply J6. rewrite HB1 in K2. split.
      - intros p N. apply Hn in N as [->|[_ N]]; [|apply K1; now apply Ha].
        simpl. destruct (contains_unknowns x) eqn:C; auto.
        exfalso. apply K2. now apply contains_bare.
      - now rewrite HB2. }
    intros Hv. simpl in Hv. rewrite J7 by (simpl; tauto). simpl.
    destruct (contains_unknowns x); simpl; rewrite ?andb_false_r; reflexivity.
  - destruct rs as [rs| |]; try contradiction. destruct v as [x| |]; try contradiction;
      try (destruct k; contradiction).
    destruct k as [k| |]; try contradiction. destruct s as [s| |]; try contradiction.
    destruct Hs as [Hw Hs]. destruct (H Hs) as [i HI]. eapply out_case; eauto.
  - cbn [settled_value] in Hs. destruct Hs as [Hne Hs].
    apply settled_dict_aux in Hs. unfold dsettled in Hs.
    destruct d as [|x l]; [contradiction|].
    destruct (choose (fun kv i => fi_spec dry (snd kv) i) (x :: l)) as [is HF].
    { rewrite Forall_forall in *. intros a Ha. apply H; auto. }
    eapply input_case; eauto.
Qed.

(* ------------------------------------------------------------------ *)
(** Nothing hangs unless something nested hangs. *)

Lemma np_list l : never_pending (VList l) <-> Forall never_pending l.
Proof.
  simpl. induction l as [|x l IH]; simpl; [intuition|].
  rewrite IH. split; [intros [A B]; auto|intros H; inv H; auto].
Qed.
Lemma np_dict_aux d :
  (fix go (d : list (string * pyval)) : Prop :=
    match d with [] => True | kv :: d' => never_pending (snd kv) /\ go d' end) d
  <-> Forall (fun kv => never_pending (snd kv)) d.
Proof.
  induction d as [|x l IH]; simpl; [intuition|].
  rewrite IH. split; [intros [A B]; auto|intros H; inv H; auto].
Qed.

Lemma fmap_resolved {A B} (f : A -> B) m : resolved m -> resolved (fmap f m).
Proof. unfold resolved; destruct m; simpl; congruence. Qed.

Lemma parts_resolved os :
  Forall all_resolved os ->
  resolved (all_resources os) /\ resolved (all_known os) /\ resolved (all_secret os) /\
  resolved (gather (map (fun o => future o true) os)).
Proof.
  intros H. unfold all_resources, all_known, all_secret.
  repeat split; try apply fmap_resolved; apply gather_resolved;
    apply Forall_forall; intros f Hf; apply in_map_iff in Hf as (o & <- & Ho);
    rewrite Forall_forall in H; destruct (H o Ho) as (A & B & C & D); auto.
  unfold future, resolved in *. destruct (o_val o); simpl; congruence.
Qed.

Lemma from_input_resolved dry v : never_pending v -> all_resolved (from_input dry v).
Proof.
  induction v using pyval_ind'; intros Hs;
    try (simpl; unfold of_value, of_fut; apply new_output_resolved; unfold resolved; congruence).
  - destruct l as [|x l]; [simpl; apply new_output_resolved; unfold resolved; congruence|].
    apply np_list in Hs.
    change (from_input dry (VList (x :: l))) with (all_list (map (from_input dry) (x :: l))).
    destruct (parts_resolved (map (from_input dry) (x :: l))) as (A & B & C & D).
    { apply Forall_forall. intros o Ho. apply in_map_iff in Ho as (y & <- & Hy).
      rewrite Forall_forall in H, Hs. auto. }
    apply new_output_resolved; auto. now apply fmap_resolved.
  - destruct d as [|x l]; [simpl; apply new_output_resolved; unfold resolved; congruence|].
    apply (np_dict_aux (x :: l)) in Hs.
    change (from_input dry (VDict (x :: l))) with
      (all_dict (map (fun kv => (fst kv, from_input dry (snd kv))) (x :: l))).
    unfold all_dict. rewrite map_snd_pair.
    destruct (parts_resolved (map (fun kv => from_input dry (snd kv)) (x :: l))) as (A & B & C & D).
    { apply Forall_forall. intros o Ho. apply in_map_iff in Ho as (y & <- & Hy).
      rewrite Forall_forall in H, Hs. auto. }
    apply new_output_resolved; auto. now apply fmap_resolved.
  - rewrite from_input_await. destruct f as [x|e|]; [| |contradiction].
    + simpl in H, Hs. simpl in Hs. unfold apply. apply apply_call_resolved.
      * unfold of_fut. apply new_output_resolved; unfold resolved; congruence.
      * intros [|]; simpl; [|unfold resolved; repeat split; congruence].
        destruct (H Hs) as (A & B & C & D). auto.
    + unfold apply, apply_call, apply_run; simpl.
      apply new_output_resolved; unfold resolved; congruence.
  - rewrite from_input_out. destruct Hs as (A & B & C & D).
    destruct v as [x|e|]; [| |contradiction].
    + simpl in H. unfold apply. apply apply_call_resolved.
      * unfold all_resolved; simpl. repeat split; auto. unfold resolved; congruence.
      * intros [|]; simpl; [|unfold resolved; repeat split; congruence].
        destruct (H D) as (A' & B' & C' & D'). auto.
    + unfold apply, apply_call, apply_run; simpl. unfold resolved in *.
      destruct rs; try congruence; [|simpl; apply new_output_resolved; unfold resolved; congruence].
      destruct k; try congruence; [|simpl; apply new_output_resolved; unfold resolved; congruence].
      destruct s; try congruence; simpl; apply new_output_resolved; unfold resolved; congruence.
  - cbn [never_pending] in Hs. apply np_dict_aux in Hs.
    assert (R : forall inner, all_resolved inner -> all_resolved (apply dry inner (rebuild_input c) false)).
    { intros inner Hi. apply apply_resolved; auto. intros []; simpl; auto. }
    destruct d as [|x l].
    + apply (R (all_list [])). unfold all_resolved, resolved; cbv; repeat split; congruence.
    + change (from_input dry (VInput c (x :: l))) with
        (apply dry (all_dict (map (fun kv => (fst kv, from_input dry (snd kv))) (x :: l))) (rebuild_input c) false).
      apply R. unfold all_dict. rewrite map_snd_pair.
      destruct (parts_resolved (map (fun kv => from_input dry (snd kv)) (x :: l))) as (A & B & C & D).
      { apply Forall_forall. intros o Ho. apply in_map_iff in Ho as (y & <- & Hy).
        rewrite Forall_forall in H, Hs. auto. }
      apply new_output_resolved; auto. now apply fmap_resolved.
Qed.
