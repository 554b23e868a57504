(** C13: what is behind a not-known output does not reach the wire. *)
From Verif Require Import Base PyVal Model_Output Spec_Output Proof_Output Proof_FromInput Model_Rpc Spec_Rpc Proof_Ser Proof_Ser2.

(** The members of an input-type object that are serialised. *)
Definition ientries (fs : list field) (d : list (string * pyval)) : dict pyval :=
  input_entries fs (map (fun kv => (fst kv, (is_none (snd kv), snd kv))) d).

Lemma dset_map {A B} (g : A -> B) (d : dict A) k v :
  dset (map (fun kv => (fst kv, g (snd kv))) d) k (g v) = map (fun kv => (fst kv, g (snd kv))) (dset d k v).
Proof.
  induction d as [|[k1 v1] d IH]; simpl; auto. destruct (String.eqb k k1); simpl; auto. now rewrite IH.
Qed.

Lemma input_entries_map {A B} (g : A -> B) fs (vals : dict (bool * A)) :
  input_entries fs (map (fun kv => (fst kv, (fst (snd kv), g (snd (snd kv))))) vals) =
  map (fun kv => (fst kv, g (snd kv))) (input_entries fs vals).
Proof.
  unfold input_entries.
  assert (G : forall acc,
    fold_left (fun acc f => match dget (map (fun kv => (fst kv, (fst (snd kv), g (snd (snd kv))))) vals) (f_py f) with
                          | Some (false, s) => dset acc (f_pulumi f) s
                          | _ => acc
                          end) fs (map (fun kv => (fst kv, g (snd kv))) acc) =
    map (fun kv => (fst kv, g (snd kv)))
      (fold_left (fun acc f => match dget vals (f_py f) with
                          | Some (false, s) => dset acc (f_pulumi f) s
                          | _ => acc
                          end) fs acc)).
  { induction fs as [|f fs IH]; simpl; intros acc; auto.
    rewrite (dget_map (fun p : bool * A => (fst p, g (snd p)))).
    destruct (dget vals (f_py f)) as [[[] s]|]; simpl; auto. now rewrite dset_map, IH. }
  apply (G []).
Qed.

Lemma input_fns_ientries c fs d :
  input_entries fs (input_fns c d) = map (fun kv => (fst kv, ser c (snd kv))) (ientries fs d).
Proof.
  unfold ientries. rewrite <- (input_entries_map (fun x => ser c x)). f_equal.
  unfold input_fns. rewrite map_map. reflexivity.
Qed.

Lemma ientries_map g fs d :
  (forall x, is_none (g x) = is_none x) ->
  ientries fs (map (fun kv => (fst kv, g (snd kv))) d) = map (fun kv => (fst kv, g (snd kv))) (ientries fs d).
Proof.
  intros Hg. unfold ientries. rewrite <- (input_entries_map g). f_equal.
  rewrite !map_map. simpl. apply map_ext. intros [k x]. simpl. now rewrite Hg.
Qed.

Lemma ientries_in fs d k x : In (k, x) (ientries fs d) -> exists k', In (k', x) d.
Proof.
  unfold ientries. intros H. apply input_entries_spec in H as (f & Hf & Hk & Hg).
  rewrite (dget_map (fun x => (is_none x, x))) in Hg. destruct (dget d (f_py f)) eqn:E; [|discriminate].
  injection Hg as _ ->. apply dget_In in E. eauto.
Qed.

Definition eser (c : cfg) (d : list (string * pyval)) : list (string * ser_fn) :=
  map (fun kv => (fst kv, ser c (snd kv))) d.

Lemma ser_input_eq c cls d t keep :
  ser c (VInput cls d) t keep =
  (let* (es, ds) := ser_entries (fun k => k) (fun k => dget (declared_types (c_class c cls)) k) keep
      (eser c (ientries (c_class c cls) d)) [] in Done (WStruct es, ds)).
Proof. unfold eser. rewrite <- input_fns_ientries. reflexivity. Qed.

(** Two entry lists with pointwise related serialisations. *)
Lemma ser_entries_rel c (g : pyval -> pyval) (Q : pyval -> Prop) tr ty keep d acc es ds :
  Forall (fun kv => forall t w ds, ser c (snd kv) t keep = Done (w, ds) ->
      exists ds', ser c (g (snd kv)) t keep = Done (w, ds') /\ (Q (snd kv) -> ds' = ds)) d ->
  ser_entries tr ty keep (eser c d) acc = Done (es, ds) ->
  exists ds', ser_entries tr ty keep (eser c (map (fun kv => (fst kv, g (snd kv))) d)) acc = Done (es, ds') /\
    (Forall (fun kv => Q (snd kv)) d -> ds' = ds).
Proof.
  intros HF. revert acc es ds. induction HF as [|[k x] d Hx HF IH]; intros acc es ds; simpl.
  - intros [= <- <-]. eauto.
  - destruct (ser c x (ty (tr k)) keep) as [[w d1]| |] eqn:E; simpl; try discriminate.
    destruct (ser_entries tr ty keep (eser c d) (dset acc (tr k) w)) as [[es' d2]| |] eqn:E'; simpl; try discriminate.
    intros [= <- <-]. destruct (Hx _ _ _ E) as (d1' & E1 & Q1). simpl in E1. rewrite E1. simpl.
    destruct (IH _ _ _ E') as (d2' & E2 & Q2). rewrite E2. simpl.
    exists (d1' ++ d2'). split; auto. intros HQ. inv HQ. rewrite Q1, Q2; auto.
Qed.

Lemma ser_elems_rel c (g : pyval -> pyval) (Q : pyval -> Prop) t keep l ws ds :
  Forall (fun x => forall t w ds, ser c x t keep = Done (w, ds) ->
      exists ds', ser c (g x) t keep = Done (w, ds') /\ (Q x -> ds' = ds)) l ->
  ser_elems (map (fun x => ser c x) l) t keep = Done (ws, ds) ->
  exists ds', ser_elems (map (fun x => ser c x) (map g l)) t keep = Done (ws, ds') /\
    (Forall Q l -> ds' = ds).
Proof.
  intros HF. revert ws ds. induction HF as [|x d Hx HF IH]; intros ws ds; simpl.
  - intros [= <- <-]. eauto.
  - destruct (ser c x t keep) as [[w d1]| |] eqn:E; simpl; try discriminate.
    destruct (ser_elems (map (fun x => ser c x) d) t keep) as [[es' d2]| |] eqn:E'; simpl; try discriminate.
    intros [= <- <-]. destruct (Hx _ _ _ E) as (d1' & E1 & Q1). rewrite E1. simpl.
    destruct (IH _ _ eq_refl) as (d2' & E2 & Q2). rewrite E2. simpl.
    exists (d1' ++ d2'). split; auto. intros HQ. inv HQ. rewrite Q1, Q2; auto.
Qed.

Lemma erase_is_none x : is_none (erase_unknown x) = is_none x.
Proof. destruct x; try reflexivity. simpl. destruct f; reflexivity. simpl. destruct v as [x| |]; auto. destruct known as [[]| |]; auto. Qed.

Lemma existsb_map_ext {A B} (f : B -> bool) (g : A -> B) (h : A -> bool) l :
  Forall (fun x => f (g x) = h x) l -> existsb f (map g l) = existsb h l.
Proof. induction 1; simpl; congruence. Qed.

Lemma erase_contains x : contains_unknowns (erase_unknown x) = contains_unknowns x.
Proof.
  induction x using pyval_ind'; simpl; auto.
  - apply existsb_map_ext. exact H.
  - apply existsb_map_ext. exact H.
  - destruct f; reflexivity.
  - destruct v as [x| |]; auto. destruct k as [[]| |]; reflexivity.
Qed.

Section Erase.
  Variable c : cfg.
  Hypothesis Hc : forall cls, class_ok (c_class c cls).

  Definition ok_hidden (keep : bool) (v : pyval) : Prop :=
    keep && c_outvals c = true -> ~ hides_resource c v.

  Lemma mentionless_deps x t keep w ds :
    ser c x t keep = Done (w, ds) -> (forall r, ~ mentions c r x) -> ds = [].
  Proof.
    intros E Hm. destruct ds as [|r ds]; auto. exfalso. apply (Hm r).
    apply (ser_deps c Hc x _ _ _ _ E). now left.
  Qed.

  Lemma ser_erase v : forall t keep w ds,
    ok_hidden keep v ->
    ser c v t keep = Done (w, ds) ->
    exists ds', ser c (erase_unknown v) t keep = Done (w, ds') /\ (~ hides_resource c v -> ds' = ds).
  Proof.
    induction v using pyval_ind'; intros ty0 keep w ds Hk E;
      try (simpl in E |- *; exists ds; split; auto; fail).
    - (* list *)
      simpl in E |- *. destruct (element_type (norm_ty ty0)) as [et|]; [|discriminate].
      destruct (ser_elems (map (fun x => ser c x) l) et keep) as [[ws ds']| |] eqn:E'; simpl in E; try discriminate.
      injection E as <- <-.
      destruct (ser_elems_rel c erase_unknown (fun x => ~ hides_resource c x) et keep l ws ds') as (ds'' & E2 & Q); auto.
      { rewrite Forall_forall in *. intros x Hx t w ds E. apply H; auto. intros K Hh. apply (Hk K). econstructor; eauto. }
      rewrite E2. simpl. exists ds''. split; auto. intros Hn. apply Q. rewrite Forall_forall. intros x Hx Hh. apply Hn. econstructor; eauto.
    - (* dict *)
      simpl in E |- *. fold (eser c d) in E.
      ser_case E ws ds' E'. injection E as <- <-.
      destruct (fun HF => ser_entries_rel c erase_unknown (fun x => ~ hides_resource c x) _ _ _ _ _ _ _ HF E') as (ds'' & E2 & Q).
      { rewrite Forall_forall in *. intros [k x] Hx t w ds E. apply (H (k, x)); auto. intros K Hh. apply (Hk K). econstructor; eauto. }
      unfold eser in E2. rewrite E2. simpl. exists ds''. split; auto. intros Hn. apply Q. rewrite Forall_forall. intros [k x] Hx Hh. apply Hn. econstructor; eauto.
    - (* archive *)
      simpl in E |- *. fold (eser c d) in E.
      ser_case E ws ds' E'. injection E as <- <-.
      destruct (fun HF => ser_entries_rel c erase_unknown (fun x => ~ hides_resource c x) _ _ _ _ _ _ _ HF E') as (ds'' & E2 & Q).
      { rewrite Forall_forall in *. intros [k x] Hx t w ds E. apply (H (k, x)); auto. intros K; discriminate. }
      unfold eser in E2. rewrite E2. simpl. exists ds''. split; auto. intros Hn. apply Q. rewrite Forall_forall. intros [k x] Hx Hh. apply Hn. econstructor; eauto.
    - (* await *)
      destruct f as [x| |]; try discriminate. simpl in E |- *. simpl in H.
      destruct (H (norm_ty ty0) keep w ds) as (ds' & E' & Q); auto.
      { intros K Hh. apply (Hk K). now constructor. }
      exists ds'. split; auto. intros Hn. apply Q. intros Hh. apply Hn. now constructor.
    - (* output *)
      destruct v as [x| |]; try (simpl in *; eauto; fail).
      destruct k as [k| |]; try (destruct rs; simpl in E; discriminate E).
      destruct rs as [rs| |]; try discriminate. destruct s as [s| |]; try discriminate.
      simpl in H. destruct k.
      + (* known *)
        simpl in E |- *. rewrite erase_contains.
        destruct (contains_unknowns x) eqn:Ec.
        { exists ds. split; auto. }
        destruct (ser c x (norm_ty ty0) false) as [[w' pds]| |] eqn:E1; simpl in E; try discriminate.
        destruct (H _ false _ _ ltac:(intros K; discriminate) E1) as (pds' & E1' & Q). rewrite E1'. simpl.
        assert (Q' : ~ hides_resource c (VOut (Done rs) (Done x) (Done true) (Done s)) -> pds' = pds).
        { intros Hn. apply Q. intros Hh. apply Hn. now constructor. }
        destruct (keep && c_outvals c) eqn:Ek.
        * rewrite (Q' (Hk Ek)). exists ds. split; auto.
        * destruct (s && c_secrets c); injection E as <- <-; (eexists; split; [reflexivity|]); intros Hn; now rewrite Q'.
      + (* not known *)
        simpl in E |- *.
        destruct (if contains_unknowns x then Done (WNull, []) else ser c x (norm_ty ty0) false) as [[w' pds]| |] eqn:E1; simpl in E; try discriminate.
        assert (Q' : ~ hides_resource c (VOut (Done rs) (Done x) (Done false) (Done s)) -> pds = []).
        { intros Hn. destruct (contains_unknowns x) eqn:Ec; [injection E1 as <- <-; auto|].
          apply (mentionless_deps x _ _ _ _ E1). intros r Hm. apply Hn. apply HR_here with r; auto. }
        destruct (keep && c_outvals c) eqn:Ek.
        * rewrite (Q' (Hk Ek)) in E. exists ds. split; auto.
        * injection E as <- <-. eexists; split; [reflexivity|]. intros Hn. now rewrite Q'.
    - (* input type *)
      cbn [erase_unknown]. rewrite ser_input_eq in E |- *.
      rewrite (ientries_map erase_unknown) by (intros; apply erase_is_none).
      ser_case E ws ds' E'. injection E as <- <-.
      destruct (fun HF => ser_entries_rel c erase_unknown (fun x => ~ hides_resource c x) _ _ _ _ _ _ _ HF E') as (ds'' & E2 & Q).
      { rewrite Forall_forall in *. intros [k x] Hx t w ds E.
        apply ientries_in in Hx as (k' & Hx). apply (H (k', x)); auto. intros K Hh. apply (Hk K). econstructor; eauto. }
      rewrite E2. simpl. exists ds''. split; auto. intros Hn. apply Q. rewrite Forall_forall. intros [k x] Hx Hh. apply Hn.
      apply ientries_in in Hx as (k' & Hx). econstructor; eauto.
  Qed.

  Lemma serialize_erase typ keep inputs st pd :
    (keep && c_outvals c = true -> Forall (fun kv => ~ hides_resource c (snd kv)) inputs) ->
    serialize_properties c typ keep inputs = Done (st, pd) ->
    exists pd', serialize_properties c typ keep (map (fun kv => (fst kv, erase_unknown (snd kv))) inputs) = Done (st, pd').
  Proof.
    unfold serialize_properties. generalize (@nil (string * wire)) as st0. 
    generalize (@nil (string * list rsrc)) as pd0.
    cut (forall pd0 pd0' st0, (keep && c_outvals c = true -> Forall (fun kv => ~ hides_resource c (snd kv)) inputs) ->
      ser_props_loop c typ keep inputs st0 pd0 = Done (st, pd) ->
      exists pd', ser_props_loop c typ keep (map (fun kv => (fst kv, erase_unknown (snd kv))) inputs) st0 pd0' = Done (st, pd')).
    { intros H pd0 st0. apply H. }
    induction inputs as [|[k v] rest IH]; intros pd0 pd0' st0 Hk E; simpl in E |- *.
    - injection E as <- <-. eauto.
    - destruct (ser c v (top_type c typ k) keep) as [[w ds]| |] eqn:E1; simpl in E; try discriminate.
      destruct (ser_erase v _ _ _ _ ltac:(intros K; specialize (Hk K); now inv Hk) E1) as (ds' & E1' & _).
      rewrite E1'. simpl.
      assert (Hk' : keep && c_outvals c = true -> Forall (fun kv => ~ hides_resource c (snd kv)) rest)
        by (intros K; specialize (Hk K); now inv Hk).
      destruct w; eapply IH; eauto.
  Qed.

  Lemma unknown_no_leak typ keep i1 i2 st1 pd1 st2 pd2 :
    map (fun kv => (fst kv, erase_unknown (snd kv))) i1 = map (fun kv => (fst kv, erase_unknown (snd kv))) i2 ->
    (keep && c_outvals c = true ->
       Forall (fun kv => ~ hides_resource c (snd kv)) i1 /\ Forall (fun kv => ~ hides_resource c (snd kv)) i2) ->
    serialize_properties c typ keep i1 = Done (st1, pd1) ->
    serialize_properties c typ keep i2 = Done (st2, pd2) ->
    st1 = st2.
  Proof.
    intros He Hk E1 E2.
    apply serialize_erase in E1 as (p1 & E1); [|intros K; apply Hk; auto].
    apply serialize_erase in E2 as (p2 & E2); [|intros K; apply Hk; auto].
    rewrite He in E1. congruence.
  Qed.
End Erase.
