(** Proofs about serialisation: property bags (C14, C20, C21), unknowns (C13). *)
From Verif Require Import Base PyVal Model_Output Spec_Output Proof_Output Proof_FromInput Model_Rpc Spec_Rpc Proof_Ser.

(* ------------------------------------------------------------------ *)
(** serialize_properties. *)

Definition is_wnull (w : wire) : bool := match w with WNull => true | _ => false end.

Definition live (es : list (string * (wire * list rsrc))) : list (string * (wire * list rsrc)) :=
  filter (fun e => negb (is_wnull (fst (snd e)))) es.
Definition wires (es : list (string * (wire * list rsrc))) : list (string * wire) :=
  map (fun e => (fst e, fst (snd e))) es.
Definition depss (es : list (string * (wire * list rsrc))) : list (string * list rsrc) :=
  map (fun e => (fst e, snd (snd e))) es.

Lemma put_all_cons {V} (kv : string * V) l acc : put_all (kv :: l) acc = put_all l (dset acc (fst kv) (snd kv)).
Proof. reflexivity. Qed.

Lemma ser_props_loop_ok c typ keep inputs st pd st' pd' :
  ser_props_loop c typ keep inputs st pd = Done (st', pd') <->
  exists ps, Forall2 (fun kv p => ser c (snd kv) (top_type c typ (fst kv)) keep = Done p) inputs ps /\
    st' = put_all (wires (live (combine (map (fun kv => top_key c typ (fst kv)) inputs) ps))) st /\
    pd' = put_all (depss (live (combine (map (fun kv => top_key c typ (fst kv)) inputs) ps))) pd.
Proof.
  revert st pd st' pd'. induction inputs as [|[k v] rest IH]; intros st pd st' pd'; simpl.
  - split.
    + intros [= <- <-]. exists []. auto.
    + intros (ps & H & -> & ->). inv H. reflexivity.
  - split.
    + destruct (ser c v (top_type c typ k) keep) as [[w ds]| |] eqn:E; simpl; try discriminate.
      intros H. destruct (is_wnull w) eqn:Ew.
      * destruct w; try discriminate. apply IH in H as (ps & HF & -> & ->).
        exists ((WNull, ds) :: ps). split; [constructor; auto|]. simpl. auto.
      * assert (H' : ser_props_loop c typ keep rest (dset st (top_key c typ k) w) (dset pd (top_key c typ k) ds) = Done (st', pd'))
          by (destruct w; try discriminate; exact H).
        apply IH in H' as (ps & HF & -> & ->).
        exists ((w, ds) :: ps). split; [constructor; auto|]. simpl. rewrite Ew. simpl. auto.
    + intros (ps & H & -> & ->). inv H. destruct y as [w ds]. simpl in H2. rewrite H2. simpl.
      destruct w; simpl; apply IH; exists l'; auto.
Qed.

Lemma put_all_keys_same {V W} (es : list (string * (V * W))) st pd :
  dkeys st = dkeys pd ->
  dkeys (put_all (map (fun e => (fst e, fst (snd e))) es) st) =
  dkeys (put_all (map (fun e => (fst e, snd (snd e))) es) pd).
Proof.
  revert st pd. induction es as [|[k [v w]] es IH]; intros st pd H; [exact H|].
  cbn. apply IH. clear IH es. revert pd H. induction st as [|[k1 v1] st IH]; intros [|[k2 w2] pd] H; cbn in *; try discriminate; auto.
  injection H as -> H. destruct (String.eqb k k2); cbn; f_equal; auto.
  now apply IH.
Qed.

Lemma live_in ks ps e :
  In e (live (combine ks ps)) <-> In e (combine ks ps) /\ fst (snd e) <> WNull.
Proof.
  unfold live. rewrite filter_In. destruct e as [k [w ds]]. simpl. destruct w; simpl; intuition congruence.
Qed.

Lemma combine_in_F2 {A B} (R : A -> B -> Prop) (f : A -> string) l ps a :
  Forall2 R l ps -> In a l -> exists p, R a p /\ In (f a, p) (combine (map f l) ps).
Proof.
  induction 1; simpl; [easy|]. intros [<-|Hin]; [eauto|].
  destruct (IHForall2 Hin) as (p & Hp & Hi). eauto.
Qed.
Lemma combine_in_F2_r {A B} (R : A -> B -> Prop) (f : A -> string) l ps k p :
  Forall2 R l ps -> In (k, p) (combine (map f l) ps) -> exists a, In a l /\ f a = k /\ R a p.
Proof.
  induction 1; simpl; [easy|]. intros [[= <- <-]|Hin]; [eauto|].
  destruct (IHForall2 Hin) as (a & Ha & Hf & HR). eauto.
Qed.

Lemma map_fst_filter_NoDup {A B} (f : A * B -> bool) (l : list (A * B)) :
  NoDup (map fst l) -> NoDup (map fst (filter f l)).
Proof.
  induction l as [|[a b] l IH]; simpl; intros H; [constructor|]. inv H.
  destruct (f (a, b)); simpl; auto. constructor; auto.
  intros Hin. apply H2. apply in_map_iff in Hin as (x & <- & Hx). apply filter_In in Hx as [Hx _].
  now apply in_map.
Qed.
Lemma map_fst_combine {A B} (l : list A) (m : list B) : length l = length m -> map fst (combine l m) = l.
Proof. revert m; induction l as [|a l IH]; intros [|b m] H; simpl in *; try discriminate; auto. f_equal; auto. Qed.

Lemma NoDup_live ks ps : length ks = length ps -> NoDup ks -> NoDup (map fst (live (combine ks ps))).
Proof. intros Hl Hn. apply map_fst_filter_NoDup. now rewrite map_fst_combine. Qed.

Lemma map_fst_wires es : map fst (wires es) = map fst es.
Proof. unfold wires. now rewrite map_map. Qed.
Lemma map_fst_depss es : map fst (depss es) = map fst es.
Proof. unfold depss. now rewrite map_map. Qed.

Lemma NoDup_key_unique {A B} (l : list (A * B)) k p q :
  NoDup (map fst l) -> In (k, p) l -> In (k, q) l -> p = q.
Proof.
  induction l as [|[a b] l IH]; simpl; intros Hn Hp Hq; [easy|]. inv Hn.
  destruct Hp as [Hp|Hp], Hq as [Hq|Hq]; auto.
  - congruence.
  - injection Hp as -> ->. exfalso. apply H1. now apply (in_map fst) in Hq.
  - injection Hq as -> ->. exfalso. apply H1. now apply (in_map fst) in Hp.
Qed.

(** What [serialize_properties] sends, key by key. *)
Lemma serialize_properties_spec c typ keep inputs st pd :
  serialize_properties c typ keep inputs = Done (st, pd) ->
  wf_dict st /\ dkeys st = dkeys pd /\
  (forall k, In k (dkeys st) -> exists k0 v, In (k0, v) inputs /\ k = top_key c typ k0) /\
  (NoDup (map (fun kv => top_key c typ (fst kv)) inputs) ->
   forall k v, In (k, v) inputs ->
     exists w ds, ser c v (top_type c typ k) keep = Done (w, ds) /\
       dget st (top_key c typ k) = (if is_wnull w then None else Some w) /\
       dget pd (top_key c typ k) = (if is_wnull w then None else Some ds)).
Proof.
  unfold serialize_properties. intros H. apply ser_props_loop_ok in H as (ps & HF & -> & ->).
  set (f := fun kv : string * pyval => top_key c typ (fst kv)) in *.
  assert (Hlen : length (map f inputs) = length ps) by (rewrite map_length; exact (Forall2_len _ _ _ HF)).
  split; [apply wf_put_all; constructor|].
  split; [unfold wires, depss; apply put_all_keys_same; reflexivity|].
  split.
  - intros k Hk. apply dkeys_put_all in Hk as [Hk|[]]. rewrite map_fst_wires in Hk.
    apply in_map_iff in Hk as ([k' p] & <- & Hk). apply live_in in Hk as [Hk _].
    destruct (combine_in_F2_r _ f _ _ _ _ HF Hk) as ([k0 v] & Hin & E & _). exists k0, v. split; auto.
  - intros Hnd k v Hin.
    destruct (combine_in_F2 _ f _ _ _ HF Hin) as ([w ds] & E & Hc). simpl in E.
    exists w, ds. split; [exact E|].
    destruct (is_wnull w) eqn:Ew.
    + assert (Hno : ~ In (f (k, v)) (map fst (live (combine (map f inputs) ps)))).
      { intros Hi. apply in_map_iff in Hi as ([k' p] & Hk' & Hi). simpl in Hk'.
        apply live_in in Hi as [Hi Hw]. rewrite Hk' in Hi.
        assert (p = (w, ds)).
        { apply (NoDup_key_unique (combine (map f inputs) ps) (f (k, v))); auto.
          rewrite map_fst_combine; auto. }
        subst p. simpl in Hw. destruct w; try discriminate. congruence. }
      rewrite !dget_put_all_notin; auto; [rewrite map_fst_depss|rewrite map_fst_wires]; exact Hno.
    + assert (Hl : In (f (k, v), (w, ds)) (live (combine (map f inputs) ps))).
      { apply live_in. split; auto. simpl. intros ->. discriminate. }
      split; apply dget_put_all.
      * rewrite map_fst_wires. now apply NoDup_live.
      * apply (in_map (fun e => (fst e, fst (snd e)))) in Hl. exact Hl.
      * rewrite map_fst_depss. now apply NoDup_live.
      * apply (in_map (fun e => (fst e, snd (snd e)))) in Hl. exact Hl.
Qed.

Lemma property_dependencies c typ keep inputs st pd :
  (forall cls, class_ok (c_class c cls)) ->
  serialize_properties c typ keep inputs = Done (st, pd) ->
  dkeys st = dkeys pd /\
  (NoDup (map (fun kv => top_key c typ (fst kv)) inputs) ->
   forall k v ds, In (k, v) inputs -> dget pd (top_key c typ k) = Some ds ->
     forall r, In r ds <-> mentions c r v).
Proof.
  intros Hc H. apply serialize_properties_spec in H as (_ & Hk & _ & Hs). split; auto.
  intros Hn k v ds Hin Hd r. destruct (Hs Hn k v Hin) as (w & ds' & E & _ & Hd').
  rewrite Hd' in Hd. destruct (is_wnull w); [discriminate|]. injection Hd as ->.
  exact (ser_deps c Hc v _ _ _ _ E r).
Qed.

(* ------------------------------------------------------------------ *)
(** C20: which inputs serialise to None. *)

Lemma woutput_not_null k s w us : woutput k s w us <> WNull.
Proof. discriminate. Qed.

Lemma ser_null_iff c v : forall t keep w ds,
  ser c v t keep = Done (w, ds) -> (w = WNull <-> sends_nothing c keep v).
Proof.
  induction v using pyval_ind'; intros ty0 keep w ds E; simpl in E;
    try (injection E as <- <-; split; [intros K; first [discriminate K|constructor]|intros K; first [reflexivity|inv K]]; fail);
    try discriminate.
  - destruct (element_type (norm_ty ty0)) as [et|]; [|discriminate].
    destruct (ser_elems _ et keep) as [[ws ds']| |]; simpl in E; try discriminate.
    injection E as <- <-. split; intros K; [discriminate|inv K].
  - ser_case E ws ds' E'. injection E as <- <-. split; intros K; [discriminate|inv K].
  - ser_case E ws ds' E'. injection E as <- <-. split; intros K; [discriminate|inv K].
  - assert (G : w <> WNull).
    { unfold ser_string_output in E. destruct (c_refs c).
      - destruct (r_urn (c_res c r)) as [[]| |]; simpl in E; try discriminate;
        destruct (r_custom (c_res c r)); try (injection E as <- <-; discriminate);
        destruct (r_id (c_res c r)) as [[]| |]; simpl in E; try discriminate; injection E as <- <-; discriminate.
      - destruct (if r_custom (c_res c r) then r_id (c_res c r) else r_urn (c_res c r)) as [[]| |]; simpl in E; try discriminate; injection E as <- <-; discriminate. }
    split; [congruence|intros K; inv K].
  - destruct f as [x| |]; try discriminate. simpl in H. rewrite (H _ _ _ _ E). split.
    + now constructor.
    + intros K; now inv K.
  - destruct rs as [rs| |]; try discriminate. destruct k as [k| |]; try discriminate.
    destruct s as [s| |]; try discriminate. simpl in E.
    destruct v as [x| |]; try discriminate. simpl in H.
    destruct (keep && c_outvals c) eqn:Ek.
    { destruct (if contains_unknowns x then _ else _) as [[w' pds]| |]; simpl in E; try discriminate.
      destruct (await_urns c (rs ++ pds)); simpl in E; try discriminate.
      destruct (expand_all c (rs ++ pds)); simpl in E; try discriminate.
      injection E as <- <-. split; [intros K; discriminate|]. intros K; inv K; congruence. }
    destruct k; simpl in E.
    2:{ destruct (if contains_unknowns x then _ else _) as [[w' pds]| |]; simpl in E; try discriminate.
        injection E as <- <-. split; [intros K; discriminate|]. intros K; inv K. }
    destruct (s && c_secrets c) eqn:Es.
    { destruct (if contains_unknowns x then _ else _) as [[w' pds]| |]; simpl in E; try discriminate.
      injection E as <- <-. split; [intros K; discriminate|]. intros K; inv K; congruence. }
    destruct (contains_unknowns x) eqn:Ec.
    + simpl in E. injection E as <- <-. split; auto. intros _. apply SN_out; auto.
    + destruct (ser c x (norm_ty ty0) false) as [[w' pds]| |] eqn:E1; simpl in E; try discriminate.
      injection E as <- <-. rewrite (H _ _ _ _ E1). split.
      * intros K. apply SN_out; auto.
      * intros K; inv K. intuition congruence.
  - fold (input_fns c d) in E. ser_case E ws ds' E'. injection E as <- <-. split; intros K; [discriminate|inv K].
Qed.

Lemma null_inputs c typ keep inputs st pd :
  serialize_properties c typ keep inputs = Done (st, pd) ->
  NoDup (map (fun kv => top_key c typ (fst kv)) inputs) ->
  wf_dict st /\ wf_dict pd /\
  (forall k v, In (k, v) inputs ->
     (In (top_key c typ k) (dkeys st) <-> ~ sends_nothing c keep v) /\
     (In (top_key c typ k) (dkeys pd) <-> ~ sends_nothing c keep v)) /\
  (forall k, In k (dkeys st) -> exists k0 v, In (k0, v) inputs /\ k = top_key c typ k0).
Proof.
  intros H Hn. apply serialize_properties_spec in H as (Hw & Hk & Hin & Hs).
  split; auto. split; [unfold wf_dict; rewrite <- Hk; exact Hw|]. split; auto.
  assert (G : forall k v, In (k, v) inputs -> In (top_key c typ k) (dkeys st) <-> ~ sends_nothing c keep v).
  { intros k v Hi. destruct (Hs Hn k v Hi) as (w & ds & E & H1 & _).
    pose proof (ser_null_iff c v _ _ _ _ E) as Hnul. destruct (is_wnull w) eqn:Ew.
    - destruct w; try discriminate. apply dget_None in H1. tauto.
    - apply dget_key in H1. assert (w <> WNull) by (intros ->; discriminate). tauto. }
  intros k v Hi. rewrite <- Hk. split; apply G; auto.
Qed.

(* ------------------------------------------------------------------ *)
(** C21: names. *)

Lemma ser_dict_keys c d t keep w ds :
  ser c (VDict d) t keep = Done (w, ds) ->
  exists es, w = WStruct es /\ wf_dict es /\
  (forall k, In k (dkeys es) <-> exists k0, In k0 (dkeys d) /\ k = key_rule c (norm_ty t) k0) /\
  (NoDup (map (key_rule c (norm_ty t)) (dkeys d)) ->
   dkeys es = map (key_rule c (norm_ty t)) (dkeys d) /\
   forall k x, In (k, x) d -> exists w' ds', dget es (key_rule c (norm_ty t) k) = Some w' /\
     ser c x (value_rule c (norm_ty t) (key_rule c (norm_ty t) k)) keep = Done (w', ds')).
Proof.
  simpl. intros E. ser_case E es ds' E'. injection E as <- <-.
  apply ser_entries_ok in E' as (ps & HF & -> & _).
  eexists; split; [reflexivity|]. split; [apply wf_put_all; constructor|].
  rewrite map_map in *. simpl in *.
  set (K := key_rule c (norm_ty t)) in *.
  assert (HF' : Forall2 (fun kv p => ser c (snd kv) (value_rule c (norm_ty t) (K (fst kv))) keep = Done p) d ps).
  { clear -HF. revert ps HF. induction d as [|kv d IH]; intros ps HF; inv HF; constructor; auto. }
  pose proof (Forall2_len _ _ _ HF') as Hlen.
  assert (Hfst : map fst (combine (map (fun x => K (fst x)) d) (map fst ps)) = map (fun x => K (fst x)) d).
  { apply map_fst_combine. now rewrite !map_length. }
  split.
  - intros k. rewrite dkeys_put_all, Hfst. split.
    + intros [Hk|[]]. apply in_map_iff in Hk as ([k0 x] & <- & Hi). exists k0. split; auto.
      apply (in_map fst) in Hi. exact Hi.
    + intros (k0 & Hi & ->). left. unfold dkeys in Hi. apply in_map_iff in Hi as ([k1 x] & <- & Hi).
      apply (in_map (fun x => K (fst x))) in Hi. exact Hi.
  - unfold dkeys. rewrite map_map. intros Hn. rewrite put_all_fresh.
    2:{ rewrite Hfst. exact Hn. }
    2:{ intros k _ []. }
    cbn [app]. split; [exact Hfst|].
    intros k x Hin.
    destruct (F2_in_l _ _ _ _ HF' Hin) as ([w' d1] & Hp & E). exists w', d1. split; auto.
    clear -HF' Hin Hn E Hp Hfst.
    assert (Hi : In (K k, w') (combine (map (fun x => K (fst x)) d) (map fst ps))).
    { clear -HF' Hin E. induction HF'; simpl in *; [easy|]. destruct Hin as [->|Hin]; [|auto].
      simpl in H. left. rewrite H in E. injection E as ->. reflexivity. }
    apply In_dget; auto. unfold wf_dict, dkeys. rewrite Hfst. exact Hn.
Qed.

Lemma ser_input_keys c cls fields t keep w ds :
  class_ok (c_class c cls) ->
  ser c (VInput cls fields) t keep = Done (w, ds) ->
  exists es, w = WStruct es /\ wf_dict es /\
  (forall k, In k (dkeys es) -> exists f x, In f (c_class c cls) /\ k = f_pulumi f /\
       dget fields (f_py f) = Some x /\ is_none x = false) /\
  (forall f x, In f (c_class c cls) -> dget fields (f_py f) = Some x -> is_none x = false ->
     exists w' ds', dget es (f_pulumi f) = Some w' /\
       ser c x (dget (declared_types (c_class c cls)) (f_pulumi f)) keep = Done (w', ds')).
Proof.
  simpl. intros Hc E. fold (input_fns c fields) in E. ser_case E es ds' E'. injection E as <- <-.
  apply ser_entries_ok in E' as (ps & HF & -> & _).
  eexists; split; [reflexivity|]. split; [apply wf_put_all; constructor|].
  cbn beta in *.
  change (forall (_ : option pty) (_ : bool), fut (wire * list rsrc)) with ser_fn in *.
  set (ies := @input_entries ser_fn (c_class c cls) (input_fns c fields)) in *.
  assert (Hlen : length (map fst ies) = length (map fst ps)).
  { rewrite !map_length. exact (Forall2_len _ _ _ HF). }
  assert (Hfst : map fst (combine (map (fun e : string * ser_fn => fst e) ies) (map fst ps)) = map fst ies).
  { now rewrite map_fst_combine. }
  split.
  - intros k Hk. apply dkeys_put_all in Hk as [Hk|[]]. rewrite Hfst in Hk.
    apply in_map_iff in Hk as ([k' s] & <- & Hi). unfold ies in Hi.
    apply input_entries_spec in Hi as (f & Hf & Hk & Hg).
    rewrite dget_input_fns in Hg. destruct (dget fields (f_py f)) as [x|] eqn:Hx; [|discriminate].
    injection Hg as Hn _. exists f, x. auto.
  - intros f x Hf Hx Hn.
    assert (Hg : dget (input_fns c fields) (f_py f) = Some (false, ser c x)).
    { rewrite dget_input_fns, Hx. simpl. now rewrite Hn. }
    pose proof (input_entries_complete _ _ f (ser c x) Hc Hf Hg) as Hin. apply dget_In in Hin. change (In (f_pulumi f, ser c x) ies) in Hin.
    destruct (F2_in_l _ _ _ _ HF Hin) as ([w' d1] & Hp & E). simpl in E. exists w', d1. split; auto.
    assert (Hw : wf_dict ies) by apply wf_input_entries.
    apply dget_put_all; [rewrite Hfst; exact Hw|].
    clearbody ies. clear -HF Hin E Hw. unfold wf_dict, dkeys in Hw. induction HF; simpl in *; [easy|].
    destruct Hin as [->|Hin]; [|inv Hw; auto]. simpl in H. rewrite E in H. injection H as <-. left. reflexivity.
Qed.
