(** Proofs about the translation of outputs (C55). *)
From Verif Require Import Base PyVal Model_Rpc Model_Translate Spec_Translate.
Open Scope string_scope.

Lemma secret_iff d : wf_dict d -> (is_rpc_secret (VDict d) = true <-> marks_secret d).
Proof.
  intros W. unfold is_rpc_secret, marks_secret. split.
  - destruct (dget d sig_key) as [v|] eqn:E; [|discriminate]. destruct v; try discriminate.
    intros H. apply String.eqb_eq in H. subst. apply dget_In in E. exact E.
  - intros H. apply In_dget in H; auto. change (dget d sig_key = Some (VStr secret_sig)) in H. rewrite H. reflexivity.
Qed.
Lemma secret_false d : wf_dict d -> ~ marks_secret d -> is_rpc_secret (VDict d) = false.
Proof. intros W N. destruct (is_rpc_secret (VDict d)) eqn:E; auto. apply secret_iff in E; auto. contradiction. Qed.

Lemma dget_fns c d k : dget (map (fun kv => (fst kv, translate c (snd kv))) d) k = option_map (translate c) (dget d k).
Proof. induction d as [|[k' v] d IH]; simpl; auto. destruct (String.eqb k k'); auto. Qed.

(* ---- types ---- *)
Lemma norm_untyped t : norm_oty t = None <-> untyped t.
Proof.
  unfold norm_oty, untyped. destruct t as [u|]; [|tauto].
  destruct u as [|v| | | | | | |]; try (split; [discriminate|intros [K|[K|K]]; discriminate]); try tauto.
  destruct v; try (split; [discriminate|intros [K|[K|K]]; discriminate]); tauto.
Qed.
Lemma norm_declared t u : u <> OAny -> (forall w, u <> OOptional w) -> (norm_oty t = Some u <-> declared t u).
Proof.
  intros N1 N2. unfold norm_oty, declared. destruct t as [x|].
  2:{ split; [discriminate|intros [K|K]; discriminate]. }
  destruct x as [|y| | | | | | |]; try (split; [auto|intros [K|K]; [exact K|discriminate K]]).
  - split; [discriminate|]. intros [[= <-]|K]; [congruence|discriminate].
  - split.
    + destruct y; try discriminate; intros [= <-]; auto.
    + intros [[= <-]|[= ->]]; [destruct (N2 y); auto|]. destruct u; auto; try congruence.
Qed.
Lemma type_cases t : untyped t \/ exists u, norm_oty t = Some u /\ u <> OAny.
Proof.
  destruct (norm_oty t) as [u|] eqn:E; [|left; now apply norm_untyped].
  right. exists u. split; auto. unfold norm_oty in E. destruct t as [x|]; [|discriminate].
  destruct x as [|y| | | | | | |]; try (injection E as <-; discriminate).
  - discriminate.
  - destruct y; try discriminate; injection E as <-; discriminate.
Qed.

(* translation only looks at the normalised type, except under a secret *)
Lemma translate_any c v : translate c v (Some OAny) = translate c v None.
Proof.
  induction v as [| | | |l IH|d IH| | | | |d IH| | | | |f|rs f k s|cls d IH|] using pyval_ind'; try reflexivity.
  simpl. destruct (match dget d sig_key with Some (VStr s) => _ | _ => false end); [|reflexivity].
  rewrite dget_fns. destruct (dget d "value") eqn:E; cbn [option_map]; [|reflexivity].
  apply dget_In in E. rewrite Forall_forall in IH. specialize (IH _ E). cbn [snd] in IH. rewrite IH. reflexivity.
Qed.

(* ---- comprehensions ---- *)
Lemma tr_elems_ok t fs r : tr_elems t fs = Ok r <-> Forall2 (fun (f : tr_fn) y => f t = Ok y) fs r.
Proof.
  revert r. induction fs as [|f fs IH]; intros r; simpl.
  - split; [intros [= <-]; constructor|]. inversion 1; reflexivity.
  - split.
    + destruct (f t) eqn:E; cbn [rbind]; [|discriminate]. destruct (tr_elems t fs) eqn:E2; cbn [rbind]; [|discriminate].
      intros [= <-]. constructor; auto. apply IH. auto.
    + inversion 1 as [|? y ? ys H1 H2]; subst. rewrite H1. cbn [rbind]. apply IH in H2. rewrite H2. reflexivity.
Qed.
Lemma tr_elems_err t fs e : tr_elems t fs = Err e -> exists f, In f fs /\ f t = Err e.
Proof.
  induction fs as [|f fs IH]; simpl; [discriminate|].
  destruct (f t) eqn:E; cbn [rbind]; [|intros [= <-]; eauto].
  destruct (tr_elems t fs) eqn:E2; cbn [rbind]; [discriminate|]. intros [= <-]. destruct IH as (g & H1 & H2); eauto.
Qed.
Lemma tr_elems_err2 t fs f e : In f fs -> f t = Err e -> exists e', tr_elems t fs = Err e'.
Proof.
  intros Hin Hf. destruct (tr_elems t fs) eqn:E; eauto. apply tr_elems_ok in E.
  exfalso. induction E; simpl in *; [easy|]. destruct Hin as [->|Hin]; [congruence|auto].
Qed.

Lemma dset_fresh {V} (d : dict V) k v : ~ In k (dkeys d) -> dset d k v = (d ++ [(k, v)])%list.
Proof.
  induction d as [|[k' v'] d IH]; simpl; intros H; auto.
  destruct (String.eqb_spec k k') as [->|]; [tauto|]. rewrite IH; auto.
Qed.
Lemma tr_entries_ok key ty es : forall acc r,
  NoDup (dkeys acc ++ map key (dkeys es))%list ->
  (tr_entries key ty es acc = Ok r <->
   exists r', r = (acc ++ r')%list /\ Forall2 (fun (kf : string * tr_fn) kv => fst kv = key (fst kf) /\ snd kf (ty (fst kf)) = Ok (snd kv)) es r').
Proof.
  induction es as [|[k f] es IH]; intros acc r N; simpl.
  - split.
    + intros [= <-]. exists []. rewrite app_nil_r. auto.
    + intros (r' & -> & F). inversion F; subst. now rewrite app_nil_r.
  - simpl in N.
    assert (Hk : ~ In (key k) (dkeys acc)) by (apply NoDup_remove_2 in N; rewrite in_app_iff in N; tauto).
    destruct (f (ty k)) as [v|e] eqn:E; cbn [rbind].
    + rewrite dset_fresh by auto. rewrite IH.
      2:{ unfold dkeys in *. rewrite map_app, <- app_assoc. simpl. exact N. }
      split.
      * intros (r' & -> & F). exists ((key k, v) :: r'). rewrite <- app_assoc. split; auto.
      * intros (r' & -> & F). inversion F as [|? [k1 v1] ? r2 [H1 H2] H3]; subst. cbn [fst snd] in *.
        rewrite E in H2. injection H2 as <-. subst k1. exists r2. rewrite <- app_assoc. split; auto.
    + split; [discriminate|]. intros (r' & _ & F). inversion F as [|? kv ? r2 [H1 H2] H3]; subst. cbn [fst snd] in H2. congruence.
Qed.
Lemma tr_entries_err key ty es : forall acc e, tr_entries key ty es acc = Err e ->
  exists k f, In (k, f) es /\ f (ty k) = Err e.
Proof.
  induction es as [|[k f] es IH]; intros acc e; simpl; [discriminate|].
  destruct (f (ty k)) eqn:E; cbn [rbind]; [|intros [= <-]; eauto].
  intros H. apply IH in H as (k' & f' & H1 & H2). eauto.
Qed.
Lemma tr_entries_err2 key ty es : forall acc k f e, In (k, f) es -> f (ty k) = Err e -> exists e', tr_entries key ty es acc = Err e'.
Proof.
  induction es as [|[k0 f0] es IH]; intros acc k f e Hin H; [easy|]. destruct Hin as [[= -> ->]|Hin]; simpl.
  - rewrite H. cbn [rbind]. eauto.
  - destruct (f0 (ty k0)); cbn [rbind]; eauto.
Qed.

(* ---- classes ---- *)
Lemma class_types_acc fs : forall acc k,
  NoDup (map of_pulumi fs) ->
  dget (fold_left (fun acc f => match of_ty f with Some t => dset acc (of_pulumi f) t | None => acc end) fs acc) k =
  match find (fun f => String.eqb (of_pulumi f) k) fs with
  | Some f => match of_ty f with Some t => Some t | None => dget acc k end
  | None => dget acc k
  end.
Proof.
  induction fs as [|f fs IH]; intros acc k N; simpl; auto.
  inversion N as [|? ? N1 N2]; subst. rewrite IH by auto.
  destruct (String.eqb_spec (of_pulumi f) k) as [<-|Nk].
  - assert (F : find (fun g => String.eqb (of_pulumi g) (of_pulumi f)) fs = None).
    { destruct (find _ fs) eqn:E; auto. apply find_some in E as [E1 E2]. apply String.eqb_eq in E2.
      exfalso. apply N1. rewrite <- E2. now apply in_map. }
    rewrite F. destruct (of_ty f); auto. rewrite dget_dset, String.eqb_refl. reflexivity.
  - assert (G : dget (match of_ty f with Some t => dset acc (of_pulumi f) t | None => acc end) k = dget acc k).
    { destruct (of_ty f); auto. rewrite dget_dset. destruct (String.eqb_spec k (of_pulumi f)); [congruence|auto]. }
    destruct (find _ fs) as [g|]; [destruct (of_ty g); auto|auto].
Qed.
Lemma class_types_ok fs k t : NoDup (map of_pulumi fs) -> (dget (class_types fs) k = t <-> field_type fs k t).
Proof.
  intros N. unfold class_types. rewrite class_types_acc by auto. unfold field_type. cbn [dget].
  destruct (find (fun f => String.eqb (of_pulumi f) k) fs) as [f|] eqn:E.
  - apply find_some in E as [E1 E2]. apply String.eqb_eq in E2. split.
    + intros <-. left. exists f. repeat split; auto. destruct (of_ty f); auto.
    + intros [(g & G1 & G2 & G3)|[G _]]; [|destruct (G f E1 E2)].
      assert (f = g).
      { clear -N E1 E2 G1 G2. induction fs as [|h fs IH]; simpl in *; [easy|]. inversion N as [|? ? N1 N2]; subst.
        destruct E1 as [->|E1], G1 as [->|G1]; auto.
        - exfalso. apply N1. apply in_map_iff. exists g. split; congruence.
        - exfalso. apply N1. apply in_map_iff. exists f. split; congruence. }
      subst g. rewrite <- G3. destruct (of_ty f); auto.
  - split.
    + intros <-. right. split; auto. intros f Hf K. apply find_none with (x := f) in E; auto. apply String.eqb_neq in E. congruence.
    + intros [(g & G1 & G2 & G3)|[_ ->]]; auto.
      apply find_none with (x := g) in E; auto. apply String.eqb_neq in E. congruence.
Qed.
Lemma field_type_total fs k : NoDup (map of_pulumi fs) -> exists t, field_type fs k t.
Proof. intros N. eexists. apply class_types_ok; eauto. Qed.

Lemma from_dict_acc fs (d : dict tval) : forall acc, NoDup (dkeys acc ++ map of_py fs)%list ->
  fold_left (fun acc f => dset acc (of_py f) (dget d (of_pulumi f))) fs acc =
  (acc ++ map (fun f => (of_py f, dget d (of_pulumi f))) fs)%list.
Proof.
  induction fs as [|f fs IH]; intros acc N; simpl; [now rewrite app_nil_r|]. simpl in N.
  rewrite dset_fresh by (apply NoDup_remove_2 in N; rewrite in_app_iff in N; tauto).
  rewrite IH; [now rewrite <- app_assoc|]. unfold dkeys in *. rewrite map_app, <- app_assoc. exact N.
Qed.
Lemma from_dict_ok fs (d : dict tval) : NoDup (map of_py fs) -> from_dict fs d = map (fun f => (of_py f, dget d (of_pulumi f))) fs.
Proof. intros N. unfold from_dict. now rewrite from_dict_acc. Qed.

Lemma F2_map_l {A B C} (g : A -> B) (R : B -> C -> Prop) l m : Forall2 R (map g l) m <-> Forall2 (fun a c => R (g a) c) l m.
Proof.
  revert m. induction l as [|a l IH]; intros m; simpl; split; intros H; inversion H; subst; constructor; auto; now apply IH.
Qed.
Lemma F2_imp {A B} (R S : A -> B -> Prop) l m : Forall2 R l m -> (forall a b, In a l -> R a b -> S a b) -> Forall2 S l m.
Proof. induction 1; intros K; constructor; [apply K; simpl; auto|]. apply IHForall2. intros; apply K; simpl; auto. Qed.

Definition args_rel (fs : list ofield) (r : list (string * tval)) (args : list (string * option tval)) : Prop :=
  Forall2 (fun f a => fst a = of_py f /\
       ((exists y, In (of_pulumi f, y) r /\ snd a = Some y) \/ ((forall y, ~ In (of_pulumi f, y) r) /\ snd a = None))) fs args.
Lemma args_ok fs r args : wf_dict r ->
  (args = map (fun f => (of_py f, dget r (of_pulumi f))) fs <-> args_rel fs r args).
Proof.
  intros W. unfold args_rel. revert args. induction fs as [|f fs IH]; intros args; simpl.
  - split; [intros ->; constructor|]. inversion 1; auto.
  - split.
    + intros ->. constructor; [|now apply IH]. cbn [fst snd]. split; auto.
      destruct (dget r (of_pulumi f)) as [y|] eqn:E.
      * left. exists y. split; auto. now apply dget_In.
      * right. split; auto. intros y K. apply dget_None in E. apply E. now apply (in_map fst) in K.
    + inversion 1 as [|? [k a] ? args' [H1 H2] H3]; subst. cbn [fst snd] in *. f_equal.
      * f_equal; auto. destruct H2 as [(y & H2 & ->)|[H2 ->]].
        -- symmetry. now apply In_dget.
        -- symmetry. apply dget_None. intros K. apply in_map_iff in K as ([k1 y] & K1 & K2). cbn [fst] in K1. subst k1. exact (H2 y K2).
      * apply IH. exact H3.
Qed.

Lemma wf_keys_F2 {A} (key : string -> string) (d : list (string * A)) (r : list (string * tval)) R :
  Forall2 (fun kv kv' => fst kv' = key (fst kv) /\ R kv kv') d r -> dkeys r = map key (dkeys d).
Proof. induction 1 as [|? ? ? ? [H1 _] _ IH]; simpl; [reflexivity|]. unfold dkeys in *. simpl. congruence. Qed.

(* ---- main ---- *)
Definition class_ok (c : ocfg) : Prop := forall cls, good_class (o_class c cls).

Lemma entries_rel c ty d : 
  forall (key : string -> string) (r' : list (string * tval)), Forall2 (fun (kf : string * tr_fn) kv => fst kv = key (fst kf) /\ snd kf (ty (fst kf)) = Ok (snd kv))
     (map (fun kv => (fst kv, translate c (snd kv))) d) r' <->
   Forall2 (fun kv kv' => fst kv' = key (fst kv) /\ translate c (snd kv) (ty (fst kv)) = Ok (snd kv')) d r'.
Proof. intros key r'. rewrite F2_map_l. reflexivity. Qed.

Lemma keys_fns c d : dkeys (map (fun kv : string * pyval => (fst kv, translate c (snd kv))) d) = dkeys d.
Proof. unfold dkeys. rewrite map_map. reflexivity. Qed.

Lemma not_secret_result c v t r : engine_value c v -> (forall d, v = VDict d -> ~ marks_secret d) ->
  translate c v t = Ok r -> wrap_secret r = TSecret r.
Proof.
  intros Hv Hs H. destruct v; simpl in H; try (injection H as <-; reflexivity).
  1-3: destruct (norm_oty t) as [[]|]; try (injection H as <-; reflexivity); destruct (o_enum _ _ _); [injection H as <-; reflexivity|discriminate].
  - destruct (list_type _); cbn [rbind] in H; [|discriminate]. destruct (tr_elems _ _); cbn [rbind] in H; [|discriminate]. injection H as <-. reflexivity.
  - specialize (Hs d eq_refl).
    assert (W : wf_dict d) by (inversion Hv; subst; auto; exfalso; match goal with N : forall d', _ <> VDict d' |- _ => exact (N _ eq_refl) end).
    pose proof (secret_false d W Hs) as E. unfold is_rpc_secret in E. rewrite E in H.
    destruct (norm_oty t) as [u|]; [destruct u; try discriminate|];
      (destruct (tr_entries _ _ _ _); cbn [rbind] in H; [|discriminate]; injection H as <-; reflexivity).
Qed.

Definition dict_body (c : ocfg) (d : dict pyval) (t0 : option oty) : res tval :=
  let es := map (fun kv => (fst kv, translate c (snd kv))) d in
  match norm_oty t0 with
  | Some (OClass cls) =>
      let+ vals := tr_entries (fun k => k) (dget (class_types (o_class c cls))) es [] in
      Ok (TObj cls (from_dict (o_class c cls) vals))
  | Some (ODict e) =>
      let+ r := tr_entries (if o_meta c then fun k => k else o_transform c) (fun _ => Some e) es [] in
      Ok (TDict r)
  | Some ODictBare | None =>
      let+ r := tr_entries (o_transform c) (fun _ => None) es [] in Ok (TDict r)
  | Some _ => Err (Exn "AssertionError" "Unexpected type; got a dict")
  end.
Lemma translate_plain c d t : wf_dict d -> ~ marks_secret d -> translate c (VDict d) t = dict_body c d t.
Proof.
  intros W N. pose proof (secret_false d W N) as E. unfold is_rpc_secret in E. simpl. rewrite E. reflexivity.
Qed.
Lemma translate_secret c d t x : wf_dict d -> marks_secret d -> In ("value", x) d ->
  translate c (VDict d) t = (let+ r := translate c x t in Ok (wrap_secret r)).
Proof.
  intros W M Hx. pose proof (proj2 (secret_iff d W) M) as E. unfold is_rpc_secret in E. simpl. rewrite E.
  rewrite dget_fns. apply In_dget in Hx; auto. rewrite Hx. reflexivity.
Qed.

Ltac decl H := first [apply norm_declared in H; [|discriminate|discriminate]].
Lemma decl_not t u w : norm_oty t = Some u -> declared t w -> w <> OAny -> (forall z, w <> OOptional z) -> u = w.
Proof. intros E D N1 N2. apply norm_declared in D; auto. congruence. Qed.
Lemma norm_not_opt t u : norm_oty t = Some u -> u <> OAny.
Proof.
  unfold norm_oty. destruct t as [x|]; [|discriminate]. destruct x as [|y| | | | | | |]; try (intros [= <-]; discriminate).
  destruct y; try discriminate; intros [= <-]; discriminate.
Qed.

(** Which of the dict rules applies. *)
Inductive dict_case (c : ocfg) (t : option oty) : Type :=
| dc_any : untyped t \/ declared t ODictBare -> dict_case c t
| dc_of e : declared t (ODict e) -> dict_case c t
| dc_class cls : declared t (OClass cls) -> dict_case c t
| dc_bad : ~ untyped t -> ~ declared t ODictBare -> (forall e, ~ declared t (ODict e)) ->
    (forall cls, ~ declared t (OClass cls)) -> dict_case c t.

Ltac nodecl E := intros; intros D; (eapply decl_not in D; [|exact E|discriminate|discriminate]); discriminate D.
Lemma dict_cases c t : dict_case c t.
Proof.
  destruct (norm_oty t) as [u|] eqn:E.
  - assert (U : ~ untyped t) by (intros K; apply norm_untyped in K; congruence).
    destruct u; try (apply dc_bad; [exact U|nodecl E|nodecl E|nodecl E]).
    + eapply dc_class. apply norm_declared; eauto; discriminate.
    + eapply dc_of. apply norm_declared; eauto; discriminate.
    + apply dc_any. right. apply norm_declared; eauto; discriminate.
  - apply dc_any. left. now apply norm_untyped.
Qed.
Inductive list_case (t : option oty) : Type :=
| lc_any : untyped t \/ declared t OListBare -> list_case t
| lc_of e : declared t (OList e) -> list_case t
| lc_bad : ~ untyped t -> ~ declared t OListBare -> (forall e, ~ declared t (OList e)) -> list_case t.
Lemma list_cases t : list_case t.
Proof.
  destruct (norm_oty t) as [u|] eqn:E.
  - assert (U : ~ untyped t) by (intros K; apply norm_untyped in K; congruence).
    destruct u; try (apply lc_bad; [exact U|nodecl E|nodecl E]).
    + eapply lc_of. apply norm_declared; eauto; discriminate.
    + apply lc_any. right. apply norm_declared; eauto; discriminate.
  - apply lc_any. left. now apply norm_untyped.
Qed.
Lemma nd t u : declared t u -> u <> OAny -> (forall w, u <> OOptional w) -> norm_oty t = Some u.
Proof. intros. apply norm_declared; auto. Qed.
Lemma two_types t u w : declared t u -> declared t w -> u <> OAny -> w <> OAny -> (forall z, u <> OOptional z) -> (forall z, w <> OOptional z) -> u = w.
Proof. intros D1 D2 A1 A2 B1 B2. apply nd in D1, D2; auto. congruence. Qed.
Lemma any_not t u : untyped t -> declared t u -> u <> OAny -> (forall z, u <> OOptional z) -> False.
Proof. intros U D A B. apply norm_untyped in U. apply nd in D; auto. congruence. Qed.

(* what the list case computes *)
Lemma translate_list c l t : translate c (VList l) t =
  (let+ e := list_type (norm_oty t) in let+ r := tr_elems e (map (translate c) l) in Ok (TList r)).
Proof. reflexivity. Qed.
Lemma tr_elems_any c l : tr_elems (Some OAny) (map (translate c) l) = tr_elems None (map (translate c) l).
Proof. induction l as [|x l IH]; simpl; auto. rewrite translate_any, IH. reflexivity. Qed.
Lemma list_any c l t : untyped t \/ declared t OListBare ->
  translate c (VList l) t = (let+ r := tr_elems None (map (translate c) l) in Ok (TList r)).
Proof.
  rewrite translate_list. intros [U|D].
  - apply norm_untyped in U. rewrite U. reflexivity.
  - apply nd in D; try discriminate. rewrite D. cbn [list_type rbind]. rewrite ?tr_elems_any. reflexivity.
Qed.
Lemma list_of c l t e : declared t (OList e) ->
  translate c (VList l) t = (let+ r := tr_elems (Some e) (map (translate c) l) in Ok (TList r)).
Proof. rewrite translate_list. intros D. apply nd in D; try discriminate. rewrite D. reflexivity. Qed.
Lemma list_bad c l t : ~ untyped t -> ~ declared t OListBare -> (forall e, ~ declared t (OList e)) ->
  exists e, translate c (VList l) t = Err e.
Proof.
  rewrite translate_list. intros U N1 N2. destruct (norm_oty t) as [u|] eqn:E; [|destruct U; now apply norm_untyped].
  pose proof (norm_not_opt _ _ E). destruct u; cbn [list_type rbind]; eauto.
  - destruct (N2 u). apply norm_declared; auto; discriminate.
  - destruct N1. apply norm_declared; auto; discriminate.
Qed.
Lemma body_any c d t : untyped t \/ declared t ODictBare ->
  dict_body c d t = (let+ r := tr_entries (o_transform c) (fun _ => None) (map (fun kv => (fst kv, translate c (snd kv))) d) [] in Ok (TDict r)).
Proof.
  unfold dict_body. intros [U|D].
  - apply norm_untyped in U. rewrite U. reflexivity.
  - apply nd in D; try discriminate. rewrite D. reflexivity.
Qed.
Lemma body_of c d t e : declared t (ODict e) ->
  dict_body c d t = (let+ r := tr_entries (if o_meta c then fun k => k else o_transform c) (fun _ => Some e) (map (fun kv => (fst kv, translate c (snd kv))) d) [] in Ok (TDict r)).
Proof. unfold dict_body. intros D. apply nd in D; try discriminate. rewrite D. reflexivity. Qed.
Lemma body_class c d t cls : declared t (OClass cls) ->
  dict_body c d t = (let+ r := tr_entries (fun k => k) (dget (class_types (o_class c cls))) (map (fun kv => (fst kv, translate c (snd kv))) d) [] in
     Ok (TObj cls (from_dict (o_class c cls) r))).
Proof. unfold dict_body. intros D. apply nd in D; try discriminate. rewrite D. reflexivity. Qed.
Lemma body_bad c d t : ~ untyped t -> ~ declared t ODictBare -> (forall e, ~ declared t (ODict e)) ->
  (forall cls, ~ declared t (OClass cls)) -> exists e, dict_body c d t = Err e.
Proof.
  unfold dict_body. intros U N1 N2 N3. destruct (norm_oty t) as [u|] eqn:E; [|destruct U; now apply norm_untyped].
  pose proof (norm_not_opt _ _ E). destruct u; eauto.
  - destruct (N3 cls). apply norm_declared; auto; discriminate.
  - destruct (N2 u). apply norm_declared; auto; discriminate.
  - destruct N1. apply norm_declared; auto; discriminate.
Qed.

Ltac clash := exfalso; repeat match goal with
  | H : _ \/ _ |- _ => destruct H
  end; first [contradiction
  | match goal with U : untyped ?t, D : declared ?t _ |- _ => solve [eapply any_not; [exact U|exact D|discriminate|discriminate]] end
  | match goal with D1 : declared ?t ?u, D2 : declared ?t ?w |- _ => 
      solve [let K := fresh in assert (K : u = w) by (eapply two_types; [exact D1|exact D2|discriminate..]); discriminate K] end
  | match goal with N : forall _, ~ declared ?t _, D : declared ?t _ |- _ => destruct (N _ D) end ].

Lemma map_id_keys (d : list string) : map (fun k => k) d = d.
Proof. apply map_id. Qed.

Lemma entries_become c key ty (d : list (string * pyval)) (T : string -> option oty -> Prop) r :
  (forall k u, T k u <-> ty k = u) ->
  Forall (fun kv => forall t r, translate c (snd kv) t = Ok r <-> becomes c t (snd kv) r) d ->
  NoDup (map key (dkeys d)) ->
  (tr_entries key ty (map (fun kv => (fst kv, translate c (snd kv))) d) [] = Ok r <->
   Forall2 (fun kv kv' => fst kv' = key (fst kv) /\ exists u, T (fst kv) u /\ becomes c u (snd kv) (snd kv')) d r).
Proof.
  intros HT IH N. rewrite tr_entries_ok by (rewrite keys_fns; exact N). rewrite Forall_forall in IH. split.
  - intros (r' & -> & F). cbn [app]. apply entries_rel in F. revert F. intros F. eapply F2_imp; [exact F|].
    intros [k x] [k' y] Hin [H1 H2]. cbn [fst snd] in *. split; auto. exists (ty k). split; [now apply HT|].
    specialize (IH _ Hin). cbn [snd] in IH. now apply IH.
  - intros F. exists r. split; auto. apply entries_rel. eapply F2_imp; [exact F|].
    intros [k x] [k' y] Hin [H1 (u & H2 & H3)]. cbn [fst snd] in *. split; auto. apply HT in H2. subst u.
    specialize (IH _ Hin). cbn [snd] in IH. now apply IH.
Qed.

Lemma ev_inv_dict c d : engine_value c (VDict d) -> wf_dict d /\
  ((marks_secret d /\ exists x, In ("value", x) d /\ (forall d', x = VDict d' -> ~ marks_secret d') /\ engine_value c x) \/
   (~ marks_secret d /\ NoDup (map (o_transform c) (dkeys d)) /\ Forall (fun kv => engine_value c (snd kv)) d)).
Proof. inversion 1; subst; [split; auto; left; eauto|auto|]. exfalso. match goal with N : forall d', _ <> VDict d' |- _ => exact (N _ eq_refl) end. Qed.
Lemma ev_inv_list c l : engine_value c (VList l) -> Forall (engine_value c) l.
Proof. inversion 1; subst; auto. exfalso. match goal with N : forall d', _ <> VList d' |- _ => exact (N _ eq_refl) end. Qed.

Lemma in_value_unique (d : dict pyval) x y : wf_dict d -> In ("value", x) d -> In ("value", y) d -> x = y.
Proof. intros W H1 H2. apply In_dget in H1, H2; auto. congruence. Qed.

Lemma enum_case t : (exists cls, declared t (OEnum cls) /\ norm_oty t = Some (OEnum cls)) \/
  ((forall cls, ~ declared t (OEnum cls)) /\ forall A (f : nat -> A) (y : A), match norm_oty t with Some (OEnum cls) => f cls | _ => y end = y).
Proof.
  destruct (norm_oty t) as [u|] eqn:E.
  - destruct u; try (right; split; [nodecl E|reflexivity]).
    left. eexists. split; eauto. apply norm_declared; auto; discriminate.
  - right. split; [|reflexivity]. intros cls D. apply nd in D; try discriminate. congruence.
Qed.

Ltac inv H := inversion H; subst; clear H.

Lemma translate_scalar c v t : scalar v -> translate c v t =
  match norm_oty t with
  | Some (OEnum cls) => if o_enum c cls v then Ok (TEnum cls v) else Err (Exn "ValueError" "not a valid enum value")
  | _ => Ok (TLeaf v)
  end.
Proof. intros [(x & ->)|[(x & ->)|(x & ->)]]; reflexivity. Qed.
Lemma scalar_not v : scalar v -> (forall d, v <> VDict d) /\ (forall l, v <> VList l).
Proof. intros [(x & ->)|[(x & ->)|(x & ->)]]; split; discriminate. Qed.
Lemma translate_other c v t : ~ scalar v -> (forall d, v <> VDict d) -> (forall l, v <> VList l) -> translate c v t = Ok (TLeaf v).
Proof.
  intros N1 N2 N3. destruct v; try reflexivity; try (destruct N1; unfold scalar; eauto; fail).
  - destruct (N3 l); auto.
  - destruct (N2 d); auto.
Qed.
Lemma scalar_dec v : scalar v \/ ~ scalar v.
Proof. destruct v; try (left; unfold scalar; eauto; fail); right; intros [(x & K)|[(x & K)|(x & K)]]; discriminate. Qed.

Ltac absurd_shape := exfalso; match goal with
  | N : forall x, VDict ?d <> VDict x |- _ => exact (N _ eq_refl)
  | N : forall x, VList ?d <> VList x |- _ => exact (N _ eq_refl)
  | H : scalar (VList _) |- _ => destruct H as [(? & H)|[(? & H)|(? & H)]]; discriminate H
  | H : scalar (VDict _) |- _ => destruct H as [(? & H)|[(? & H)|(? & H)]]; discriminate H
  end.
Lemma scalar_iff c v t r : scalar v -> (translate c v t = Ok r <-> becomes c t v r).
Proof.
  intros S. destruct (scalar_not v S) as [N1 N2]. rewrite translate_scalar by auto.
  destruct (enum_case t) as [(cls & D & E)|[ND E]].
  - rewrite E. split.
    + destruct (o_enum c cls v) eqn:O; [|discriminate]. intros [= <-]. now apply b_enum.
    + intros B. inv B; try absurd_shape.
      * match goal with H : declared t (OEnum ?x) |- _ => assert (x = cls) by (apply nd in H; try discriminate; congruence) end.
        subst. match goal with H : o_enum _ _ _ = true |- _ => rewrite H end. reflexivity.
      * clash.
      * contradiction.
  - rewrite (E _ (fun cls => if o_enum c cls v then Ok (TEnum cls v) else Err (Exn "ValueError" "not a valid enum value"))). split.
    + intros [= <-]. now apply b_scalar.
    + intros B. inv B; try absurd_shape; auto. clash.
Qed.
Lemma other_iff c v t r : ~ scalar v -> (forall d, v <> VDict d) -> (forall l, v <> VList l) -> (translate c v t = Ok r <-> becomes c t v r).
Proof.
  intros S N1 N2. rewrite translate_other by auto. split; [intros [= <-]; now apply b_leaf|].
  intros B. inv B; auto; try contradiction; try (destruct (N1 _ eq_refl)); try (destruct (N2 _ eq_refl)).
Qed.
Lemma not_scalar_dict d : ~ scalar (VDict d).
Proof. intros [(x & K)|[(x & K)|(x & K)]]; discriminate. Qed.
Lemma not_scalar_list d : ~ scalar (VList d).
Proof. intros [(x & K)|[(x & K)|(x & K)]]; discriminate. Qed.
Lemma wf_of_F2 {A} (d : list (string * A)) (r : list (string * tval)) R :
  wf_dict d -> Forall2 (fun kv kv' => fst kv' = fst kv /\ R kv kv') d r -> wf_dict r.
Proof. intros W F. unfold wf_dict. rewrite (wf_keys_F2 (fun k => k) d r R F), map_id. exact W. Qed.

Lemma elems_iff c t l r : Forall (fun x => forall t r, translate c x t = Ok r <-> becomes c t x r) l ->
  (tr_elems t (map (translate c) l) = Ok r <-> Forall2 (becomes c t) l r).
Proof.
  intros IH. rewrite tr_elems_ok, F2_map_l. rewrite Forall_forall in IH. split; intros F; (eapply F2_imp; [exact F|]); intros x y Hin H; now apply (IH x Hin).
Qed.

Lemma meta_id (b : bool) (f : string -> string) (k : string) : (if b then fun k : string => k else f) k = if b then k else f k.
Proof. destruct b; reflexivity. Qed.

Lemma translate_iff c : class_ok c -> forall v, engine_value c v -> forall t r, translate c v t = Ok r <-> becomes c t v r.
Proof.
  intros HC. induction v as [|bb|zz|ss|l IH|d IH| |s1|s2|s3|d IH|s4|s5|r1|c1 n1 t1 u1|f1 IH|r2 x2 k2 c2 IH|c3 d IH|n3] using pyval_ind'; intros EV t r;
    try (apply other_iff; [intros [(x & K)|[(x & K)|(x & K)]]; discriminate|discriminate|discriminate]);
    try (apply scalar_iff; unfold scalar; eauto; fail).
  - (* list *)
    apply ev_inv_list in EV.
    assert (IH' : Forall (fun x => forall t r, translate c x t = Ok r <-> becomes c t x r) l).
    { rewrite Forall_forall in *. auto. }
    destruct (list_cases t) as [U|e D|U N1 N2].
    + rewrite list_any by auto. split.
      * destruct (tr_elems _ _) as [r'|] eqn:E; cbn [rbind]; [|discriminate]. intros [= <-]. apply b_list; auto. now apply elems_iff.
      * intros B. inv B; try absurd_shape; try clash.
        -- match goal with H : Forall2 _ l _ |- _ => apply elems_iff in H; auto; rewrite H end. reflexivity.
    + rewrite (list_of _ _ _ e) by auto. split.
      * destruct (tr_elems _ _) as [r'|] eqn:E; cbn [rbind]; [|discriminate]. intros [= <-]. eapply b_list_of; eauto. now apply elems_iff.
      * intros B. inv B; try absurd_shape.
        -- clash.
        -- assert (OList e0 = OList e) as K by (eapply two_types; eauto; discriminate). injection K as ->.
           match goal with H : Forall2 _ l _ |- _ => apply elems_iff in H; auto; rewrite H end. reflexivity.
    + destruct (list_bad c l t U N1 N2) as (e & ->). split; [discriminate|]. intros B. inv B; try absurd_shape; try clash.
  - (* dict *)
    apply ev_inv_dict in EV as [W [(M & x & Hx & Nx & EVx)|(M & ND & EVd)]].
    + rewrite (translate_secret c d t x) by auto.
      rewrite Forall_forall in IH. pose proof (IH _ Hx EVx) as IHx. cbn [snd] in IHx. split.
      * destruct (translate c x t) as [r'|] eqn:E; cbn [rbind]; [|discriminate]. intros [= <-].
        rewrite (not_secret_result c x t r') by auto. eapply b_secret; eauto. now apply IHx.
      * intros B. inv B; try absurd_shape; try contradiction.
        -- assert (x0 = x) by (eapply in_value_unique; eauto). subst x0. match goal with H : becomes _ _ _ _ |- _ => apply IHx in H; rewrite H end. cbn [rbind].
           now rewrite (not_secret_result c x t r0).
    + rewrite translate_plain by auto.
      assert (IH' : Forall (fun kv => forall t r, translate c (snd kv) t = Ok r <-> becomes c t (snd kv) r) d).
      { rewrite Forall_forall in *. auto. }
      destruct (dict_cases c t) as [U|e D|cls D|U N1 N2 N3].
      * rewrite body_any by auto.
        assert (X : forall r', tr_entries (o_transform c) (fun _ => None) (map (fun kv => (fst kv, translate c (snd kv))) d) [] = Ok r' <->
           Forall2 (fun kv kv' => fst kv' = o_transform c (fst kv) /\ becomes c None (snd kv) (snd kv')) d r').
        { intros r'. rewrite (entries_become c _ _ d (fun _ u => u = None)); auto.
          2:{ intros; split; congruence. }
          split; intros F; (eapply F2_imp; [exact F|]); intros [k y] [k' y'] _; cbn [fst snd].
          - intros (H1 & u & -> & H2). auto.
          - intros (H1 & H2). split; eauto. }
        split.
        -- destruct (tr_entries _ _ _ _) as [r'|] eqn:E; cbn [rbind]; [|discriminate]. intros [= <-]. apply b_dict; auto. now apply X.
        -- intros B. inv B; try absurd_shape; try contradiction; try clash.
           ++ match goal with H : Forall2 _ d _ |- _ => apply X in H; rewrite H end. reflexivity.
      * rewrite (body_of _ _ _ e) by auto.
        assert (X : forall r', tr_entries (if o_meta c then fun k => k else o_transform c) (fun _ => Some e) (map (fun kv => (fst kv, translate c (snd kv))) d) [] = Ok r' <->
           Forall2 (fun kv kv' => fst kv' = (if o_meta c then fst kv else o_transform c (fst kv)) /\ becomes c (Some e) (snd kv) (snd kv')) d r').
        { intros r'. rewrite (entries_become c _ _ d (fun _ u => u = Some e)); auto.
          2:{ intros; split; congruence. }
          2:{ destruct (o_meta c); [rewrite map_id; exact W|exact ND]. }
          split; intros F; (eapply F2_imp; [exact F|]); intros [k y] [k' y'] _; cbn [fst snd].
          - intros (H1 & u & -> & H2). split; auto. destruct (o_meta c); auto.
          - intros (H1 & H2). split; eauto. destruct (o_meta c); auto. }
        split.
        -- destruct (tr_entries _ _ _ _) as [r'|] eqn:E; cbn [rbind]; [|discriminate]. intros [= <-]. eapply b_dict_of; eauto. now apply X.
        -- intros B. inv B; try absurd_shape; try contradiction; try clash.
           ++ assert (ODict e0 = ODict e) as K by (eapply two_types; eauto; discriminate). injection K as ->.
              match goal with H : Forall2 _ d _ |- _ => apply X in H; rewrite H end. reflexivity.
      * rewrite (body_class _ _ _ cls) by auto. destruct (HC cls) as [G1 G2].
        assert (X : forall r', tr_entries (fun k => k) (dget (class_types (o_class c cls))) (map (fun kv => (fst kv, translate c (snd kv))) d) [] = Ok r' <->
           Forall2 (fun kv kv' => fst kv' = fst kv /\ exists ft, field_type (o_class c cls) (fst kv) ft /\ becomes c ft (snd kv) (snd kv')) d r').
        { intros r'. rewrite (entries_become c _ _ d (field_type (o_class c cls))); auto; [reflexivity| |rewrite map_id; exact W].
          intros k u. symmetry. now apply class_types_ok. }
        split.
        -- destruct (tr_entries _ _ _ _) as [r'|] eqn:E; cbn [rbind]; [|discriminate]. intros [= <-]. clear E. pose proof (proj1 (X r') eq_refl) as E.
           assert (Wr : wf_dict r') by (eapply wf_of_F2; [exact W|exact E]).
           eapply b_class; [exact M|exact D|exact E|]. apply args_ok; [exact Wr|]. now apply from_dict_ok.
        -- intros B. inv B; try absurd_shape; try contradiction; try clash.
           ++ assert (OClass cls0 = OClass cls) as K by (eapply two_types; eauto; discriminate). injection K as ->.
              match goal with H : Forall2 _ (o_class c cls) _, F : Forall2 _ d _ |- _ => apply args_ok in H; [|eapply wf_of_F2; [exact W|exact F]] end. match goal with H : Forall2 _ d _ |- _ => apply X in H; rewrite H end. cbn [rbind]. rewrite from_dict_ok by auto. congruence.
      * destruct (body_bad c d t U N1 N2 N3) as (e & ->). split; [discriminate|]. intros B. inv B; try absurd_shape; try contradiction; try clash.
Qed.

(* ---- failure is exactly mismatch ---- *)
Lemma mismatch_scalar c v t : scalar v -> (exists e, translate c v t = Err e) <-> mismatch c t v.
Proof.
  intros S. destruct (scalar_not v S) as [N1 N2]. rewrite translate_scalar by auto. destruct (enum_case t) as [(cls & D & E)|[ND E]].
  - rewrite E. split.
    + destruct (o_enum c cls v) eqn:O; intros (e & K); [discriminate|]. eapply m_enum; eauto.
    + inversion 1; subst; try absurd_shape.
      match goal with H : declared t (OEnum ?x) |- _ => assert (x = cls) by (apply nd in H; try discriminate; congruence) end.
      subst. match goal with H : o_enum _ _ _ = false |- _ => rewrite H end. eauto.
  - rewrite (E _ (fun cls => if o_enum c cls v then Ok (TEnum cls v) else Err (Exn "ValueError" "not a valid enum value"))).
    split; [intros (e & K); discriminate|]. inversion 1; subst; try absurd_shape. clash.
Qed.
Lemma mismatch_iff c : class_ok c -> forall v, engine_value c v -> forall t, (exists e, translate c v t = Err e) <-> mismatch c t v.
Proof.
  intros HC. induction v as [|bb|zz|ss|l IH|d IH| |s1|s2|s3|d IH|s4|s5|r1|c1 n1 t1 u1|f1 IH|r2 x2 k2 c2 IH|c3 d IH|n3] using pyval_ind'; intros EV t;
    try (rewrite translate_other; [|intros [(x & K)|[(x & K)|(x & K)]]; discriminate|discriminate|discriminate];
         split; [intros (e & K); discriminate|inversion 1; subst; match goal with H : scalar _ |- _ => destruct H as [(? & K)|[(? & K)|(? & K)]]; discriminate K end]).
  1-3: apply mismatch_scalar; unfold scalar; eauto.
  - apply ev_inv_list in EV. rewrite Forall_forall in IH, EV.
    assert (X : forall u, (exists e, tr_elems u (map (translate c) l) = Err e) <-> exists x, In x l /\ mismatch c u x).
    { intros u. split.
      - intros (e & H). apply tr_elems_err in H as (f & Hf & He). apply in_map_iff in Hf as (x & <- & Hx). exists x. split; auto. apply IH; eauto.
      - intros (x & Hx & Hm). apply IH in Hm as (e & He); auto. eapply tr_elems_err2; [apply in_map; exact Hx|exact He]. }
    assert (Y : forall u, (exists e, (let+ r := tr_elems u (map (translate c) l) in Ok (TList r)) = Err e) <-> exists e, tr_elems u (map (translate c) l) = Err e).
    { intros u. destruct (tr_elems u _); cbn [rbind]; [split; intros (e & K); discriminate|split; eauto]. }
    destruct (list_cases t) as [U|e D|U N1 N2].
    + rewrite list_any by auto. rewrite Y, X. split.
      * intros (x & Hx & Hm). eapply m_in_list; eauto.
      * inversion 1; subst; try absurd_shape; try clash.
        match goal with H : _ /\ ?u = None \/ _ |- _ => destruct H as [[_ ->]|(e' & D' & _)]; [eauto|clash] end.
    + rewrite (list_of _ _ _ e) by auto. rewrite Y, X. split.
      * intros (x & Hx & Hm). eapply m_in_list; eauto.
      * inversion 1; subst; try absurd_shape; try clash.
        match goal with H : _ /\ ?u = None \/ _ |- _ => destruct H as [[U ->]|(e' & D' & ->)]; [clash|] end.
        assert (OList e' = OList e) as K by (eapply two_types; eauto; discriminate). injection K as ->. eauto.
    + destruct (list_bad c l t U N1 N2) as (e & ->). split; [|eauto]. intros _. now apply m_list.
  - apply ev_inv_dict in EV as [W [(M & x & Hx & Nx & EVx)|(M & ND & EVd)]].
    + rewrite (translate_secret c d t x) by auto. rewrite Forall_forall in IH. pose proof (IH _ Hx EVx) as IHx. cbn [snd] in IHx.
      split.
      * intros (e & H). eapply m_secret; eauto. apply IHx. destruct (translate c x t); [discriminate|eauto].
      * inversion 1; subst; try absurd_shape; try contradiction.
        match goal with H : In ("value", ?y) d |- _ => assert (y = x) by (eapply in_value_unique; eauto); subst y end.
        match goal with H : mismatch _ _ x |- _ => apply IHx in H as (e & ->) end. cbn [rbind]. eauto.
    + rewrite translate_plain by auto. rewrite Forall_forall in IH, EVd.
      assert (X : forall key ty, (exists e, tr_entries key ty (map (fun kv => (fst kv, translate c (snd kv))) d) [] = Err e) <->
                                 exists k x, In (k, x) d /\ mismatch c (ty k) x).
      { intros key ty. split.
        - intros (e & H). apply tr_entries_err in H as (k & f & Hf & He). apply in_map_iff in Hf as ([k' x] & [= <- <-] & Hx).
          exists k', x. split; auto. apply (IH _ Hx (EVd _ Hx)). eauto.
        - intros (k & x & Hx & Hm). apply (IH _ Hx (EVd _ Hx)) in Hm as (e & He). cbn [snd] in He.
          eapply tr_entries_err2; [apply in_map_iff; exists (k, x); split; [reflexivity|exact Hx]|exact He]. }
      assert (Y : forall A (r : res A) (g : A -> tval), (exists e, (let+ y := r in Ok (g y)) = Err e) <-> exists e, r = Err e).
      { intros A r g. destruct r; cbn [rbind]; [split; intros (e & K); discriminate|split; eauto]. }
      destruct (dict_cases c t) as [U|e D|cls D|U N1 N2 N3].
      * rewrite body_any by auto. rewrite (Y _ _ TDict), X. split.
        -- intros (k & x & Hx & Hm). eapply m_in_dict; eauto.
        -- inversion 1; subst; try absurd_shape; try contradiction; try clash.
           match goal with H : _ /\ ?u = None \/ _ |- _ => destruct H as [[_ ->]|[(e' & D' & _)|(cls & D' & _)]]; [eauto|clash|clash] end.
      * rewrite (body_of _ _ _ e) by auto. rewrite (Y _ _ TDict), X. split.
        -- intros (k & x & Hx & Hm). eapply m_in_dict; eauto.
        -- inversion 1; subst; try absurd_shape; try contradiction; try clash.
           match goal with H : _ /\ ?u = None \/ _ |- _ => destruct H as [[U ->]|[(e' & D' & ->)|(cls & D' & _)]]; [clash| |clash] end.
           assert (ODict e' = ODict e) as K by (eapply two_types; eauto; discriminate). injection K as ->. eauto.
      * rewrite (body_class _ _ _ cls) by auto. rewrite (Y _ _ (fun r => TObj cls (from_dict (o_class c cls) r))), X.
        destruct (HC cls) as [G1 G2]. split.
        -- intros (k & x & Hx & Hm). eapply m_in_dict; eauto. right. right. exists cls. split; auto. now apply class_types_ok.
        -- inversion 1; subst; try absurd_shape; try contradiction; try clash.
           match goal with H : _ /\ ?u = None \/ _ |- _ => destruct H as [[U ->]|[(e' & D' & ->)|(cls' & D' & FT)]]; [clash|clash|] end.
           assert (OClass cls' = OClass cls) as K by (eapply two_types; eauto; discriminate). injection K as ->.
           apply class_types_ok in FT; auto. subst. eauto.
      * destruct (body_bad c d t U N1 N2 N3) as (e & ->). split; [|eauto]. intros _. now apply m_dict.
Qed.

