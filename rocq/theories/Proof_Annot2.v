From Verif Require Import Base PyVal Model_Rpc Spec_Rpc Proof_Ser Proof_RpcTop Model_Annot Spec_Annot Proof_Annot.
From Coq Require Import Lia.
Open Scope string_scope.

Ltac inv H := inversion H; subst; clear H.
Definition done {A} (f : fut A) : Prop := exists x, f = Done x.

Lemma asize_pos a : 1 <= asize a.
Proof. destruct a; cbn; lia. Qed.
Lemma asize_stands e t : stands_for e t -> asize t <= asize e.
Proof.
  intros S. inv S; try match goal with H : optionally _ _ |- _ => inv H end; cbn; lia.
Qed.
Lemma unwrap_simple w t : simple w t -> unwrap_type t = Ok t.
Proof. intros S. apply unwrap_bare, (simple_bare w), S. Qed.
Lemma pview_wrap n e t : stands_for e t -> simple stands_for t -> pview n e = pview n t.
Proof.
  intros S St. destruct n as [|n]; [reflexivity|]. cbn [pview]. rewrite (unwrap_stands e t S), (unwrap_simple _ t St). reflexivity.
Qed.
Lemma pview_list n o e : list_like o -> pview (S n) (AGen o [e]) = TyList (pview n e).
Proof. intros [->| ->]; reflexivity. Qed.
Lemma pview_dict n o e : dict_like o -> pview (S n) (AGen o [AName "str"; e]) = TyDict (pview n e).
Proof. intros [->| ->]; reflexivity. Qed.
Lemma stands_fun e t u : stands_for e t -> stands_for e u -> t = u.
Proof. intros H K. apply unwrap_stands in H, K. congruence. Qed.

Section In.
Context (c0 : cfg) (fs : nat -> list afield).
Notation c := (with_classes c0 fs).
Context (names : forall cls, distinct_names (fs cls) /\ forall f, In f (fs cls) -> af_pulumi f <> "").
Context (anns : forall cls f, In f (fs cls) -> exists t, input_ann (af_ann f) t).
Context (urns : forall r, done (r_urn (c_res c0 r))) (exps : forall r, done (r_expand (c_res c0 r))).

Lemma declared cls : class_declared (c_class c cls).
Proof.
  destruct (names cls) as [[H1 H2] H3]. cbn. split; [|split].
  - now rewrite map_map.
  - now rewrite map_map.
  - intros f If. apply in_map_iff in If as (g & <- & Ig). now apply H3.
Qed.

Lemma await_done rs : await_urns c rs = Done tt.
Proof. induction rs as [|r rs IH]; [reflexivity|]. cbn. destruct (urns r) as (u & ->). exact IH. Qed.
Lemma expand_done rs : done (expand_all c rs).
Proof.
  induction rs as [|r rs (l & IH)]; [eexists; reflexivity|]. cbn. destruct (exps r) as (u & ->). cbn. rewrite IH. eexists; reflexivity.
Qed.

Lemma elems_done es t keep : (forall s, In s es -> done (s t keep)) -> done (ser_elems es t keep).
Proof.
  induction es as [|s es IH]; intros H; [eexists; reflexivity|]. cbn.
  destruct (H s (or_introl eq_refl)) as ([w ds] & ->). cbn. destruct IH as ([ws ds'] & ->); [intros; apply H; now right|]. eexists; reflexivity.
Qed.
Lemma entries_done tr ty keep es : forall acc, (forall k s, In (k, s) es -> done (s (ty (tr k)) keep)) -> done (ser_entries tr ty keep es acc).
Proof.
  induction es as [|[k s] es IH]; intros acc H; [eexists; reflexivity|]. cbn.
  destruct (H k s (or_introl eq_refl)) as ([w ds] & ->). cbn.
  destruct (IH (dset acc (tr k) w)) as ([ws ds'] & ->); [intros; apply H; now right|]. eexists; reflexivity.
Qed.

(** The type serialisation works with. *)
Inductive tview : option ann -> option pty -> Prop :=
| tv_none : tview None None
| tv_some t n : simple stands_for t -> asize t <= n -> tview (Some t) (Some (pview n t)).

Lemma suits_any t v : suits fs t v -> t = Some AAny -> suits fs None v.
Proof.
  induction 1 as [t v A|t l T F|o e t l L S F|t d T F|o e t d L S F|cls d F|t cls vals T F|t v H IH|t rs v k s H IH]; intros E; try (subst t); try discriminate E.
  - now apply su_atom.
  - apply su_list; [left; now left|exact F].
  - apply su_dict; [left; now left|exact F].
  - apply su_object; [left; now left|exact F].
  - apply su_await; auto.
  - apply su_output; auto.
Qed.

Lemma suits_none t v : suits fs t v -> t = None -> suits fs (Some AAny) v.
Proof.
  induction 1 as [t v A|t l T F|o e t l L S F|t d T F|o e t d L S F|cls d F|t cls vals T F|t v H IH|t rs v k s H IH]; intros E; try (subst t); try discriminate E.
  - now apply su_atom.
  - apply su_list; [left; now right|exact F].
  - apply su_dict; [left; now right|exact F].
  - apply su_object; [left; now right|exact F].
  - apply su_await; auto.
  - apply su_output; auto.
Qed.

Definition fine v := forall t p keep, tview t p -> suits fs t v -> done (ser c v p keep).

Lemma normed v t p : tview t p -> suits fs t v -> exists u, tview u (norm_ty p) /\ suits fs u v /\ u <> Some AAny.
Proof.
  intros V Sv. inv V; [exists None; split; [constructor|split; [exact Sv|discriminate]]|].
  destruct n as [|n]; [pose proof (asize_pos t0); lia|].
  assert (D : t0 = AAny \/ norm_ty (Some (pview (S n) t0)) = Some (pview (S n) t0)).
  { match goal with H : simple _ _ |- _ => inv H end; auto.
    - right. rewrite pview_dict by assumption. reflexivity.
    - right. rewrite pview_list by assumption. reflexivity. }
  destruct (ann_eq_dec t0 AAny) as [->|NA]; [|destruct D as [D|D]; [contradiction|]].
  - exists None. split; [constructor|]. split; [now apply (suits_any (Some AAny))|discriminate].
  - exists (Some t0). rewrite D. split; [now constructor|]. split; [exact Sv|congruence].
Qed.

Lemma fine_elem v e t n keep : fine v -> stands_for e t -> simple stands_for t -> asize e <= n -> suits fs (Some t) v ->
  done (ser c v (Some (pview n e)) keep).
Proof.
  intros G S St N H. rewrite (pview_wrap n e t S St). apply (G (Some t)); [constructor; auto|exact H].
  pose proof (asize_stands e t S). lia.
Qed.

Lemma fine_field v cls f t keep : fine v -> In f (fs cls) -> stands_for (af_ann f) t -> suits fs (Some t) v ->
  done (ser c v (dget (declared_types (c_class c cls)) (af_pulumi f)) keep).
Proof.
  intros G If S H. destruct (anns cls f If) as (u & Su & Stu). pose proof (stands_fun _ _ _ S Su) as <-.
  change (af_pulumi f) with (f_pulumi (in_field f)). rewrite (declared_in _ (in_field f) (declared cls)) by (cbn; now apply in_map).
  cbn [in_field f_ty]. rewrite (unwrap_stands _ _ S).
  pose proof (simple_bare _ _ Stu) as B.
  assert (X : done (ser c v (Some (pview (asize t) t)) keep)) by (apply (G (Some t)); [constructor; auto|exact H]).
  destruct t; try exact X. contradiction B.
Qed.

Lemma fine_all v : fine v.
Proof.
  induction v as [|bb|zz|ss|l IH|d IH| |s1|s2|s3|d IH|s4|s5|r1|c1 n1 t1 u1|f1 IH|r2 x2 k2 c2 IH|c3 d IH|n3] using pyval_ind';
    intros t p keep V S; try (eexists; reflexivity); try (inv S; contradiction).
  - (* list *)
    cbn [ser]. destruct (normed _ _ _ V S) as (u & V' & S' & NA). clear V S. set (q := norm_ty p) in *. clearbody q.
    assert (X : exists et, element_type q = Ok et /\ forall x, In x l -> done (ser c x et keep)).
    { rewrite Forall_forall in IH. inversion S' as [|? ? T F|o e w ? L Se F| | | | | |]; subst; [contradiction| |].
      - rewrite Forall_forall in F. inversion V' as [|w n Sw N]; subst.
        + exists None. split; [reflexivity|]. intros x I. apply (IH x I None); [constructor|auto].
        + destruct n as [|n]; [pose proof (asize_pos w); lia|]. destruct T as [[T|T]|T]; [discriminate|contradiction|]; injection T as ->; cbn.
          exists (Some TyAny). split; [reflexivity|]. intros x I.
          apply (IH x I (Some AAny) (Some (pview 1 AAny))); [constructor; [constructor|cbn; lia]|].
          apply (suits_none None); auto.
      - rewrite Forall_forall in F. inversion V' as [|w' n Sw N]; subst.
        destruct n as [|n]; [cbn in N; lia|]. rewrite pview_list by assumption.
        exists (Some (pview n e)). split; [reflexivity|]. intros x I.
        inversion Sw as [| | | | | | |o' e' t' D' W' St' Ho|o' e' t' D' W' St' Ho]; subst.
        pose proof (stands_fun _ _ _ Se W') as ->.
        apply (fine_elem x e t' n keep (IH x I) W' St'); [cbn in N; lia|auto]. }
    destruct X as (et & -> & X). destruct (elems_done (map (fun x => ser c x) l) et keep) as ([ws ds] & ->).
    { intros s I. apply in_map_iff in I as (x & <- & I). auto. }
    eexists; reflexivity.
  - (* dict *)
    cbn [ser]. destruct (normed _ _ _ V S) as (u & V' & S' & NA). clear V S. set (q := norm_ty p) in *. clearbody q.
    assert (X : forall k x, In (k, x) d -> done (ser c x (value_rule c q (key_rule c q k)) keep)).
    { rewrite Forall_forall in IH. inversion S' as [| | |? ? T F|o e w ? L Se F|cls ? F| | |]; subst; [contradiction| | |].
      - rewrite Forall_forall in F. intros k x I.
        assert (E : value_rule c q (key_rule c q k) = None).
        { inversion V' as [|w n Sw N]; subst; [reflexivity|].
          destruct T as [[T|T]|T]; [discriminate|contradiction|]; injection T as ->.
          destruct n; [cbn in N; lia|reflexivity]. }
        rewrite E. apply (IH (k, x) I None); [constructor|exact (F (k, x) I)].
      - rewrite Forall_forall in F. intros k x I. inversion V' as [|w' n Sw N]; subst.
        destruct n as [|n]; [cbn in N; lia|]. rewrite pview_dict by assumption. cbn [value_rule].
        inversion Sw as [| | | | | | |o' e' t' D' W' St' Ho|o' e' t' D' W' St' Ho]; subst.
        pose proof (stands_fun _ _ _ Se W') as ->.
        apply (fine_elem x e t' n keep (IH (k, x) I) W' St'); [cbn in N; lia|exact (F (k, x) I)].
      - intros k x I. inversion V' as [|w' n Sw N]; subst.
        destruct n as [|n]; [cbn in N; lia|]. cbn [pview]. rewrite (unwrap_simple _ _ Sw). cbn [value_rule key_rule].
        destruct (F k x I) as (f & t' & If & <- & Sf & Hx).
        change (af_py f) with (f_py (in_field f)). rewrite (translate_in _ (in_field f)).
        + cbn [in_field f_pulumi]. exact (fine_field x cls f t' keep (IH _ I) If Sf Hx).
        + destruct (declared cls) as (K1 & K2 & K3). split; assumption.
        + cbn. now apply in_map. }
    destruct (entries_done (key_rule c q) (value_rule c q) keep (map (fun kv => (fst kv, ser c (snd kv))) d) []) as ([ws ds] & ->).
    { intros k s I. apply in_map_iff in I as ([k' x] & E & I). injection E as <- <-. auto. }
    eexists; reflexivity.
  - (* awaitable *)
    destruct f1 as [x| |]; [|inv S; contradiction|inv S; contradiction].
    cbn [ser]. destruct (normed _ _ _ V S) as (u & V' & S' & NA). inversion S' as [| | | | | | |? ? H|]; subst; [contradiction|].
    exact (IH u _ keep V' H).
  - (* output *)
    destruct (normed _ _ _ V S) as (u & V' & S' & NA). inversion S' as [| | | | | | | |? rs x k s H]; subst; [contradiction|].
    cbn [ser fbind].
    assert (X : done (if contains_unknowns x then Done (WNull, []) else ser c x (norm_ty p) false)).
    { destruct (contains_unknowns x); [eexists; reflexivity|]. exact (IH u _ false V' H). }
    destruct X as ([w pds] & ->). cbn [fbind].
    destruct (keep && c_outvals c).
    + rewrite await_done. cbn [fbind]. destruct (expand_done (rs ++ pds)) as (us & ->). eexists; reflexivity.
    + destruct (negb k); [eexists; reflexivity|]. destruct (s && c_secrets c); eexists; reflexivity.
  - (* object of an input type *)
    inversion S as [| | | | | |? ? ? T F| |]; subst; [contradiction|]. cbn [ser].
    match goal with |- context [ser_entries ?tr ?ty keep ?es []] => destruct (entries_done tr ty keep es []) as ([ws ds] & ->) end.
    { intros k s I. apply input_entries_spec in I as (f & If & <- & E).
      cbn in If. apply in_map_iff in If as (g & <- & Ig). cbn [in_field f_py f_pulumi] in *.
      apply dget_In in E. apply in_map_iff in E as ([k' x] & E & I). cbn in E. injection E as -> E1 <-.
      rewrite Forall_forall in IH. destruct (F _ _ I) as (f & t' & If & Ef & Sf & Hx).
      destruct (names c3) as [[N1 _] _]. pose proof (NoDup_map_inj af_py _ f g N1 If Ig Ef) as ->.
      exact (fine_field x c3 g t' keep (IH _ I) Ig Sf Hx). }
    eexists; reflexivity.
Qed.

Lemma inputs_done a t v keep : input_ann a t -> suits fs (Some t) v -> done (to_engine c0 fs a v keep).
Proof.
  intros [S St] H. unfold to_engine. rewrite (unwrap_stands a t S). apply (fine_all v (Some t)); [now constructor|exact H].
Qed.
End In.
