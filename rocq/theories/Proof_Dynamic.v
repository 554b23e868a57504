(** Proofs about dynamic providers. *)
From Verif Require Import Base PyVal Model_Output Spec_Output Proof_Output Proof_FromInput Model_Urn Model_Rpc Spec_Rpc
  Proof_Ser Proof_Ser2 Proof_Ser3 Proof_Round Proof_Deser Proof_Deser2 Proof_Secret Proof_RpcTop Model_Dynamic Spec_Dynamic.
Open Scope string_scope.
Open Scope list_scope.

Lemma decoded dc st keep s v : holds st s -> deserialize_properties dc st keep false = Ok v ->
  exists d, v = VDict d /\ dget d "__provider" = Some (VStr s).
Proof.
  intros ((Hs & Hw) & Hg & Ht) E. destruct (internal_keys _ _ _ _ _ Hs Hw E) as (d & -> & Hd & H). exists d. split; [reflexivity|].
  apply H. exists (WStr s). split; [exact Hg|]. split; [now right|]. cbn [deser]. apply String.eqb_neq in Ht. rewrite Ht. split; [reflexivity|discriminate].
Qed.

Lemma decoded_bag dc st keep v : top_message st -> deserialize_properties dc st keep false = Ok v -> exists d, v = VDict d /\ bag d.
Proof.
  intros (Hs & Hw) E. destruct (internal_keys _ _ _ _ _ Hs Hw E) as (d & -> & Hd & H). exists d. split; [reflexivity|]. split; [exact Hd|].
  intros K. destruct (dget d sig_key) as [y|] eqn:Ey; [|now apply dget_None in Ey]. apply H in Ey as (w & Ew & _). congruence.
Qed.

(** Serialising a bag. *)
Lemma loop_keeps c keep inputs k : c_transform c = None -> ~ In k (dkeys inputs) -> forall st pd st' pd',
  ser_props_loop c None keep inputs st pd = Done (st', pd') -> dget st' k = dget st k.
Proof.
  intros Hc. induction inputs as [|[k1 v] inputs IH]; intros N st pd st' pd'; cbn [ser_props_loop]; [intros E; now injection E as <- <-|].
  destruct (ser c v (top_type c None k1) keep) as [[w ds]|e|]; cbn [fbind]; try discriminate.
  assert (Hk : top_key c None k1 = k1) by (unfold top_key, transform; now rewrite Hc). rewrite Hk.
  assert (N1 : k <> k1) by (intros ->; apply N; now left). assert (N2 : ~ In k (dkeys inputs)) by (intros K; apply N; now right).
  intros E. destruct w; rewrite (IH N2 _ _ _ _ E), ?dget_dset; auto; apply String.eqb_neq in N1; now rewrite ?N1.
Qed.
Lemma loop_has c keep inputs k s : c_transform c = None -> wf_dict inputs -> dget inputs k = Some (VStr s) -> forall st pd st' pd',
  ser_props_loop c None keep inputs st pd = Done (st', pd') -> dget st' k = Some (WStr s).
Proof.
  intros Hc. induction inputs as [|[k1 v] inputs IH]; intros W; cbn [dget]; [discriminate|]. inversion W as [|? ? N W' E0]; subst.
  assert (Hk : top_key c None k1 = k1) by (unfold top_key, transform; now rewrite Hc).
  intros Hg st pd st' pd'. cbn [ser_props_loop]. destruct (String.eqb_spec k k1) as [->|N1].
  - injection Hg as ->. cbn [ser fbind]. unfold top_type. cbn [norm_ty ser fbind]. rewrite Hk. intros E. rewrite (loop_keeps _ _ _ _ Hc N _ _ _ _ E), dget_dset, String.eqb_refl.
    reflexivity.
  - destruct (ser c v (top_type c None k1) keep) as [[w ds]|e|]; cbn [fbind]; try discriminate. intros E. destruct w; eapply IH; eauto.
Qed.
Lemma loop_wf c keep inputs : forall st pd st' pd', wf_dict st ->
  ser_props_loop c None keep inputs st pd = Done (st', pd') -> wf_dict st'.
Proof.
  induction inputs as [|[k1 v] inputs IH]; intros st pd st' pd' W; cbn [ser_props_loop]; [intros E; now injection E as <- <-|].
  destruct (ser c v (top_type c None k1) keep) as [[w ds]|e|]; cbn [fbind]; try discriminate. intros E.
  destruct w; eapply IH; [| exact E | | exact E | | exact E | | exact E | | exact E | | exact E]; auto using wf_dset.
Qed.

Lemma dmem_keys {V} (d : dict V) k : ~ In k (dkeys d) -> dget d k = None.
Proof. intros H. destruct (dget d k) eqn:E; [|reflexivity]. apply dget_In in E. exfalso. apply H. unfold dkeys. apply in_map_iff. now exists (k, v). Qed.

Lemma struct_holds sv o s st : decent_server sv -> bag o -> text s -> to_struct sv (dset o PROVIDER_KEY (VStr s)) = Done st -> holds st s.
Proof.
  intros [Hc _] [Hw Hs] Ht E. unfold to_struct, serialize_properties in E.
  destruct (ser_props_loop (s_cfg sv) None false (dset o PROVIDER_KEY (VStr s)) [] []) as [[st' pd']|e|] eqn:El; cbn [fbind] in E; try discriminate.
  injection E as ->. assert (W : wf_dict (dset o PROVIDER_KEY (VStr s))) by now apply wf_dset. split; [split|split; [|exact Ht]].
  - rewrite (loop_keeps _ _ _ sig_key Hc) with (2 := El); [reflexivity|]. rewrite dkeys_dset. intros [K|K]; [discriminate|auto].
  - eapply loop_wf; [|exact El]. constructor.
  - eapply loop_has; [exact Hc|exact W| |exact El]. rewrite dget_dset. reflexivity.
Qed.

(** The request ends in at most one call of the kind given, on provider [s], and if it succeeds, there was one and
    the response is as given. *)
Definition handles {R} (s : string) (kind : call -> Prop) (good : R -> Prop) (h : handled R) : Prop :=
  (fst h = [] \/ exists c, fst h = [(s, c)] /\ kind c) /\ (forall r, snd h = Done r -> fst h <> [] /\ good r).

Lemma none_handled {R} s kind good (m : fut R) : (forall r, m <> Done r) -> handles s kind good ([], m).
Proof. intros H. split; [now left|]. cbn. intros r E. now elim (H r). Qed.
Lemma one_handled {R} s (kind : call -> Prop) (good : R -> Prop) c (m : fut R) : kind c -> (forall r, m = Done r -> good r) -> handles s kind good ([(s, c)], m).
Proof. intros K H. split; [right; now exists c|]. cbn. intros r E. split; [discriminate|auto]. Qed.

Lemma bind_do {A R} s kind (good : R -> Prop) (m : fut A) f :
  (forall a, m = Done a -> handles s kind good (f a)) -> handles s kind good (h_bind (h_do m) f).
Proof.
  intros H. unfold h_bind, h_do. cbn [fst snd app]. destruct m as [a|e|]; [|apply none_handled; discriminate..].
  rewrite <- surjective_pairing. now apply H.
Qed.
(** What follows the call. *)
Definition after {R} (good : R -> Prop) (h : handled R) : Prop := fst h = [] /\ forall r, snd h = Done r -> good r.
Lemma bind_call {A R} s (kind : call -> Prop) (good : R -> Prop) c (m : res A) f : kind c ->
  (forall a, m = Ok a -> after good (f a)) -> handles s kind good (h_bind (h_call s c m) f).
Proof.
  intros K H. unfold h_bind, h_call. cbn [fst snd app]. destruct m as [a|e]; cbn [of_res]; [|apply one_handled; [exact K|discriminate]].
  destruct (H a eq_refl) as [-> G]. cbn [app]. apply one_handled; auto.
Qed.
Lemma after_do {A R} (good : R -> Prop) (m : fut A) f : (forall a, m = Done a -> after good (f a)) -> after good (h_bind (h_do m) f).
Proof.
  intros H. unfold h_bind, h_do. cbn [fst snd app]. destruct m as [a|e|]; [|split; [reflexivity|discriminate]..].
  destruct (H a eq_refl) as [E G]. split; cbn [fst snd]; auto.
Qed.
Lemma after_done {R} (good : R -> Prop) r : good r -> after good (h_do (Done r)).
Proof. intros H. split; [reflexivity|]. cbn. intros r' E. now injection E as <-. Qed.
Lemma of_res_done {A} (m : res A) a : of_res m = Done a -> m = Ok a.
Proof. destruct m; cbn; [intros E; now injection E as ->|discriminate]. Qed.
Lemma after_struct sv s d d' outs :
  decent_server sv -> text s -> dget d "__provider" = Some (VStr s) -> keeps d d' -> returns_bag outs -> forall (R : Type) (g : R -> Prop) f,
  (forall st, holds st s -> after g (f st)) ->
  after g (let! key := h_do (of_res (getitem (VDict d') PROVIDER_KEY)) in
           let! outs' := h_do (of_res (setitem outs PROVIDER_KEY key)) in let! st := h_do (to_struct sv outs') in f st).
Proof.
  intros D Ht Hd Hk Hb R g f H. apply after_do. intros key E. apply of_res_done in E. unfold getitem in E. change PROVIDER_KEY with "__provider" in E at 1.
  rewrite Hk, Hd in E. injection E as <-. apply after_do. intros o E. apply of_res_done in E. destruct outs as [x|]; [|discriminate].
  destruct (Hb x eq_refl) as (od & -> & B). cbn in E. injection E as <-. apply after_do. intros st E. apply H. eapply struct_holds; eauto.
Qed.

(** [match outs with None => {} ...]. *)
Lemma default_bag outs : returns_bag outs -> returns_bag (match outs with Some x => Some x | None => Some (VDict []) end).
Proof. intros H x E. destruct outs; [auto|]. injection E as <-. exists []. split; [reflexivity|]. split; [constructor|auto]. Qed.

Lemma got sv d s : dget d "__provider" = Some (VStr s) -> get_provider sv (VDict d) = let+ p := s_load sv s in Ok (s, p).
Proof. intros H. unfold get_provider, getitem. change PROVIDER_KEY with "__provider". now rewrite H. Qed.
Lemma got_both sv o d s : text s -> dget d "__provider" = Some (VStr s) -> provider_of_both sv o (VDict d) = let+ p := s_load sv s in Ok (s, p).
Proof.
  intros T H. unfold provider_of_both. unfold getitem at 1. change PROVIDER_KEY with "__provider". rewrite H. cbn [rbind is_sentinel].
  apply String.eqb_neq in T. rewrite T. now apply got.
Qed.
Ltac next := apply bind_do; let a := fresh "a" in let E := fresh "E" in intros a E; apply of_res_done in E.
(** Take the provider. *)
Ltac loaded D := let s1 := fresh in let p := fresh "p" in let E := fresh in
  match goal with K : _ = Ok ?a |- handles _ _ _ (let '(_, _) := ?a in _) => destruct a as [s1 p];
    match type of K with rbind ?l _ = _ => destruct l as [?p0|] eqn:El; [|discriminate]; cbn [rbind] in K; injection K as <- <-; pose proof (proj2 D _ _ El) as Dp end end.

Lemma create_handles sv st s : decent_server sv -> holds st s ->
  handles s (fun c => exists d, c = CCreate d) (fun r => holds (snd r) s) (Create sv st).
Proof.
  intros D H. unfold Create. next. destruct (decoded _ _ _ _ _ H E) as (d & -> & Hd). rewrite (got _ _ _ Hd). next. loaded D.
  next. injection E0 as <-. apply bind_call; [eauto|]. intros [[id outs] d'] Ep. destruct (decoded_bag _ _ _ _ (proj1 H) E) as (d0 & E0 & Bd). injection E0 as <-.
  destruct (dc_create _ Dp _ _ _ _ Bd Ep) as [K B].
  eapply after_struct; [exact D|exact (proj2 (proj2 H))|exact Hd|exact K|now apply default_bag|]. intros st' H'. now apply after_done.
Qed.
Lemma read_handles sv id st s : decent_server sv -> holds st s ->
  handles s (fun c => exists d, c = CRead id d) (fun r => holds (snd r) s) (Read sv id st).
Proof.
  intros D H. unfold Read. next. destruct (decoded _ _ _ _ _ H E) as (d & -> & Hd). rewrite (got _ _ _ Hd). next. loaded D.
  next. injection E0 as <-. apply bind_call; [eauto|]. intros [[id' outs] d'] Ep. destruct (decoded_bag _ _ _ _ (proj1 H) E) as (d0 & E0 & Bd). injection E0 as <-.
  destruct (dc_read _ Dp _ _ _ _ _ Bd Ep) as [K B].
  eapply after_struct; [exact D|exact (proj2 (proj2 H))|exact Hd|exact K|exact B|]. intros st' H'. now apply after_done.
Qed.
Lemma delete_handles sv id st s : decent_server sv -> holds st s ->
  handles s (fun c => exists d, c = CDelete id d) (fun r => True) (Delete sv id st).
Proof.
  intros D H. unfold Delete. next. destruct (decoded _ _ _ _ _ H E) as (d & -> & Hd). rewrite (got _ _ _ Hd). next. loaded D.
  next. injection E0 as <-. apply one_handled; eauto.
Qed.
Lemma update_handles sv id olds st s : decent_server sv -> top_message olds -> holds st s ->
  handles s (fun c => exists o n, c = CUpdate id o n) (fun r => holds r s) (Update sv id olds st).
Proof.
  intros D Ho H. unfold Update. next. next. destruct (decoded _ _ _ _ _ H E0) as (d & -> & Hd). rewrite (got _ _ _ Hd). next. loaded D.
  next. next. injection E2 as <-. apply bind_call; [eauto|]. intros [outs d'] Ep. destruct (decoded_bag _ _ _ _ (proj1 H) E0) as (d0 & E2 & Bd). injection E2 as <-.
  destruct (decoded_bag _ _ _ _ Ho E) as (d0 & -> & Bo). injection E1 as <-. destruct (dc_update _ Dp _ _ _ _ _ Bo Bd Ep) as [K B].
  apply after_do. intros key Ek. apply of_res_done in Ek. apply after_do. intros o Eo. apply of_res_done in Eo.
  pose proof (after_struct sv s d d' _ D (proj2 (proj2 H)) Hd K (default_bag _ B) _ (fun r => holds r s) (fun st => h_do (Done st)) (fun st Hst => after_done (fun r => holds r s) st Hst)) as [_ G].
  rewrite Ek in G. unfold h_bind, h_do in G. cbn [of_res fst snd app] in G. rewrite Eo in G. cbn [of_res fst snd app] in G.
  split; [reflexivity|]. cbn [h_do snd]. intros r Er. rewrite Er in G. cbn [fst snd app] in G. now apply G.
Qed.
Lemma check_handles sv olds st s : decent_server sv -> top_message olds -> holds st s ->
  handles s (fun c => exists o n, c = CCheck o n) (fun r => holds (fst r) s) (Check sv olds st).
Proof.
  intros D Ho H. unfold Check. next. next. destruct (decoded _ _ _ _ _ H E0) as (d & -> & Hd). rewrite (got_both _ _ _ _ (proj2 (proj2 H)) Hd). next. loaded D.
  next. next. injection E2 as <-. apply bind_call; [eauto|]. intros [[i f] d'] Ep. destruct (decoded_bag _ _ _ _ (proj1 H) E0) as (d0 & E2 & Bd). injection E2 as <-.
  destruct (decoded_bag _ _ _ _ Ho E) as (d0 & -> & Bo). injection E1 as <-. destruct (dc_check _ Dp _ _ _ _ _ Bo Bd Ep) as [K B].
  eapply after_struct; [exact D|exact (proj2 (proj2 H))|exact Hd|exact K|exact B|]. intros st' H'. now apply after_done.
Qed.
Lemma diff_handles sv id olds st s : decent_server sv -> holds st s ->
  handles s (fun c => exists o n, c = CDiff id o n) (fun r => True) (Diff sv id olds st).
Proof.
  intros D H. unfold Diff. next. next. destruct (decoded _ _ _ _ _ H E0) as (d & -> & Hd). rewrite (got_both _ _ _ _ (proj2 (proj2 H)) Hd). next. loaded D.
  next. next. injection E2 as <-. apply bind_call; [eauto|]. intros [[[ch rep] stb] dbr] Ep. now apply after_done.
Qed.

(* ------------------------------------------------------------------ *)
(** Histories. *)
Lemma last_maker_app l l' b : last_maker (l ++ l') b = last_maker l' (last_maker l b).
Proof. revert b. induction l as [|[[s c] o] l IH]; intros b; cbn [app last_maker]; auto. Qed.

(** What a handled request adds to the log. *)
Lemma logged_handles {R} s kind (good : R -> Prop) h : handles s kind good h ->
  logged h = [] /\ ok (snd h) = false \/ exists c, kind c /\ logged h = [(s, c, ok (snd h))].
Proof.
  intros [[E|(c & E & K)] G]; unfold logged; rewrite E; cbn [map].
  - left. split; [reflexivity|]. destruct (snd h) eqn:Eh; auto. elim (proj1 (G _ eq_refl)). exact E.
  - right. eauto.
Qed.
Lemma handles_good {R} s kind (good : R -> Prop) h r : handles s kind good h -> snd h = Done r -> good r.
Proof. intros [_ G] E. now apply G. Qed.

(** The state: a resource made by the provider the log says. *)
Definition inv (log : list entry) (r : option made) : Prop :=
  match r with Some m => exists s, holds (m_outs m) s /\ last_maker log None = Some s /\ top_message (m_inputs m) | None => True end.
Definition rightly (op : operation) (before l : list entry) : Prop :=
  forall l1 s c b l2, l = l1 ++ (s, c, b) :: l2 -> right_provider op (before ++ l1) c s.
Lemma rightly_nil op before : rightly op before [].
Proof. intros l1 s c b l2 E. now destruct l1. Qed.
Lemma rightly_one op before s c b : right_provider op before c s -> rightly op before [(s, c, b)].
Proof. intros H l1 s' c' b' l2 E. destruct l1 as [|? l1]; [injection E as <- <- <- <-; now rewrite app_nil_r|]. destruct l1; discriminate. Qed.
Lemma rightly_app op before l l' : rightly op before l -> rightly op (before ++ l) l' -> rightly op before (l ++ l').
Proof.
  intros H H' l1 s c b l2 E. destruct (app_eq_app _ _ _ _ E) as (m & [[E1 E2]|[E1 E2]]).
  - destruct m as [|e m].
    + rewrite app_nil_r in E1. subst l1. cbn [app] in E2. specialize (H' [] s c b l2 (eq_sym E2)). now rewrite app_nil_r in H'.
    + injection E2 as <- ->. eapply H. exact E1.
  - subst l1. rewrite app_assoc. eapply H'. exact E2.
Qed.

Lemma rightly_handles {R} op before s kind (good : R -> Prop) h : handles s kind good h ->
  (forall c, kind c -> right_provider op before c s) -> rightly op before (logged h).
Proof.
  intros H K. destruct (logged_handles _ _ _ _ H) as [[-> _]|(c & Hc & ->)]; [apply rightly_nil|]. apply rightly_one. auto.
Qed.
Lemma maker_other {R} s kind (good : R -> Prop) h b : handles s kind good h -> (forall c, kind c -> making c = false) -> last_maker (logged h) b = b.
Proof.
  intros H K. destruct (logged_handles _ _ _ _ H) as [[-> _]|(c & Hc & ->)]; [reflexivity|]. cbn [last_maker]. now rewrite (K c Hc).
Qed.
Lemma maker_made {R} s kind (good : R -> Prop) h b : handles s kind good h -> (forall c, kind c -> making c = true) ->
  last_maker (logged h) b = if ok (snd h) then Some s else b.
Proof.
  intros H K. destruct (logged_handles _ _ _ _ H) as [[-> ->]|(c & Hc & ->)]; [reflexivity|]. cbn [last_maker]. now rewrite (K c Hc).
Qed.

Lemma create_ok op before sv news what s inputs : op = Up sv news what -> dget news "__provider" = Some (WStr s) -> decent_server sv -> holds inputs s ->
  rightly op before (fst (do_create sv inputs)) /\ inv (before ++ fst (do_create sv inputs)) (snd (do_create sv inputs)).
Proof.
  intros -> Hn D H. pose proof (create_handles sv inputs s D H) as HC. unfold do_create. cbn [fst snd]. split.
  - eapply rightly_handles; [exact HC|]. intros c (d & ->). cbn. eauto.
  - destruct (snd (Create sv inputs)) as [[id outs]|e|] eqn:E; [|exact I..]. cbn [inv m_outs]. exists s. split; [exact (handles_good _ _ _ _ _ HC E)|]. split; [|exact (proj1 H)].
    rewrite last_maker_app, (maker_made _ _ _ _ _ HC) by (intros c (d & ->); reflexivity). now rewrite E.
Qed.

Lemma operate_ok op r before : programmed op -> inv before r ->
  rightly op before (fst (operate op r)) /\ inv (before ++ fst (operate op r)) (snd (operate op r)).
Proof.
  intros [D P] I. destruct op as [sv news what|sv|sv]; cbn [server_of] in D.
  - destruct P as (s & Hs). cbn [operate]. set (olds := match r with Some m => m_inputs m | None => [] end).
    assert (To : top_message olds) by (destruct r as [m|]; [destruct I as (s' & _ & _ & T); exact T|split; [reflexivity|constructor]]).
    pose proof (check_handles sv olds news s D To Hs) as HC. set (op := Up sv news what).
    assert (Rup : forall b c, making c = true \/ (exists o n, c = CCheck o n) \/ (exists i o n, c = CDiff i o n) -> right_provider op b c s).
    { intros b c K. destruct c; cbn [right_provider]; try (exists sv, news, what; split; [reflexivity|exact (proj1 (proj2 Hs))]);
      exfalso; destruct K as [K|[(? & ? & K)|(? & ? & ? & K)]]; discriminate. }
    assert (R1 : rightly op before (logged (Check sv olds news))).
    { eapply rightly_handles; [exact HC|]. intros c (o & n & ->). apply Rup. eauto. }
    assert (M1 : forall b, last_maker (logged (Check sv olds news)) b = b).
    { intros b. eapply maker_other; [exact HC|]. now intros c (o & n & ->). }
    assert (I1 : inv (before ++ logged (Check sv olds news)) r).
    { destruct r as [m|]; [|exact I]. destruct I as (s' & H1 & H2 & T). exists s'. split; [exact H1|]. split; [|exact T]. now rewrite last_maker_app, M1. }
    destruct (snd (Check sv olds news)) as [[inputs fails]|e|] eqn:Ec; [|split; [exact R1|exact I1]..].
    destruct fails; [|split; [exact R1|exact I1]].
    pose proof (handles_good _ _ _ _ _ HC Ec) as Hi. cbn [fst] in Hi.
    destruct r as [m|].
    + pose proof (diff_handles sv (m_id m) (m_outs m) inputs s D Hi) as HD.
      assert (R2 : rightly op before (logged (Check sv olds news) ++ logged (Diff sv (m_id m) (m_outs m) inputs))).
      { apply rightly_app; [exact R1|]. eapply rightly_handles; [exact HD|]. intros c (o & n & ->). apply Rup. eauto 6. }
      assert (M2 : forall b, last_maker (logged (Diff sv (m_id m) (m_outs m) inputs)) b = b).
      { intros b. eapply maker_other; [exact HD|]. now intros c (o & n & ->). }
      destruct I as (s' & H1 & H2 & T).
      assert (L2 : last_maker (before ++ logged (Check sv olds news) ++ logged (Diff sv (m_id m) (m_outs m) inputs)) None = Some s').
      { now rewrite !last_maker_app, M2, M1. }
      destruct (snd (Diff sv (m_id m) (m_outs m) inputs)) as [df|e|] eqn:Ed; [|split; [exact R2|exists s'; auto]..].
      destruct what.
      * split; [exact R2|exists s'; auto].
      * pose proof (update_handles sv (m_id m) (m_outs m) inputs s D (proj1 H1) Hi) as HU. cbn [fst snd]. split.
        -- rewrite app_assoc. apply rightly_app; [exact R2|]. eapply rightly_handles; [exact HU|]. intros c (o & n & ->). now apply Rup; left.
        -- assert (L3 : last_maker (before ++ logged (Check sv olds news) ++ logged (Diff sv (m_id m) (m_outs m) inputs) ++ logged (Update sv (m_id m) (m_outs m) inputs)) None
                      = if ok (snd (Update sv (m_id m) (m_outs m) inputs)) then Some s else Some s').
           { rewrite !last_maker_app, M1, M2, H2, (maker_made _ _ _ _ _ HU) by (intros c (o & n & ->); reflexivity). reflexivity. }
           destruct (snd (Update sv (m_id m) (m_outs m) inputs)) as [outs|e|] eqn:Eu; cbn [ok] in L3; cbn [inv m_outs]; [|eauto..].
           exists s. split; [exact (handles_good _ _ _ _ _ HU Eu)|]. split; [exact L3|exact (proj1 Hi)].
      * pose proof (delete_handles sv (m_id m) (m_outs m) s' D H1) as HX.
        assert (R3 : rightly op before (logged (Check sv olds news) ++ logged (Diff sv (m_id m) (m_outs m) inputs) ++ logged (Delete sv (m_id m) (m_outs m)))).
        { rewrite app_assoc. apply rightly_app; [exact R2|]. eapply rightly_handles; [exact HX|]. intros c (d & ->). exact L2. }
        assert (M3 : forall b, last_maker (logged (Delete sv (m_id m) (m_outs m))) b = b).
        { intros b. eapply maker_other; [exact HX|]. now intros c (d & ->). }
        destruct (snd (Delete sv (m_id m) (m_outs m))) as [u|e|] eqn:Ex.
        -- destruct (create_ok op (before ++ logged (Check sv olds news) ++ logged (Diff sv (m_id m) (m_outs m) inputs) ++ logged (Delete sv (m_id m) (m_outs m)))
             sv news Replace s inputs eq_refl (proj1 (proj2 Hs)) D Hi) as [R4 I4].
           destruct (do_create sv inputs) as [l r'] eqn:Ecr. cbn [fst snd] in *. split.
           ++ replace (logged (Check sv olds news) ++ logged (Diff sv (m_id m) (m_outs m) inputs) ++ logged (Delete sv (m_id m) (m_outs m)) ++ l)
                with ((logged (Check sv olds news) ++ logged (Diff sv (m_id m) (m_outs m) inputs) ++ logged (Delete sv (m_id m) (m_outs m))) ++ l) by now rewrite <- !app_assoc.
              now apply rightly_app.
           ++ rewrite !app_assoc in *. exact I4.
        -- split; [exact R3|]. exists s'. split; [exact H1|]. split; [|exact T]. cbn [fst]. rewrite !last_maker_app in *. now rewrite M3.
        -- split; [exact R3|]. exists s'. split; [exact H1|]. split; [|exact T]. cbn [fst]. rewrite !last_maker_app in *. now rewrite M3.
    + destruct (create_ok op (before ++ logged (Check sv olds news)) sv news what s inputs eq_refl (proj1 (proj2 Hs)) D Hi) as [R4 I4].
      destruct (do_create sv inputs) as [l r'] eqn:Ecr. cbn [fst snd] in *. split; [now apply rightly_app|]. now rewrite app_assoc.
  - cbn [operate]. destruct r as [m|]; [|split; [apply rightly_nil|exact Logic.I]]. destruct I as (s & H1 & H2 & T).
    pose proof (read_handles sv (m_id m) (m_outs m) s D H1) as HR. cbn [fst snd]. split.
    + eapply rightly_handles; [exact HR|]. now intros c (d & ->).
    + assert (L : last_maker (before ++ logged (Read sv (m_id m) (m_outs m))) None = Some s).
      { rewrite last_maker_app, (maker_other _ _ _ _ _ HR); [exact H2|]. now intros c (d & ->). }
      destruct (snd (Read sv (m_id m) (m_outs m))) as [[id outs]|e|] eqn:E; cbn [inv m_outs m_inputs]; exists s; split; auto.
      exact (handles_good _ _ _ _ _ HR E).
  - cbn [operate]. destruct r as [m|]; [|split; [apply rightly_nil|exact Logic.I]]. destruct I as (s & H1 & H2 & T).
    pose proof (delete_handles sv (m_id m) (m_outs m) s D H1) as HX. cbn [fst snd]. split.
    + eapply rightly_handles; [exact HX|]. now intros c (d & ->).
    + assert (L : last_maker (before ++ logged (Delete sv (m_id m) (m_outs m))) None = Some s).
      { rewrite last_maker_app, (maker_other _ _ _ _ _ HX); [exact H2|]. now intros c (d & ->). }
      destruct (snd (Delete sv (m_id m) (m_outs m))) as [u|e|] eqn:E; cbn [inv m_outs]; [exact Logic.I|exists s; auto..].
Qed.

(** All the log before an entry of a history. *)
Lemma history_right ops : forall r log, Forall programmed ops -> inv log r ->
  forall h1 op l h2, history ops r = h1 ++ (op, l) :: h2 -> rightly op (log ++ concat (map snd h1)) l.
Proof.
  induction ops as [|op ops IH]; intros r log P I h1 op' l h2; cbn [history]; [now destruct h1|].
  inversion P as [|? ? P1 P2]; subst. destruct (operate_ok op r log P1 I) as [R1 I1]. destruct (operate op r) as [l1 r1]. cbn [fst snd] in *.
  destruct h1 as [|hd h1]; cbn [app]; intros E.
  - injection E as <- <- _. cbn. now rewrite app_nil_r.
  - injection E as <- E. cbn [map snd concat]. rewrite app_assoc. eapply IH; eauto.
Qed.

(* ------------------------------------------------------------------ *)
(** Contents of the responses. *)
Lemma plain_with o s : plain (VDict o) -> text s -> plain (VDict (dset o "__provider" (VStr s))).
Proof.
  intros H Ht. apply plain_dict in H as [(W & Hs & Hi) F]. apply plain_dict. split; [split; [|split]|].
  - now apply wf_dset.
  - rewrite dkeys_dset. intros [K|K]; [discriminate|auto].
  - intros k Hk. apply dkeys_dset in Hk as [->|Hk]; [reflexivity|auto].
  - clear W Hs Hi. induction o as [|[k v] o IH]; cbn [dset]; [constructor; [exact Ht|constructor]|]. inversion F; subst.
    destruct (String.eqb "__provider" k); constructor; auto.
Qed.
Lemma struct_contents sv o s : c_transform (s_cfg sv) = None -> plain (VDict o) -> text s ->
  exists st, to_struct sv (dset o PROVIDER_KEY (VStr s)) = Done st /\
    forall dc ku, deserialize_properties dc st ku false = Ok (drop_nulls (VDict (dset o "__provider" (VStr s)))).
Proof.
  intros Hc Hp Ht. pose proof (plain_with o s Hp Ht) as H. assert (Hid : forall k, transform (s_cfg sv) k = k) by (intros k; unfold transform; now rewrite Hc).
  destruct (plain_round_trip (s_cfg sv) (mkDcfg false (fun _ _ => Ok None) (fun _ _ _ => Ok None)) false false false _ Hid H) as (st & pd & E & _).
  exists st. unfold to_struct. change PROVIDER_KEY with "__provider". rewrite E. split; [reflexivity|]. intros dc ku.
  destruct (plain_round_trip (s_cfg sv) dc false ku false _ Hid H) as (st' & pd' & E' & R). rewrite E in E'. injection E' as <- <-. exact R.
Qed.
Lemma bind_done {A R} (a : A) (f : A -> handled R) : h_bind (h_do (Done a)) f = f a.
Proof. unfold h_bind, h_do. cbn. now rewrite <- surjective_pairing. Qed.
Lemma bind_called {A R} s c (a : A) (f : A -> handled R) : h_bind (h_call s c (Ok a)) f = ((s, c) :: fst (f a), snd (f a)).
Proof. reflexivity. Qed.
Lemma kept_item d d' s : dget d "__provider" = Some (VStr s) -> keeps d d' -> getitem (VDict d') PROVIDER_KEY = Ok (VStr s).
Proof. intros H K. unfold getitem. change PROVIDER_KEY with "__provider". now rewrite K, H. Qed.

Lemma create_answers sv st s p d id o d' :
  c_transform (s_cfg sv) = None -> holds st s -> deserialize_properties (s_dc sv) st false false = Ok (VDict d) -> s_load sv s = Ok p ->
  (p_create p d = Ok (id, Some (VDict o), d') \/ p_create p d = Ok (id, None, d') /\ o = []) -> keeps d d' -> plain (VDict o) ->
  exists st', Create sv st = ([(s, CCreate d)], Done (id, st')) /\
    forall dc ku, deserialize_properties dc st' ku false = Ok (drop_nulls (VDict (dset o "__provider" (VStr s)))).
Proof.
  intros Hc H E El Hp K P. destruct (decoded _ _ _ _ _ H E) as (d0 & E0 & Hd). injection E0 as <-.
  destruct (struct_contents sv o s Hc P (proj2 (proj2 H))) as (st' & Es & R). exists st'. split; [|exact R].
  unfold Create. rewrite E. cbn [of_res]. rewrite bind_done, (got _ _ _ Hd), El. cbn [rbind of_res]. rewrite bind_done. cbn [as_props of_res]. rewrite bind_done.
  destruct Hp as [Hp|[Hp ->]]; rewrite Hp, bind_called; rewrite (kept_item _ _ _ Hd K); cbn [of_res setitem]; rewrite !bind_done, Es, bind_done; reflexivity.
Qed.
Lemma read_answers sv i st s p d id o d' :
  c_transform (s_cfg sv) = None -> holds st s -> deserialize_properties (s_dc sv) st false false = Ok (VDict d) -> s_load sv s = Ok p ->
  p_read p i d = Ok (id, Some (VDict o), d') -> keeps d d' -> plain (VDict o) ->
  exists st', Read sv i st = ([(s, CRead i d)], Done (id, st')) /\
    forall dc ku, deserialize_properties dc st' ku false = Ok (drop_nulls (VDict (dset o "__provider" (VStr s)))).
Proof.
  intros Hc H E El Hp K P. destruct (decoded _ _ _ _ _ H E) as (d0 & E0 & Hd). injection E0 as <-.
  destruct (struct_contents sv o s Hc P (proj2 (proj2 H))) as (st' & Es & R). exists st'. split; [|exact R].
  unfold Read. rewrite E. cbn [of_res]. rewrite bind_done, (got _ _ _ Hd), El. cbn [rbind of_res]. rewrite bind_done. cbn [as_props of_res]. rewrite bind_done.
  rewrite Hp, bind_called; rewrite (kept_item _ _ _ Hd K); cbn [of_res setitem]; rewrite !bind_done, Es, bind_done; reflexivity.
Qed.
Lemma update_answers sv i olds st s p od d o d' :
  c_transform (s_cfg sv) = None -> holds st s -> deserialize_properties (s_dc sv) olds false false = Ok (VDict od) ->
  deserialize_properties (s_dc sv) st false false = Ok (VDict d) -> s_load sv s = Ok p ->
  (p_update p i od d = Ok (Some (VDict o), d') \/ p_update p i od d = Ok (None, d') /\ o = []) -> keeps d d' -> plain (VDict o) ->
  exists st', Update sv i olds st = ([(s, CUpdate i od d)], Done st') /\
    forall dc ku, deserialize_properties dc st' ku false = Ok (drop_nulls (VDict (dset o "__provider" (VStr s)))).
Proof.
  intros Hc H Eo E El Hp K P. destruct (decoded _ _ _ _ _ H E) as (d0 & E0 & Hd). injection E0 as <-.
  destruct (struct_contents sv o s Hc P (proj2 (proj2 H))) as (st' & Es & R). exists st'. split; [|exact R].
  unfold Update. rewrite Eo, E. cbn [of_res]. rewrite !bind_done, (got _ _ _ Hd), El. cbn [rbind of_res]. rewrite bind_done. cbn [as_props of_res]. rewrite !bind_done.
  destruct Hp as [Hp|[Hp ->]]; rewrite Hp, bind_called; rewrite (kept_item _ _ _ Hd K); cbn [of_res setitem]; rewrite !bind_done, Es; reflexivity.
Qed.
Lemma check_answers sv olds st s p od d o f d' :
  c_transform (s_cfg sv) = None -> holds st s -> deserialize_properties (s_dc sv) olds true false = Ok (VDict od) ->
  deserialize_properties (s_dc sv) st true false = Ok (VDict d) -> s_load sv s = Ok p ->
  p_check p od d = Ok (VDict o, f, d') -> keeps d d' -> plain (VDict o) ->
  exists st', Check sv olds st = ([(s, CCheck od d)], Done (st', f)) /\
    forall dc ku, deserialize_properties dc st' ku false = Ok (drop_nulls (VDict (dset o "__provider" (VStr s)))).
Proof.
  intros Hc H Eo E El Hp K P. destruct (decoded _ _ _ _ _ H E) as (d0 & E0 & Hd). injection E0 as <-.
  destruct (struct_contents sv o s Hc P (proj2 (proj2 H))) as (st' & Es & R). exists st'. split; [|exact R].
  unfold Check. rewrite Eo, E. cbn [of_res]. rewrite !bind_done, (got_both _ _ _ _ (proj2 (proj2 H)) Hd), El. cbn [rbind of_res]. rewrite bind_done. cbn [as_props of_res]. rewrite !bind_done.
  rewrite Hp, bind_called; rewrite (kept_item _ _ _ Hd K); cbn [of_res setitem]; rewrite !bind_done, Es, bind_done; reflexivity.
Qed.
Lemma diff_answers sv i olds st s p od d ch rep stb dbr :
  holds st s -> deserialize_properties (s_dc sv) olds true false = Ok (VDict od) ->
  deserialize_properties (s_dc sv) st true false = Ok (VDict d) -> s_load sv s = Ok p -> p_diff p i od d = Ok (ch, rep, stb, dbr) ->
  exists c, Diff sv i olds st = ([(s, CDiff i od d)], Done (c, match rep with Some l => l | None => [] end, match dbr with Some b => b | None => false end)) /\
    (c = DIFF_SOME <-> ch = Some true) /\ (c = DIFF_NONE <-> ch = Some false).
Proof.
  intros H Eo E El Hp. destruct (decoded _ _ _ _ _ H E) as (d0 & E0 & Hd). injection E0 as <-.
  unfold Diff. rewrite Eo, E. cbn [of_res]. rewrite !bind_done, (got_both _ _ _ _ (proj2 (proj2 H)) Hd), El. cbn [rbind of_res]. rewrite bind_done. cbn [as_props of_res]. rewrite !bind_done.
  rewrite Hp, bind_called. eexists. split; [reflexivity|]. destruct ch as [[|]|]; split; split; congruence.
Qed.
Lemma delete_answers sv i st s p d :
  holds st s -> deserialize_properties (s_dc sv) st false false = Ok (VDict d) -> s_load sv s = Ok p ->
  Delete sv i st = ([(s, CDelete i d)], of_res (p_delete p i d)).
Proof.
  intros H E El. destruct (decoded _ _ _ _ _ H E) as (d0 & E0 & Hd). injection E0 as <-.
  unfold Delete. rewrite E. cbn [of_res]. rewrite !bind_done, (got _ _ _ Hd), El. cbn [rbind of_res]. rewrite bind_done. cbn [as_props of_res]. rewrite !bind_done. reflexivity.
Qed.
(** An unknown provider. *)
Lemma unknown_key dc st v : top_message st -> dget st "__provider" = Some (WStr UNKNOWN) -> deserialize_properties dc st true false = Ok v ->
  exists d, v = VDict d /\ dget d "__provider" = Some VUnknown.
Proof.
  intros [Hs Hw] Hg E. destruct (internal_keys _ _ _ _ _ Hs Hw E) as (d & -> & Hd & H). exists d. split; [reflexivity|].
  apply H. exists (WStr UNKNOWN). split; [exact Hg|]. split; [now right|]. cbn [deser]. rewrite String.eqb_refl, orb_true_r. split; [reflexivity|discriminate].
Qed.
