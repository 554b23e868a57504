(** Proofs about mocks. *)
From Verif Require Import Base PyVal Model_Output Model_Urn Spec_Urn Proof_Urn Model_Rpc Spec_Rpc Proof_RpcTop Model_Register Model_Mocks Spec_Mocks.
Open Scope string_scope.

Lemma qualified_last l t : ~ has_char "$" t -> slast (split_c "$" (qualified l t)) = t.
Proof.
  intros H. destruct l as [|a l].
  - simpl. now rewrite split_c_last.
  - assert (G : exists q, qualified (a :: l) t = q ++ String "$" t).
    { clear H. revert a. induction l as [|b l IH]; intros a.
      - exists a. reflexivity.
      - destruct (IH b) as (q & Hq). exists (a ++ "$" ++ q). simpl in *. rewrite Hq. rewrite !sapp_assoc. reflexivity. }
    destruct G as (q & ->). now apply slast_split_app.
Qed.
Lemma mock_urn_ok E type name parent urn : mock_urn_is E type name parent urn -> mock_urn E parent type name = Ok urn.
Proof.
  intros [|stack project ancestors ptype pname Hs Hp Hq Hn Hc]; [reflexivity|].
  unfold mock_urn, mock_type. rewrite split_urn by auto. rewrite qualified_last by auto.
  replace (String.eqb (urn_of stack project (qualified ancestors ptype) pname) "") with false by reflexivity.
  reflexivity.
Qed.

(** What a handler leaves in the registrations. *)
Lemma handle_state E st ev :
  (exists urn id state msg, records E ev urn id state msg /\ fst (handle E st ev) = dset st urn (id, state)) \/
  ((forall urn id state msg, ~ records E ev urn id state msg) /\ fst (handle E st ev) = st).
Proof.
  unfold handle. destruct (ev_req ev) as [parent type name object provider import_id custom|parent type name properties provider pid|tok args provider] eqn:Eq.
  - destruct (mock_urn E parent type name) as [urn|e] eqn:Eu.
    + destruct (String.eqb type "pulumi:pulumi:Stack") eqn:Et.
      * right. split; auto. apply String.eqb_eq in Et. intros ? ? ? ? [? ? ? ? ? ? ? ? ? Hq|? ? ? ? ? ? ? ? Hq]; rewrite Eq in Hq; try discriminate. injection Hq as <- <- <- <- <- <- <-. auto.
      * apply String.eqb_neq in Et.
        destruct (deserialize_properties (m_dc E) object false false) as [inputs|e] eqn:Ed; simpl.
        -- destruct (ev_new ev (mkMockResource type name inputs provider import_id (Some custom))) as [[id state]|e] eqn:En; simpl.
           ++ destruct (serialize_properties (m_cfg E) None false state) as [[msg pd]|e|] eqn:Es; simpl.
              ** left. exists urn, id, state, msg. split; auto. eapply Rec_register; eauto.
              ** right. split; auto. intros ? ? ? ? [? ? ? ? ? ? ? ? ? Hq|? ? ? ? ? ? ? ? Hq]; rewrite Eq in Hq; try discriminate. injection Hq as <- <- <- <- <- <- <-. congruence.
              ** right. split; auto. intros ? ? ? ? [? ? ? ? ? ? ? ? ? Hq|? ? ? ? ? ? ? ? Hq]; rewrite Eq in Hq; try discriminate. injection Hq as <- <- <- <- <- <- <-. congruence.
           ++ right. split; auto. intros ? ? ? ? [? ? ? ? ? ? ? ? ? Hq|? ? ? ? ? ? ? ? Hq]; rewrite Eq in Hq; try discriminate. injection Hq as <- <- <- <- <- <- <-. congruence.
        -- right. split; auto. intros ? ? ? ? [? ? ? ? ? ? ? ? ? Hq|? ? ? ? ? ? ? ? Hq]; rewrite Eq in Hq; try discriminate. injection Hq as <- <- <- <- <- <- <-. congruence.
    + right. split; auto. intros ? ? ? ? [? ? ? ? ? ? ? ? ? Hq|? ? ? ? ? ? ? ? Hq]; rewrite Eq in Hq; try discriminate. injection Hq as <- <- <- <- <- <- <-. congruence.
  - destruct (deserialize_properties (m_dc E) properties false false) as [inputs|e] eqn:Ed; simpl.
    + destruct (ev_new ev (mkMockResource type name inputs provider pid None)) as [[id state]|e] eqn:En; simpl.
      * destruct (serialize_properties (m_cfg E) None false state) as [[msg pd]|e|] eqn:Es; simpl.
        -- destruct (mock_urn E parent type name) as [urn|e] eqn:Eu; simpl.
           ++ left. exists urn, id, state, msg. split; auto. eapply Rec_read; eauto.
           ++ right. split; auto. intros ? ? ? ? [? ? ? ? ? ? ? ? ? Hq|? ? ? ? ? ? ? ? Hq]; rewrite Eq in Hq; try discriminate. injection Hq as <- <- <- <- <- <-. congruence.
        -- right. split; auto. intros ? ? ? ? [? ? ? ? ? ? ? ? ? Hq|? ? ? ? ? ? ? ? Hq]; rewrite Eq in Hq; try discriminate. injection Hq as <- <- <- <- <- <-. congruence.
        -- right. split; auto. intros ? ? ? ? [? ? ? ? ? ? ? ? ? Hq|? ? ? ? ? ? ? ? Hq]; rewrite Eq in Hq; try discriminate. injection Hq as <- <- <- <- <- <-. congruence.
      * right. split; auto. intros ? ? ? ? [? ? ? ? ? ? ? ? ? Hq|? ? ? ? ? ? ? ? Hq]; rewrite Eq in Hq; try discriminate. injection Hq as <- <- <- <- <- <-. congruence.
    + right. split; auto. intros ? ? ? ? [? ? ? ? ? ? ? ? ? Hq|? ? ? ? ? ? ? ? Hq]; rewrite Eq in Hq; try discriminate. injection Hq as <- <- <- <- <- <-. congruence.
  - right. split; auto. intros ? ? ? ? [? ? ? ? ? ? ? ? ? Hq|? ? ? ? ? ? ? ? Hq]; rewrite Eq in Hq; discriminate.
Qed.

(** An event records one thing. *)
Lemma records_fun E ev u1 i1 s1 m1 u2 i2 s2 m2 : records E ev u1 i1 s1 m1 -> records E ev u2 i2 s2 m2 ->
  u1 = u2 /\ i1 = i2 /\ s1 = s2 /\ m1 = m2.
Proof.
  intros [? ? ? ? ? ? ? ? ? Hq ? ? ? ?|? ? ? ? ? ? ? ? Hq] [? ? ? ? ? ? ? ? ? Hq'|? ? ? ? ? ? ? ? Hq'];
    rewrite Hq in Hq'; try discriminate.
  - injection Hq' as <- <- <- <- <- <- <-. repeat split; congruence.
  - injection Hq' as <- <- <- <- <- <-. repeat split; congruence.
Qed.

Lemma run_mocks_app E st a b : run_mocks E st (a ++ b)%list = run_mocks E (run_mocks E st a) b.
Proof. revert st. induction a; simpl; auto. Qed.
Lemma run_mocks_other E evs : forall st urn, never_registered E evs urn -> dget (run_mocks E st evs) urn = dget st urn.
Proof.
  induction evs as [|ev evs IH]; simpl; intros st urn Hn; auto.
  rewrite IH by (intros ev' Hi; apply Hn; now right).
  destruct (handle_state E st ev) as [(u & id & state & msg & Hr & ->)|[_ ->]]; auto.
  rewrite dget_dset. destruct (String.eqb urn u) eqn:Eu; auto.
  apply String.eqb_eq in Eu. subst u. exfalso. eapply (Hn ev); [now left|]. eauto.
Qed.
Lemma last_state E evs urn id state : last_registered E evs urn id state -> dget (run_mocks E [] evs) urn = Some (id, state).
Proof.
  intros (before & ev & after & msg & -> & Hr & Ha). rewrite run_mocks_app. simpl. rewrite run_mocks_other by exact Ha.
  destruct (handle_state E (run_mocks E [] before) ev) as [(u & id' & state' & msg' & Hr' & ->)|[Hn _]]; [|destruct (Hn _ _ _ _ Hr)].
  destruct (records_fun _ _ _ _ _ _ _ _ _ _ Hr Hr') as (-> & -> & -> & _). rewrite dget_dset, String.eqb_refl. reflexivity.
Qed.

(** A registration or a read is answered with the mock's result. *)
Lemma handle_answer E st ev urn id state msg : records E ev urn id state msg ->
  snd (handle E st ev) = Done (match ev_req ev with QRead _ _ _ _ _ _ => PRead urn msg | _ => PRegister urn (id_field id) msg end).
Proof.
  intros [parent type name object provider import_id custom inputs pd Hq Ht Hu Hd Hn Hs|parent type name properties provider pid inputs pd Hq Hu Hd Hn Hs];
    unfold handle; rewrite Hq, Hu, Hd; cbn [of_res fbind].
  - apply String.eqb_neq in Ht. rewrite Ht. rewrite Hn. cbn [of_res fbind snd fst]. rewrite Hs. reflexivity.
  - rewrite Hn. cbn [of_res fbind snd fst]. rewrite Hs. reflexivity.
Qed.

Lemma get_args dc urn : urn <> UNKNOWN ->
  deserialize_properties dc [("urn", WStr urn)] false false = Ok (VDict [("urn", VStr urn)]).
Proof.
  intros H. apply String.eqb_neq in H. unfold deserialize_properties, deser_struct, deser_entries.
  cbn -[UNKNOWN]. rewrite H. reflexivity.
Qed.

Lemma get_last E evs ev urn provider id state :
  ev_req ev = get_request urn provider -> urn <> UNKNOWN ->
  last_registered E evs urn id state ->
  (forall k, transform (m_cfg E) k = k) -> plain (VDict state) -> (forall i, id = Some i -> i <> UNKNOWN) ->
  exists ret, snd (handle E (run_mocks E [] evs) ev) = Done (PInvoke (mkInvokeResponse [] ret)) /\
    forall dc, deserialize_properties dc ret false false =
      Ok (VDict ([("urn", VStr urn)] ++ match id with Some i => [("id", VStr i)] | None => [] end
                 ++ [("state", drop_nulls (VDict state))])%list).
Proof.
  intros Hq Hu Hl Ht Hp Hi. unfold handle. rewrite Hq. unfold get_request. cbn [of_res fbind snd].
  rewrite (get_args (m_dc E) urn Hu). cbn [of_res fbind]. rewrite String.eqb_refl.
  unfold get_registered. cbn [dget String.eqb]. rewrite !Ascii.eqb_refl. cbn [andb].
  replace (if true then Some (VStr urn) else None) with (Some (VStr urn)) by reflexivity.
  rewrite (last_state _ _ _ _ _ Hl).
  set (d := [("urn", VStr urn); ("id", opt_str id); ("state", VDict state)]).
  assert (Hd : plain (VDict d)).
  { unfold d. cbn [plain]. split; [|split; [|split]].
    - unfold wf_dict, dkeys. cbn. repeat constructor; cbn; intuition discriminate.
    - cbn. intuition discriminate.
    - intros k. cbn. intros [<-|[<-|[<-|[]]]]; reflexivity.
    - cbn [snd]. split; [exact Hu|]. split; [|split; [exact Hp|exact I]].
      destruct id as [i|]; [apply (Hi i eq_refl)|exact I]. }
  destruct (plain_round_trip (m_cfg E) (m_dc E) false false false d Ht Hd) as (st & pd & Es & _).
  rewrite Es. cbn [fbind fst]. exists st. split; [reflexivity|]. intros dc.
  destruct (plain_round_trip (m_cfg E) dc false false false d Ht Hd) as (st' & pd' & Es' & Hr).
  rewrite Es in Es'. injection Es' as <- <-. rewrite Hr. destruct id; reflexivity.
Qed.
Lemma get_none E evs ev urn provider :
  ev_req ev = get_request urn provider -> urn <> UNKNOWN -> never_registered E evs urn ->
  snd (handle E (run_mocks E [] evs) ev) = Fail (Exn "Exception" ("unknown resource " ++ urn)).
Proof.
  intros Hq Hu Hn. unfold handle. rewrite Hq. unfold get_request. cbn [of_res fbind snd].
  rewrite (get_args (m_dc E) urn Hu). cbn [of_res fbind]. rewrite String.eqb_refl.
  unfold get_registered.
  replace (dget [("urn", VStr urn)] "urn") with (Some (VStr urn)) by reflexivity.
  rewrite run_mocks_other by auto. reflexivity.
Qed.

(** Function mocks. *)
Lemma call_answer E st ev tok args provider props reply d fs :
  ev_req ev = QInvoke tok args provider -> tok <> "pulumi:pulumi:getResource" ->
  deserialize_properties (m_dc E) args false false = Ok props ->
  ev_call ev (mkMockCall tok props provider) = Ok reply ->
  reply = ReplyDict d /\ fs = [] \/ reply = ReplyPair d (Some fs) ->
  (forall k, transform (m_cfg E) k = k) -> plain (VDict d) ->
  exists ret, snd (handle E st ev) = Done (PInvoke (mkInvokeResponse (map (fun f => (snd f, fst f)) fs) ret)) /\
    forall dc, deserialize_properties dc ret false false = Ok (drop_nulls (VDict d)).
Proof.
  intros Hq Ht Hd Hc Hr Htr Hp. unfold handle. rewrite Hq. cbn [snd]. rewrite Hd. cbn [of_res fbind].
  apply String.eqb_neq in Ht. rewrite Ht. unfold run_call. rewrite Hc. cbn [of_res fbind].
  destruct (plain_round_trip (m_cfg E) (m_dc E) false false false d Htr Hp) as (st' & pd & Es & _).
  exists st'. split.
  - destruct Hr as [[-> ->]| ->]; cbn [fbind fst snd]; rewrite Es; reflexivity.
  - intros dc. destruct (plain_round_trip (m_cfg E) dc false false false d Htr Hp) as (st2 & pd2 & Es2 & H).
    rewrite Es in Es2. now injection Es2 as <- <-.
Qed.
