From Verif Require Import Base PyVal Model_Output Model_Rpc Spec_Rpc Proof_Ser2 Proof_RpcTop Model_Translate Model_Register
  Model_Options Model_Resource Model_Invoke Spec_Invoke.
Open Scope string_scope.

Lemma reference_spec E p s : (forall q, p = Some q -> exists u, e_prov_urn E q = Done (Some u)) ->
  provider_reference E p = Done s -> reference_of E p s.
Proof.
  unfold provider_reference, reference_of. destruct p as [p|]; [|now intros _ [= <-]].
  intros H. destruct (H p eq_refl) as (u & Hu). rewrite Hu. simpl.
  destruct (e_prov_id E p) as [id| |] eqn:Ei; simpl; try discriminate. intros [= <-].
  exists u, id. repeat split; auto. unfold or_unknown.
  destruct id as [[|]|]; reflexivity.
Qed.

(* ---------------- the options heap ---------------- *)
Lemma iset_length h a o : length (iset h a o) = length h.
Proof. revert a. induction h; intros [|a']; simpl; auto. Qed.
Lemma iget_iset h a o b : a < length h -> iget (iset h a o) b = if Nat.eqb b a then o else iget h b.
Proof.
  unfold iget. generalize (new_iopts b) as d. revert a b. induction h as [|x h IH]; intros a b d Ha; simpl in *; [lia|].
  destruct a, b; simpl; auto. apply IH. lia.
Qed.
Lemma iget_app h l a : a < length h -> iget (h ++ l)%list a = iget h a.
Proof. intros. unfold iget. now rewrite app_nth1. Qed.

Definition same_base (o o' : iopts) : Prop :=
  io_parent o' = io_parent o /\ io_version o' = io_version o /\ io_plugin_download_url o' = io_plugin_download_url o.

Lemma inherit_length w h a tok : length (inherit_provider w h a tok) = length h.
Proof.
  unfold inherit_provider. destruct (io_parent (iget h a)), (io_provider (iget h a)); auto.
  destruct (wget w n); auto. apply iset_length.
Qed.
Lemma inherit_spec w h a tok b : a < length h ->
  let o := iget h b in
  let o' := iget (inherit_provider w h a tok) b in
  same_base o o' /\
  io_provider o' = match io_provider o with
                   | Some p => Some p
                   | None => if Nat.eqb b a then
                               match io_parent o with
                               | Some p => match wget w p with Some r => get_provider r tok | None => None end
                               | None => None
                               end
                             else None
                   end.
Proof.
  intros Ha. cbv zeta. unfold inherit_provider, same_base.
  destruct (Nat.eqb b a) eqn:Eb.
  - apply Nat.eqb_eq in Eb. subst b.
    destruct (io_parent (iget h a)) eqn:Ep, (io_provider (iget h a)) eqn:Eq; rewrite ?Ep, ?Eq; auto.
    destruct (wget w n) eqn:Ew; rewrite ?Ep, ?Eq; auto.
    rewrite iget_iset, Nat.eqb_refl by auto. simpl. auto.
  - destruct (io_parent (iget h a)) eqn:Ep, (io_provider (iget h a)) eqn:Eq; try (destruct (io_provider (iget h b)); now auto).
    destruct (wget w n) eqn:Ew; try (destruct (io_provider (iget h b)); now auto).
    rewrite iget_iset, Eb by auto. destruct (io_provider (iget h b)); auto.
Qed.

Lemma invoke_heap E w m h tok props opts typ h' reqs r :
  invoke E w m h tok props opts typ = (h', reqs, r) ->
  h' = (let (h1, a) := iensure h opts in if bad_type typ then h1 else inherit_provider w h1 a tok).
Proof.
  unfold invoke. destruct (iensure h opts) as [h1 a]. destruct (bad_type typ); [now intros [= <- _ _]|].
  destruct (invoke_prepare _ _ _ _); [|now intros [= <- _ _]|now intros [= <- _ _]].
  destruct m; now intros [= <- _ _].
Qed.

(* ---------------- a sequence of invokes ---------------- *)
Definition pick (w : world) (o : iopts) (tok : string) : option provider :=
  match io_provider o with
  | Some p => Some p
  | None => match io_parent o with
            | Some p => match wget w p with Some r => get_provider r tok | None => None end
            | None => None
            end
  end.
Lemma pick_expected w o tok : (forall p, io_parent o = Some p -> exists r, wget w p = Some r) ->
  expected_provider w o tok (pick w o tok).
Proof.
  intros H. unfold pick, get_provider. destruct (io_provider o) as [p|] eqn:Ep; [now apply XP_given|].
  destruct (io_parent o) as [a|] eqn:Ea; [|now apply XP_none].
  destruct (H a eq_refl) as (r & Hr). rewrite Hr. destruct (type_package tok) eqn:Et; [eapply XP_parent|eapply XP_token]; eauto.
Qed.
Lemma pick_package w o tok tok' : type_package tok = type_package tok' -> pick w o tok = pick w o tok'.
Proof. unfold pick, get_provider. now intros ->. Qed.

(** Fields of the object at [b] after one invoke: unchanged but for the
    provider, which is what [pick] says for one of the tokens used. *)
Definition one_step (w : world) (tok : string) (o o' : iopts) : Prop :=
  same_base o o' /\ (io_provider o' = io_provider o \/ io_provider o' = pick w o tok).
Lemma invoke_step E w m h tok props opts typ h' reqs r b :
  invoke E w m h tok props opts typ = (h', reqs, r) -> b < length h -> (forall a, opts = Some a -> a < length h) ->
  length h <= length h' /\
  (opts <> Some b -> same_base (iget h b) (iget h' b) /\ io_provider (iget h' b) = io_provider (iget h b)) /\
  one_step w tok (iget h b) (iget h' b).
Proof.
  intros H Hb Ho. apply invoke_heap in H.
  destruct opts as [a|]; simpl in H.
  - specialize (Ho a eq_refl). destruct (bad_type typ).
    + subst h'. unfold one_step, same_base. repeat split; auto.
    + subst h'. rewrite inherit_length. destruct (inherit_spec w h a tok b Ho) as (Hs & Hp). split; [lia|].
      split.
      * intros Hne. split; auto. rewrite Hp. destruct (Nat.eqb b a) eqn:E1; [apply Nat.eqb_eq in E1; congruence|].
        destruct (io_provider (iget h b)); auto.
      * split; auto. rewrite Hp. unfold pick. destruct (io_provider (iget h b)); auto.
        destruct (Nat.eqb b a); auto.
  - set (h1 := (h ++ [new_iopts (length h)])%list) in *.
    assert (E1 : iget h1 b = iget h b) by now apply iget_app.
    assert (L1 : length h1 = S (length h)) by (unfold h1; rewrite app_length; simpl; lia).
    destruct (bad_type typ).
    + subst h'. rewrite E1, L1. unfold one_step, same_base. repeat split; auto.
    + subst h'. rewrite inherit_length, L1. destruct (inherit_spec w h1 (length h) tok b ltac:(lia)) as (Hs & Hp).
      rewrite E1 in Hs, Hp. assert (E2 : Nat.eqb b (length h) = false) by (apply Nat.eqb_neq; lia). rewrite E2 in Hp.
      assert (Hp' : io_provider (iget (inherit_provider w h1 (length h) tok) b) = io_provider (iget h b))
        by (rewrite Hp; now destruct (io_provider (iget h b))).
      split; [lia|]. split; [auto|]. split; auto.
Qed.

Lemma invokes_keep E w m l : forall h b tok,
  b < length h -> (forall c a, In c l -> n_opts c = Some a -> a < length h) ->
  (forall c, In c l -> n_opts c = Some b -> type_package (n_tok c) = type_package tok) ->
  let h' := invokes E w m h l in
  length h <= length h' /\ same_base (iget h b) (iget h' b) /\ pick w (iget h' b) tok = pick w (iget h b) tok.
Proof.
  induction l as [|c l IH]; intros h b tok Hb Ha Hp; simpl; [unfold same_base; auto|].
  destruct (invoke E w m h (n_tok c) (n_props c) (n_opts c) (n_type c)) as [[h1 q] r] eqn:E1. simpl.
  destruct (invoke_step _ _ _ _ _ _ _ _ _ _ _ b E1 Hb (fun a => Ha c a (or_introl eq_refl))) as (L & Hne & (Hs & Hpr)).
  destruct (IH h1 b tok) as (L2 & Hs2 & Hp2); [lia| | |].
  - intros c' a Hc Hc'. specialize (Ha c' a (or_intror Hc) Hc'). lia.
  - intros c' Hc. apply Hp. now right.
  - split; [lia|]. unfold same_base in *. split; [intuition congruence|]. rewrite Hp2.
    assert (Hpar : io_parent (iget h1 b) = io_parent (iget h b)) by intuition.
    assert (Hcase : n_opts c = Some b \/ n_opts c <> Some b).
    { destruct (n_opts c) as [x|]; [|right; discriminate]. destruct (Nat.eq_dec x b); [left; congruence|right; congruence]. }
    destruct Hcase as [Eo|Eo].
    + assert (Et : type_package (n_tok c) = type_package tok) by (apply Hp; [now left|auto]).
      rewrite (pick_package _ _ _ _ Et) in Hpr.
      destruct Hpr as [Hpr|Hpr]; unfold pick in *; rewrite Hpr, Hpar.
      * reflexivity.
      * destruct (io_provider (iget h b)); auto.
        destruct (io_parent (iget h b)); auto. destruct (wget w n); auto. destruct (get_provider r0 tok); auto.
    + destruct (Hne Eo) as (_ & Hpe). unfold pick. now rewrite Hpe, Hpar.
Qed.

Lemma invoke_sends E w m h tok props opts typ h' reqs r q :
  invoke E w m h tok props opts typ = (h', reqs, r) -> In q reqs ->
  exists mon h1 a sp, m = Some mon /\ iensure h opts = (h1, a) /\ reqs = [q] /\
    serialize_properties (e_cfg E) None false props = Done sp /\
    provider_reference E (io_provider (iget (inherit_provider w h1 a tok) a)) = Done (q_provider q) /\
    q_tok q = tok /\ q_args q = fst sp /\ q_accept q = e_accept E /\
    q_version q = or_empty (io_version (iget (inherit_provider w h1 a tok) a)) /\
    q_url q = or_empty (io_plugin_download_url (iget (inherit_provider w h1 a tok) a)) /\
    r = of_res (invoke_finish E tok typ (mon q)) /\ bad_type typ = false.
Proof.
  unfold invoke. destruct (iensure h opts) as [h1 a] eqn:Eh. destruct (bad_type typ) eqn:Eb; [intros [= _ <- _] []|].
  destruct (invoke_prepare E (iget (inherit_provider w h1 a tok) a) tok props) as [req| |] eqn:Ep;
    [|intros [= _ <- _] []|intros [= _ <- _] []].
  destruct m as [mon|]; [|intros [= _ <- _] []]. intros [= _ <- <-] [<-|[]].
  unfold invoke_prepare in Ep.
  destruct (provider_reference E (io_provider (iget (inherit_provider w h1 a tok) a))) as [ref| |] eqn:E1; simpl in Ep; try discriminate.
  destruct (serialize_properties (e_cfg E) None false props) as [sp| |] eqn:E2; simpl in Ep; try discriminate.
  injection Ep as <-. exists mon, h1, a, sp. simpl. repeat split; auto.
Qed.

(** C68, the part that holds. *)
Lemma provider_selection E w m h l tok props b typ h' reqs r q :
  parents_exist w h -> (forall p, exists u, e_prov_urn E p = Done (Some u)) ->
  b < length h -> (forall c a, In c l -> n_opts c = Some a -> a < length h) ->
  (forall c, In c l -> n_opts c = Some b -> type_package (n_tok c) = type_package tok) ->
  invoke E w m (invokes E w m h l) tok props (Some b) typ = (h', reqs, r) -> In q reqs ->
  (exists p, expected_provider w (iget h b) tok p /\ reference_of E p (q_provider q)) /\
  q_version q = or_empty (io_version (iget h b)) /\ q_url q = or_empty (io_plugin_download_url (iget h b)).
Proof.
  intros Hpe Hu Hb Ha Hp Hi Hq.
  destruct (invokes_keep E w m l h b tok Hb Ha Hp) as (L & (Hs1 & Hs2 & Hs3) & Hpick).
  destruct (invoke_sends _ _ _ _ _ _ _ _ _ _ _ _ Hi Hq) as (mon & h1 & a & sp & _ & Eh & _ & _ & Er & _ & _ & _ & Ev & Eu & _).
  simpl in Eh. injection Eh as <- <-.
  set (h2 := invokes E w m h l) in *. clearbody h2.
  assert (Hb2 : b < length h2) by lia.
  destruct (inherit_spec w h2 b tok b Hb2) as ((Hb1 & Hv1 & Hu1) & Hpr). rewrite Nat.eqb_refl in Hpr.
  split; [|split; congruence].
  exists (pick w (iget h b) tok). split.
  - apply pick_expected. intros p Hp'. apply (Hpe (iget h b) p); auto. unfold iget. apply nth_In. auto.
  - apply reference_spec; [intros; apply Hu|]. rewrite <- Hpick. rewrite Hpr in Er. unfold pick.
    exact Er.
Qed.

(* ---------------- invoke's result ---------------- *)
Lemma convert_spec E typ ret v : convert E typ ret = Ok v <-> reads_as E typ ret v.
Proof.
  unfold convert, reads_as. destruct ret as [|x ret].
  - split; [intros [= <-]; left; auto|]. intros [[_ ->]|[K _]]; auto. congruence.
  - destruct (deserialize_properties (e_dc E) (x :: ret) false false) as [u|e] eqn:Ed; simpl.
    + destruct typ as [t|].
      * destruct (translate (e_oc E) u (Some t)) as [y|e] eqn:Et; simpl.
        -- split; [intros [= <-]; right; split; [discriminate|]; exists u; split; auto; exists y; auto|].
           intros [[K _]|(_ & u' & [= <-] & y' & Hy & ->)]; [discriminate|]. rewrite Et in Hy. congruence.
        -- split; [discriminate|]. intros [[K _]|(_ & u' & [= <-] & y' & Hy & ->)]; congruence.
      * split; [intros [= <-]; right; split; [discriminate|]; exists u; auto|].
        intros [[K _]|(_ & u' & [= <-] & ->)]; [discriminate|reflexivity].
    + split; [discriminate|]. intros [[K _]|(_ & u' & K & _)]; discriminate.
Qed.

Lemma invoke_result E w m h tok props opts typ h' reqs r :
  invoke E w m h tok props opts typ = (h', reqs, r) ->
  (length reqs <= 1) /\
  (forall v, r = Done v -> exists mon q resp, m = Some mon /\ reqs = [q] /\ mon q = AResp resp /\ i_failures resp = [] /\
     reads_as E typ (i_return resp) v) /\
  (forall mon q, m = Some mon -> In q reqs ->
     (exists st pd, serialize_properties (e_cfg E) None false props = Done (st, pd) /\ q_args q = st) /\
     q_tok q = tok /\ q_accept q = e_accept E /\
     match mon q with
     | AResp resp =>
         match i_failures resp with
         | (reason, property) :: _ => r = Fail (Exn "Exception" ("invoke of " ++ tok ++ " failed: " ++ reason ++ " (" ++ property ++ ")"))
         | [] => (forall v, r = Done v <-> reads_as E typ (i_return resp) v) /\ resolved r
         end
     | ARpcError false details => r = Fail (Exn "Exception" ("invoke of " ++ tok ++ " failed: " ++ details))
     | ARpcError true _ => exists msg, r = Fail (Exn "Exception" ("invoke of " ++ tok ++ " failed: " ++ msg))
     | AError e => r = Fail e
     end).
Proof.
  intros H. split; [|split].
  - unfold invoke in H. destruct (iensure h opts). destruct (bad_type typ); [injection H as <- <- <-; simpl; lia|].
    destruct (invoke_prepare _ _ _ _); [destruct m|..]; injection H as <- <- <-; simpl; lia.
  - intros v ->.
    assert (Hn : reqs <> []).
    { unfold invoke in H. destruct (iensure h opts). destruct (bad_type typ); [discriminate|].
      destruct (invoke_prepare _ _ _ _); [destruct m|..]; try discriminate. injection H as _ <- _; discriminate. }
    destruct reqs as [|q reqs]; [congruence|].
    destruct (invoke_sends _ _ _ _ _ _ _ _ _ _ _ q H (or_introl eq_refl)) as (mon & h1 & a & sp & Hm & _ & Hr & _ & _ & _ & _ & _ & _ & _ & E1 & _).
    exists mon, q. destruct (mon q) as [resp| |] eqn:Em; simpl in E1; try discriminate.
    exists resp. injection Hr as ->. repeat split; auto.
    + destruct (i_failures resp); auto. discriminate.
    + destruct (i_failures resp); [|discriminate]. destruct (convert E typ (i_return resp)) eqn:Ec; [|discriminate].
      simpl in E1. injection E1 as ->. now apply convert_spec.
  - intros mon q Hm Hq.
    destruct (invoke_sends _ _ _ _ _ _ _ _ _ _ _ q H Hq) as (mon' & h1 & a & [st pd] & Hm' & _ & Hr & Hs & _ & Ht & Hargs & Hacc & _ & _ & E1 & _).
    rewrite Hm in Hm'. injection Hm' as <-.
    split; [exists st, pd; auto|]. split; auto. split; auto.
    unfold invoke_finish in E1. destruct (mon q) as [resp|u d|e]; simpl in E1; auto.
    + destruct (i_failures resp) as [|[reason property] l]; [|exact E1].
      subst r. split; [|destruct (convert _ _ _); discriminate].
      intros v. rewrite <- convert_spec. destruct (convert E typ (i_return resp)); simpl; split; intros K; congruence.
    + destruct u; simpl in E1; [eexists|]; exact E1.
Qed.

(** Data in, data out. *)
Lemma invoke_data E w mon h tok props opts typ h' q r c2 keep2 ans st2 pd2 dc2 :
  invoke E w (Some mon) h tok props opts typ = (h', [q], r) ->
  (forall k, transform (e_cfg E) k = k) -> (forall k, transform c2 k = k) ->
  plain (VDict props) -> plain (VDict ans) ->
  serialize_properties c2 None keep2 ans = Done (st2, pd2) -> mon q = AResp (mkInvokeResponse [] st2) -> typ = None ->
  deserialize_properties dc2 (q_args q) false false = Ok (drop_nulls (VDict props)) /\
  r = Done (if match st2 with [] => true | _ => false end then INone else IPlain (drop_nulls (VDict ans))).
Proof.
  intros H Ht1 Ht2 Hp1 Hp2 Hs Hm Htyp. subst typ.
  destruct (invoke_result _ _ _ _ _ _ _ _ _ _ _ H) as (_ & _ & Hq). specialize (Hq mon q eq_refl (or_introl eq_refl)).
  destruct Hq as ((st & pd & E1 & E2) & _ & _ & Hr). rewrite Hm in Hr. simpl in Hr. destruct Hr as [Hr _].
  split.
  - destruct (plain_round_trip (e_cfg E) dc2 false false false props Ht1 Hp1) as (st' & pd' & E3 & E4).
    rewrite E1 in E3. injection E3 as <- <-. now rewrite E2.
  - apply Hr. destruct st2 as [|x st2]; [left; auto|]. right. split; [discriminate|].
    destruct (plain_round_trip c2 (e_dc E) keep2 false false ans Ht2 Hp2) as (st' & pd' & E3 & E4).
    rewrite Hs in E3. injection E3 as <- <-. eauto.
Qed.

(* ---------------- call ---------------- *)
Lemma contains_within v : contains_unknowns v = true <-> within VUnknown v.
Proof.
  split.
  - induction v using pyval_ind'; simpl; try discriminate; intros Hc; try constructor.
    + apply existsb_exists in Hc as (x & Hx & Hc). rewrite Forall_forall in H. eapply W_list; eauto.
    + apply existsb_exists in Hc as ([k x] & Hx & Hc). rewrite Forall_forall in H. eapply W_dict; [eauto|]. apply (H (k, x)); auto.
  - induction 1; simpl; auto.
    + apply existsb_exists. eauto.
    + apply existsb_exists. exists (k, y). auto.
Qed.

Lemma dep_urns_spec E ds : forall acc us, dep_urns E ds acc = Done us -> NoDup acc ->
  NoDup us /\ forall u, In u us <-> In u acc \/ exists d, In d ds /\ Model_Rpc.r_urn (c_res (e_cfg E) d) = Done (Some u).
Proof.
  induction ds as [|d ds IH]; simpl; intros acc us.
  - intros [= <-] Hn. split; auto. intros u. split; auto. intros [H|(d & [] & _)]; auto.
  - destruct (Model_Rpc.r_urn (c_res (e_cfg E) d)) as [[s|]| |] eqn:Eu; simpl; try discriminate. intros H Hn.
    apply IH in H as [Hn' H].
    + split; auto. intros u. rewrite H. destruct (smem s acc) eqn:Es.
      * apply smem_In in Es. split; [intros [K|(d' & Hd & K)]; [auto|right; exists d'; auto]|].
        intros [K|(d' & [<-|Hd] & K)]; [auto| |right; eauto]. left. rewrite Eu in K. injection K as <-. auto.
      * rewrite in_app_iff. simpl. split.
        -- intros [[K|[<-|[]]]|(d' & Hd & K)]; [auto|right; exists d; auto|right; exists d'; auto].
        -- intros [K|(d' & [<-|Hd] & K)]; [auto| |right; eauto]. left. right. rewrite Eu in K. injection K as <-. auto.
    + destruct (smem s acc) eqn:Es; auto. apply smem_notIn in Es.
      assert (K : NoDup (rev (s :: rev acc))) by (apply NoDup_rev; constructor; [now rewrite <- in_rev|now apply NoDup_rev]).
      simpl in K. now rewrite rev_involutive in K.
Qed.
Lemma arg_deps_spec E pd : forall deps, arg_deps E pd = Done deps ->
  dkeys deps = dkeys pd /\
  forall k us, dget deps k = Some us -> exists ds, dget pd k = Some ds /\ NoDup us /\
    forall u, In u us <-> exists d, In d ds /\ Model_Rpc.r_urn (c_res (e_cfg E) d) = Done (Some u).
Proof.
  induction pd as [|[k0 ds] pd IH]; simpl; intros deps.
  - intros [= <-]. split; auto. discriminate.
  - destruct (dep_urns E ds []) as [us0| |] eqn:E1; simpl; try discriminate.
    destruct (arg_deps E pd) as [rest| |] eqn:E2; simpl; try discriminate. intros [= <-].
    destruct (IH rest eq_refl) as [Hk H]. split; [simpl; f_equal; exact Hk|].
    intros k us. simpl. destruct (String.eqb k k0); [|apply H]. intros [= <-]. exists ds. split; auto.
    apply dep_urns_spec in E1; [|constructor]. destruct E1 as [Hn Hu]. split; auto.
    intros u. rewrite Hu. simpl. tauto.
Qed.

Lemma unwrap_top_get d k : dget (unwrap_top d) k = option_map (fun v => if is_rpc_secret v then unwrap_rpc_secret v else v) (dget d k).
Proof. unfold unwrap_top. induction d as [|[k0 v] d IH]; simpl; auto. destruct (String.eqb k k0); auto. Qed.

Lemma call_request_spec E mon tok props self typ reqs out q :
  (forall cls, class_ok (c_class (e_cfg E) cls)) -> (forall p, exists u, e_prov_urn E p = Done (Some u)) ->
  call E (Some mon) tok props self typ = Ok (reqs, out) -> In q reqs ->
  reqs = [q] /\ l_tok q = tok /\
  (exists pd, serialize_properties (e_cfg E) None true props = Done (l_args q, pd)) /\
  dkeys (l_deps q) = dkeys (l_args q) /\
  (NoDup (map (fun kv => top_key (e_cfg E) None (fst kv)) props) ->
   forall k v us, In (k, v) props -> dget (l_deps q) (top_key (e_cfg E) None k) = Some us ->
     NoDup us /\ forall u, In u us <-> exists r, mentions (e_cfg E) r v /\ Model_Rpc.r_urn (c_res (e_cfg E) r) = Done (Some u)) /\
  reference_of E (match self with Some s => cs_provider s | None => None end) (l_provider q) /\
  l_version q = match self with Some (mkCallSelf _ (Some v) _) => v | _ => "" end /\
  l_url q = match self with Some (mkCallSelf _ _ (Some v)) => v | _ => "" end /\
  out = match call_answer E tok typ (mon q) with
        | Err e => failed_output e
        | Ok (v, known, secret, deps) => mkCallOutput (Done deps) (Done v) (Done known) (Done secret)
        end.
Proof.
  intros Hc Hu. unfold call. destruct (bad_type typ); [discriminate|].
  destruct (call_prepare E self tok props) as [req| |] eqn:Ep; intros [= <- <-]; [|intros []|intros []].
  intros [<-|[]]. unfold call_prepare in Ep.
  destruct (provider_reference E (match self with Some s => cs_provider s | None => None end)) as [ref| |] eqn:Er; simpl in Ep; try discriminate.
  destruct (serialize_properties (e_cfg E) None true props) as [[st pd]| |] eqn:Es; simpl in Ep; try discriminate.
  destruct (arg_deps E pd) as [deps| |] eqn:Ed; simpl in Ep; try discriminate.
  injection Ep as <-. simpl. apply arg_deps_spec in Ed as [Hk Hd].
  destruct (property_dependencies _ _ _ _ _ _ Hc Es) as [Hkeys Hpd].
  split; [reflexivity|]. split; [reflexivity|]. split; [eauto|]. split; [congruence|].
  split; [|split; [apply reference_spec; auto|split; [|split; auto]]].
  - intros Hn k v us Hi Hus. destruct (Hd _ _ Hus) as (ds & Hds & Hnd & Hin). split; auto.
    intros u. rewrite Hin. split; intros (d & H1 & H2); exists d; split; auto; now apply (Hpd Hn k v ds Hi Hds).
  - destruct self as [[? [] ?]|]; reflexivity.
  - destruct self as [[? ? []]|]; reflexivity.
Qed.

Lemma call_result_spec E typ r v known secret deps :
  lr_return r <> [] -> top_message (lr_return r) -> (forall k w, dget (lr_return r) k = Some w -> string_ids w) ->
  call_result E typ r = Ok (v, known, secret, deps) ->
  exists d, deserialize_properties (e_dc E) (lr_return r) false false = Ok (VDict d) /\
    (known = true <-> ~ within VUnknown (VDict d)) /\
    (secret = true <-> exists k w, dget (lr_return r) k = Some w /\ internal_key k = false /\ exposes_secret w) /\
    (forall x, In x deps <-> exists k us u, In (k, us) (lr_deps r) /\ In u us /\ x = RDep u) /\
    (known = false -> v = INone) /\
    (known = true -> exists d', (forall k x, dget d' k = Some x <-> exists u, dget d k = Some u /\ (marked_secret u x \/ is_rpc_secret u = false /\ u = x)) /\
       match typ with
       | None => v = IPlain (VDict d')
       | Some t => exists y, translate (e_oc E) (VDict d') (Some t) = Ok y /\ v = ITyped y
       end).
Proof.
  intros Hne Htop Hids. unfold call_result. destruct (lr_return r) as [|x0 ret0] eqn:Eret; [congruence|].
  rewrite <- Eret in *. clear Eret x0 ret0.
  destruct (deserialize_properties (e_dc E) (lr_return r) false false) as [u|e] eqn:Ed; cbn [rbind]; [|discriminate].
  destruct (secrets_bubble _ _ _ _ _ Htop Hids Ed) as (d & -> & Hb1 & Hb2).
  set (sec := existsb (fun kv => is_rpc_secret (snd kv)) d) in *.
  set (dd := map RDep (flat_map snd (lr_deps r))) in *.
  assert (Hsec : sec = true <-> exists k w, dget (lr_return r) k = Some w /\ internal_key k = false /\ exposes_secret w).
  { unfold sec. rewrite existsb_exists. destruct (top_values _ _ _ _ _ Htop Ed) as (d0 & [= <-] & Hwf & Ht & _). split.
    - intros ([k u] & Hi & Hs). simpl in Hs. pose proof (In_dget d k u Hwf Hi) as Hg.
      destruct (Ht k u Hg) as (w & Hw & Hint & _). destruct (Hb1 k u Hg) as (w' & x & Hw' & _ & _ & Hx & _).
      exists k, w. split; auto. rewrite Hw in Hw'. injection Hw' as <-. split; [destruct Hint as [K|K]; [discriminate|exact K]|]. now apply Hx.
    - intros (k & w & Hw & Hint & Hex). destruct (Hb2 k w Hw (or_intror Hint) Hex) as (u & Hu & Hs).
      exists (k, u). split; auto. now apply dget_In. }
  assert (Hdd : forall x, In x dd <-> exists k us u, In (k, us) (lr_deps r) /\ In u us /\ x = RDep u).
  { intros x. unfold dd. rewrite in_map_iff. split.
    - intros (u & <- & Hu). apply in_flat_map in Hu as ([k us] & Hi & Hu). exists k, us, u. auto.
    - intros (k & us & u & Hi & Hu & ->). exists u. split; auto. apply in_flat_map. exists (k, us). auto. }
  assert (Hget : forall k x, dget (unwrap_top d) k = Some x <-> exists u, dget d k = Some u /\ (marked_secret u x \/ is_rpc_secret u = false /\ u = x)).
  { intros k x. rewrite unwrap_top_get. destruct (dget d k) as [u|] eqn:Eg; simpl.
    - destruct (Hb1 k u Eg) as (w & y & Hw & H1 & H2 & H3 & _).
      assert (Hm : is_rpc_secret u = true -> marked_secret u y) by (intros K; apply H1, H3, K).
      destruct (is_rpc_secret u) eqn:Es.
      + specialize (Hm eq_refl). unfold marked_secret in Hm. rewrite Hm at 1. cbn. split.
        * intros [= <-]. exists u. split; auto. 
        * intros (u' & [= <-] & [K|[K _]]); [|congruence]. unfold marked_secret in K. congruence.
      + split.
        * intros [= <-]. exists u. auto.
        * intros (u' & [= <-] & [K|[_ K]]); [|congruence]. unfold marked_secret in K. subst u. discriminate.
    - split; [discriminate|]. intros (u & K & _). discriminate. }
  assert (Hkn : contains_unknowns (VDict d) = true <-> within VUnknown (VDict d)) by apply contains_within.
  clearbody sec dd. destruct (contains_unknowns (VDict d)) eqn:Ec; cbn [negb].
  - intros [= <- <- <- <-]. exists d. split; auto. split; [split; [discriminate|]; intros K; exfalso; apply K, Hkn; auto|].
    split; auto. split; auto. split; [auto|discriminate].
  - assert (Hnot : ~ within VUnknown (VDict d)) by (intros K; apply Hkn in K; discriminate).
    destruct typ as [t|].
    + destruct (translate (e_oc E) (VDict (unwrap_top d)) (Some t)) as [y|e] eqn:Et; cbn [rbind]; [|discriminate].
      intros [= <- <- <- <-]. exists d. split; auto. split; [tauto|]. split; auto. split; auto. split; [discriminate|].
      intros _. exists (unwrap_top d). split; auto. eauto.
    + intros [= <- <- <- <-]. exists d. split; auto. split; [tauto|]. split; auto. split; auto. split; [discriminate|].
      intros _. exists (unwrap_top d). split; auto.
Qed.

Lemma bad_type_spec typ : bad_type typ = false <-> result_type typ.
Proof.
  unfold bad_type, result_type. destruct typ as [t|]; [|split; auto].
  split.
  - destruct t; try discriminate. eauto.
  - intros [H|[c [= ->]]]; [discriminate|reflexivity].
Qed.
Lemma dep_urns_done E us ds : (forall r, In r ds -> Model_Rpc.r_urn (c_res (e_cfg E) r) = Done (Some (us r))) ->
  forall acc, exists x, dep_urns E ds acc = Done x.
Proof.
  induction ds as [|d ds IH]; intros H acc; simpl; [eauto|].
  rewrite (H d) by (now left). simpl. apply IH. intros r Hr. apply H. now right.
Qed.
Lemma arg_deps_done E us pd : (forall k ds r, In (k, ds) pd -> In r ds -> Model_Rpc.r_urn (c_res (e_cfg E) r) = Done (Some (us r))) ->
  exists x, arg_deps E pd = Done x.
Proof.
  induction pd as [|[k ds] pd IH]; intros H; simpl; [eauto|].
  destruct (dep_urns_done E us ds) with (acc := @nil string) as [x Hx]; [intros r Hr; eapply H; [now left|exact Hr]|].
  rewrite Hx. simpl. destruct IH as [y Hy]; [intros k' ds' r H1 H2; eapply H; [right; exact H1|exact H2]|].
  rewrite Hy. simpl. eauto.
Qed.
Lemma reference_done E p : (forall p, exists u i, e_prov_urn E p = Done (Some u) /\ e_prov_id E p = Done i) ->
  exists s, provider_reference E p = Done s.
Proof.
  intros H. unfold provider_reference. destruct p as [p|]; [|eauto].
  destruct (H p) as (u & i & -> & ->). simpl. eauto.
Qed.
Lemma request_sent E w mi mc h tok props opts self typ :
    (~ result_type typ -> snd (fst (invoke E w mi h tok props opts typ)) = [] /\
       (exists m, snd (invoke E w mi h tok props opts typ) = Fail (Exn "TypeError" m)) /\
       exists m, call E mc tok props self typ = Err (Exn "TypeError" m)) /\
    (result_type typ -> (forall p, exists u i, e_prov_urn E p = Done (Some u) /\ e_prov_id E p = Done i) ->
       (forall mon sp, mi = Some mon -> serialize_properties (e_cfg E) None false props = Done sp ->
          exists q, snd (fst (invoke E w mi h tok props opts typ)) = [q]) /\
       (forall mon sp us, mc = Some mon -> serialize_properties (e_cfg E) None true props = Done sp ->
          (forall k ds r, In (k, ds) (snd sp) -> In r ds -> Model_Rpc.r_urn (c_res (e_cfg E) r) = Done (Some (us r))) ->
          exists q out, call E mc tok props self typ = Ok ([q], out))).
Proof.
  split.
  - intros Hb. assert (bad_type typ = true) as Eb.
    { destruct (bad_type typ) eqn:Eb; [reflexivity|]. apply bad_type_spec in Eb. contradiction. }
    unfold invoke, call. destruct (iensure h opts) as [h1 a]. rewrite Eb. simpl.
    split; [reflexivity|]. split; unfold type_error; eauto.
  - intros Hb Hp. apply bad_type_spec in Hb. split.
    + intros mon sp -> Hs. unfold invoke. destruct (iensure h opts) as [h1 a]. rewrite Hb. unfold invoke_prepare.
      destruct (reference_done E (io_provider (iget (inherit_provider w h1 a tok) a)) Hp) as [s ->].
      simpl. rewrite Hs. simpl. eauto.
    + intros mon sp us -> Hs Hu. unfold call. rewrite Hb. unfold call_prepare.
      destruct (reference_done E (match self with Some s => cs_provider s | None => None end) Hp) as [s ->].
      simpl. rewrite Hs. simpl. destruct (arg_deps_done E us (snd sp) Hu) as [x ->]. simpl. eauto.
Qed.
