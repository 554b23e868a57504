From Verif Require Import Base Model_Semver Spec_Semver Proof_Semver Model_Registry Spec_Registry.
Open Scope string_scope.

Lemma same_version_clash a b : same_version a b = true <-> clash a b.
Proof.
  unfold clash. destruct a as [x|], b as [y|]; simpl; try (split; [tauto|reflexivity]).
  rewrite version_eqb_spec. split.
  - intros H. right; right. eauto.
  - intros [H|[H|(x' & y' & [= <-] & [= <-] & H)]]; [discriminate|discriminate|exact H].
Qed.
Lemma check_compatible w h : check_version w h = true <-> compatible w h.
Proof.
  unfold compatible. destruct w as [w|], h as [h|]; simpl; try (split; [discriminate|reflexivity]); try (split; [intros _ ? ? ?; discriminate|reflexivity]).
  rewrite !andb_true_iff, N.eqb_eq, !N.leb_le. split.
  - intros [[A B] C] ? ? [= <-] [= <-]. auto.
  - intros H. destruct (H w h eq_refl eq_refl) as (A & B & C). auto.
Qed.

(** Invariant: distinct keys, and the entries of a key do not clash. *)
Inductive apart : list entry -> Prop :=
| ap_nil : apart []
| ap_cons e l : apart l -> (forall x, In x l -> ~ clash (e_version e) (e_version x)) -> apart (e :: l).
Definition good (r : registry) : Prop := wf_dict r /\ forall k l, In (k, l) r -> apart l.

Lemma clash_sym a b : clash a b -> clash b a.
Proof. intros [H|[H|(x & y & H & K & L)]]; [right; left; exact H|left; exact H|right; right; exists y, x; auto using veq_sym]. Qed.
Lemma apart_snoc l e : apart l -> (forall x, In x l -> ~ clash (e_version x) (e_version e)) -> apart (l ++ [e]).
Proof.
  induction 1 as [|a l H IH Ha]; intros K; simpl; [constructor; [constructor|intros x []]|].
  constructor; [apply IH; intros x Hx; apply K; right; exact Hx|].
  intros x Hx. apply in_app_iff in Hx as [Hx|[<-|[]]]; [auto|apply K; left; reflexivity].
Qed.
Lemma apart_in l : apart l -> forall a b, In a l -> In b l -> a = b \/ ~ clash (e_version a) (e_version b).
Proof.
  induction 1 as [|e l H IH He]; intros a b Ha Hb; [destruct Ha|].
  destruct Ha as [<-|Ha], Hb as [<-|Hb]; auto.
  right. intros K. apply (He _ Ha). apply clash_sym. exact K.
Qed.

Lemma existsb_clash l e : existsb (fun x => same_version (e_version x) (e_version e)) l = true <->
  exists x, In x l /\ clash (e_version x) (e_version e).
Proof. rewrite existsb_exists. setoid_rewrite same_version_clash. reflexivity. Qed.

Lemma registered_dget r k e : wf_dict r -> registered r k e <-> exists l, dget r k = Some l /\ In e l.
Proof.
  intros W. split; intros (l & H & K); exists l; split; auto; [apply In_dget|apply dget_In]; assumption.
Qed.

Lemma register_good r k e r' : good r -> register r k e = Ok r' -> good r'.
Proof.
  intros [W G]. unfold register. destruct (dget r k) as [l|] eqn:E.
  - destruct (existsb _ l) eqn:X; [discriminate|intros [= <-]]. split; [apply wf_dset; exact W|].
    intros k' l' H. apply In_dget in H; [|apply wf_dset; exact W]. rewrite dget_dset in H.
    destruct (String.eqb k' k) eqn:Ek; [|apply (G k'); apply dget_In; exact H].
    injection H as <-. apply apart_snoc; [apply (G k); apply dget_In; exact E|].
    intros x Hx C. assert (existsb (fun x => same_version (e_version x) (e_version e)) l = true) by (apply existsb_clash; eauto). congruence.
  - intros [= <-]. split; [apply wf_dset; exact W|].
    intros k' l' H. apply In_dget in H; [|apply wf_dset; exact W]. rewrite dget_dset in H.
    destruct (String.eqb k' k) eqn:Ek; [|apply (G k'); apply dget_In; exact H].
    injection H as <-. constructor; [constructor|intros x []].
Qed.
Lemma register_all_good calls : forall r, good r -> good (register_all r calls).
Proof.
  induction calls as [|[k e] cs IH]; intros r G; simpl; [exact G|]. apply IH.
  destruct (register r k e) eqn:E; [eapply register_good; eauto|exact G].
Qed.
Lemma reachable_good r : reachable r -> good r.
Proof. intros [calls ->]. apply register_all_good. split; [constructor|intros k l []]. Qed.

Lemma register_spec r k e : reachable r ->
  (register r k e = Err re_register /\ exists x, registered r k x /\ clash (e_version x) (e_version e)) \/
  (exists r', register r k e = Ok r' /\ reachable r' /\ (forall x, registered r k x -> ~ clash (e_version x) (e_version e)) /\
     forall k' x, registered r' k' x <-> registered r k' x \/ (k' = k /\ x = e)).
Proof.
  intros R. pose proof (reachable_good r R) as [W G].
  assert (RR : forall r', register r k e = Ok r' -> reachable r').
  { intros r' H. destruct R as [calls ->]. exists (calls ++ [(k, e)])%list.
    assert (A : forall cs r0, register_all r0 (cs ++ [(k, e)]) = match register (register_all r0 cs) k e with Ok r' => r' | Err _ => register_all r0 cs end).
    { induction cs as [|[k0 e0] cs IH]; intros r0; simpl; [reflexivity|apply IH]. }
    rewrite A, H. reflexivity. }
  assert (RG : forall r', register r k e = Ok r' -> wf_dict r') by (intros r' H; apply (register_good r k e r'); [split; assumption|exact H]).
  revert RR RG. unfold register. destruct (dget r k) as [l|] eqn:E.
  - destruct (existsb _ l) eqn:X; intros RR RG.
    + left. split; [reflexivity|]. apply existsb_clash in X as (x & Hx & C). exists x. split; [|exact C].
      apply registered_dget; eauto.
    + right. eexists. split; [reflexivity|]. split; [apply RR; reflexivity|]. split.
      * intros x Hx C. apply registered_dget in Hx as (l' & Hl & Hx); [|exact W]. rewrite E in Hl. injection Hl as <-.
        assert (existsb (fun x => same_version (e_version x) (e_version e)) l = true) by (apply existsb_clash; eauto). congruence.
      * intros k' x. rewrite !registered_dget by (auto using wf_dset). setoid_rewrite dget_dset.
        destruct (String.eqb k' k) eqn:Ek; [apply String.eqb_eq in Ek; subst k'|apply String.eqb_neq in Ek].
        -- split.
           ++ intros (l' & [= <-] & H). apply in_app_iff in H as [H|[<-|[]]]; [left; eauto|right; auto].
           ++ intros [(l' & Hl & H)|[_ ->]]; eexists; (split; [reflexivity|apply in_app_iff]); [left|right; left; reflexivity]. congruence.
        -- tauto.
  - intros RR RG. right. eexists. split; [reflexivity|]. split; [apply RR; reflexivity|]. split.
    + intros x Hx. apply registered_dget in Hx as (l' & Hl & _); [congruence|exact W].
    + intros k' x. rewrite !registered_dget by (auto using wf_dset). setoid_rewrite dget_dset.
      destruct (String.eqb k' k) eqn:Ek; [apply String.eqb_eq in Ek; subst k'|apply String.eqb_neq in Ek].
      * split.
        -- intros (l' & [= <-] & [<-|[]]). right; auto.
        -- intros [(l' & Hl & H)|[_ ->]]; [congruence|eexists; split; [reflexivity|left; reflexivity]].
      * tauto.
Qed.

Definition top (want : option version) (l : list entry) (e : entry) : Prop :=
  In e l /\ compatible want (e_version e) /\
  forall e', In e' l -> compatible want (e_version e') ->
    e' = e \/ exists v v', e_version e = Some v /\ e_version e' = Some v' /\ vlt v' v.

Lemma best_spec want l : forall seen cur, apart (seen ++ l) ->
  match cur with None => forall x, In x seen -> ~ compatible want (e_version x) | Some c => top want seen c end ->
  exists r, best want l cur = Ok r /\
    match r with None => forall x, In x (seen ++ l) -> ~ compatible want (e_version x) | Some c => top want (seen ++ l) c end.
Proof.
  induction l as [|e l IH]; intros seen cur A H.
  - exists cur. rewrite app_nil_r. split; [reflexivity|exact H].
  - assert (A' : apart ((seen ++ [e]) ++ l)) by (rewrite <- app_assoc; exact A).
    assert (Eq : (seen ++ e :: l = (seen ++ [e]) ++ l)%list) by (rewrite <- app_assoc; reflexivity).
    rewrite Eq. simpl. destruct (check_version want (e_version e)) eqn:C; simpl.
    + apply check_compatible in C. destruct cur as [c|].
      * destruct H as (Hc & Cc & M).
        assert (Hin : In c (seen ++ e :: l)) by (apply in_app_iff; auto).
        assert (He : In e (seen ++ e :: l)) by (apply in_app_iff; simpl; auto).
        destruct (apart_in _ A _ _ He Hin) as [Heq|N].
        -- (* an entry registered twice would clash with itself *)
           exfalso. subst c. clear -A Hc. induction seen as [|s seen IHs]; [destruct Hc|].
           inversion A as [|? ? A1 A2]; subst. destruct Hc as [->|Hc]; [|apply IHs; assumption].
           apply (A2 e); [apply in_app_iff; simpl; auto|]. destruct (e_version e) as [v|]; [right; right; exists v, v; auto using veq_refl|left; reflexivity].
        -- destruct (e_version e) as [ve|] eqn:Ee; [|exfalso; apply N; left; reflexivity].
           destruct (e_version c) as [vc|] eqn:Ec; [|exfalso; apply N; right; left; reflexivity].
           simpl. apply (IH (seen ++ [e])%list); [exact A'|].
           destruct (version_gtb ve vc) eqn:Gt.
           ++ apply version_gtb_spec in Gt. split; [apply in_app_iff; simpl; auto|]. split; [rewrite Ee; exact C|].
              intros e' Hx Cx. apply in_app_iff in Hx as [Hx|[<-|[]]]; [|left; reflexivity].
              right. destruct (M e' Hx Cx) as [->|(v & v' & V & V' & L)].
              ** exists ve, vc. auto.
              ** exists ve, v'. injection V as <-. eauto using vlt_trans.
           ++ split; [apply in_app_iff; auto|]. split; [rewrite Ec; exact Cc|].
              intros e' Hx Cx. apply in_app_iff in Hx as [Hx|[<-|[]]].
              ** rewrite Ec. auto.
              ** right. exists vc, ve. split; [exact Ec|split; [exact Ee|]]. destruct (vlt_total ve vc) as [L|[L|L]]; [exact L| |].
                 --- exfalso. apply N. right; right. eauto.
                 --- apply version_gtb_spec in L. congruence.
      * apply (IH (seen ++ [e])%list); [exact A'|].
        split; [apply in_app_iff; simpl; auto|]. split; [exact C|].
        intros e' Hx Cx. apply in_app_iff in Hx as [Hx|[<-|[]]]; [exfalso; apply (H _ Hx Cx)|left; reflexivity].
    + assert (NC : ~ compatible want (e_version e)) by (rewrite <- check_compatible; congruence).
      apply (IH (seen ++ [e])%list); [exact A'|]. destruct cur as [c|].
      * destruct H as (Hc & Cc & M). split; [apply in_app_iff; auto|]. split; [exact Cc|].
        intros e' Hx Cx. apply in_app_iff in Hx as [Hx|[<-|[]]]; [auto|contradiction].
      * intros x Hx. apply in_app_iff in Hx as [Hx|[<-|[]]]; [auto|exact NC].
Qed.

Lemma lookup_spec parse r key s : reachable r ->
  (exists e, s <> "" /\ parse s = Err e /\ lookup parse r key s = Err e) \/
  exists want, is_parsed parse s want /\
    ((exists e, highest r key want e /\ lookup parse r key s = Ok (Some (e_id e))) \/
     ((forall e, registered r key e -> ~ compatible want (e_version e)) /\ lookup parse r key s = Ok None)).
Proof.
  intros R. pose proof (reachable_good r R) as [W G].
  assert (Main : forall want, exists b, best want (entries r key) None = Ok b /\
    match b with Some e => highest r key want e | None => forall e, registered r key e -> ~ compatible want (e_version e) end).
  { intros want. assert (A : apart ([] ++ entries r key)).
    { simpl. unfold entries. destruct (dget r key) eqn:E; [apply (G key); apply dget_In; exact E|constructor]. }
    assert (RE : forall e, registered r key e <-> In e (entries r key)).
    { intros e. rewrite registered_dget by exact W. unfold entries. destruct (dget r key) as [l|].
      - split; [intros (l' & [= <-] & H); exact H|eauto].
      - split; [intros (l' & H & _); discriminate|intros []]. }
    destruct (best_spec want (entries r key) [] None A) as (b & Hb & S); [intros x []|].
    exists b. split; [exact Hb|]. simpl in S. destruct b as [e|].
    - destruct S as (S1 & S2 & S3). split; [apply RE; exact S1|]. split; [exact S2|]. intros e' H. apply S3. apply RE. exact H.
    - intros e H. apply S. apply RE. exact H. }
  unfold lookup. destruct (String.eqb s "") eqn:Es.
  - apply String.eqb_eq in Es. subst s. right. exists None. split; [left; auto|].
    destruct (Main None) as ([e|] & Hb & S); simpl; rewrite Hb; [left; exists e|right]; auto.
  - apply String.eqb_neq in Es. destruct (parse s) as [v|e] eqn:P; simpl.
    + right. exists (Some v). split; [right; eauto|].
      destruct (Main (Some v)) as ([e|] & Hb & S); simpl; rewrite Hb; [left; exists e|right]; auto.
    + left. exists e. auto.
Qed.

Lemma highest_unique r r' key want e e' :
  (forall x, registered r key x <-> registered r' key x) -> highest r key want e -> highest r' key want e' -> e = e'.
Proof.
  intros E (R & C & M) (R' & C' & M').
  destruct (M e' (proj2 (E _) R') C') as [->|(v & v' & V & V' & L)]; [reflexivity|].
  destruct (M' e (proj1 (E _) R) C) as [->|(w & w' & Wv & Wv' & L')]; [reflexivity|].
  exfalso. rewrite V' in Wv. rewrite V in Wv'. injection Wv as <-. injection Wv' as <-. apply (vlt_asym _ _ L L').
Qed.

Lemma lookup_order parse r r' key s : reachable r -> reachable r' ->
  (forall x, registered r key x <-> registered r' key x) -> lookup parse r key s = lookup parse r' key s.
Proof.
  intros R R' E. destruct (lookup_spec parse r key s R) as [(e & N & P & ->)|(w & Pw & H)];
    destruct (lookup_spec parse r' key s R') as [(e' & N' & P' & ->)|(w' & Pw' & H')].
  - congruence.
  - exfalso. destruct Pw' as [[-> _]|(_ & x & K & _)]; [auto|congruence].
  - exfalso. destruct Pw as [[-> _]|(_ & x & K & _)]; [auto|congruence].
  - assert (w = w') as <-.
    { destruct Pw as [[-> ->]|(N & x & K & ->)], Pw' as [[E2 ->]|(N' & x' & K' & ->)]; try reflexivity; try contradiction; congruence. }
    destruct H as [(e & Hi & ->)|[Hn ->]], H' as [(e' & Hi' & ->)|[Hn' ->]].
    + rewrite (highest_unique _ _ _ _ _ _ E Hi Hi'). reflexivity.
    + exfalso. destruct Hi as (A & B & _). apply (Hn' e); [apply E; exact A|exact B].
    + exfalso. destruct Hi' as (A & B & _). apply (Hn e'); [apply E; exact A|exact B].
    + reflexivity.
Qed.

Lemma register_all_distinct calls : forall r, reachable r -> no_clashes calls ->
  (forall k e x, In (k, e) calls -> registered r k x -> ~ clash (e_version x) (e_version e)) ->
  forall k x, registered (register_all r calls) k x <-> registered r k x \/ In (k, x) calls.
Proof.
  induction calls as [|[k e] cs IH]; intros r R N D k' x; simpl; [tauto|].
  inversion N as [|? ? N1 N2]; subst. rewrite Forall_forall in N1.
  destruct (register_spec r k e R) as [(_ & y & Hy & C)|(r' & -> & R' & _ & S)].
  - exfalso. apply (D k e y); [left; reflexivity|exact Hy|exact C].
  - rewrite (IH r' R' N2).
    + rewrite S. split; [intros [[H|[-> ->]]|H]; auto|intros [H|[[= -> ->]|H]]; auto].
    + intros k0 e0 x0 Hin Hr. apply S in Hr as [Hr|[-> ->]]; [eapply D; [right; exact Hin|exact Hr]|].
      apply (N1 _ Hin). reflexivity.
Qed.

Lemma module_key_inj p m p' m' : ~ In ":"%char (list_ascii_of_string p) -> ~ In ":"%char (list_ascii_of_string p') ->
  module_key p m = module_key p' m' -> p = p' /\ m = m'.
Proof.
  unfold module_key. revert p'. induction p as [|c p IH]; intros [|c' p'] H H' E; simpl in *.
  - injection E as E. auto.
  - injection E as E1 E2. exfalso. apply H'. auto.
  - injection E as E1 E2. exfalso. apply H. auto.
  - injection E as -> E. destruct (IH p') as [-> ->]; auto.
Qed.

Lemma check_semver w h : v_pre w = [] -> v_pre h = [] -> (v_minor h = v_minor w \/ (v_patch w <= v_patch h)%N) ->
  (check_version (Some w) (Some h) = true <-> semver_accepts w h).
Proof.
  intros Pw Ph M. rewrite check_compatible. unfold compatible, semver_accepts, vlt. rewrite Pw, Ph.
  assert (NP : ~ pre_lt [] []) by (unfold pre_lt; intuition congruence).
  split.
  - intros H. destruct (H w h eq_refl eq_refl) as (A & B & C). split; [exact A|].
    intros [L|[L|[L|(L1 & L2 & L3 & L)]]]; try lia. exact (NP L).
  - intros [A N] ? ? [= <-] [= <-]. split; [exact A|].
    assert (~ (v_minor h < v_minor w)%N) by (intros L; apply N; right; left; auto).
    assert (~ (v_minor h = v_minor w /\ (v_patch h < v_patch w)%N)) by (intros [L1 L2]; apply N; right; right; left; auto). lia.
Qed.
Lemma check_sound w h : v_pre h = [] -> check_version (Some w) (Some h) = true -> semver_accepts w h.
Proof.
  intros Ph. rewrite check_compatible. intros H. destruct (H w h eq_refl eq_refl) as (A & B & C). split; [exact A|].
  unfold vlt. rewrite Ph. intros [L|[L|[L|(L1 & L2 & L3 & L)]]]; try lia. unfold pre_lt in L. intuition congruence.
Qed.
