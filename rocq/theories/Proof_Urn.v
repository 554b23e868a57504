(** Proofs about URNs: C29-C32, C65. *)
From Verif Require Import Base Model_Urn Spec_Urn.
Open Scope string_scope.

Lemma sapp_assoc a b c : (a ++ b) ++ c = a ++ (b ++ c).
Proof. induction a; simpl; congruence. Qed.
Lemma sapp_nil a : a ++ "" = a.
Proof. induction a; simpl; congruence. Qed.
Lemma slen_app a b : String.length (a ++ b) = (String.length a + String.length b)%nat.
Proof. induction a; simpl; congruence. Qed.
Lemma stake_app a b : stake (String.length a) (a ++ b) = a.
Proof. induction a; simpl; congruence. Qed.
Lemma sdrop_app a b : sdrop (String.length a) (a ++ b) = b.
Proof. induction a; simpl; congruence. Qed.
Lemma sdrop_app2 a b n : sdrop (String.length a + n) (a ++ b) = sdrop n b.
Proof. induction a; simpl; congruence. Qed.
Lemma sapp_inj_l a b c : a ++ b = a ++ c -> b = c.
Proof. induction a; simpl; [auto|]. intros [= H]. auto. Qed.

(* ------------------------------------------------------------------ *)
(** split("::") *)

Definition rest2 (s : string) : nat := List.length (snd (split2 s)).

Lemma split2_cons a r :
  split2 (String a r) =
  match r with
  | String b r2 => if Ascii.eqb a ":" && Ascii.eqb b ":"
                   then ("", fst (split2 r2) :: snd (split2 r2))
                   else (String a (fst (split2 r)), snd (split2 r))
  | EmptyString => (String a "", [])
  end.
Proof. destruct r; reflexivity. Qed.

Lemma split2_piece a b : piece a ->
  split2 (a ++ "::" ++ b) = (a, fst (split2 b) :: snd (split2 b)).
Proof.
  induction a as [|c r IH]; intros [Hs He].
  - simpl "++". rewrite split2_cons. reflexivity.
  - assert (Hr : piece r).
    { split.
      - intros (x & y & ->). apply Hs. exists (String c x), y. reflexivity.
      - intros (x & ->). apply He. exists (String c x). reflexivity. }
    change ((String c r) ++ "::" ++ b) with (String c (r ++ "::" ++ b)).
    rewrite split2_cons. specialize (IH Hr).
    destruct (r ++ "::" ++ b) as [|c2 r2] eqn:E; [destruct r; discriminate|].
    destruct (Ascii.eqb_spec c ":") as [->|N1]; cbn [andb].
    + destruct (Ascii.eqb_spec c2 ":") as [->|N2]; cbn [andb].
      * exfalso. destruct r as [|c3 r3].
        -- apply He. exists "". reflexivity.
        -- simpl in E. injection E as -> _. apply Hs. exists "", r3. reflexivity.
      * rewrite IH. reflexivity.
    + rewrite IH. reflexivity.
Qed.

Lemma split2_last a : ~ has_sep a -> split2 a = (a, []).
Proof.
  induction a as [|c r IH]; intros Hs; [reflexivity|].
  rewrite split2_cons. destruct r as [|c2 r2]; [reflexivity|].
  assert (Hr : ~ has_sep (String c2 r2)).
  { intros (x & y & E). apply Hs. exists (String c x), y. rewrite E. reflexivity. }
  destruct (Ascii.eqb_spec c ":") as [->|N1]; cbn [andb]; [destruct (Ascii.eqb_spec c2 ":") as [->|N2]; cbn [andb]|].
  - exfalso. apply Hs. exists "", r2. reflexivity.
  - rewrite (IH Hr). reflexivity.
  - rewrite (IH Hr). reflexivity.
Qed.

Lemma split_cc_piece a b : piece a -> split_cc (a ++ "::" ++ b) = a :: split_cc b.
Proof. intros H. unfold split_cc. rewrite split2_piece by auto. reflexivity. Qed.
Lemma split_cc_last a : ~ has_sep a -> split_cc a = [a].
Proof. intros H. unfold split_cc. rewrite split2_last by auto. reflexivity. Qed.

Lemma no_sep_stack stack : stack_name stack -> piece ("urn:pulumi:" ++ stack).
Proof.
  intros ((Hs & He) & Hn & Hc). split.
  - intros (x & y & E).
    assert (G : forall p x, p ++ stack = x ++ "::" ++ y ->
       (exists z, p = z ++ ":" /\ x = z /\ exists s', stack = ":" ++ s') \/ (exists z, stack = z ++ "::" ++ y) \/
       (exists z, p = x ++ "::" ++ z)).
    { clear E x. induction p as [|c p IH]; simpl; intros x E.
      - right; left. exists x. exact E.
      - destruct x as [|c' x]; simpl in E.
        + injection E as -> E. destruct p as [|c2 p]; simpl in E.
          * left. exists "". split; auto. split; auto. exists y. exact E.
          * injection E as -> E. right; right. exists p. reflexivity.
        + injection E as -> E. destruct (IH x E) as [(z & -> & -> & s')|[H|(z & ->)]].
          * left. exists (String c' z). repeat split; auto.
          * right; left; auto.
          * right; right. exists z. reflexivity. }
    destruct (G _ _ E) as [(z & _ & _ & s' & K)|[(z & K)|(z & K)]].
    + apply Hc. exists s'. exact K.
    + apply Hs. exists z, y. exact K.
    + (* "urn:pulumi:" has no separator *)
      clear -K. repeat (destruct x as [|? x]; simpl in K; [discriminate|]; try discriminate; injection K as _ K).
  - intros (x & E).
    assert (G : forall p x, p ++ stack = x ++ ":" -> stack = "" \/ exists z, stack = z ++ ":").
    { clear E x. induction p as [|c p IH]; simpl; intros x E; [right; eauto|].
      destruct x as [|c' x]; simpl in E.
      - injection E as -> E. destruct p; simpl in E; [left; auto|discriminate].
      - injection E as -> E. eauto. }
    destruct (G _ _ E) as [K|K]; [contradiction|]. apply He. exact K.
Qed.

Lemma split_urn stack project q name :
  stack_name stack -> piece project -> piece q -> ~ has_sep name ->
  split_cc (urn_of stack project q name) = ["urn:pulumi:" ++ stack; project; q; name].
Proof.
  intros Hs Hp Hq Hn. unfold urn_of.
  rewrite <- (sapp_assoc "urn:pulumi:" stack). rewrite split_cc_piece by now apply no_sep_stack.
  rewrite split_cc_piece by auto. rewrite split_cc_piece by auto. rewrite split_cc_last by auto. reflexivity.
Qed.

Lemma urn_injective s1 p1 q1 n1 s2 p2 q2 n2 :
  stack_name s1 -> piece p1 -> piece q1 -> ~ has_sep n1 ->
  stack_name s2 -> piece p2 -> piece q2 -> ~ has_sep n2 ->
  urn_of s1 p1 q1 n1 = urn_of s2 p2 q2 n2 -> s1 = s2 /\ p1 = p2 /\ q1 = q2 /\ n1 = n2.
Proof.
  intros A1 A2 A3 A4 B1 B2 B3 B4 E. pose proof (split_urn s1 p1 q1 n1 A1 A2 A3 A4) as H.
  rewrite E, split_urn in H by auto. injection H as H1 H2 H3 H4.
  repeat split; congruence.
Qed.

(* split(c) *)
Lemma split1_piece c a b : ~ has_char c a ->
  split1 c (a ++ String c b) = (a, fst (split1 c b) :: snd (split1 c b)).
Proof.
  induction a as [|x a IH]; intros H.
  - simpl. now rewrite Ascii.eqb_refl.
  - simpl. rewrite IH.
    + destruct (Ascii.eqb_spec x c) as [->|]; [|reflexivity].
      exfalso. apply H. exists "", a. reflexivity.
    + intros (y & z & ->). apply H. exists (String x y), z. reflexivity.
Qed.
Lemma split1_last c a : ~ has_char c a -> split1 c a = (a, []).
Proof.
  induction a as [|x a IH]; intros H; [reflexivity|]. simpl. rewrite IH.
  - destruct (Ascii.eqb_spec x c) as [->|]; [|reflexivity]. exfalso. apply H. exists "", a. reflexivity.
  - intros (y & z & ->). apply H. exists (String x y), z. reflexivity.
Qed.
Lemma split_c_piece c a b : ~ has_char c a -> split_c c (a ++ String c b) = a :: split_c c b.
Proof. intros H. unfold split_c. rewrite split1_piece by auto. reflexivity. Qed.
Lemma split_c_last c a : ~ has_char c a -> split_c c a = [a].
Proof. intros H. unfold split_c. rewrite split1_last by auto. reflexivity. Qed.
Lemma split_c_nonempty c s : split_c c s <> [].
Proof. discriminate. Qed.
Lemma slast_split_app c q t : ~ has_char c t -> slast (split_c c (q ++ String c t)) = t.
Proof.
  intros H. induction q as [|x q IH].
  - simpl "++". change (String c t) with ("" ++ String c t). rewrite split_c_piece.
    + rewrite split_c_last by auto. reflexivity.
    + intros (y & z & E). destruct y; discriminate.
  - simpl "++". unfold split_c in *. simpl.
    destruct (Ascii.eqb x c); simpl.
    + unfold slast in *. simpl in *. exact IH.
    + unfold slast in *. simpl in *. revert IH.
      destruct (snd (split1 c (q ++ String c t))) eqn:E; auto.
      (* impossible: the rest contains c *)
      exfalso. clear -E. induction q as [|y q IH]; simpl in E.
      * rewrite Ascii.eqb_refl in E. discriminate.
      * destruct (Ascii.eqb y c); simpl in E; [discriminate|auto].
Qed.

(** C30 *)
Lemma parse_urn_ok stack project q name :
  stack_name stack -> piece project -> piece q -> ~ has_sep name ->
  exists p, parse_urn (urn_of stack project q name) = Ok p /\
    u_name p = name /\
    (~ has_char "$" q -> u_typ p = q) /\
    (forall q' t, q = q' ++ "$" ++ t -> ~ has_char "$" t -> u_typ p = t) /\
    (forall a b t, u_typ p = a ++ ":" ++ b ++ ":" ++ t -> ~ has_char ":" a -> ~ has_char ":" b -> ~ has_char ":" t ->
       u_pkg p = a /\ u_mod p = b /\ u_tname p = t).
Proof.
  intros Hs Hp Hq Hn. unfold parse_urn. rewrite split_urn by auto. simpl nth_error. cbv iota.
  eexists. split; [reflexivity|]. cbn [u_name u_typ u_pkg u_mod u_tname]. split; auto. split; [|split].
  - intros H. rewrite split_c_last by auto. reflexivity.
  - intros q' t -> H. apply (slast_split_app "$" q' t H).
  - intros a b t E Ha Hb Ht. rewrite E.
    change (a ++ ":" ++ b ++ ":" ++ t) with (a ++ String ":" (b ++ String ":" t)).
    rewrite split_c_piece by auto. rewrite split_c_piece by auto. rewrite split_c_last by auto. auto.
Qed.

(** fewer than two separators *)
Lemma rest2_cons c b r : rest2 (String c (String b r)) =
  if Ascii.eqb c ":" && Ascii.eqb b ":" then S (rest2 r) else rest2 (String b r).
Proof. unfold rest2. rewrite split2_cons. destruct (Ascii.eqb c ":" && Ascii.eqb b ":"); reflexivity. Qed.
Lemma rest2_bounds n : forall s, String.length s <= n -> forall c,
  rest2 s <= rest2 (String c s) /\ rest2 (String c s) <= S (rest2 s).
Proof.
  induction n as [|n IH]; intros s Hl c.
  - destruct s; simpl in Hl; [|lia]. unfold rest2. simpl. lia.
  - destruct s as [|b r2]; [unfold rest2; simpl; lia|]. simpl in Hl. rewrite rest2_cons.
    destruct (Ascii.eqb c ":" && Ascii.eqb b ":"); [|lia].
    destruct (IH r2 ltac:(lia) b) as [H1 H2]. lia.
Qed.
Lemma rest2_app x s : rest2 s <= rest2 (x ++ s).
Proof.
  induction x as [|c x IH]; simpl; auto.
  destruct (rest2_bounds (String.length (x ++ s)) (x ++ s) (le_n _) c). lia.
Qed.
Lemma rest2_sep x s : S (rest2 s) <= rest2 (x ++ "::" ++ s).
Proof.
  pose proof (rest2_app x ("::" ++ s)). assert (E : rest2 ("::" ++ s) = S (rest2 s)) by reflexivity. lia.
Qed.
Lemma split2_join s : forall f r, split2 s = (f, r) ->
  match r with [] => s = f | g :: r' => exists t, s = f ++ "::" ++ t /\ split2 t = (g, r') end.
Proof.
  assert (G : forall n s, String.length s <= n -> forall f r, split2 s = (f, r) ->
    match r with [] => s = f | g :: r' => exists t, s = f ++ "::" ++ t /\ split2 t = (g, r') end).
  2:{ intros f r. apply (G (String.length s)). auto. }
  clear s. induction n as [|n IH]; intros s Hl f r E.
  - destruct s; simpl in Hl; [|lia]. injection E as <- <-. reflexivity.
  - destruct s as [|c s]; [injection E as <- <-; reflexivity|]. rewrite split2_cons in E.
    destruct s as [|b r2]; [injection E as <- <-; reflexivity|].
    destruct (Ascii.eqb_spec c ":") as [->|N1]; cbn [andb] in E; [destruct (Ascii.eqb_spec b ":") as [->|N2]; cbn [andb] in E|].
    + injection E as <- <-. exists r2. split; auto. destruct (split2 r2); reflexivity.
    + destruct (split2 (String b r2)) as [f' r'] eqn:E'. cbn [fst snd] in E. injection E as <- <-.
      simpl in Hl. specialize (IH (String b r2) ltac:(simpl; lia) _ _ E').
      destruct r'; [congruence|]. destruct IH as (t & -> & Ht). exists t. split; auto.
    + destruct (split2 (String b r2)) as [f' r'] eqn:E'. cbn [fst snd] in E. injection E as <- <-.
      simpl in Hl. specialize (IH (String b r2) ltac:(simpl; lia) _ _ E').
      destruct r'; [congruence|]. destruct IH as (t & -> & Ht). exists t. split; auto.
Qed.
Lemma parse_urn_raises s :
  (exists p, parse_urn s = Ok p) <-> (exists a b c, s = a ++ "::" ++ b ++ "::" ++ c).
Proof.
  assert (E : (exists p, parse_urn s = Ok p) <-> 2 <= rest2 s).
  { unfold parse_urn, rest2, split_cc. destruct (split2 s) as [f r]. simpl.
    destruct r as [|g r]; simpl; [split; [intros (p & K); discriminate|lia]|].
    destruct r as [|h r]; simpl; [split; [intros (p & K); discriminate|lia]|].
    split; [lia|]. eauto. }
  rewrite E. split.
  - intros H. unfold rest2 in H. destruct (split2 s) as [f r] eqn:Es. simpl in H.
    pose proof (split2_join s f r Es) as J. destruct r as [|g r]; [simpl in H; lia|].
    destruct J as (t & -> & Et). pose proof (split2_join t g r Et) as J2. destruct r as [|h r]; [simpl in H; lia|].
    destruct J2 as (t2 & -> & _). eauto.
  - intros (a & b & c & ->). pose proof (rest2_sep a (b ++ "::" ++ c)). pose proof (rest2_sep b c). lia.
Qed.

(* ------------------------------------------------------------------ *)
(** rfind("::") *)
Lemma rfind_none s : ~ has_sep s -> rfind_cc s = None.
Proof.
  induction s as [|c s IH]; intros H; [reflexivity|]. simpl.
  rewrite IH. 2:{ intros (x & y & ->). apply H. exists (String c x), y. reflexivity. }
  destruct s as [|b s]; [reflexivity|].
  destruct (Ascii.eqb_spec c ":") as [->|]; [|reflexivity]. destruct (Ascii.eqb_spec b ":") as [->|]; [|reflexivity].
  exfalso. apply H. exists "", s. reflexivity.
Qed.
Lemma rfind_last a b : last_piece b -> rfind_cc (a ++ "::" ++ b) = Some (String.length a).
Proof.
  intros [Hs Hc]. induction a as [|c a IH].
  - assert (E : rfind_cc (":" ++ b) = None).
    { apply rfind_none. intros (x & y & E). destruct x as [|x0 x]; simpl in E.
      - injection E as E. apply Hc. exists y. exact E.
      - injection E as _ E. apply Hs. exists x, y. exact E. }
    change (":" ++ b) with (String ":" b) in E.
    change ("" ++ "::" ++ b) with (String ":" (String ":" b)). cbn [rfind_cc]. cbn [rfind_cc] in E. rewrite E. reflexivity.
  - change (String c a ++ "::" ++ b) with (String c (a ++ "::" ++ b)). cbn [rfind_cc]. rewrite IH. reflexivity.
Qed.

Lemma urn_prefix_ok a n : last_piece n -> urn_prefix (a ++ "::" ++ n) = a ++ "$".
Proof. intros H. unfold urn_prefix. rewrite rfind_last by auto. now rewrite stake_app. Qed.

Lemma urn_of_split stack project q name :
  urn_of stack project q name = ("urn:pulumi:" ++ stack ++ "::" ++ project ++ "::" ++ q) ++ "::" ++ name.
Proof. unfold urn_of. rewrite !sapp_assoc. reflexivity. Qed.

Lemma create_urn_parent stack project q pname name type_ :
  last_piece pname ->
  create_urn name type_ (ParentUrn (urn_of stack project q pname)) = urn_of stack project (q ++ "$" ++ type_) name.
Proof.
  intros H. unfold create_urn. rewrite urn_of_split, urn_prefix_ok by auto.
  unfold urn_of. rewrite !sapp_assoc. reflexivity.
Qed.
Lemma create_urn_root stack project name type_ :
  create_urn name type_ (NoParent project stack) = urn_of stack project type_ name.
Proof. unfold create_urn, urn_of. rewrite !sapp_assoc. reflexivity. Qed.

(** C32 *)
Lemma prefix_app p c : String.prefix p c = true <-> exists r, c = p ++ r.
Proof.
  revert c. induction p as [|x p IH]; intros c.
  - split; [intros _; exists c; reflexivity|]. intros _. destruct c; reflexivity.
  - destruct c as [|y c]; [split; [discriminate|intros (r & K); discriminate]|].
    cbn [String.prefix].
    destruct (ascii_dec x y) as [->|N].
    + rewrite IH. split; intros (r & E); exists r; [now rewrite E|simpl in E; now injection E].
    + split; [discriminate|]. intros (r & [= K _]). congruence.
Qed.
Lemma alias_base_ok a n : last_piece n -> alias_base_name (a ++ "::" ++ n) = n.
Proof.
  intros H. unfold alias_base_name. rewrite rfind_last by auto. rewrite sdrop_app2. reflexivity.
Qed.
Lemma inherited_alias_ok stack project q n parent child ctype :
  last_piece n ->
  (forall r, child = parent ++ r ->
     inherited_child_alias child parent (urn_of stack project q n) ctype =
     urn_of stack project (q ++ "$" ++ ctype) (n ++ r)) /\
  ((forall r, child <> parent ++ r) ->
     inherited_child_alias child parent (urn_of stack project q n) ctype =
     urn_of stack project (q ++ "$" ++ ctype) child).
Proof.
  intros H. split.
  - intros r ->. unfold inherited_child_alias.
    replace (String.prefix parent (parent ++ r)) with true by (symmetry; apply prefix_app; eauto).
    rewrite create_urn_parent by auto. rewrite (urn_of_split stack project q n), alias_base_ok by auto. now rewrite sdrop_app.
  - intros N. unfold inherited_child_alias.
    replace (String.prefix parent child) with false.
    + now rewrite create_urn_parent.
    + symmetry. destruct (String.prefix parent child) eqn:E; auto. apply prefix_app in E as (r & E). destruct (N r E).
Qed.

(** C65 *)
Lemma parse_ref_ok urn id : last_piece id -> parse_resource_reference (provider_ref urn id) = Ok (urn, id).
Proof.
  intros H. unfold parse_resource_reference, provider_ref. rewrite rfind_last by auto.
  rewrite stake_app, sdrop_app2. reflexivity.
Qed.

(* ------------------------------------------------------------------ *)
(** C29 *)
Lemma rmap_all_inv {A B} (f : A -> res B) l r : rmap_all f l = Ok r -> Forall2 (fun a b => f a = Ok b) l r.
Proof.
  revert r. induction l as [|a l IH]; simpl; intros r; [intros [= <-]; constructor|].
  destruct (f a) eqn:E; simpl; [|discriminate]. destruct (rmap_all f l); simpl; [|discriminate].
  intros [= <-]. constructor; auto.
Qed.
Lemma rmap_all_ok {A B} (f : A -> res B) l : Forall (fun a => exists b, f a = Ok b) l -> exists r, rmap_all f l = Ok r.
Proof.
  induction 1 as [|a l (b & E) _ (r & IH)]; simpl; eauto. rewrite E, IH. simpl. eauto.
Qed.
Lemma F2_impl {A B} (R S : A -> B -> Prop) l m : (forall a b, R a b -> S a b) -> Forall2 R l m -> Forall2 S l m.
Proof. intros H. induction 1; constructor; auto. Qed.
Lemma F2_length {A B} (R : A -> B -> Prop) l m : Forall2 R l m -> List.length l = List.length m.
Proof. induction 1; simpl; congruence. Qed.

Lemma dedup_spec l : forall seen,
  NoDup (dedup seen l) /\ (forall x, In x (dedup seen l) <-> In x l /\ ~ In x seen).
Proof.
  induction l as [|a l IH]; intros seen; simpl; [split; [constructor|tauto]|].
  destruct (smem a seen) eqn:E.
  - apply smem_In in E. destruct (IH seen) as [H1 H2]. split; auto. intros x. rewrite H2. split; [tauto|].
    intros [[<-|Hx] Hn]; tauto.
  - apply smem_notIn in E. destruct (IH (a :: seen)) as [H1 H2]. split.
    + constructor; auto. rewrite H2. simpl. tauto.
    + intros x. simpl. rewrite H2. simpl. destruct (String.string_dec a x) as [->|N]; [tauto|]. tauto.
Qed.
Lemma dedup_snoc l x : forall seen,
  dedup seen (l ++ [x])%list = if smem x seen || smem x l then dedup seen l else (dedup seen l ++ [x])%list.
Proof.
  induction l as [|a l IH]; intros seen; cbn [app dedup].
  - simpl. destruct (smem x seen); reflexivity.
  - rewrite !IH. destruct (smem a seen) eqn:E.
    + cbn [smem]. destruct (String.eqb_spec x a) as [->|]; [rewrite E; reflexivity|]. reflexivity.
    + cbn [smem]. destruct (String.eqb_spec x a) as [->|].
      * rewrite E. simpl. reflexivity.
      * destruct (smem x seen || smem x l); reflexivity.
Qed.
Lemma unique_ok :
  (forall l, NoDup (unique_aliases l) /\ forall x, In x (unique_aliases l) <-> In x l) /\
  unique_aliases [] = [] /\
  (forall l x, (In x l -> unique_aliases (l ++ [x])%list = unique_aliases l) /\
               (~ In x l -> unique_aliases (l ++ [x])%list = (unique_aliases l ++ [x])%list)).
Proof.
  unfold unique_aliases. split; [|split]; auto.
  - intros l. destruct (dedup_spec l []) as [H1 H2]. split; auto. intros x. rewrite H2. simpl. tauto.
  - intros l x. rewrite dedup_snoc. simpl. split; intros H; [apply smem_In in H|apply smem_notIn in H]; rewrite H; reflexivity.
Qed.

(* ------------------------------------------------------------------ *)
(** Aliases as structured URNs *)

Definition model_alias (a : salias) : alias :=
  match a with
  | ByUrn u => AliasUrn (render u)
  | ByParts n t p pr st =>
      AliasObj n t (match p with SameParent => APDefault | NoParentAtAll => APNone | UnderUrn u => APUrn (render u) end) pr st
  end.
Definition model_parent (p : option (string * surn * list surn)) : option parent_info :=
  option_map (fun x => let '(n, u, l) := x in mkParent n (render u) (map render l)) p.

Lemma qualified_snoc l t ty : qualified (l ++ [t])%list ty = qualified l t ++ "$" ++ ty.
Proof. induction l as [|a l IH]; simpl; [reflexivity|]. rewrite IH. now rewrite !sapp_assoc. Qed.

Lemma render_child u ty n : last_piece (s_name u) ->
  create_urn n ty (ParentUrn (render u)) = render (child_of u ty n).
Proof.
  intros H. unfold render. rewrite create_urn_parent by auto. simpl. now rewrite qualified_snoc.
Qed.
Lemma strip_spec p s : match strip p s with Some r => s = p ++ r | None => forall r, s <> p ++ r end.
Proof.
  revert s. induction p as [|a p IH]; intros s; simpl; [reflexivity|].
  destruct s as [|b s]; [discriminate|]. destruct (Ascii.eqb_spec a b) as [->|N].
  - specialize (IH s). destruct (strip p s); [now rewrite IH|]. intros r [= E]. exact (IH r E).
  - intros r [= E _]. congruence.
Qed.
Lemma render_inherited child parent pa ty : last_piece (s_name pa) ->
  inherited_child_alias child parent (render pa) ty = render (under_parent_alias parent pa ty child).
Proof.
  intros H. unfold under_parent_alias, renamed. pose proof (strip_spec parent child) as S.
  destruct (inherited_alias_ok (s_stack pa) (s_project pa) (qualified (s_ancestors pa) (s_type pa)) (s_name pa) parent child ty H) as [A B].
  unfold render at 1. destruct (strip parent child) as [r|].
  - rewrite (A r S). unfold render. simpl. now rewrite qualified_snoc.
  - rewrite (B S). unfold render. simpl. now rewrite qualified_snoc.
Qed.
Lemma has_sep_app a c b : c <> ":"%char -> has_sep (a ++ String c b) -> has_sep a \/ has_sep b.
Proof.
  intros Hc (x & y & E). revert x E. induction a as [|d a IH]; intros x E.
  - destruct x as [|e x]; simpl in E; injection E; [congruence|]. intros E' _. right. exists x, y. exact E'.
  - destruct x as [|e x]; simpl in E; injection E as -> E.
    + destruct a as [|f a]; simpl in E; injection E; [congruence|]. intros _ ->. left. exists "", a. reflexivity.
    + destruct (IH x E) as [(u & v & ->)|H]; auto. left. exists (String e u), v. reflexivity.
Qed.
Lemma ends_app a c b : c <> ":"%char -> ends_in_colon (a ++ String c b) -> ends_in_colon b.
Proof.
  intros Hc (x & E). revert x E. induction a as [|d a IH]; intros x E.
  - destruct x as [|e x]; simpl in E; injection E; [congruence|]. intros E' _. exists x. exact E'.
  - destruct x as [|e x]; simpl in E; injection E as -> E.
    + destruct a; discriminate.
    + exact (IH x E).
Qed.
Lemma piece_app a c b : c <> ":"%char -> piece a -> piece b -> piece (a ++ String c b).
Proof.
  intros Hc [A1 A2] [B1 B2]. split.
  - intros H. apply has_sep_app in H as [H|H]; auto.
  - intros H. apply ends_app in H; auto.
Qed.
Lemma piece_qualified l t : Forall piece (t :: l) -> piece (qualified l t).
Proof.
  intros H. inversion H as [|? ? H1 H2]; subst. clear H. induction H2 as [|a l Ha _ IH]; simpl; auto.
  apply (piece_app a "$"); auto. discriminate.
Qed.
Lemma last_type_qualified l t : ~ has_char "$" t -> slast (split_c "$" (qualified l t)) = t.
Proof.
  intros H. destruct l as [|a l] using rev_ind; simpl.
  - now rewrite split_c_last.
  - clear IHl. rewrite qualified_snoc. now apply (slast_split_app "$").
Qed.
Lemma good_parts u : good_surn u -> urn_type_and_name (render u) = Ok (s_name u, s_type u).
Proof.
  intros (Hs & Hp & Ht & Hn). unfold urn_type_and_name, render.
  rewrite split_urn; auto.
  - simpl. rewrite last_type_qualified; auto. inversion Ht as [|? ? [_ X] _]; auto.
  - apply piece_qualified. revert Ht. apply Forall_impl. tauto.
  - apply Hn.
Qed.
Lemma collapse_ok project stack name type_ parent a :
  (forall u, parent = Some u -> last_piece (s_name u)) ->
  (forall n t u pr st, a = ByParts n t (UnderUrn u) pr st -> last_piece (s_name u)) ->
  collapse_alias project stack (model_alias a) name type_ (option_map render parent) =
  render (alias_denotes project stack name type_ parent a).
Proof.
  intros Hp Ha. destruct a as [u|n t p pr st]; [reflexivity|]. cbn [model_alias collapse_alias alias_denotes].
  assert (R : forall pj sk nm ty, create_urn nm ty (NoParent pj sk) = render (mkSurn sk pj [] ty nm)).
  { intros. now rewrite create_urn_root. }
  destruct p as [| |u].
  - destruct parent as [u|]; cbn [option_map]; [rewrite render_child by auto; reflexivity|]. apply R.
  - apply R.
  - rewrite render_child by eauto. reflexivity.
Qed.

Lemma rmap_all_map {A B} (f : A -> res B) g l : (forall a, In a l -> f a = Ok (g a)) -> rmap_all f l = Ok (map g l).
Proof.
  induction l as [|a l IH]; simpl; intros H; auto. rewrite H by auto. cbn [rbind]. rewrite IH by auto. reflexivity.
Qed.

Lemma aliases_ok project stack name type_ own parent :
  (forall n u l, parent = Some (n, u, l) -> last_piece (s_name u) /\ Forall (fun pa => last_piece (s_name pa)) l) ->
  (forall n t u pr st, In (ByParts n t (UnderUrn u) pr st) own -> last_piece (s_name u)) ->
  (forall n u l a, parent = Some (n, u, l) -> In a own -> good_surn (alias_denotes project stack name type_ (Some u) a)) ->
  all_aliases project stack (map model_alias own) name type_ (model_parent parent) =
  Ok (map render (expected_aliases project stack name type_ own parent)).
Proof.
  intros Hp Hu Hg. unfold all_aliases. destruct parent as [[[pn pu] pl]|]; cbn [model_parent option_map p_urn p_name p_aliases expected_aliases].
  - destruct (Hp _ _ _ eq_refl) as [Hpu Hpl].
    rewrite map_map.
    assert (E : map (fun x => collapse_alias project stack (model_alias x) name type_ (Some (render pu))) own
                = map render (map (alias_denotes project stack name type_ (Some pu)) own)).
    { rewrite map_map. apply map_ext_in. intros a Ha.
      apply (collapse_ok project stack name type_ (Some pu) a); [intros ? [= <-]; auto|].
      intros n t u pr st ->. eauto. }
    rewrite E. clear E.
    set (mine := map (alias_denotes project stack name type_ (Some pu)) own).
    assert (Hm : Forall good_surn mine).
    { apply Forall_forall. intros u Hin. apply in_map_iff in Hin as (a & <- & Ha). eauto. }
    clearbody mine.
    match goal with |- context [rmap_all ?f (map render pl)] => set (F := f) end.
    assert (EF : forall pa, In pa pl -> F (render pa) = Ok (map render (under_parent_alias pn pa type_ name ::
         map (fun u => under_parent_alias pn pa (s_type u) (s_name u)) mine))).
    { intros pa Hpa. rewrite Forall_forall in Hpl. specialize (Hpl pa Hpa). unfold F.
      assert (C : forall l, Forall good_surn l -> rmap_all (fun u => let+ nt := urn_type_and_name u in
                    Ok (inherited_child_alias (fst nt) pn (render pa) (snd nt))) (map render l)
                  = Ok (map render (map (fun u => under_parent_alias pn pa (s_type u) (s_name u)) l))).
      { induction 1 as [|u l Hu' _ IH]; [reflexivity|]. cbn [map rmap_all].
        rewrite good_parts by auto. cbn [rbind fst snd]. rewrite IH. cbn [rbind]. rewrite render_inherited by auto. reflexivity. }
      rewrite C by auto. cbn [rbind map]. rewrite render_inherited by auto. reflexivity. }
    clearbody F.
    assert (EC : exists inh, rmap_all F (map render pl) = Ok inh /\
       concat inh = map render (flat_map (fun pa => under_parent_alias pn pa type_ name ::
           map (fun u => under_parent_alias pn pa (s_type u) (s_name u)) mine) pl)).
    { clear -EF. induction pl as [|pa pl IH]; [exists []; auto|].
      destruct IH as (inh & E1 & E2); [intros; apply EF; now right|].
      cbn [map rmap_all]. rewrite EF by now left. cbn [rbind]. rewrite E1. cbn [rbind].
      eexists. split; [reflexivity|]. cbn [concat flat_map]. rewrite E2. now rewrite (map_app render (_ :: _)). }
    destruct EC as (inh & E1 & E2). rewrite E1. cbn [rbind]. rewrite E2, map_app. reflexivity.
  - f_equal. rewrite !map_map. apply map_ext_in. intros a Ha.
    apply (collapse_ok project stack name type_ None a); [discriminate|].
    intros n t u pr st ->. eauto.
Qed.
Lemma expected_count project stack name type_ own parent :
  List.length (expected_aliases project stack name type_ own parent) =
  (List.length own + match parent with Some (_, _, l) => List.length l * (1 + List.length own) | None => 0 end)%nat.
Proof.
  unfold expected_aliases. destruct parent as [[[pn pu] pl]|].
  - rewrite app_length, map_length. f_equal. induction pl as [|a l IH]; [reflexivity|].
    cbn [flat_map]. rewrite app_length, IH. cbn [List.length]. rewrite !map_length. lia.
  - rewrite map_length. lia.
Qed.
