(** Lemmas about the outputs of stacks, from the program to the automation API. *)
From Verif Require Import Base PyVal Model_Rpc Spec_Rpc Model_Engine Spec_Engine Model_Translate Model_Register Model_Deployment Spec_Deployment Proof_Deployment
  Model_Output Model_StackRef Spec_Urn Model_State Spec_State Proof_State Model_Reference Spec_Reference Proof_Reference Model_Outputs Spec_Outputs.
From Verif Require Spec_Json Proof_Json Proof_Capture Proof_Meaning.
From Verif Require Import Model_Cmd Model_StackInit Model_Json Model_WsConfig Spec_WsConfig Proof_WsConfig Model_WsState.
From Verif Require Spec_WsState Proof_WsState.
Open Scope string_scope.
Ltac inv H := inversion H; subst; clear H.

Scheme worth_mind := Minimality for worth Sort Prop
  with worth_list_mind := Minimality for worth_list Sort Prop
  with worth_dict_mind := Minimality for worth_dict Sort Prop.
Combined Scheme worth_all from worth_mind, worth_list_mind, worth_dict_mind.

(** The data of a property value, secrets included. *)
Inductive tells : pval -> pyval -> Prop :=
| Te_null : tells PNull VNone
| Te_bool b : tells (PBool b) (VBool b)
| Te_num z : tells (PNum z) (VNum z)
| Te_str s : tells (PStr s) (VStr s)
| Te_secret e x : tells e x -> tells (PSecret e) x
| Te_arr l xs : Forall2 tells l xs -> tells (PArr l) (VList xs)
| Te_obj d xs : NoDup (map fst d) -> Forall2 (fun kp kx => fst kp = fst kx /\ tells (snd kp) (snd kx)) d xs -> tells (PObj d) (VDict xs).

Lemma imap_forall2 {A B} (R : A -> B -> Prop) (f : nat -> A -> res B) l :
  (forall n x, In x l -> exists y, f n x = Ok y /\ R x y) -> forall n, exists ys, imap f n l = Ok ys /\ Forall2 R l ys.
Proof.
  induction l as [|x l IH]; intros H n; [exists []; split; [reflexivity|constructor]|].
  destruct (H n x (or_introl eq_refl)) as (y & E & Ry). destruct (IH (fun n x K => H n x (or_intror K)) (S n)) as (ys & Es & Rs).
  exists (y :: ys). cbn [imap]. rewrite E. cbn [rbind]. rewrite Es. split; [reflexivity|now constructor].
Qed.
Lemma forall2_map {A B C} (f : A -> C) (g : B -> C) (R : A -> B -> Prop) l l' : (forall a b, R a b -> f a = g b) -> Forall2 R l l' -> map f l = map g l'.
Proof. intros H F. induction F; cbn; [reflexivity|]. f_equal; auto. Qed.
Lemma forall2_in {A B} (R : A -> B -> Prop) l l' : Forall2 R l l' -> forall a, In a l -> exists b, In b l' /\ R a b.
Proof. induction 1 as [|x y l l' Hxy H IH]; intros a []; [subst; exists y; split; [now left|assumption]|]. destruct (IH a H0) as (b & ? & ?). exists b. split; [now right|assumption]. Qed.

Section Store.
  Variable json : wire -> string.
  Variable enc : list nat -> string -> res string.
  (** Shown with its secrets, the data is all there. *)
  Lemma shown_true : forall p x, tells p x -> forall show place, exists w, store json enc show place (massage_value true p) = Ok w /\ printed w = x.
  Proof.
    fix F 3. intros p x H. destruct H as [|b|z|s|e x H|l xs H|d xs N H]; intros show place; cbn [massage_value store].
    - eexists; split; reflexivity.
    - eexists; split; reflexivity.
    - eexists; split; reflexivity.
    - eexists; split; reflexivity.
    - apply (F e x H show place).
    - assert (K : forall n, exists ws, imap (fun n x => store json enc show (n :: place) x) n (map (massage_value true) l) = Ok ws /\ map printed ws = xs).
      { clear -F H. induction H as [|p x l xs Hp H IH]; intros n; [exists []; split; reflexivity|].
        destruct (F p x Hp show (n :: place)) as (w & E & Ew). destruct (IH (S n)) as (ws & Es & Ews). exists (w :: ws). cbn [map imap].
        rewrite E. cbn [rbind]. rewrite Es. cbn [rbind map]. now rewrite Ew, Ews. }
      destruct (K 0) as (ws & E & Ew). rewrite E. cbn [rbind]. eexists. split; [reflexivity|]. cbn [printed]. now rewrite Ew.
    - assert (K : forall n, exists ws, imap (fun n (kv : string * pval) => let+ w := store json enc show (n :: place) (snd kv) in Ok (fst kv, w)) n (map (fun kv => (fst kv, massage_value true (snd kv))) d) = Ok ws /\ map (fun kv => (fst kv, printed (snd kv))) ws = xs).
      { clear -F H. induction H as [|[k p] [k' x] l xs Hp H IH]; intros n; [exists []; split; reflexivity|]. cbn [fst snd] in Hp. destruct Hp as [<- Hp].
        destruct (F p x Hp show (n :: place)) as (w & E & Ew). destruct (IH (S n)) as (ws & Es & Ews). exists ((k, w) :: ws). cbn [map imap fst snd].
        rewrite E. cbn [rbind]. rewrite Es. cbn [rbind map fst snd]. now rewrite Ew, Ews. }
      destruct (K 0) as (ws & E & Ew). rewrite E. cbn [rbind]. eexists. split; [reflexivity|]. cbn [printed]. now rewrite Ew.
  Qed.
  (** Shown without them, it is data. *)
  Lemma shown_false : forall p x, tells p x -> forall show place, exists w, store json enc show place (massage_value false p) = Ok w /\ Spec_Json.plain_data (printed w) /\
    (is_masked (printed w) = true <-> (exists e, p = PSecret e) \/ x = VStr "[secret]").
  Proof.
    fix F 3. intros p x H. destruct H as [|b|z|s|e x H|l xs H|d xs N H]; intros show place; cbn [massage_value store].
    - eexists; split; [reflexivity|]. split; [constructor|]. cbn. split; [discriminate|intros [[e K]|K]; discriminate].
    - eexists; split; [reflexivity|]. split; [constructor|]. cbn. split; [discriminate|intros [[e K]|K]; discriminate].
    - eexists; split; [reflexivity|]. split; [constructor|]. cbn. split; [discriminate|intros [[e K]|K]; discriminate].
    - eexists; split; [reflexivity|]. split; [constructor|]. cbn. rewrite String.eqb_eq. split; [intros ->; now right|]. intros [[e K]|K]; [discriminate|now injection K].
    - eexists; split; [reflexivity|]. split; [constructor|]. cbn. split; [intros _; left; eauto|reflexivity].
    - assert (K : forall n, exists ws, imap (fun n x => store json enc show (n :: place) x) n (map (massage_value false) l) = Ok ws /\ Forall Spec_Json.plain_data (map printed ws)).
      { clear -F H. induction H as [|p x l xs Hp H IH]; intros n; [exists []; split; [reflexivity|constructor]|].
        destruct (F p x Hp show (n :: place)) as (w & E & Ew & _). destruct (IH (S n)) as (ws & Es & Ews). exists (w :: ws). cbn [map imap].
        rewrite E. cbn [rbind]. rewrite Es. cbn [rbind map]. split; [reflexivity|now constructor]. }
      destruct (K 0) as (ws & E & Ew). rewrite E. cbn [rbind]. eexists. split; [reflexivity|]. cbn [printed]. split; [now constructor|].
      cbn. split; [discriminate|intros [[e K0]|K0]; discriminate].
    - assert (K : forall n, exists ws, imap (fun n (kv : string * pval) => let+ w := store json enc show (n :: place) (snd kv) in Ok (fst kv, w)) n (map (fun kv => (fst kv, massage_value false (snd kv))) d) = Ok ws /\ map fst ws = map fst d /\ Forall (fun kv => Spec_Json.plain_data (snd kv)) (map (fun kv => (fst kv, printed (snd kv))) ws)).
      { clear -F H. induction H as [|[k p] [k' x] l xs Hp H IH]; intros n; [exists []; split; [reflexivity|split; [reflexivity|constructor]]|]. cbn [fst snd] in Hp. destruct Hp as [_ Hp].
        destruct (F p x Hp show (n :: place)) as (w & E & Ew & _). destruct (IH (S n)) as (ws & Es & Ek & Ews). exists ((k, w) :: ws). cbn [map imap fst snd].
        rewrite E. cbn [rbind]. rewrite Es. cbn [rbind map fst snd]. split; [reflexivity|]. split; [now rewrite Ek|now constructor]. }
      destruct (K 0) as (ws & E & Ek & Ew). rewrite E. cbn [rbind]. eexists. split; [reflexivity|]. cbn [printed]. split; [|cbn; split; [discriminate|intros [[e K0]|K0]; discriminate]].
      constructor; [|exact Ew]. rewrite map_map. cbn [fst]. change (map (fun x : string * wire => fst x) ws) with (map fst ws). now rewrite Ek.
  Qed.
End Store.

(** The data is data. *)
Lemma tells_plain : forall p x, tells p x -> Spec_Json.plain_data x.
Proof.
  fix F 3. intros p x H. destruct H as [|b|z|s|e x H|l xs H|d xs N H]; try constructor.
  - apply (F e x H).
  - clear -F H. induction H as [|p x l xs Hp H IH]; constructor; [apply (F p x Hp)|exact IH].
  - assert (E : map fst d = map fst xs) by (clear -H; induction H as [|a b d xs [E _] H IH]; cbn; congruence). now rewrite <- E.
  - clear -F H. induction H as [|[k p] [k' x] l xs Hp H IH]; constructor; [|exact IH]. cbn [fst snd] in *. destruct Hp as [_ Hp]. apply (F p x Hp).
Qed.

(* ---- from the program to the property value ---- *)
Definition secret_value (p : pval) : Prop := exists e, p = PSecret e.
Section Sent.
  Variable c : cfg.
  Variable h : option (pval -> res string).
  Hypothesis Hsec : c_secrets c = true.
  Hypothesis Htr : c_transform c = None.
  Lemma worth_goes :
    (forall v x, worth v x -> exists p, means c h None false v p /\ tells p x /\ storable p /\ (secret_value p <-> whole_secret v)) /\
    (forall l xs, worth_list l xs -> exists ps, all_mean c h None false l ps /\ Forall2 tells ps xs /\ Forall storable ps) /\
    (forall d xs, worth_dict d xs -> exists ps, entries_mean c h None false d ps /\ map fst ps = map fst d /\
       Forall2 (fun kp kx => fst kp = fst kx /\ tells (snd kp) (snd kx)) ps xs /\ Forall (fun kp => storable (snd kp)) ps).
  Proof.
    assert (NS : forall p v, (forall e, p <> PSecret e) -> ~ whole_secret v -> (secret_value p <-> whole_secret v)).
    { intros p v H1 H2. split; [intros [e K]; now apply H1 in K|contradiction]. }
    apply worth_all.
    - exists PNull. split; [constructor|]. split; [constructor|]. split; [constructor|]. apply NS; [discriminate|intros K; inversion K].
    - intros b. exists (PBool b). split; [constructor|]. split; [constructor|]. split; [constructor|]. apply NS; [discriminate|intros K; inversion K].
    - intros z. exists (PNum z). split; [constructor|]. split; [constructor|]. split; [constructor|]. apply NS; [discriminate|intros K; inversion K].
    - intros s Hs. exists (PStr s). split; [now constructor|]. split; [constructor|]. split; [constructor|].
      + intros ->. apply Hs. cbn. tauto.
      + apply NS; [discriminate|intros K; inversion K].
    - intros v x _ (p & M & T & S & W). exists p. split; [now constructor|]. split; [exact T|]. split; [exact S|]. rewrite W.
      split; [now constructor|intros K; now inversion K].
    - intros rs v x s Nu _ (p & M & T & S & W). apply Proof_Meaning.all_known in Nu. destruct s.
      + exists (PSecret p). split; [|split; [now constructor|split; [now constructor|]]].
        * replace (PSecret p) with (if c_secrets c then PSecret p else p) by now rewrite Hsec. now constructor.
        * split; [intros _; constructor|intros _; now exists p].
      + exists p. split; [now constructor|]. split; [exact T|]. split; [exact S|]. rewrite W.
        split; [now constructor|intros K; now inversion K].
    - intros l xs _ (ps & M & T & S). exists (PArr ps). split; [econstructor; [constructor|exact M]|]. split; [now constructor|]. split; [now constructor|].
      apply NS; [discriminate|intros K; inversion K].
    - intros d xs N R _ (ps & M & E & T & S). exists (PObj ps). split; [|split; [|split]].
      + constructor; [exact M|]. split; now rewrite E.
      + constructor; [now rewrite E|exact T].
      + constructor; [exact S|]. now rewrite E.
      + apply NS; [discriminate|intros K; inversion K].
    - exists []. repeat split; constructor.
    - intros v x l xs _ (p & M & T & S & _) _ (ps & Ms & Ts & Ss). exists (p :: ps). split; [now constructor|]. split; now constructor.
    - exists []. repeat split; constructor.
    - intros k v x d xs _ (p & M & T & S & _) _ (ps & Ms & E & Ts & Ss). exists ((k, p) :: ps).
      split; [econstructor; eauto; [now constructor|constructor]|]. split; [cbn; now rewrite E|]. split; constructor; auto.
  Qed.

  (** What is registered for the exports. *)
  Definition registers (exports : dict pyval) (data : string -> pyval) (ps : dict pval) : Prop :=
    forall k p, In (k, p) ps -> exists v, In (k, v) exports /\ ~ nothing v (data k) /\ tells p (data k) /\ storable p /\ (secret_value p <-> whole_secret v).
  Lemma bag_worth exports data : exports_data exports data ->
    exists ps, bag_means c h None false exports ps /\ NoDup (map fst ps) /\ registers exports data ps /\
      (forall k v, In (k, v) exports -> ~ nothing v (data k) -> exists p, In (k, p) ps) /\ (forall k, In k (map fst ps) -> In k (map fst exports)).
  Proof.
    intros (N & R & H). induction exports as [|[k v] exports IH].
    - exists []. split; [constructor|]. split; [constructor|]. split; [intros k p []|]. split; [intros k v []|intros k []].
    - cbn [map fst] in N, R. inversion N as [|? ? N1 N2]; subst. destruct IH as (ps & B & Np & G & A & I); auto; [intros K; apply R; now right|intros; apply H; now right|].
      destruct (proj1 worth_goes _ _ (H k v (or_introl eq_refl))) as (p & M & T & S & W).
      assert (D : p = PNull \/ p <> PNull) by (destruct p; auto; right; discriminate). destruct D as [->|D].
      + exists ps. split; [eapply Bag_null; eauto; [now constructor|constructor]|]. split; [exact Np|].
        assert (X : nothing v (data k)). { inversion T. split; [congruence|]. intros K. apply W in K as [e K]. discriminate. }
        split; [|split].
        * intros k' p' K. destruct (G k' p' K) as (v' & ? & ?). exists v'. split; [now right|assumption].
        * intros k' v' [[= <- <-]|K] Nt; [contradiction|]. now apply (A k' v').
        * intros k' K. right. now apply I.
      + exists ((k, p) :: ps). split; [eapply Bag_cons; eauto; [now constructor|constructor]|]. split; [cbn; constructor; auto|].
        split; [|split].
        * intros k' p' [[= <- <-]|K].
          -- exists v. split; [now left|]. split; [|auto]. intros [X1 X2]. rewrite X1 in T. inversion T; subst; [congruence|]. apply X2, W. now eexists.
          -- destruct (G k' p' K) as (v' & ? & ?). exists v'. split; [now right|assumption].
        * intros k' v' [[= <- <-]|K] Nt; [exists p; now left|]. destruct (A k' v' K Nt) as (p' & ?). exists p'. now right.
        * intros k' [<-|K]; [now left|right; now apply I].
  Qed.
End Sent.

(* ---- the CLI and the automation API ---- *)
Section Cli.
  Variable print_json : pyval -> string.
  Variable trouble : backend -> list string -> option (string * Z).
  Hypothesis Hprint : Spec_WsState.printer print_json.
  Local Notation c := (cli_outputs print_json trouble).
  Local Notation words := Proof_WsState.output_words.

  Lemma cli_words b name show : trouble b (final_words (words show name)) = None ->
    c b (final_words (words show name)) = output_command print_json b name show.
  Proof using.
    intros Ht. unfold cli_outputs. rewrite Ht. clear Ht.
    assert (P : exists fl, match final_words (words show name) with
                           | x :: y :: rest => x = "stack" /\ y = "output" /\ parse_flags ["json"; "show-secrets"; "non-interactive"] ["stack"] rest = Some (fl, [])
                           | _ => False
                           end /\ flag_values fl "stack" = [name] /\ flag_given fl "json" = true /\ flag_given fl "show-secrets" = show).
    { destruct (final_words_cases (words show name)) as [-> | ->]; destruct show; eexists; (split; [repeat split; reflexivity|]; repeat split; reflexivity). }
    destruct P as (fl & P & F1 & F2 & F3).
    destruct (final_words (words show name)) as [|x [|y rest]]; try contradiction. destruct P as (-> & -> & P). cbv iota beta.
    rewrite P. cbv iota beta. rewrite F1, F2. cbv iota. now rewrite F3.
  Qed.
  Lemma refused b ws err : c b (final_words ws) = refuses b err -> exists k, command c b (map VStr ws) = (b, CliError k).
  Proof using.
    intros E. unfold refuses in E. rewrite (command_words _ _ _ _ _ _ _ E).
    assert (N : (if Z.eqb (snd err) 0 then 255 else snd err)%Z <> 0%Z) by (destruct (Z.eqb_spec (snd err) 0); [discriminate|assumption]).
    apply Z.eqb_neq in N. rewrite N. eexists. reflexivity.
  Qed.
  Lemma troubled b ws err : trouble b (final_words ws) = Some err -> exists k, command c b (map VStr ws) = (b, CliError k).
  Proof using. intros E. apply (refused b ws err). unfold cli_outputs. now rewrite E. Qed.
  Lemma answered b ws v : c b (final_words ws) = gives print_json b v -> Spec_Json.plain_data v ->
    exists out, command c b (map VStr ws) = (b, Got out) /\ loads out = Ok v.
  Proof.
    intros E Hv. unfold gives in E. rewrite (command_words _ _ _ _ _ _ _ E). cbn [Z.eqb]. eexists. split; [reflexivity|].
    apply Proof_Capture.loads_captured; [|exact Hv]. apply document_nl. now apply Hprint.
  Qed.

  (** The stack's state is readable and its root has these outputs. *)
  Definition has_outputs (b : backend) (name : string) (ps : dict pval) : Prop :=
    exists ss snap, b_stacks b name = Some ss /\ load_deployment (b_unjson b) (b_again b) (b_decrypt b) (b_depth b) ss = Ok snap /\
      exists r, find (fun r => String.eqb (t_type r) "pulumi:pulumi:Stack") snap = Some r /\ t_outputs r = ps.
  Lemma tell_all b ps data show place : NoDup (map fst ps) -> (forall k p, In (k, p) ps -> tells p (data k)) ->
    exists ws, store_properties (b_json b) panic_encrypt show place (massage_secrets show ps) = Ok ws /\ Spec_Json.plain_data (printed (WStruct ws)) /\
      map fst ws = map fst ps /\
      forall k w, In (k, w) ws -> exists p, In (k, p) ps /\
        if show then printed w = data k else (is_masked (printed w) = true <-> secret_value p \/ data k = VStr "[secret]").
  Proof using.
    intros N T. unfold store_properties, massage_secrets.
    destruct (imap_forall2 (fun kq kw => fst kw = fst kq /\ Spec_Json.plain_data (printed (snd kw)) /\ exists p, In (fst kq, p) ps /\
        if show then printed (snd kw) = data (fst kq) else (is_masked (printed (snd kw)) = true <-> secret_value p \/ data (fst kq) = VStr "[secret]"))
      (fun n (kv : string * pval) => let+ w := store (b_json b) panic_encrypt show (n :: place) (snd kv) in Ok (fst kv, w))
      (map (fun kv => (fst kv, massage_value show (snd kv))) ps)) with (n := 0) as (ws & E & F).
    - intros n kq K. apply in_map_iff in K as ([k p] & <- & K). cbn [fst snd]. specialize (T k p K). destruct show.
      + destruct (shown_true (b_json b) panic_encrypt p (data k) T true (n :: place)) as (w & -> & Ew). cbn [rbind]. exists (k, w). split; [reflexivity|].
        cbn [fst snd]. split; [reflexivity|]. rewrite Ew. split; [now apply tells_plain in T|]. exists p. auto.
      + destruct (shown_false (b_json b) panic_encrypt p (data k) T false (n :: place)) as (w & -> & Ew1 & Ew2). cbn [rbind]. exists (k, w). split; [reflexivity|].
        cbn [fst snd]. split; [reflexivity|]. split; [exact Ew1|]. exists p. auto.
    - exists ws. split; [exact E|].
      assert (Ek : map fst ws = map fst ps).
      { assert (X : map fst ws = map fst (map (fun kv => (fst kv, massage_value show (snd kv))) ps)).
        { clear -F. induction F as [|a b0 l l' (X & _) F IH]; cbn [map]; congruence. }
        rewrite X, map_map. reflexivity. }
      split; [|split; [exact Ek|]].
      + cbn [printed]. constructor.
        * rewrite map_map. cbn [fst]. change (map (fun x : string * wire => fst x) ws) with (map fst ws). now rewrite Ek.
        * clear -F. induction F as [|a b0 l l' (_ & X & _) F IH]; cbn [map]; constructor; assumption.
      + intros k w K. assert (X : exists kq, In kq (map (fun kv => (fst kv, massage_value show (snd kv))) ps) /\ k = fst kq /\ exists p, In (fst kq, p) ps /\
          if show then printed w = data (fst kq) else (is_masked (printed w) = true <-> secret_value p \/ data (fst kq) = VStr "[secret]")).
        { clear -F K. induction F as [|a b0 l l' (X1 & _ & X2) F IH]; [destruct K|]. destruct K as [->|K].
          - exists a. split; [now left|]. split; [exact X1|exact X2].
          - destruct (IH K) as (kq & ? & ?). exists kq. split; [now right|assumption]. }
        destruct X as (kq & _ & -> & X). exact X.
  Qed.
  Lemma output_asked b name show ps data : has_outputs b name ps -> NoDup (map fst ps) -> (forall k p, In (k, p) ps -> tells p (data k)) ->
    (exists k, command c b (map VStr (words show name)) = (b, CliError k) /\ ~ (forall x y, trouble x y = None)) \/
    exists out ws, command c b (map VStr (words show name)) = (b, Got out) /\ loads out = Ok (printed (WStruct ws)) /\
      map fst ws = map fst ps /\
      forall k w, In (k, w) ws -> exists p, In (k, p) ps /\
        if show then printed w = data k else (is_masked (printed w) = true <-> secret_value p \/ data k = VStr "[secret]").
  Proof.
    intros (ss & snap & B & L & r & Fd & Er) N T. destruct (trouble b (final_words (words show name))) as [err|] eqn:Et.
    - left. destruct (troubled _ _ _ Et) as (k & E). exists k. split; [exact E|]. intros H. rewrite H in Et. discriminate.
    - right. pose proof (cli_words b name show Et) as E. unfold output_command in E. rewrite B, L in E. cbn [rbind] in E. unfold shown_outputs in E. rewrite Fd, Er in E.
      destruct (tell_all b ps data show [] N T) as (ws & Es & Pl & Ek & W). rewrite Es in E.
      destruct (answered _ _ _ E Pl) as (out & E1 & E2). exists out, ws. auto.
  Qed.

  Lemma dget_printed (ws : dict wire) k : dget (map (fun kv => (fst kv, printed (snd kv))) ws) k = option_map printed (dget ws k).
  Proof using. induction ws as [|[a x] d IH]; [reflexivity|]. cbn [map fst snd dget]. destruct (String.eqb k a); [reflexivity|exact IH]. Qed.

  (** outputs(): the value of each, and whether it is masked. *)
  Lemma outputs_given meanwhile b name ps data : NoDup (map fst ps) -> (forall k p, In (k, p) ps -> tells p (data k)) ->
    has_outputs b name ps -> has_outputs (meanwhile b) name ps ->
    let r := stack_outputs c meanwhile b name in
    (fst r = b \/ fst r = meanwhile b) /\
    ((exists k, snd r = CliError k /\ ~ (forall x y, trouble x y = None)) \/
     exists d, snd r = Got d /\ map fst d = map fst ps /\
       forall k x m, In (k, (x, m)) d -> x = data k /\ exists p, In (k, p) ps /\ (m = true <-> secret_value p \/ data k = VStr "[secret]")).
  Proof.
    intros N T H1 H2. unfold stack_outputs.
    change [VStr "stack"; VStr "output"; VStr "--json"; VStr "--stack"; VStr name] with (map VStr (words false name)).
    change [VStr "stack"; VStr "output"; VStr "--json"; VStr "--show-secrets"; VStr "--stack"; VStr name] with (map VStr (words true name)).
    destruct (output_asked b name false ps data H1 N T) as [(k & -> & Hno)|(out1 & ws1 & -> & L1 & K1 & W1)].
    { cbn [fst snd]. split; [now left|left; eauto]. }
    destruct (output_asked (meanwhile b) name true ps data H2 N T) as [(k & -> & Hno)|(out2 & ws2 & -> & L2 & K2 & W2)].
    { cbn [fst snd abind]. split; [now right|left; eauto]. }
    cbn [fst snd abind]. split; [now right|]. right. rewrite L1, L2. cbn [rbind printed keys_of].
    assert (Ed : dkeys (map (fun kv : string * wire => (fst kv, printed (snd kv))) ws2) = map fst ps).
    { unfold dkeys. rewrite map_map. cbn [fst]. exact K2. }
    rewrite Ed.
    pose (g := fun k => (match dget ws2 k with Some w => printed w | None => VNone end, match dget ws1 k with Some w => is_masked (printed w) | None => false end)).
    rewrite (Proof_WsState.read_outputs_spec _ _ g (map fst ps) []).
    - cbn [app answer_of]. eexists. split; [reflexivity|]. split; [rewrite map_map; cbn [fst]; apply map_id|].
      intros k x m K. apply in_map_iff in K as (k' & [= -> Ex Em] & K). 
      assert (X2 : exists w, dget ws2 k = Some w) by (apply dget_Some_key; unfold dkeys; now rewrite K2).
      assert (X1 : exists w, dget ws1 k = Some w) by (apply dget_Some_key; unfold dkeys; now rewrite K1).
      destruct X1 as [w1 E1], X2 as [w2 E2]. rewrite E2 in Ex. rewrite E1 in Em.
      destruct (W2 k w2 (dget_In _ _ _ E2)) as (p2 & _ & V2). destruct (W1 k w1 (dget_In _ _ _ E1)) as (p1 & I1 & V1).
      split; [congruence|]. exists p1. split; [exact I1|]. now rewrite <- Em.
    - intros k K. cbn [item]. rewrite !dget_printed. unfold g.
      assert (X2 : exists w, dget ws2 k = Some w) by (apply dget_Some_key; unfold dkeys; now rewrite K2).
      assert (X1 : exists w, dget ws1 k = Some w) by (apply dget_Some_key; unfold dkeys; now rewrite K1).
      destruct X1 as [w1 ->], X2 as [w2 ->]. cbn [option_map]. eauto.
    - exact N.
  Qed.
End Cli.

(* ---- the deployment and what is stored of it ---- *)
Lemma root_there h evs root n : one_stack root evs -> dget (p_news (drun h evs)) root = Some n ->
  exists r, find (fun r => String.eqb (t_type r) "pulumi:pulumi:Stack") (snapshot_of (drun h evs)) = Some r /\ t_outputs r = n_outputs n.
Proof.
  intros O D. pose proof (root_found h evs root n O D) as R. unfold root_outputs in R.
  destruct (find (fun r => String.eqb (t_type r) "pulumi:pulumi:Stack") (snapshot_of (drun h evs))) as [r|] eqn:E; [eauto|].
  exfalso. apply dget_In in D. pose proof (find_none _ _ E) as Fn.
  pose proof (fun u K => proj2 (proj2 (types_known h evs root O u K))) as T.
  assert (K : In root (map fst (p_news (drun h evs)))) by (apply (in_map fst) in D; exact D).
  specialize (Fn (mkRstate root (Model_Refactor.type_of root) (negb (String.eqb (n_id n) "")) (n_id n) [] (n_outputs n) VNone)).
  cbn [t_type] in Fn. rewrite (proj2 (T root K) eq_refl) in Fn. discriminate Fn.
  unfold snapshot_of. apply in_map_iff. exists (root, n). split; [|exact D]. cbn [fst snd]. now rewrite (proj2 (T root K) eq_refl).
Qed.
Lemma stored_outputs h evs root id ps b stack : good_backend b -> stored_in b stack (snapshot_of (drun h evs)) ->
  one_stack root evs -> dget (p_news (drun h evs)) root = Some (mkNode id ps) ->
  storable (PObj ps) -> others_storable root (snapshot_of (drun h evs)) -> has_outputs b stack ps.
Proof.
  intros (J & Dc & Ag) (Nest & show & ss & W & B) O D S Os. exists ss, (snapshot_of (drun h evs)). split; [exact B|]. split.
  - apply (deployment_back (b_json b) (b_unjson b) (b_again b) J show (snapshot_of (drun h evs)) (b_encrypt b) (b_decrypt b) ss (fun _ => Ag)).
    + eapply all_storable; eauto.
    + intros place w c C. exact (Dc _ _ _ C).
    + exact W.
    + exact Nest.
  - apply (root_there h evs root _ O D).
Qed.

Lemma whole_some v : whole_secret v -> some_secret v.
Proof. induction 1; now constructor. Qed.

(* ---- what is not shown ---- *)
Lemma massage_alike : forall p q, alike p q -> massage_value false p = massage_value false q.
Proof.
  fix F 3. intros p q H. destruct H as [p|l l' H|d d' H|e e']; cbn [massage_value]; try reflexivity.
  - f_equal. clear -F H. induction H as [|x y l l' Hxy H IH]; cbn; [reflexivity|]. f_equal; [apply (F x y Hxy)|exact IH].
  - f_equal. clear -F H. induction H as [|[k x] [k' y] l l' Hxy H IH]; cbn [map fst snd]; [reflexivity|]. cbn [fst snd] in Hxy. destruct Hxy as [<- Hxy].
    f_equal; [f_equal; apply (F x y Hxy)|exact IH].
Qed.
Lemma shown_alike json rs rs' : Forall2 alike_resources rs rs' -> shown_outputs json false rs = shown_outputs json false rs'.
Proof.
  intros H. unfold shown_outputs. induction H as [|r r' rs rs' Hr H IH]; [reflexivity|]. cbn [find].
  destruct Hr as (_ & Et & _ & _ & _ & _ & Ho). rewrite <- Et. destruct (String.eqb (t_type r) "pulumi:pulumi:Stack"); [|exact IH].
  apply massage_alike in Ho. cbn [massage_value] in Ho. injection Ho as Ho. unfold massage_secrets. now rewrite Ho.
Qed.
