(** Proofs about the stored state. *)
From Verif Require Import Base PyVal Model_Rpc Model_Engine Model_State Spec_State.
From Coq Require Import Lia.
Open Scope string_scope.

Ltac inv H := inversion H; subst; clear H.

Section PInd.
  Variable P : pval -> Prop.
  Hypothesis HNull : P PNull.
  Hypothesis HBool : forall b, P (PBool b).
  Hypothesis HNum : forall z, P (PNum z).
  Hypothesis HStr : forall s, P (PStr s).
  Hypothesis HArr : forall l, Forall P l -> P (PArr l).
  Hypothesis HObj : forall d, Forall (fun kv => P (snd kv)) d -> P (PObj d).
  Hypothesis HAsset : forall h t p u, P (PAsset h t p u).
  Hypothesis HArchive : forall h p u, P (PArchive h None p u).
  Hypothesis HArchiveOf : forall h d p u, Forall (fun kv => P (snd kv)) d -> P (PArchive h (Some d) p u).
  Hypothesis HComputed : forall e, P e -> P (PComputed e).
  Hypothesis HSecret : forall e, P e -> P (PSecret e).
  Hypothesis HOutput : forall e k s d, P e -> P (POutput e k s d).
  Hypothesis HRef : forall u i v, P (PRef u i v).
  Fixpoint prop_ind (p : pval) : P p :=
    let dall := fix go (d : list (string * pval)) : Forall (fun kv => P (snd kv)) d :=
      match d with [] => Forall_nil _ | kv :: d' => Forall_cons kv (prop_ind (snd kv)) (go d') end in
    match p with
    | PNull => HNull
    | PBool b => HBool b
    | PNum z => HNum z
    | PStr s => HStr s
    | PArr l => HArr l ((fix go (l : list pval) : Forall P l := match l with [] => Forall_nil _ | x :: l' => Forall_cons x (prop_ind x) (go l') end) l)
    | PObj d => HObj d (dall d)
    | PAsset h t p u => HAsset h t p u
    | PArchive h None p u => HArchive h p u
    | PArchive h (Some d) p u => HArchiveOf h d p u (dall d)
    | PComputed e => HComputed e (prop_ind e)
    | PSecret e => HSecret e (prop_ind e)
    | POutput e k s d => HOutput e k s d (prop_ind e)
    | PRef u i v => HRef u i v
    end.
End PInd.

Lemma key_free_in {A} (d : dict A) : ~ In kind_key (map fst d) -> dget d kind_key = None.
Proof.
  induction d as [|[k v] d IH]; intros N; [reflexivity|]. cbn [dget].
  destruct (String.eqb_spec kind_key k) as [Ek|]; [exfalso; apply N; left; symmetry; exact Ek|].
  apply IH. intros I. apply N. right. exact I.
Qed.

(** No secrets. *)
Inductive calm : pval -> Prop :=
| Ca_arr l : Forall calm l -> calm (PArr l)
| Ca_obj d : Forall (fun kv => calm (snd kv)) d -> calm (PObj d)
| Ca_other p : match p with PArr _ | PObj _ | PSecret _ => False | _ => True end -> calm p.

Section State.
  Variable json : wire -> string.
  Variable unjson : string -> res wire.
  Variable encl : string -> res string.
  Hypothesis J : json_reads json unjson.
  Variable show : bool.
  (** Plaintexts that are stored can be read, if any are stored. *)
  Definition seen_again (enc : list nat -> string -> res string) : Prop :=
    show = true -> (forall t, exists c, encl t = Ok c) \/ (forall place t c, enc place t <> Ok c).

  Definition reads_back (enc : list nat -> string -> res string) (dec : string -> res string) : Prop :=
    forall place w c, enc place (json w) = Ok c -> dec c = Ok (json w) /\ c <> "" /\ c <> mark.
  Lemma nop_reads_back : reads_back nop (fun t => Ok t).
  Proof. intros place w c [= <-]. split; auto. apply (proj2 J). Qed.

  Local Notation load := (load unjson encl).
  Definition back (dec : string -> res string) (w : wire) (p : pval) : Prop :=
    forall m, nesting p <= m -> load m dec w = Ok p.

  Lemma load_struct m dec d : load m dec (WStruct d) =
    (let+ obj := rmap (fun kv => let+ p := load m dec (snd kv) in Ok (fst kv, p)) d in
     load_object (fun text => let+ elem := unjson text in
                              match m with O => Err (Exn "" "too deep") | S k => load k (fun text => Ok text) elem end) dec encl obj).
  Proof. destruct m; reflexivity. Qed.
  Lemma load_list m dec l : load m dec (WList l) = let+ ps := rmap (load m dec) l in Ok (PArr ps).
  Proof. destruct m; reflexivity. Qed.
  Lemma load_str m dec s : s <> mark -> load m dec (WStr s) = Ok (PStr s).
  Proof. intros N. destruct m; cbn; destruct (String.eqb_spec s placeholder) as [->|]; auto; now destruct N. Qed.

  Lemma all_back {A B} (f : nat -> A -> res B) (g : B -> res A) (l : list A) :
    (forall x n y, In x l -> f n x = Ok y -> g y = Ok x) ->
    forall n ws, imap f n l = Ok ws -> rmap g ws = Ok l.
  Proof using.
    induction l as [|x l IH]; cbn; intros H n ws.
    - now intros [= <-].
    - destruct (f n x) as [y|] eqn:Y; cbn; [|discriminate].
      destruct (imap f (S n) l) as [ys|] eqn:Ys; cbn; [|discriminate]. intros [= <-]. cbn.
      rewrite (H x n y (or_introl eq_refl) Y). cbn.
      rewrite (IH (fun x' n' y' I => H x' n' y' (or_intror I)) (S n) ys Ys). reflexivity.
  Qed.
  Lemma all_back' {A B} (f : A -> res B) (g : B -> res A) (l : list A) :
    (forall x y, In x l -> f x = Ok y -> g y = Ok x) ->
    forall ws, rmap f l = Ok ws -> rmap g ws = Ok l.
  Proof using.
    induction l as [|x l IH]; cbn; intros H ws.
    - now intros [= <-].
    - destruct (f x) as [y|] eqn:Y; cbn; [|discriminate].
      destruct (rmap f l) as [ys|] eqn:Ys; cbn; [|discriminate]. intros [= <-]. cbn.
      rewrite (H x y (or_introl eq_refl) Y). cbn.
      rewrite (IH (fun x' y' I => H x' y' (or_intror I)) ys eq_refl). reflexivity.
  Qed.
  Lemma nesting_in {A} (f : A -> nat) l x m : In x l -> list_max (map f l) <= m -> f x <= m.
  Proof using.
    intros I L. apply list_max_le in L. rewrite Forall_forall in L. apply L. now apply in_map.
  Qed.

  Lemma asset_back dec p : storable p -> is_asset_or_archive p -> forall w, store_asset p = Ok w -> back dec w p.
  Proof.
    induction p as [| | | | | |h t p u|h p u|h d p u IH| | | |] using prop_ind; intros S A w W; try contradiction.
    - inv S. cbn in W. injection W as <-. intros m _. rewrite load_struct.
      repeat match goal with H : Forall _ (_ :: _) |- _ => inv H end.
      unfold go_field.
      destruct (String.eqb_spec h ""), (String.eqb_spec t ""), (String.eqb_spec p ""), (String.eqb_spec u ""); subst;
        cbn [app rmap fst snd]; repeat (rewrite load_str by (assumption || discriminate); cbn [rbind fst snd]); reflexivity.
    - inv S. cbn in W. injection W as <-. intros m _. rewrite load_struct.
      repeat match goal with H : Forall _ (_ :: _) |- _ => inv H end.
      unfold go_field.
      destruct (String.eqb_spec h ""), (String.eqb_spec p ""), (String.eqb_spec u ""); subst;
        cbn [app rmap fst snd]; repeat (rewrite load_str by (assumption || discriminate); cbn [rbind fst snd]); reflexivity.
    - inv S. cbn [store_asset] in W.
      destruct (rmap _ d) as [ws|] eqn:Ws; cbn [rbind] in W; [|discriminate]. injection W as <-.
      intros m _.
      assert (B : rmap (fun kv => let+ p := load m dec (snd kv) in Ok (fst kv, p)) ws = Ok d).
      { eapply all_back'; [|exact Ws]. intros [k x] y I Y. cbn [fst snd] in Y.
        destruct (store_asset x) as [w|] eqn:X; cbn in Y; [|discriminate]. injection Y as <-.
        rewrite Forall_forall in IH.
        match goal with H1 : Forall (fun kv => is_asset_or_archive _) d, H2 : Forall (fun kv => storable _) d |- _ =>
          rewrite Forall_forall in H1, H2; pose proof (IH _ I (H2 _ I) (H1 _ I) w X m) as Bn; specialize (H1 _ I) end.
        cbn [fst snd] in *. rewrite Bn by (destruct x; try contradiction; cbn; lia). reflexivity. }
      rewrite load_struct.
      repeat match goal with H : Forall _ (_ :: _) |- _ => inv H end.
      assert (G : load m dec (WStruct ws) = Ok (PObj d)).
      { rewrite load_struct, B. cbn [rbind]. unfold load_object.
        change go_SigKey with kind_key. rewrite key_free_in by assumption. reflexivity. }
      assert (M : forallb (fun kv => is_member (snd kv)) d = true).
      { apply forallb_forall. intros kv I.
        match goal with H1 : Forall (fun kv => is_asset_or_archive _) d |- _ => rewrite Forall_forall in H1; specialize (H1 _ I) end.
        destruct (snd kv); try contradiction; reflexivity. }
      unfold go_field.
      destruct (String.eqb_spec h ""), (String.eqb_spec p ""), (String.eqb_spec u ""); subst;
        cbn [app rmap fst snd]; repeat (first [rewrite load_str by (assumption || discriminate) | rewrite G]; cbn [rbind fst snd]);
        cbn -[is_member forallb]; rewrite M; reflexivity.
  Qed.

  Lemma value_back_gen p : storable p -> forall enc dec place w, seen_again enc -> reads_back enc dec ->
    store json enc show place p = Ok w -> back dec w p.
  Proof.
    induction p as [| | | |l IH|d IH|h t p u|h p u|h d p u IH|e IH|e IH|e k s d IH|u i v] using prop_ind;
      intros S enc dec place w E R W.
    - injection W as <-. now intros [].
    - injection W as <-. now intros [].
    - injection W as <-. now intros [].
    - injection W as <-. intros m _. inv S. now apply load_str.
    - inv S. cbn [store] in W. destruct (imap _ 0 l) as [ws|] eqn:Ws; cbn [rbind] in W; [|discriminate]. injection W as <-.
      rewrite Forall_forall in IH. match goal with H : Forall storable l |- _ => rewrite Forall_forall in H; rename H into Sl end.
      intros m L. cbn [nesting] in L.
      rewrite load_list, (all_back _ (load m dec) l (fun x n y I Y => IH x I (Sl x I) enc dec (n :: place) y E R Y m (nesting_in nesting l x m I L)) 0 ws Ws). reflexivity.
    - inv S. cbn [store] in W. destruct (imap _ 0 d) as [ws|] eqn:Ws; cbn [rbind] in W; [|discriminate]. injection W as <-.
      rewrite Forall_forall in IH. match goal with H : Forall _ d |- _ => rewrite Forall_forall in H; rename H into Sd end.
      intros m L. cbn [nesting] in L.
      assert (B : rmap (fun kv => let+ p := load m dec (snd kv) in Ok (fst kv, p)) ws = Ok d).
      { refine (all_back _ _ d _ 0 ws Ws). intros [k x] n y I Y. cbn [fst snd] in Y. destruct (store json enc show (n :: place) x) as [w|] eqn:X; cbn in Y; [|discriminate].
        injection Y as <-. cbn [fst snd].
        rewrite (IH _ I (Sd _ I) enc dec (n :: place) w E R X m (nesting_in (fun kv => nesting (snd kv)) d _ m I L)). reflexivity. }
      rewrite load_struct, B. cbn [rbind]. unfold load_object.
      change go_SigKey with kind_key. rewrite key_free_in by assumption. reflexivity.
    - now apply asset_back.
    - now apply asset_back.
    - now apply asset_back.
    - inv S. injection W as <-. now intros [].
    - inv S. cbn [store] in W. destruct (store json nop show (0 :: place) e) as [v|] eqn:V; cbn [rbind] in W; [|discriminate].
      destruct (enc place (json v)) as [c|] eqn:C; cbn [rbind] in W; [|discriminate]. injection W as <-.
      assert (Et : show = true -> forall t, exists c, encl t = Ok c).
      { intros Sh. destruct (E Sh) as [T|N]; [exact T|]. now destruct (N _ _ _ C). }
      pose proof (IH ltac:(assumption) nop (fun t => Ok t) (0 :: place) v (fun Sh => or_introl (Et Sh)) nop_reads_back V) as B.
      intros m L. cbn [nesting] in L. destruct m as [|m]; [lia|]. rewrite load_struct.
      destruct (R _ _ _ C) as (Dc & Nc & Mc). destruct J as [J1 J2]. destruct (J2 v) as [N1 N2].
      destruct show eqn:Sh; unfold go_field.
      + destruct (String.eqb_spec (json v) ""); [contradiction|]. cbn [rmap snd fst].
        rewrite load_str by discriminate. cbn [rbind]. rewrite load_str by assumption. cbn [rbind].
        destruct (Et eq_refl (json v)) as [c' C'].
        cbn -[Model_State.load]. rewrite C'. cbn -[Model_State.load]. rewrite J1. cbn -[Model_State.load]. rewrite B by lia. reflexivity.
      + destruct (String.eqb_spec c ""); [contradiction|]. cbn [rmap snd fst].
        rewrite load_str by discriminate. cbn [rbind]. rewrite load_str by assumption. cbn [rbind].
        cbn -[Model_State.load]. rewrite Dc. cbn -[Model_State.load]. rewrite J1. cbn -[Model_State.load]. rewrite B by lia. reflexivity.
    - inv S.
    - intros m _. inv S; injection W as <-; rewrite load_struct; cbn [rmap fst snd];
        repeat (rewrite load_str by (assumption || discriminate); cbn [rbind fst snd]); try reflexivity.
      cbn. unfold custom_ref. destruct (String.eqb_spec id ""); [contradiction|reflexivity].
  Qed.

  (** Storing succeeds when encrypting does. *)
  Lemma imap_total {A B} (f : nat -> A -> res B) l : (forall x n, In x l -> exists y, f n x = Ok y) ->
    forall n, exists ys, imap f n l = Ok ys.
  Proof using.
    induction l as [|x l IH]; cbn; intros H n; [eauto|].
    destruct (H x n (or_introl eq_refl)) as [y ->]. cbn.
    destruct (IH (fun x' n' I => H x' n' (or_intror I)) (S n)) as [ys ->]. cbn. eauto.
  Qed.
  Lemma rmap_total {A B} (f : A -> res B) l : (forall x, In x l -> exists y, f x = Ok y) -> exists ys, rmap f l = Ok ys.
  Proof using.
    induction l as [|x l IH]; cbn; intros H; [eauto|].
    destruct (H x (or_introl eq_refl)) as [y ->]. cbn.
    destruct (IH (fun x' I => H x' (or_intror I))) as [ys ->]. cbn. eauto.
  Qed.
  Lemma asset_stored p : storable p -> is_asset_or_archive p -> exists w, store_asset p = Ok w.
  Proof using.
    induction p as [| | | | | |h t p u|h p u|h d p u IH| | | |] using prop_ind; intros S A; try contradiction; cbn; eauto.
    inv S. rewrite Forall_forall in *.
    destruct (rmap_total (fun kv => let+ w := store_asset (snd kv) in Ok (fst kv, w)) d) as [ws ->]; cbn; eauto.
    intros x I. destruct (IH x I) as [w ->]; auto. cbn. eauto.
  Qed.
  Lemma value_stored p : storable p -> forall enc place, (forall place t, exists c, enc place t = Ok c) \/ calm p ->
    exists w, store json enc show place p = Ok w.
  Proof using.
    induction p as [| | | |l IH|d IH|h t p u|h p u|h d p u IH|e IH|e IH|e k s d IH|u i v] using prop_ind;
      intros S enc place T; cbn [store]; eauto.
    - inv S. rewrite Forall_forall in *.
      destruct (imap_total (fun n x => store json enc show (n :: place) x) l) with (n := 0) as [ws ->]; cbn; eauto.
      intros x n I. apply IH; auto. destruct T as [T|C]; [now left|right]. inv C; [|contradiction]. rewrite Forall_forall in *. auto.
    - inv S. rewrite Forall_forall in *.
      destruct (imap_total (fun n (kv : string * pval) => let+ w := store json enc show (n :: place) (snd kv) in Ok (fst kv, w)) d) with (n := 0) as [ws ->]; cbn; eauto.
      intros x n I. destruct (IH x I ltac:(auto) enc (n :: place)) as [w ->]; [|cbn; eauto].
      destruct T as [T|C]; [now left|right]. inv C; [|contradiction]. rewrite Forall_forall in *. auto.
    - now apply asset_stored.
    - now apply asset_stored.
    - now apply asset_stored.
    - inv S. destruct (IH ltac:(assumption) nop (0 :: place)) as [w ->]; [left; unfold nop; eauto|]. cbn.
      destruct T as [T|C]; [|inv C; contradiction]. destruct (T place (json w)) as [c ->]. cbn. eauto.
  Qed.

  (** The ciphertexts found in a document are those of its secrets. *)
  Lemma flat_map_nil {A B} (f : A -> list B) l : (forall x, In x l -> f x = []) -> flat_map f l = [].
  Proof using.
    induction l as [|x l IH]; cbn; intros H; auto. rewrite (H x (or_introl eq_refl)). cbn.
    apply IH. intros y I. apply H. now right.
  Qed.
  Lemma imap_in {A B} (f : nat -> A -> res B) l : forall n ys, imap f n l = Ok ys ->
    forall y, In y ys -> exists x m, In x l /\ f m x = Ok y.
  Proof using.
    induction l as [|x l IH]; cbn; intros n ys; [intros [= <-] y []|].
    destruct (f n x) as [y0|] eqn:Y; cbn; [|discriminate].
    destruct (imap f (S n) l) as [ys0|] eqn:Ys; cbn; [|discriminate]. intros [= <-] y [->|I]; [eauto 6|].
    destruct (IH _ _ Ys y I) as (x' & m & I' & F). eauto 6.
  Qed.
  Lemma imap_keys (f : nat -> string * pval -> res (string * wire)) d :
    (forall n kv kv', f n kv = Ok kv' -> fst kv' = fst kv) ->
    forall n ws, imap f n d = Ok ws -> map fst ws = map fst d.
  Proof using.
    intros F. induction d as [|kv d IH]; cbn; intros n ws; [now intros [= <-]|].
    destruct (f n kv) as [y0|] eqn:Y; cbn; [|discriminate].
    destruct (imap f (S n) d) as [ys0|] eqn:Ys; cbn; [|discriminate]. intros [= <-]. cbn.
    now rewrite (F _ _ _ Y), (IH _ _ Ys).
  Qed.
  Lemma rmap_in {A B} (f : A -> res B) l : forall ys, rmap f l = Ok ys -> forall y, In y ys -> exists x, In x l /\ f x = Ok y.
  Proof using.
    induction l as [|x l IH]; cbn; intros ys; [intros [= <-] y []|].
    destruct (f x) as [y0|] eqn:Y; cbn; [|discriminate].
    destruct (rmap f l) as [ys0|] eqn:Ys; cbn; [|discriminate]. intros [= <-] y [->|I]; [eauto|].
    destruct (IH _ eq_refl y I) as (x' & I' & F). eauto.
  Qed.
  Lemma rmap_keys (f : string * pval -> res (string * wire)) d :
    (forall kv kv', f kv = Ok kv' -> fst kv' = fst kv) -> forall ws, rmap f d = Ok ws -> map fst ws = map fst d.
  Proof using.
    intros F. induction d as [|kv d IH]; cbn; intros ws; [now intros [= <-]|].
    destruct (f kv) as [y0|] eqn:Y; cbn; [|discriminate].
    destruct (rmap f d) as [ys0|] eqn:Ys; cbn; [|discriminate]. intros [= <-]. cbn.
    now rewrite (F _ _ Y), (IH _ eq_refl).
  Qed.
  Lemma collect_free d : ~ In kind_key (map fst d) -> collect (WStruct d) = flat_map (fun kv => collect (snd kv)) d.
  Proof using. intros N. cbn [collect]. change go_SigKey with kind_key. now rewrite (key_free_in d N). Qed.
  Lemma collect_asset p : storable p -> is_asset_or_archive p -> forall w, store_asset p = Ok w -> collect w = [].
  Proof using.
    induction p as [| | | | | |h t p u|h p u|h d p u IH| | | |] using prop_ind; intros S A w W; try contradiction.
    - injection W as <-. unfold go_field.
      destruct (String.eqb h ""), (String.eqb t ""), (String.eqb p ""), (String.eqb u ""); reflexivity.
    - injection W as <-. unfold go_field.
      destruct (String.eqb h ""), (String.eqb p ""), (String.eqb u ""); reflexivity.
    - inv S. cbn [store_asset] in W. destruct (rmap _ d) as [ws|] eqn:Ws; cbn [rbind] in W; [|discriminate]. injection W as <-.
      rewrite Forall_forall in *.
      assert (C : collect (WStruct ws) = []).
      { rewrite collect_free.
        - apply flat_map_nil. intros kv' I. destruct (rmap_in _ _ _ Ws _ I) as (kv & I' & F). cbn in F.
          destruct (store_asset (snd kv)) as [w|] eqn:X; cbn in F; [|discriminate]. injection F as <-. cbn. eauto.
        - erewrite rmap_keys; [eassumption| |exact Ws]. intros [k x] kv'. cbn. destruct (store_asset x); cbn; [|discriminate].
          now intros [= <-]. }
      unfold go_field.
      assert (K : forall l, collect (WStruct ((go_SigKey, WStr go_ArchiveSig) :: l)) = flat_map (fun kv => collect (snd kv)) l) by reflexivity.
      rewrite K. destruct (String.eqb h ""), (String.eqb p ""), (String.eqb u ""); cbn [app flat_map snd]; rewrite C; reflexivity.
  Qed.
  Lemma collect_secrets p : storable p -> forall enc dec place w, reads_back enc dec ->
    store json enc show place p = Ok w -> forall c, In c (collect w) -> exists t, dec c = Ok t.
  Proof.
    induction p as [| | | |l IH|d IH|h t p u|h p u|h d p u IH|e IH|e IH|e k s d IH|u i v] using prop_ind;
      intros S enc dec place w R W c I.
    - now injection W as <-.
    - now injection W as <-.
    - now injection W as <-.
    - now injection W as <-.
    - inv S. cbn [store] in W. destruct (imap _ 0 l) as [ws|] eqn:Ws; cbn [rbind] in W; [|discriminate]. injection W as <-.
      cbn [collect] in I. apply in_flat_map in I as (w & Iw & I). rewrite Forall_forall in *.
      destruct (imap_in _ _ _ _ Ws _ Iw) as (x & n & Ix & X). eauto.
    - inv S. cbn [store] in W. destruct (imap _ 0 d) as [ws|] eqn:Ws; cbn [rbind] in W; [|discriminate]. injection W as <-.
      rewrite collect_free in I.
      + apply in_flat_map in I as ([k w] & Iw & I). rewrite Forall_forall in *.
        destruct (imap_in _ _ _ _ Ws _ Iw) as ([k' x] & n & Ix & X). cbn in X.
        destruct (store json enc show (n :: place) x) as [w'|] eqn:X'; cbn in X; [|discriminate]. injection X as -> ->. 
        exact (IH _ Ix ltac:(auto) enc dec (n :: place) w R X' c I).
      + erewrite imap_keys; [eassumption| |exact Ws]. intros n [k x] kv'. cbn.
        destruct (store json enc show (n :: place) x); cbn; [|discriminate]. now intros [= <-].
    - cbn [store] in W. rewrite (collect_asset _ S Logic.I _ W) in I. destruct I.
    - cbn [store] in W. rewrite (collect_asset _ S Logic.I _ W) in I. destruct I.
    - cbn [store] in W. rewrite (collect_asset _ S Logic.I _ W) in I. destruct I.
    - now injection W as <-.
    - cbn [store] in W. destruct (store json nop show (0 :: place) e) as [v|] eqn:V; cbn [rbind] in W; [|discriminate].
      destruct (enc place (json v)) as [c'|] eqn:C; cbn [rbind] in W; [|discriminate]. injection W as <-.
      destruct (R _ _ _ C) as (Dc & _ & _). unfold go_field in I.
      destruct show; [destruct (String.eqb (json v) "")|destruct (String.eqb c' "")]; cbn in I; try contradiction.
      destruct I as [<-|[]]. eauto.
    - now injection W as <-.
    - injection W as <-. destruct i as [[]|]; cbn in I; contradiction.
  Qed.

  Lemma bulk_agrees dec cs : (forall c, In c cs -> exists t, dec c = Ok t) ->
    forall m0, (forall c t, dget m0 c = Some t -> dec c = Ok t) ->
    exists m, bulk_decrypt dec m0 cs = Ok m /\ forall c t, dget m c = Some t -> dec c = Ok t.
  Proof using.
    induction cs as [|c cs IH]; cbn; intros H m0 M0; [eauto|].
    destruct (H c (or_introl eq_refl)) as [t D]. rewrite D. cbn. apply IH; auto.
    intros c' t' G. rewrite dget_dset in G. destruct (String.eqb_spec c' c) as [->|]; [|auto].
    injection G as <-. exact D.
  Qed.
  Lemma map_reads_back enc dec m : reads_back enc dec -> (forall c t, dget m c = Some t -> dec c = Ok t) ->
    reads_back enc (map_decrypter m dec).
  Proof using.
    intros R M place w c C. destruct (R _ _ _ C) as (D & N). split; [|exact N]. unfold map_decrypter.
    destruct (dget m c) as [t|] eqn:G; [|exact D]. rewrite (M _ _ G) in D. exact D.
  Qed.

  (** From values to states. *)
  Lemma properties_back d place enc dec ws : seen_again enc -> storable (PObj d) -> reads_back enc dec ->
    store_properties json enc show place d = Ok ws ->
    forall m, nesting (PObj d) <= m -> load_properties unjson encl m dec ws = Ok d.
  Proof.
    intros E S R W m L. cbn [nesting] in L. inv S.
    rewrite Forall_forall in *. unfold load_properties.
    eapply (all_back _ (fun kv => let+ p := load m dec (snd kv) in Ok (fst kv, p))); [|exact W].
    intros [k x] n y I Y. cbn [fst snd] in Y. destruct (store json enc show (n :: place) x) as [w|] eqn:X; cbn in Y; [|discriminate].
    injection Y as <-. cbn [fst snd].
    rewrite (value_back_gen x (H0 _ I) enc dec (n :: place) w E R X m (nesting_in (fun kv => nesting (snd kv)) d _ m I L)). reflexivity.
  Qed.
  Lemma properties_store d place enc ws : store_properties json enc show place d = Ok ws <->
    store json enc show place (PObj d) = Ok (WStruct ws).
  Proof using.
    cbn [store]. unfold store_properties. destruct (imap _ 0 d); cbn; split; intros [=]; subst; reflexivity.
  Qed.
  Lemma resource_back r i enc dec s : seen_again enc -> storable_resource r -> reads_back enc dec ->
    store_resource json enc show i r = Ok s ->
    forall m, Nat.max (nesting (PObj (t_inputs r))) (nesting (PObj (t_outputs r))) <= m -> load_resource unjson encl dec m s = Ok r.
  Proof.
    intros E (U & T & Id & Si & So) R W m L. unfold store_resource in W.
    destruct (String.eqb_spec (t_urn r) ""); [contradiction|].
    destruct (store_properties json enc show [0; i] (t_inputs r)) as [wi|] eqn:Wi; cbn [rbind] in W; [|discriminate].
    destruct (store_properties json enc show [1; i] (t_outputs r)) as [wo|] eqn:Wo; cbn [rbind] in W; [|discriminate].
    injection W as <-.
    pose proof (properties_back _ _ _ _ _ E Si R Wi m ltac:(lia)) as B1. pose proof (properties_back _ _ _ _ _ E So R Wo m ltac:(lia)) as B2.
    unfold load_resource. cbn [st_inputs st_outputs st_urn st_type st_custom st_id st_rest].
    rewrite B1, B2. cbn [rbind].
    destruct (String.eqb_spec (t_urn r) ""); [contradiction|]. destruct (String.eqb_spec (t_type r) ""); [contradiction|].
    destruct (t_iscustom r) eqn:C; cbn [negb andb]; [|rewrite (Id eq_refl); cbn]; destruct r; cbn in *; subst; try reflexivity.
    rewrite (Id eq_refl). reflexivity.
  Qed.
  Lemma deployment_back_gen rs enc dec ss : seen_again enc -> Forall storable_resource rs -> reads_back enc dec ->
    store_deployment json enc show rs = Ok ss ->
    forall n, state_nesting rs <= n -> load_deployment unjson encl dec n ss = Ok rs.
  Proof.
    intros E S R W n L. rewrite Forall_forall in S. unfold store_deployment in W.
    destruct (bulk_agrees dec (flat_map (fun s => collect (WStruct (st_inputs s)) ++ collect (WStruct (st_outputs s)))%list ss)) with (m0 := @nil (string * string))
      as (m & Bm & Am); [|discriminate|].
    { intros c I. apply in_flat_map in I as (s & Is & I). destruct (imap_in _ _ _ _ W _ Is) as (r & i & Ir & X).
      destruct (S _ Ir) as (U & T & Id & Si & So). unfold store_resource in X. destruct (String.eqb (t_urn r) ""); [discriminate|].
      destruct (store_properties json enc show [0; i] (t_inputs r)) as [wi|] eqn:Wi; cbn [rbind] in X; [|discriminate].
      destruct (store_properties json enc show [1; i] (t_outputs r)) as [wo|] eqn:Wo; cbn [rbind] in X; [|discriminate].
      injection X as <-. cbn [st_inputs st_outputs] in I. apply properties_store in Wi. apply properties_store in Wo.
      apply in_app_or in I as [I|I].
      - exact (collect_secrets _ Si enc dec _ _ R Wi c I).
      - exact (collect_secrets _ So enc dec _ _ R Wo c I). }
    unfold load_deployment. rewrite Bm. cbn [rbind].
    refine (all_back _ _ rs _ 0 ss W). intros r i s I X.
    refine (resource_back r i enc _ s E (S r I) (map_reads_back enc dec m R Am) X n _).
    exact (nesting_in (fun r => Nat.max (nesting (PObj (t_inputs r))) (nesting (PObj (t_outputs r)))) rs r n I L).
  Qed.
  Lemma deployment_back rs enc dec ss : (show = true -> forall t, exists c, encl t = Ok c) -> Forall storable_resource rs -> reads_back enc dec ->
    store_deployment json enc show rs = Ok ss ->
    forall n, state_nesting rs <= n -> load_deployment unjson encl dec n ss = Ok rs.
  Proof. intros E. apply deployment_back_gen. intros Sh. left. now apply E. Qed.
  Lemma deployment_stored_gen rs enc : Forall storable_resource rs ->
    (forall place t, exists c, enc place t = Ok c) \/ Forall (fun r => calm (PObj (t_inputs r)) /\ calm (PObj (t_outputs r))) rs ->
    exists ss, store_deployment json enc show rs = Ok ss.
  Proof using.
    intros S T. rewrite Forall_forall in S. apply imap_total. intros r i I. destruct (S r I) as (U & _ & _ & Si & So).
    unfold store_resource. destruct (String.eqb_spec (t_urn r) ""); [contradiction|].
    assert (P : forall d place, storable (PObj d) -> (forall place t, exists c, enc place t = Ok c) \/ calm (PObj d) -> exists ws, store_properties json enc show place d = Ok ws).
    { intros d place Sd Td. destruct (value_stored (PObj d) Sd enc place Td) as [w W]. cbn [store] in W.
      unfold store_properties. destruct (imap _ 0 d); cbn in W; [eauto|discriminate]. }
    destruct (P _ [0; i] Si) as [wi ->]; [|destruct (P _ [1; i] So) as [wo ->]]; cbn; eauto;
      (destruct T as [T|T]; [now left|right; rewrite Forall_forall in T; apply (T r I)]).
  Qed.
  Lemma deployment_stored rs enc : Forall storable_resource rs -> (forall place t, exists c, enc place t = Ok c) ->
    exists ss, store_deployment json enc show rs = Ok ss.
  Proof using. intros S T. apply deployment_stored_gen; auto. Qed.
End State.

(* ------------------------------------------------------------------ *)

(** What is stored depends on secrets by their ciphertexts only. *)
Section Hidden.
  Variable json : wire -> string.
  Variable f : list nat -> res string.
  Let enc (place : list nat) (_ : string) : res string := f place.
  Lemma imap_alike {A A' B} (R : A -> A' -> Prop) (g : nat -> A -> res B) (g' : nat -> A' -> res B) l l' :
    Forall2 R l l' -> (forall x x' n y y', In x l -> R x x' -> g n x = Ok y -> g' n x' = Ok y' -> y = y') ->
    forall n ys ys', imap g n l = Ok ys -> imap g' n l' = Ok ys' -> ys = ys'.
  Proof using.
    intros F H. induction F as [|x x' l l' Rx F IH]; cbn; intros n ys ys'; [congruence|].
    destruct (g n x) as [y|] eqn:Y; cbn; [|discriminate]. destruct (imap g (S n) l) as [zs|] eqn:Z; cbn; [|discriminate]. intros [= <-].
    destruct (g' n x') as [y'|] eqn:Y'; cbn; [|discriminate]. destruct (imap g' (S n) l') as [zs'|] eqn:Z'; cbn; [|discriminate]. intros [= <-].
    f_equal; [exact (H _ _ _ _ _ (or_introl eq_refl) Rx Y Y')|].
    apply (IH (fun x x' n y y' I => H x x' n y y' (or_intror I)) (S n)); auto.
  Qed.
  Lemma value_hidden p : forall p' place w w', alike p p' ->
    store json enc false place p = Ok w -> store json enc false place p' = Ok w' -> w = w'.
  Proof.
    induction p as [| | | |l IH|d IH|h t p u|h p u|h d p u IH|e IH|e IH|e k s d IH|u i v] using prop_ind;
      intros p' place w w' A W W'; try (inv A; congruence).
    - inv A; [congruence|]. cbn [store] in W, W'.
      destruct (imap _ 0 l) as [ws|] eqn:Ws; cbn [rbind] in W; [|discriminate]. injection W as <-.
      destruct (imap _ 0 l') as [ws'|] eqn:Ws'; cbn [rbind] in W'; [|discriminate]. injection W' as <-.
      f_equal. rewrite Forall_forall in IH. 
      refine (imap_alike alike _ _ l l' ltac:(assumption) _ 0 ws ws' Ws Ws').
      intros x x' n y y' I Rx Y Y'. exact (IH _ I _ _ _ _ Rx Y Y').
    - inv A; [congruence|]. cbn [store] in W, W'.
      destruct (imap _ 0 d) as [ws|] eqn:Ws; cbn [rbind] in W; [|discriminate]. injection W as <-.
      destruct (imap _ 0 d') as [ws'|] eqn:Ws'; cbn [rbind] in W'; [|discriminate]. injection W' as <-.
      f_equal. rewrite Forall_forall in IH.
      refine (imap_alike _ _ _ d d' ltac:(eassumption) _ 0 ws ws' Ws Ws').
      intros [k x] [k' x'] n y y' I [Rk Rx] Y Y'. cbn in Rk, Rx, Y, Y'. subst k'.
      destruct (store json enc false (n :: place) x) as [z|] eqn:Z; cbn in Y; [|discriminate].
      destruct (store json enc false (n :: place) x') as [z'|] eqn:Z'; cbn in Y'; [|discriminate].
      injection Y as <-. injection Y' as <-. f_equal. exact (IH _ I _ _ _ _ Rx Z Z').
    - assert (exists e', p' = PSecret e') as [e' ->] by (inv A; eauto). clear A.
      cbn [store] in W, W'.
      destruct (store json nop false (0 :: place) e); cbn [rbind] in W; [|discriminate].
      destruct (store json nop false (0 :: place) e'); cbn [rbind] in W'; [|discriminate].
      unfold enc in *. congruence.
  Qed.
  Lemma deployment_hidden rs rs' ss ss' : Forall2 alike_resources rs rs' ->
    store_deployment json enc false rs = Ok ss -> store_deployment json enc false rs' = Ok ss' -> ss = ss'.
  Proof.
    intros F W W'. refine (imap_alike alike_resources _ _ rs rs' F _ 0 ss ss' W W').
    intros r r' i s s' _ (U & T & C & Id & Re & Ai & Ao) X X'. unfold store_resource in X, X'.
    rewrite <- U, <- T, <- C, <- Id, <- Re in X'. destruct (String.eqb (t_urn r) ""); [discriminate|].
    destruct (store_properties json enc false [0; i] (t_inputs r)) as [wi|] eqn:Wi; cbn [rbind] in X; [|discriminate].
    destruct (store_properties json enc false [1; i] (t_outputs r)) as [wo|] eqn:Wo; cbn [rbind] in X; [|discriminate].
    destruct (store_properties json enc false [0; i] (t_inputs r')) as [wi'|] eqn:Wi'; cbn [rbind] in X'; [|discriminate].
    destruct (store_properties json enc false [1; i] (t_outputs r')) as [wo'|] eqn:Wo'; cbn [rbind] in X'; [|discriminate].
    apply properties_store in Wi, Wo, Wi', Wo'.
    assert (WStruct wi = WStruct wi') as [= <-] by exact (value_hidden _ _ _ _ _ Ai Wi Wi').
    assert (WStruct wo = WStruct wo') as [= <-] by exact (value_hidden _ _ _ _ _ Ao Wo Wo').
    congruence.
  Qed.
End Hidden.

(* ------------------------------------------------------------------ *)

(** Ciphertexts from the cache. *)
Definition call_ok (dec : string -> res string) (call : crypt_call) : Prop :=
  match call with
  | CEncrypt _ p fresh => forall c, fresh p = Ok c -> dec c = Ok p
  | CInsert _ p c => dec c = Ok p
  end.
Lemma cache_right dec calls : forall cache, (forall s p c, cache_get cache s = Some (p, c) -> dec c = Ok p) ->
  Forall (call_ok dec) calls -> forall p c, In (p, c) (crypt_run cache calls) -> dec c = Ok p.
Proof.
  assert (Ins : forall cache s p c, (forall s p c, cache_get cache s = Some (p, c) -> dec c = Ok p) -> dec c = Ok p ->
    forall s' p' c', cache_get (cache_insert cache s p c) s' = Some (p', c') -> dec c' = Ok p').
  { intros cache s p c I D s' p' c' G. unfold cache_get, cache_insert in G. cbn [find fst] in G.
    destruct (Nat.eqb s s'); [injection G as <- <-; exact D|]. exact (I s' p' c' G). }
  induction calls as [|call calls IH]; intros cache I F p c; [intros []|]. inv F. destruct call as [s q fresh|s q ct]; cbn in *.
  - destruct (encrypt_secret cache fresh s q) as [[ct|] cache'] eqn:X; unfold encrypt_secret in X.
    + assert (dec ct = Ok q /\ forall s p c, cache_get cache' s = Some (p, c) -> dec c = Ok p) as [D I'].
      { destruct (cache_get cache s) as [[p0 c0]|] eqn:G; [destruct (String.eqb_spec p0 q) as [->|]|].
        - injection X as <- <-. split; [exact (I _ _ _ G)|exact I].
        - destruct (fresh q) as [c1|] eqn:Fq; injection X; [intros <- <-; eauto|discriminate].
        - destruct (fresh q) as [c1|] eqn:Fq; injection X; [intros <- <-; eauto|discriminate]. }
      intros [[= <- <-]|In_]; [exact D|]. exact (IH _ I' ltac:(assumption) p c In_).
    + assert (cache' = cache) as ->.
      { destruct (cache_get cache s) as [[p0 c0]|] eqn:G; [destruct (String.eqb_spec p0 q) as [->|]|]; try discriminate;
          destruct (fresh q); congruence. }
      eauto.
  - eauto.
Qed.

(* ------------------------------------------------------------------ *)

(** A way of writing documents that meets [json_reads], to show that there is
    one. *)
Fixpoint toy_text (s rest : string) : string :=
  match s with EmptyString => String "e" rest | String a s' => String "c" (String a (toy_text s' rest)) end.
Fixpoint toy_nat (n : nat) (rest : string) : string :=
  match n with O => String "." rest | S n' => String "1" (toy_nat n' rest) end.
Fixpoint toy (w : wire) (rest : string) : string :=
  match w with
  | WNull => String "n" rest
  | WBool true => String "t" rest
  | WBool false => String "f" rest
  | WNum z => String (if Z.ltb z 0 then "-" else "+") (toy_nat (Z.abs_nat z) rest)
  | WStr s => String "s" (toy_text s rest)
  | WList l => String "[" (fold_right (fun x r => String "," (toy x r)) (String "]" rest) l)
  | WStruct d => String "{" (fold_right (fun kv r => String "," (toy_text (fst kv) (toy (snd kv) r))) (String "}" rest) d)
  end.
Fixpoint yot_text (s : string) : option (string * string) :=
  match s with
  | String "e" r => Some ("", r)
  | String "c" (String a r) => match yot_text r with Some (t, r') => Some (String a t, r') | None => None end
  | _ => None
  end.
Fixpoint yot_nat (s : string) : option (nat * string) :=
  match s with
  | String "." r => Some (0, r)
  | String "1" r => match yot_nat r with Some (n, r') => Some (S n, r') | None => None end
  | _ => None
  end.
Fixpoint yot (n : nat) (s : string) : option (wire * string) :=
  match n with
  | O => None
  | S n =>
      match s with
      | String "n" r => Some (WNull, r)
      | String "t" r => Some (WBool true, r)
      | String "f" r => Some (WBool false, r)
      | String "+" r => match yot_nat r with Some (k, r) => Some (WNum (Z.of_nat k), r) | None => None end
      | String "-" r => match yot_nat r with Some (k, r) => Some (WNum (- Z.of_nat k), r) | None => None end
      | String "s" r => match yot_text r with Some (t, r) => Some (WStr t, r) | None => None end
      | String "[" r => match yot_list n r with Some (l, r) => Some (WList l, r) | None => None end
      | String "{" r => match yot_dict n r with Some (d, r) => Some (WStruct d, r) | None => None end
      | _ => None
      end
  end
with yot_list (n : nat) (s : string) : option (list wire * string) :=
  match n with
  | O => None
  | S n =>
      match s with
      | String "]" r => Some ([], r)
      | String "," r => match yot n r with
                        | Some (x, r) => match yot_list n r with Some (l, r) => Some (x :: l, r) | None => None end
                        | None => None
                        end
      | _ => None
      end
  end
with yot_dict (n : nat) (s : string) : option (list (string * wire) * string) :=
  match n with
  | O => None
  | S n =>
      match s with
      | String "}" r => Some ([], r)
      | String "," r => match yot_text r with
                        | Some (k, r) =>
                            match yot n r with
                            | Some (x, r) => match yot_dict n r with Some (d, r) => Some ((k, x) :: d, r) | None => None end
                            | None => None
                            end
                        | None => None
                        end
      | _ => None
      end
  end.
Lemma yot_toy_text s rest : yot_text (toy_text s rest) = Some (s, rest).
Proof. induction s as [|a s IH]; cbn; auto. now rewrite IH. Qed.
Lemma yot_toy_nat k rest : yot_nat (toy_nat k rest) = Some (k, rest).
Proof. induction k as [|k IH]; cbn; auto. now rewrite IH. Qed.
Lemma toy_text_len s rest : String.length rest < String.length (toy_text s rest).
Proof. induction s; cbn; lia. Qed.
Lemma toy_nat_len k rest : String.length rest < String.length (toy_nat k rest).
Proof. induction k; cbn; lia. Qed.
Lemma toy_len w : forall rest, String.length rest < String.length (toy w rest).
Proof.
  induction w as [|[]|z|s|l IH|d IH] using wire_ind'; intros rest; cbn; try lia.
  - pose proof (toy_nat_len (Z.abs_nat z) rest). lia.
  - pose proof (toy_text_len s rest). lia.
  - enough (String.length rest < String.length (fold_right (fun x r => String "," (toy x r)) (String "]" rest) l)) by lia.
    induction IH as [|x l Hx _ IHl]; cbn; [lia|]. specialize (Hx (fold_right (fun x r => String "," (toy x r)) (String "]" rest) l)). lia.
  - match goal with |- _ < S (String.length ?t) => enough (String.length rest < String.length t) by lia end.
    induction IH as [|[k x] d Hx _ IHd]; cbn; [lia|]. cbn in Hx.
    match goal with |- context [toy x ?t] => specialize (Hx t) end.
    match goal with |- context [toy_text k ?t] => pose proof (toy_text_len k t) end. lia.
Qed.
Lemma yot_toy w : forall n rest, String.length (toy w rest) <= n -> yot n (toy w rest) = Some (w, rest).
Proof.
  induction w as [|[]|z|s|l IH|d IH] using wire_ind'; intros n rest L; destruct n as [|n]; try (cbn in L; lia); try reflexivity.
  - cbn. destruct (Z.ltb_spec z 0); cbn; rewrite yot_toy_nat; do 3 f_equal; lia.
  - cbn. now rewrite yot_toy_text.
  - cbn [toy] in *. cbn [yot]. cbn in L.
    assert (G : yot_list n (fold_right (fun x r => String "," (toy x r)) (String "]" rest) l) = Some (l, rest)).
    { assert (L' : String.length (fold_right (fun x r => String "," (toy x r)) (String "]" rest) l) <= n) by lia. clear L. revert n L'.
      induction IH as [|x l Hx _ IHl]; cbn; intros n L; (destruct n as [|n]; [lia|]); [reflexivity|]. cbn.
      rewrite Hx by lia. rewrite IHl; [reflexivity|].
      pose proof (toy_len x (fold_right (fun x r => String "," (toy x r)) (String "]" rest) l)). lia. }
    now rewrite G.
  - cbn [toy] in *. cbn [yot]. cbn in L.
    assert (G : yot_dict n (fold_right (fun kv r => String "," (toy_text (fst kv) (toy (snd kv) r))) (String "}" rest) d) = Some (d, rest)).
    { match type of L with S (String.length ?t) <= _ => assert (L' : String.length t <= n) by lia end. clear L. revert n L'.
      induction IH as [|[k x] d Hx _ IHl]; cbn; intros n L; (destruct n as [|n]; [lia|]); [reflexivity|]. cbn in *.
      rewrite yot_toy_text.
      match type of L with context [toy x ?t] => pose proof (toy_len x t) end.
      match type of L with context [toy_text k ?t] => pose proof (toy_text_len k t) end.
      rewrite Hx by lia. rewrite IHl by lia. reflexivity. }
    now rewrite G.
Qed.
Definition toy_json (w : wire) : string := toy w "".
Definition toy_unjson (s : string) : res wire :=
  match yot (String.length s) s with Some (w, "") => Ok w | _ => Err (Exn "" "invalid character") end.
Lemma toy_reads : json_reads toy_json toy_unjson.
Proof.
  split.
  - intros w. unfold toy_unjson, toy_json. now rewrite yot_toy by reflexivity.
  - intros w. unfold toy_json. pose proof (toy_len w "") as L. split; intros X; [rewrite X in L; cbn in L; lia|].
    destruct w as [|[]|z| | |]; cbn in X; try discriminate. destruct (Z.ltb z 0); discriminate.
Qed.
