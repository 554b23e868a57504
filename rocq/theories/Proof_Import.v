(** Proofs about exporting and importing states. *)
From Verif Require Import Base PyVal Model_Urn Model_Rpc Model_Engine Model_State Spec_State Proof_State Model_Outputs Model_Import Spec_Import.
From Verif Require Spec_Json Spec_Urn Proof_Urn.
From Coq Require Import Lia.
Open Scope string_scope.
Open Scope list_scope.
Notation plain := Spec_Json.plain_data.

Ltac inv H := inversion H; subst; clear H.

(* ------------------------------------------------------------------ *)
Lemma rmap_inv {A B} (f : A -> res B) l vs : rmap f l = Ok vs <-> Forall2 (fun x v => f x = Ok v) l vs.
Proof.
  revert vs. induction l as [|x l IH]; intros vs; cbn.
  - split; [intros [= <-]; constructor|intros H; inv H; auto].
  - split.
    + destruct (f x) eqn:E; cbn; try discriminate. destruct (rmap f l) eqn:E'; cbn; try discriminate.
      intros [= <-]. constructor; auto. now apply IH.
    + intros H. inv H. rewrite H2. cbn. rewrite (proj2 (IH _)) by eauto. reflexivity.
Qed.
Lemma rmap_in {A B} (f : A -> res B) l vs : rmap f l = Ok vs -> forall v, In v vs -> exists x, In x l /\ f x = Ok v.
Proof.
  rewrite rmap_inv. intros H. induction H; cbn; [contradiction|]. intros v [<-|I]; [eauto|].
  destruct (IHForall2 v I) as (x0 & ? & ?). eauto.
Qed.
Lemma rmap_keys {A B} (f : A -> res B) (d : dict A) d' : rmap (fun kv => let+ w := f (snd kv) in Ok (fst kv, w)) d = Ok d' -> map fst d' = map fst d.
Proof.
  rewrite rmap_inv. intros H. induction H as [|[k x] y ? ? E]; cbn; [reflexivity|]. cbn [fst snd] in E.
  destruct (f x); cbn in E; [|discriminate]. injection E as <-. cbn. now f_equal.
Qed.
Lemma dget_app {V} (a b : dict V) k : dget (a ++ b) k = match dget a k with Some v => Some v | None => dget b k end.
Proof. induction a as [|[k0 v0] a IH]; cbn; [reflexivity|]. destruct (String.eqb k k0); auto. Qed.

(** Documents and wires. *)
Lemma parsed_printed w : parsed (printed w) = Ok w.
Proof.
  induction w as [| | | |l IH|d IH] using wire_ind'; cbn; try reflexivity.
  - assert (E : rmap parsed (map printed l) = Ok l).
    { induction IH as [|x l Hx Hl IHl]; cbn; [reflexivity|]. rewrite Hx. cbn. now rewrite IHl. }
    now rewrite E.
  - assert (E : rmap (fun kv => let+ w := parsed (snd kv) in Ok (fst kv, w)) (map (fun kv => (fst kv, printed (snd kv))) d) = Ok d).
    { induction IH as [|[k x] l Hx Hl IHl]; cbn; [reflexivity|]. cbn [snd] in Hx. rewrite Hx. cbn. now rewrite IHl. }
    now rewrite E.
Qed.
Fixpoint parsed_inv (v : pyval) : forall w, parsed v = Ok w -> printed w = v.
Proof.
  destruct v; intros w H; cbn in H; try discriminate; try (injection H as <-; reflexivity).
  - destruct (rmap parsed l) as [ws|] eqn:E; cbn in H; [|discriminate]. injection H as <-. cbn. f_equal.
    revert ws E. induction l as [|x l IH]; cbn; intros ws E; [now injection E as <-|].
    destruct (parsed x) as [y|] eqn:Y; cbn in E; [|discriminate]. destruct (rmap parsed l) as [ys|]; cbn in E; [|discriminate].
    injection E as <-. cbn. f_equal; [now apply parsed_inv|now apply IH].
  - destruct (rmap _ d) as [ws|] eqn:E; cbn in H; [|discriminate]. injection H as <-. cbn. f_equal.
    revert ws E. induction d as [|[k x] l IH]; cbn; intros ws E; [now injection E as <-|].
    destruct (parsed x) as [y|] eqn:Y; cbn in E; [|discriminate].
    destruct (rmap _ l) as [ys|] eqn:Ys; cbn in E; [|discriminate].
    injection E as <-. cbn. f_equal; [f_equal; now apply parsed_inv|now apply IH].
Qed.
Lemma object_printed o ws : rmap (fun kv => let+ w := parsed (snd kv) in Ok (fst kv, w)) o = Ok ws -> printed (WStruct ws) = VDict o.
Proof. intros H. apply parsed_inv. cbn. rewrite H. reflexivity. Qed.
Lemma plain_struct d : plain (printed (WStruct d)) <-> NoDup (map fst d) /\ Forall (fun kv => plain (printed (snd kv))) d.
Proof.
  cbn. split.
  - intros H. inv H. rewrite map_map in *. cbn [fst] in *. split; [exact H1|]. rewrite Forall_map in H2. exact H2.
  - intros [N F]. constructor; [now rewrite map_map|]. rewrite Forall_map. exact F.
Qed.
Lemma plain_list l : plain (printed (WList l)) <-> Forall (fun w => plain (printed w)) l.
Proof. cbn. split; [intros H; inv H; now rewrite Forall_map in H1|intros H; constructor; now rewrite Forall_map]. Qed.

(* ------------------------------------------------------------------ *)
(** What is read can be stored. *)
Inductive neat : pval -> Prop :=
| Ne_null : neat PNull
| Ne_bool b : neat (PBool b)
| Ne_num z : neat (PNum z)
| Ne_str s : neat (PStr s)
| Ne_arr l : Forall neat l -> neat (PArr l)
| Ne_obj d : NoDup (map fst d) -> Forall (fun kv => neat (snd kv)) d -> neat (PObj d)
| Ne_asset h t p u : neat (PAsset h t p u)
| Ne_archive h p u : neat (PArchive h None p u)
| Ne_archive_of h d p u : NoDup (map fst d) -> Forall (fun kv => neat (snd kv)) d -> neat (PArchive h (Some d) p u)
| Ne_computed e : neat (PComputed e)
| Ne_secret e : neat (PSecret e)
| Ne_output e k s d : neat (POutput e k s d)
| Ne_ref u i v : neat (PRef u i v).

Section Load.
  Variable json : wire -> string.
  Variable unjson : string -> res wire.
  Variable again : string -> res string.

  Lemma field_text (obj : dict pval) k s : Forall (fun kv => storable (snd kv)) obj -> go_string_field obj k = Ok s -> s <> mark.
  Proof using.
    intros F. unfold go_string_field. destruct (dget obj k) as [v|] eqn:E; [|intros [= <-]; discriminate].
    apply dget_In in E. rewrite Forall_forall in F. specialize (F _ E). cbn in F. destruct v; try discriminate. intros [= <-]. now inv F.
  Qed.
  Lemma object_ok inner dec (obj : dict pval) p n :
    Forall (fun kv => storable (snd kv) /\ nesting (snd kv) <= n) obj ->
    (forall text q, inner text = Ok q -> storable q /\ S (nesting q) <= n) ->
    load_object inner dec again obj = Ok p ->
    storable p /\ nesting p <= n /\ (NoDup (map fst obj) /\ Forall (fun kv => neat (snd kv)) obj -> neat p) /\
    ((forall t c, dec t <> Ok c) -> (forall t c, again t <> Ok c) -> Forall (fun kv => calm (snd kv)) obj -> calm p).
  Proof using.
    intros F I. assert (Fs : Forall (fun kv => storable (snd kv)) obj) by (eapply Forall_impl; [|exact F]; cbn; tauto).
    assert (Str : forall k s, dget obj k = Some (PStr s) -> s <> mark).
    { intros k s E. apply dget_In in E. rewrite Forall_forall in Fs. specialize (Fs _ E). cbn in Fs. now inv Fs. }
    unfold load_object. destruct (dget obj go_SigKey) as [v|] eqn:Ek.
    2:{ intros [= <-]. split; [|split; [|split]].
        - constructor; [exact Fs|]. intros K. apply in_map_iff in K as ([k v] & Ek' & Iv). cbn in Ek'. subst k.
          apply dget_None in Ek. apply Ek. apply in_map_iff. exists (kind_key, v). now split.
        - cbn [nesting]. apply list_max_le. rewrite Forall_map. eapply Forall_impl; [|exact F]. cbn. tauto.
        - intros [N Ne]. now constructor.
        - intros _ _ C. now constructor 2. }
    destruct v; try discriminate. destruct (String.eqb s go_AssetSig); [|destruct (String.eqb s go_ArchiveSig); [|destruct (String.eqb s go_SecretSig); [|destruct (String.eqb s go_ResourceReferenceSig); [|discriminate]]]].
    - destruct (go_string_field obj "hash") as [h|] eqn:Eh; cbn [rbind]; [|discriminate]. destruct (go_string_field obj "text") as [t|] eqn:Et; cbn [rbind]; [|discriminate].
      destruct (go_string_field obj "path") as [pa|] eqn:Ep; cbn [rbind]; [|discriminate]. destruct (go_string_field obj "uri") as [u|] eqn:Eu; cbn [rbind]; [|discriminate].
      intros [= <-]. split; [constructor; repeat apply Forall_cons; eauto using field_text|split; [cbn; lia|split; [constructor|intros _ _ _; now constructor 3]]].
    - destruct (go_string_field obj "hash") as [h|] eqn:Eh; cbn [rbind]; [|discriminate]. destruct (archive_members (dget obj "assets")) as [ms|] eqn:Et; cbn [rbind]; [|discriminate].
      destruct (go_string_field obj "path") as [pa|] eqn:Ep; cbn [rbind]; [|discriminate]. destruct (go_string_field obj "uri") as [u|] eqn:Eu; cbn [rbind]; [|discriminate].
      intros [= <-]. assert (Ft : Forall (fun s => s <> mark) [h; pa; u]) by (repeat apply Forall_cons; eauto using field_text).
      unfold archive_members in Et. destruct (dget obj "assets") as [a|] eqn:Ea.
      + destruct a; try discriminate.
        * injection Et as <-. split; [constructor; auto; cbn; tauto|split; [cbn; lia|split; [intros _; constructor; constructor|intros _ _ _; now constructor 3]]].
        * destruct (forallb _ d) eqn:M; [|discriminate]. injection Et as <-. apply dget_In in Ea.
          rewrite Forall_forall in Fs. pose proof (Fs _ Ea) as Sa. cbn in Sa. inv Sa. split; [|split; [cbn; lia|split; [|intros _ _ _; now constructor 3]]].
          -- constructor; auto. rewrite forallb_forall in M. rewrite Forall_forall. intros kv Ikv. specialize (M _ Ikv). destruct (snd kv); try discriminate; exact Logic.I.
          -- intros [_ Ne]. rewrite Forall_forall in Ne. specialize (Ne _ Ea). cbn in Ne. inv Ne. now constructor.
      + injection Et as <-. split; [now constructor|split; [cbn; lia|split; [constructor|intros _ _ _; now constructor 3]]].
    - destruct (text_of obj "ciphertext") as [c|], (text_of obj "plaintext") as [t|]; try discriminate.
      + destruct (dec c) as [x|] eqn:Ex; cbn [rbind]; [|discriminate]. destruct (inner x) as [q|] eqn:Q; cbn [rbind]; [|discriminate]. intros [= <-].
        destruct (I _ _ Q) as [A B]. split; [now constructor|split; [cbn; lia|split; [constructor|intros D _ _; now destruct (D _ _ Ex)]]].
      + destruct (again t) as [x|] eqn:Ex; cbn [rbind]; [|discriminate]. destruct (inner t) as [q|] eqn:Q; cbn [rbind]; [|discriminate]. intros [= <-].
        destruct (I _ _ Q) as [A B]. split; [now constructor|split; [cbn; lia|split; [constructor|intros _ D _; now destruct (D _ _ Ex)]]].
    - set (version := match dget obj "packageVersion" with Some (PStr s0) => Ok s0 | Some _ => _ | None => _ end).
      destruct version as [ver|] eqn:Ev; cbn [rbind]; [|discriminate].
      assert (Vm : ver <> mark).
      { subst version. destruct (dget obj "packageVersion") as [[]|] eqn:Ed; try discriminate Ev; injection Ev as <-; [eauto|discriminate]. }
      destruct (dget obj "urn") as [[]|] eqn:Eu; try discriminate.
      assert (Um : s0 <> mark) by eauto.
      assert (C : forall id, id <> mark -> storable (custom_ref s0 id ver) /\ nesting (custom_ref s0 id ver) <= n /\ (NoDup (map fst obj) /\ Forall (fun kv => neat (snd kv)) obj -> neat (custom_ref s0 id ver)) /\ ((forall t c, dec t <> Ok c) -> (forall t c, again t <> Ok c) -> Forall (fun kv => calm (snd kv)) obj -> calm (custom_ref s0 id ver))).
      { intros id Hid. unfold custom_ref. destruct (String.eqb_spec id ""); (split; [now constructor|split; [cbn; lia|split; [constructor|intros _ _ _; now constructor 3]]]). }
      destruct (dget obj "id") as [i|] eqn:Ei.
      + destruct i; try discriminate.
        * intros [= <-]. eapply C. eauto.
        * apply dget_In in Ei. rewrite Forall_forall in Fs. pose proof (Fs _ Ei) as Sd. cbn in Sd. inv Sd.
          destruct (dget d "V") as [[]|] eqn:E2; try discriminate; intros [= <-];
            first [apply C; discriminate | split; [now constructor|split; [cbn; lia|split; [constructor|intros _ _ _; now constructor 3]]] | apply C; apply dget_In in E2; rewrite Forall_forall in H0; specialize (H0 _ E2); cbn in H0; now inv H0].
      + intros [= <-]. split; [now constructor|split; [cbn; lia|split; [constructor|intros _ _ _; now constructor 3]]].
  Qed.

  Lemma load_ok n : forall dec w p, load unjson again n dec w = Ok p -> storable p /\ nesting p <= n /\ (plain (printed w) -> neat p) /\
    ((forall t c, dec t <> Ok c) -> (forall t c, again t <> Ok c) -> calm p).
  Proof using.
    induction n as [n IHn] using (well_founded_induction lt_wf). intros dec w.
    induction w as [| | | |l IH|d IH] using wire_ind'; intros p H.
    - destruct n; injection H as <-; (split; [constructor|split; [cbn; lia|split; [constructor|now constructor 3]]]).
    - destruct n; injection H as <-; (split; [constructor|split; [cbn; lia|split; [constructor|now constructor 3]]]).
    - destruct n; injection H as <-; (split; [constructor|split; [cbn; lia|split; [constructor|now constructor 3]]]).
    - assert (E : p = if String.eqb s placeholder then PComputed (PStr "") else PStr s) by (destruct n; cbn in H; congruence).
      subst p. destruct (String.eqb_spec s placeholder); (split; [constructor; try exact n0|split; [cbn; lia|split; [constructor|now constructor 3]]]).
    - rewrite load_list in H. destruct (rmap _ l) as [ps|] eqn:E; cbn [rbind] in H; [|discriminate]. injection H as <-.
      apply rmap_inv in E. 
      assert (K : Forall (fun p => storable p /\ nesting p <= n) ps /\ (Forall (fun w => plain (printed w)) l -> Forall neat ps) /\
        ((forall t c, dec t <> Ok c) -> (forall t c, again t <> Ok c) -> Forall calm ps)).
      { clear -E IH. induction E as [|x y l ps Ex E IHE]; [repeat split; constructor|]. inv IH. destruct (IHE H2) as (A & B & C). destruct (H1 _ Ex) as (A1 & A2 & A3 & A4).
        split; [constructor; auto|]. split; [intros F; inv F; constructor; auto|]. intros D1 D2. constructor; auto. }
      destruct K as (K1 & K2 & K3). split; [|split; [|split]].
      + constructor. eapply Forall_impl; [|exact K1]. cbn; tauto.
      + cbn [nesting]. apply list_max_le. rewrite Forall_map. eapply Forall_impl; [|exact K1]. cbn; tauto.
      + rewrite plain_list. intros F. constructor. auto.
      + intros D1 D2. constructor 1. auto.
    - rewrite load_struct in H. destruct (rmap _ d) as [obj|] eqn:E; cbn [rbind] in H; [|discriminate].
      pose proof (rmap_keys (load unjson again n dec) d obj E) as Kobj. apply rmap_inv in E.
      assert (K : Forall (fun kv => storable (snd kv) /\ nesting (snd kv) <= n) obj /\ (Forall (fun kv => plain (printed (snd kv))) d -> Forall (fun kv => neat (snd kv)) obj) /\
        ((forall t c, dec t <> Ok c) -> (forall t c, again t <> Ok c) -> Forall (fun kv => calm (snd kv)) obj)).
      { clear -E IH. induction E as [|[k x] y l ps Ex E IHE]; [repeat split; constructor|]. inv IH. destruct (IHE H2) as (A & B & C). cbn [fst snd] in *.
        destruct (load unjson again n dec x) as [q|] eqn:Q; cbn [rbind] in Ex; [|discriminate]. injection Ex as <-. destruct (H1 _ eq_refl) as (A1 & A2 & A3 & A4).
        split; [constructor; auto|]. split; [intros F; inv F; constructor; auto|]. intros D1 D2. constructor; auto. }
      destruct K as (K1 & K2 & K3). apply object_ok with (n := n) in H; [|exact K1|].
      + destruct H as (A & B & C & D). split; [exact A|split; [exact B|split]]; [|auto]. rewrite plain_struct. intros [N F]. apply C. rewrite Kobj. auto.
      + intros text q. destruct (unjson text) as [el|]; cbn [rbind]; [|discriminate]. destruct n as [|m]; [discriminate|].
        intros Q. destruct (IHn m ltac:(lia) _ _ _ Q) as (A & B & _). split; [exact A|lia].
  Qed.
End Load.

(* ------------------------------------------------------------------ *)
(** What is stored is a document, and its secrets are as asked for. *)
Definition text_name (show : bool) : string := if show then "plaintext" else "ciphertext".
Definition fine (show : bool) (v : pyval) : Prop := plain v /\ forall d, secret_in d v -> map fst d = [kind_key; text_name show].
Lemma part_dict d e : part (VDict d) (VDict e) -> d = e \/ exists k x, In (k, x) e /\ part (VDict d) x.
Proof. intros H. inv H; eauto. Qed.
Lemma fine_dict show e : NoDup (map fst e) -> Forall (fun kv => fine show (snd kv)) e ->
  (dget e kind_key = Some (VStr "1b47061264138c4ac30d75fd1eb44270") -> map fst e = [kind_key; text_name show]) -> fine show (VDict e).
Proof.
  intros N F K. split.
  - constructor; [exact N|]. eapply Forall_impl; [|exact F]. intros kv H. apply H.
  - intros d [P S]. apply part_dict in P as [->|(k & x & I & P)]; [auto|]. rewrite Forall_forall in F. apply (proj2 (F _ I)). now split.
Qed.
Lemma fine_list show l : Forall (fine show) l -> fine show (VList l).
Proof.
  intros F. split.
  - constructor. eapply Forall_impl; [|exact F]. intros x H. apply H.
  - intros d [P S]. inv P. rewrite Forall_forall in F. apply (proj2 (F _ H0)). now split.
Qed.
Lemma fine_str show s : fine show (VStr s).
Proof. split; [constructor|]. intros d [P _]. inv P. Qed.
Lemma fine_bool show b : fine show (VBool b).
Proof. split; [constructor|]. intros d [P _]. inv P. Qed.
Lemma fine_num show z : fine show (VNum z).
Proof. split; [constructor|]. intros d [P _]. inv P. Qed.
Lemma fine_none show : fine show VNone.
Proof. split; [constructor|]. intros d [P _]. inv P. Qed.
Lemma not_kind {A} (e : dict A) : ~ In kind_key (map fst e) -> dget e kind_key = None.
Proof. apply key_free_in. Qed.
Lemma printed_keys (d : dict wire) : map fst (map (fun kv => (fst kv, printed (snd kv))) d) = map fst d.
Proof. rewrite map_map. reflexivity. Qed.

Fixpoint distinct (ks : list string) : bool := match ks with [] => true | k :: ks' => negb (smem k ks') && distinct ks' end.
Lemma NoDup_fields (ks : list string) : distinct ks = true -> NoDup ks.
Proof.
  induction ks as [|k ks IH]; cbn; [constructor|]. intros H. apply andb_prop in H as [A B]. constructor; auto.
  intros I. apply smem_In in I. now rewrite I in A.
Qed.

Lemma asset_fine show p : storable p -> neat p -> is_asset_or_archive p -> forall w, store_asset p = Ok w -> fine show (printed w).
Proof.
  induction p as [| | | | | |h t p u|h p u|h d p u IH| | | |] using prop_ind; intros S Ne A w W; try contradiction.
  - injection W as <-. cbn [printed]. unfold go_field.
    destruct (String.eqb h ""), (String.eqb t ""), (String.eqb p ""), (String.eqb u ""); cbn [app map fst snd printed];
      (apply fine_dict; [apply NoDup_fields; now vm_compute|repeat (apply Forall_cons; [apply fine_str|]); apply Forall_nil|discriminate]).
  - injection W as <-. cbn [printed]. unfold go_field.
    destruct (String.eqb h ""), (String.eqb p ""), (String.eqb u ""); cbn [app map fst snd printed];
      (apply fine_dict; [apply NoDup_fields; now vm_compute|repeat (apply Forall_cons; [apply fine_str|]); apply Forall_nil|discriminate]).
  - inv S. inv Ne. cbn [store_asset] in W. destruct (rmap _ d) as [ws|] eqn:Ws; cbn [rbind] in W; [|discriminate]. injection W as <-.
    assert (K : map fst ws = map fst d).
    { eapply rmap_keys. exact Ws. }
    assert (Fw : fine show (printed (WStruct ws))).
    { cbn [printed]. apply fine_dict; rewrite ?printed_keys, ?K; auto.
      - rewrite Forall_map. cbn [snd]. rewrite Forall_forall in *. intros kw Ikw. destruct (rmap_in _ _ _ Ws _ Ikw) as ([k x] & Ix & X). cbn [fst snd] in X.
        destruct (store_asset x) as [y|] eqn:Y; cbn in X; [|discriminate]. injection X as <-. cbn [snd].
        apply (IH _ Ix ltac:(auto) ltac:(auto) ltac:(auto) _ Y).
      - rewrite not_kind by (rewrite printed_keys, K; assumption). discriminate. }
    cbn [printed]. unfold go_field. cbn [printed] in Fw.
    destruct (String.eqb h ""), (String.eqb p ""), (String.eqb u ""); cbn [app map fst snd printed];
      (apply fine_dict; [apply NoDup_fields; now vm_compute|repeat (apply Forall_cons; [first [apply fine_str | exact Fw]|]); apply Forall_nil|discriminate]).
Qed.

Lemma store_fine json show p : (forall w, json w <> "") -> storable p -> neat p -> forall enc at_ w, (forall place t c, enc place t = Ok c -> c <> "") ->
  store json enc show at_ p = Ok w -> fine show (printed w).
Proof.
  intros J. induction p as [| | | |l IH|d IH|h t p u|h p u|h d p u IH|e IH|e IH|e k s d IH|u i v] using prop_ind; intros S Ne enc at_ w En W.
  - injection W as <-. apply fine_none.
  - injection W as <-. apply fine_bool.
  - injection W as <-. apply fine_num.
  - injection W as <-. apply fine_str.
  - inv S. inv Ne. cbn [store] in W. destruct (imap _ 0 l) as [ws|] eqn:Ws; cbn [rbind] in W; [|discriminate]. injection W as <-.
    cbn [printed]. apply fine_list. rewrite Forall_map. rewrite Forall_forall in *. intros w Iw. destruct (imap_in _ _ _ _ Ws _ Iw) as (x & n & Ix & X).
    apply (IH x Ix ltac:(auto) ltac:(auto) _ _ _ En X).
  - inv S. inv Ne. cbn [store] in W. destruct (imap _ 0 d) as [ws|] eqn:Ws; cbn [rbind] in W; [|discriminate]. injection W as <-.
    assert (K : map fst ws = map fst d).
    { refine (imap_keys _ d _ 0 ws Ws). intros n [k x] kv'. cbn [fst snd]. destruct (store json enc show (n :: at_) x); cbn; [|discriminate]. now intros [= <-]. }
    cbn [printed]. apply fine_dict; rewrite ?printed_keys, ?K; auto.
    + rewrite Forall_map. cbn [snd]. rewrite Forall_forall in *. intros kw Ikw. destruct (imap_in _ _ _ _ Ws _ Ikw) as ([k x] & n & Ix & X). cbn [fst snd] in X.
      destruct (store json enc show (n :: at_) x) as [y|] eqn:Y; cbn in X; [|discriminate]. injection X as <-. cbn [snd].
      apply (IH _ Ix ltac:(auto) ltac:(auto) _ _ _ En Y).
    + rewrite not_kind by (rewrite printed_keys, K; assumption). discriminate.
  - eapply asset_fine; eauto. exact I.
  - eapply asset_fine; eauto. exact I.
  - eapply asset_fine; eauto. exact I.
  - injection W as <-. apply fine_str.
  - cbn [store] in W. destruct (store json nop show (0 :: at_) e) as [v|]; cbn [rbind] in W; [|discriminate].
    destruct (enc at_ (json v)) as [c|] eqn:C; cbn [rbind] in W; [|discriminate]. injection W as <-.
    assert (N1 := En _ _ _ C). assert (N2 := J v). unfold go_field.
    destruct (String.eqb_spec c ""); [contradiction|]. destruct (String.eqb_spec (json v) ""); [contradiction|].
    destruct show; cbn [printed map fst snd];
      (apply fine_dict; [apply NoDup_fields; now vm_compute|repeat (apply Forall_cons; [apply fine_str|]); apply Forall_nil|reflexivity]).
  - inv S.
  - inv S; injection W as <-; cbn [printed map fst snd];
      (apply fine_dict; [apply NoDup_fields; now vm_compute|repeat (apply Forall_cons; [apply fine_str|]); apply Forall_nil|discriminate]).
Qed.

(* ------------------------------------------------------------------ *)
(** Documents of resources. *)
Inductive canon : list (string * field_kind) -> dict pyval -> Prop :=
| Cn_nil : canon [] []
| Cn_skip f fs rest : canon fs rest -> canon (f :: fs) rest
| Cn_take k kind fs v rest : fits kind v = true -> zero v = false -> canon fs rest -> canon ((k, kind) :: fs) ((k, v) :: rest).
Lemma canon_keys fs rest : canon fs rest -> forall k, In k (map fst rest) -> In k (map fst fs).
Proof. intros H. induction H; cbn; intros k0; [tauto|intuition|]. intros [<-|I]; auto. Qed.
Lemma canon_nodup fs rest : canon fs rest -> NoDup (map fst fs) -> NoDup (map fst rest).
Proof.
  intros H. induction H; cbn; intros N; [constructor|inv N; auto|]. inv N. constructor; auto. intros I. apply H4. eapply canon_keys; eauto.
Qed.
Lemma canon_free fs rest k : canon fs rest -> ~ In k (map fst fs) -> dget rest k = None.
Proof.
  intros C N. destruct (dget rest k) eqn:E; [|reflexivity]. destruct N. eapply canon_keys; [exact C|]. apply dget_In in E. apply in_map_iff. now exists (k, p).
Qed.
Lemma read_rest_canon d fs rest : read_rest d fs = Ok rest -> canon fs rest /\ (forall kv, In kv rest -> In kv d).
Proof.
  revert rest. induction fs as [|[k kind] fs IH]; cbn; intros rest H; [injection H as <-; split; [constructor|contradiction]|].
  destruct (read_rest d fs) as [r|]; cbn [rbind] in H; [|discriminate]. destruct (IH _ eq_refl) as [C I].
  destruct (dget d k) as [v|] eqn:E; [|injection H as <-; split; [now constructor|exact I]].
  assert (K : (if fits kind v then Ok (if zero v then r else (k, v) :: r) else mistyped) = Ok rest \/ v = VNone /\ r = rest).
  { destruct v; auto. right. now injection H as <-. }
  clear H. destruct K as [H|[-> <-]]; [|split; [now constructor|exact I]].
  destruct (fits kind v) eqn:F; [|discriminate]. injection H as <-. destruct (zero v) eqn:Z; [split; [now constructor|exact I]|].
  split; [now constructor|]. intros kv [<-|J]; auto. now apply dget_In.
Qed.
Lemma read_rest_back d fs rest : canon fs rest -> NoDup (map fst fs) -> (forall k, In k (map fst fs) -> dget d k = dget rest k) -> read_rest d fs = Ok rest.
Proof.
  intros C. induction C as [|[k kind] fs rest C IH|k kind fs v rest F Z C IH]; cbn; intros N H; [reflexivity| |].
  - inv N. rewrite IH; auto. cbn [rbind]. rewrite (H k (or_introl eq_refl)), (canon_free _ _ _ C H2). reflexivity.
  - inv N. assert (E : read_rest d fs = Ok rest).
    { apply IH; auto. intros k' I. rewrite (H k' (or_intror I)). cbn. destruct (String.eqb_spec k' k) as [->|]; [contradiction|reflexivity]. }
    rewrite E. cbn [rbind]. rewrite (H k (or_introl eq_refl)). cbn. rewrite String.eqb_refl. rewrite F, Z.
    destruct v; try reflexivity. discriminate.
Qed.
Lemma texts_fine show l : forallb is_text l = true -> Forall (fine show) l.
Proof.
  rewrite forallb_forall, Forall_forall. intros H x I. specialize (H x I). destruct x; try discriminate. apply fine_str.
Qed.
Lemma fits_fine show kind v : fits kind v = true -> plain v -> fine show v.
Proof.
  intros F P. destruct kind, v; try discriminate F.
  - apply fine_bool.
  - apply fine_str.
  - apply fine_list. now apply texts_fine.
  - cbn in F. rewrite forallb_forall in F. inv P. apply fine_dict; auto.
    + rewrite Forall_forall. intros kv I. specialize (F kv I). destruct (snd kv); try discriminate. apply fine_list. now apply texts_fine.
    + intros E. apply dget_In in E. specialize (F _ E). discriminate.
  - cbn in F. rewrite forallb_forall in F. inv P. apply fine_dict; auto.
    + rewrite Forall_forall. intros kv I. specialize (F kv I). destruct (snd kv); try discriminate. apply fine_num.
    + intros E. apply dget_In in E. specialize (F _ E). discriminate.
Qed.
Lemma canon_fine show fs rest : canon fs rest -> Forall (fun kv => plain (snd kv)) rest -> Forall (fun kv => fine show (snd kv)) rest.
Proof. intros C. induction C; intros P; [constructor|auto|]. inv P. constructor; auto. now apply fits_fine with kind. Qed.

(** A stored resource that is written and read. *)
Definition sound_stored (s : stored) : Prop := exists rest, st_rest s = VDict rest /\ canon rest_fields rest /\ Forall (fun kv => plain (snd kv)) rest.
Lemma zero_object (d : dict wire) : zero (printed (WStruct d)) = match d with [] => true | _ => false end.
Proof. now destruct d. Qed.
Lemma object_back (d : dict wire) : rmap (fun kv => let+ w := parsed (snd kv) in Ok (fst kv, w)) (map (fun kv => (fst kv, printed (snd kv))) d) = Ok d.
Proof. pose proof (parsed_printed (WStruct d)) as H. cbn in H. destruct (rmap _ _); cbn in H; [injection H as ->; reflexivity|discriminate]. Qed.
Lemma dget_unless k k' v : dget (unless_zero k v) k' = if zero v then None else if String.eqb k' k then Some v else None.
Proof. unfold unless_zero. now destruct (zero v). Qed.
Lemma rest_nodup : NoDup (map fst rest_fields).
Proof. apply NoDup_fields. reflexivity. Qed.
Lemma resource_read s : sound_stored s -> read_resource (write_resource s) = Ok s.
Proof.
  intros (rest & Er & C & _). unfold write_resource. rewrite Er.
  set (d := (_ : dict pyval)) in |- *.
  assert (G : forall k, dget d k = if String.eqb k "urn" then Some (VStr (st_urn s)) else if String.eqb k "custom" then Some (VBool (st_custom s))
    else if String.eqb k "type" then Some (VStr (st_type s)) else
    if String.eqb k "id" then if zero (VStr (st_id s)) then None else Some (VStr (st_id s)) else
    if String.eqb k "inputs" then if zero (printed (WStruct (st_inputs s))) then None else Some (printed (WStruct (st_inputs s))) else
    if String.eqb k "outputs" then if zero (printed (WStruct (st_outputs s))) then None else Some (printed (WStruct (st_outputs s))) else dget rest k).
  { intros k. unfold d. cbn [dget]. rewrite !dget_app, !dget_unless.
    destruct (String.eqb k "urn"), (String.eqb k "custom"), (String.eqb k "type"); try reflexivity.
    assert (R : forall k0, ~ In k0 (map fst rest_fields) -> dget rest k0 = None) by (intros; eapply canon_free; eauto).
    destruct (String.eqb_spec k "id") as [->|]; [|destruct (String.eqb_spec k "inputs") as [->|]; [|destruct (String.eqb_spec k "outputs") as [->|]]];
      repeat match goal with |- context [zero ?v] => destruct (zero v) end; cbn; try reflexivity;
      (apply R; cbn; intuition discriminate). }
  clearbody d. cbn [read_resource]. unfold text_field, flag_field, object_field. rewrite !G. cbn [String.eqb Ascii.eqb Bool.eqb].
  assert (E : read_rest d rest_fields = Ok rest).
  { apply read_rest_back; [exact C|exact rest_nodup|]. intros k I. rewrite G.
    repeat (destruct I as [<-|I]; [reflexivity|]). destruct I. }
  rewrite E. cbn [rbind]. rewrite !zero_object. destruct s as [u t cu i inp out r]. cbn [st_urn st_type st_custom st_id st_inputs st_outputs st_rest] in *. subst r.
  assert (Ei : forall x, match (if match x with [] => true | _ => false end then None else Some (printed (WStruct x))) with
    | None | Some VNone => Ok [] | Some (VDict o) => rmap (fun kv => let+ w := parsed (snd kv) in Ok (fst kv, w)) o | Some _ => mistyped end = Ok x).
  { intros x. destruct x as [|y x]; [reflexivity|]. apply (object_back (y :: x)). }
  assert (Et : match (if zero (VStr i) then None else Some (VStr i)) with None | Some VNone => Ok "" | Some (VStr s) => Ok s | Some _ => mistyped end = Ok i) by (destruct i; reflexivity).
  rewrite Et. cbn [rbind]. rewrite !Ei. cbn [rbind]. reflexivity.
Qed.
Lemma unless_fine show k v (e : dict pyval) : fine show v -> Forall (fun kv => fine show (snd kv)) e -> Forall (fun kv => fine show (snd kv)) (unless_zero k v ++ e).
Proof. intros V E. unfold unless_zero. destruct (zero v); cbn; auto. Qed.
Lemma unless_keys k v (e : dict pyval) : ~ In k (map fst e) -> NoDup (map fst e) -> NoDup (map fst (unless_zero k v ++ e)).
Proof. intros V E. unfold unless_zero. destruct (zero v); cbn; auto. now constructor. Qed.
Lemma unless_in k v k' (e : dict pyval) : In k' (map fst (unless_zero k v ++ e)) -> k' = k \/ In k' (map fst e).
Proof. unfold unless_zero. destruct (zero v); cbn; intuition auto. Qed.
Lemma resource_fine show s : sound_stored s -> fine show (printed (WStruct (st_inputs s))) -> fine show (printed (WStruct (st_outputs s))) -> fine show (write_resource s).
Proof.
  intros (rest & Er & C & P) Fi Fo. unfold write_resource. rewrite Er.
  assert (R : forall k, ~ In k (map fst rest_fields) -> ~ In k (map fst rest)) by (intros k N I; apply N; eapply canon_keys; eauto).
  apply fine_dict.
  - cbn [map fst]. assert (N0 := canon_nodup _ _ C rest_nodup).
    repeat (constructor; [cbn [In]; intros I; repeat (destruct I as [I|I]; [discriminate I|]); repeat (apply unless_in in I as [I|I]; [discriminate I|]); eapply R; [|exact I]; cbn; intuition discriminate|]).
    repeat (apply unless_keys; [intros I; repeat (apply unless_in in I as [I|I]; [discriminate I|]); eapply R; [|exact I]; cbn; intuition discriminate|]).
    exact N0.
  - repeat (apply Forall_cons; [apply fine_str || apply fine_bool|]).
    repeat (apply unless_fine; [apply fine_str || assumption|]). now apply canon_fine with rest_fields.
  - cbn [dget]. change (String.eqb kind_key "urn") with false. change (String.eqb kind_key "custom") with false. change (String.eqb kind_key "type") with false. cbv iota.
    rewrite !dget_app, !dget_unless. change (String.eqb kind_key "id") with false. change (String.eqb kind_key "inputs") with false. change (String.eqb kind_key "outputs") with false.
    rewrite (canon_free _ _ kind_key C) by (cbn; intuition discriminate).
    repeat match goal with |- context [zero ?v] => destruct (zero v) end; discriminate.
Qed.

(* ------------------------------------------------------------------ *)
(** Snapshots. *)
Definition sound (n : nat) (r : rstate) : Prop :=
  storable_resource r /\ Nat.max (nesting (PObj (t_inputs r))) (nesting (PObj (t_outputs r))) <= n /\
  neat (PObj (t_inputs r)) /\ neat (PObj (t_outputs r)) /\
  exists rest, t_rest r = VDict rest /\ canon rest_fields rest /\ Forall (fun kv => plain (snd kv)) rest.
Definition calm_resource (r : rstate) : Prop := calm (PObj (t_inputs r)) /\ calm (PObj (t_outputs r)).
Definition printable (s : stored) : Prop := sound_stored s /\ plain (printed (WStruct (st_inputs s))) /\ plain (printed (WStruct (st_outputs s))).

Lemma object_field_plain d k ws : plain (VDict d) -> object_field d k = Ok ws -> plain (printed (WStruct ws)).
Proof.
  intros P. unfold object_field. destruct (dget d k) as [v|] eqn:E; [|intros [= <-]; constructor; constructor].
  assert (Pv : plain v) by (inv P; rewrite Forall_forall in *; apply dget_In in E; apply (H1 _ E)).
  destruct v; try discriminate; [intros [= <-]; constructor; constructor|]. intros H. now rewrite (object_printed _ _ H).
Qed.
Lemma read_resource_ok v s : plain v -> read_resource v = Ok s -> printable s.
Proof.
  intros P H. destruct v; try discriminate. cbn [read_resource] in H.
  destruct (text_field d "urn") as [u|]; cbn [rbind] in H; [|discriminate]. destruct (flag_field d "custom") as [c|]; cbn [rbind] in H; [|discriminate].
  destruct (text_field d "id") as [i|]; cbn [rbind] in H; [|discriminate]. destruct (text_field d "type") as [t|]; cbn [rbind] in H; [|discriminate].
  destruct (object_field d "inputs") as [wi|] eqn:Wi; cbn [rbind] in H; [|discriminate]. destruct (object_field d "outputs") as [wo|] eqn:Wo; cbn [rbind] in H; [|discriminate].
  destruct (read_rest d rest_fields) as [rest|] eqn:R; cbn [rbind] in H; [|discriminate]. injection H as <-.
  apply read_rest_canon in R as [C I]. split; [|split; cbn [st_inputs st_outputs]; eauto using object_field_plain].
  exists rest. split; [reflexivity|]. split; [exact C|]. inv P. rewrite Forall_forall in *. auto.
Qed.

Section Snapshots.
  Variable json : wire -> string.
  Variable unjson : string -> res wire.
  Hypothesis J : json_reads json unjson.

  Lemma load_properties_ok n again dec d ps : load_properties unjson again n dec d = Ok ps -> plain (printed (WStruct d)) -> ~ In kind_key (map fst ps) ->
    storable (PObj ps) /\ nesting (PObj ps) <= n /\ neat (PObj ps) /\
    ((forall t c, dec t <> Ok c) -> (forall t c, again t <> Ok c) -> calm (PObj ps)).
  Proof using.
    intros E P N. unfold load_properties in E. pose proof (rmap_keys (load unjson again n dec) d ps E) as K. rewrite plain_struct in P. destruct P as [Nd P].
    assert (A : Forall (fun kv => storable (snd kv) /\ nesting (snd kv) <= n /\ neat (snd kv) /\ ((forall t c, dec t <> Ok c) -> (forall t c, again t <> Ok c) -> calm (snd kv))) ps).
    { rewrite Forall_forall in *. intros kv I. destruct (rmap_in _ _ _ E _ I) as ([k w] & Iw & X). cbn [fst snd] in X.
      destruct (load unjson again n dec w) as [p|] eqn:L; cbn in X; [|discriminate]. injection X as <-. cbn [snd].
      destruct (load_ok unjson again n dec w p L) as (A & B & C & D). specialize (P _ Iw). cbn in P. auto. }
    split; [|split; [|split]].
    - constructor; auto. eapply Forall_impl; [|exact A]. cbn. tauto.
    - cbn [nesting]. apply list_max_le. rewrite Forall_map. eapply Forall_impl; [|exact A]. cbn. tauto.
    - constructor; [now rewrite K|]. eapply Forall_impl; [|exact A]. cbn. tauto.
    - intros D1 D2. constructor 2. eapply Forall_impl; [|exact A]. cbn. intros kv (_ & _ & _ & C). auto.
  Qed.
  Lemma load_resource_ok n again dec s r : load_resource unjson again dec n s = Ok r -> printable s -> ordinary r ->
    sound n r /\ ((forall t c, dec t <> Ok c) -> (forall t c, again t <> Ok c) -> calm_resource r).
  Proof using.
    unfold load_resource. intros E (S & Pi & Po) [Oi Oo].
    destruct (load_properties unjson again n dec (st_inputs s)) as [pi|] eqn:Li; cbn [rbind] in E; [|discriminate].
    destruct (load_properties unjson again n dec (st_outputs s)) as [po|] eqn:Lo; cbn [rbind] in E; [|discriminate].
    destruct (String.eqb_spec (st_urn s) ""); [discriminate|]. destruct (String.eqb_spec (st_type s) ""); [discriminate|].
    destruct (negb (st_custom s) && negb (String.eqb (st_id s) "")) eqn:Ci; [discriminate|]. injection E as <-. cbn [t_inputs t_outputs] in *.
    destruct (load_properties_ok _ _ _ _ _ Li Pi Oi) as (A1 & A2 & A3 & A4). destruct (load_properties_ok _ _ _ _ _ Lo Po Oo) as (B1 & B2 & B3 & B4).
    split; [|intros D1 D2; split; cbn [t_inputs t_outputs]; auto].
    split; [|split; [|split; [|split]]]; cbn [t_inputs t_outputs t_rest]; auto; [|lia].
    repeat split; cbn [t_urn t_type t_iscustom t_id t_inputs t_outputs]; auto.
    intros C. rewrite C in Ci. cbn in Ci. destruct (String.eqb_spec (st_id s) ""); [assumption|discriminate].
  Qed.
  Lemma bulk_empty dec cs : (forall t c, dec t <> Ok c) -> forall m, bulk_decrypt dec [] cs = Ok m -> m = [].
  Proof using. intros D m. destruct cs; cbn; [now intros [= <-]|]. destruct (dec s) eqn:E; [now destruct (D _ _ E)|discriminate]. Qed.
  Lemma load_deployment_ok n again dec ss rs : load_deployment unjson again dec n ss = Ok rs -> Forall printable ss -> Forall ordinary rs ->
    List.length rs = List.length ss /\ Forall (sound n) rs /\ ((forall t c, dec t <> Ok c) -> (forall t c, again t <> Ok c) -> Forall calm_resource rs).
  Proof using.
    unfold load_deployment. intros E P O. destruct (bulk_decrypt dec [] _) as [m|] eqn:B; cbn [rbind] in E; [|discriminate].
    rewrite rmap_inv in E. split; [clear -E; induction E; cbn; congruence|].
    assert (K : Forall (fun r => sound n r /\ ((forall t c, map_decrypter m dec t <> Ok c) -> (forall t c, again t <> Ok c) -> calm_resource r)) rs).
    { clear B. induction E; [constructor|]. inv P. inv O. constructor; auto. eapply load_resource_ok; eauto. }
    split; [eapply Forall_impl; [|exact K]; cbn; tauto|]. intros D1 D2. pose proof (bulk_empty _ _ D1 _ B). subst m.
    eapply Forall_impl; [|exact K]. cbn. intros r [_ H]. apply H; auto.
  Qed.

  Lemma store_deployment_ok n show enc rs ss : store_deployment json enc show rs = Ok ss -> Forall (sound n) rs -> (forall place t c, enc place t = Ok c -> c <> "") ->
    List.length ss = List.length rs /\ Forall (fun s => printable s /\ fine show (write_resource s)) ss.
  Proof.
    intros W S En. unfold store_deployment in W. split.
    - clear S. revert ss W. generalize 0. induction rs as [|r rs IH]; cbn; intros k ss W; [now injection W as <-|].
      destruct (store_resource json enc show k r); cbn in W; [|discriminate]. destruct (imap _ (S k) rs) eqn:E; cbn in W; [|discriminate]. injection W as <-. cbn. f_equal. eauto.
    - rewrite Forall_forall in *. intros s I. destruct (imap_in _ _ _ _ W _ I) as (r & i & Ir & X).
      destruct (S _ Ir) as ((_ & _ & _ & Si & So) & _ & Ni & No & rest & Er & C & Pr). unfold store_resource in X. destruct (String.eqb (t_urn r) ""); [discriminate|].
      destruct (store_properties json enc show [0; i] (t_inputs r)) as [wi|] eqn:Wi; cbn [rbind] in X; [|discriminate].
      destruct (store_properties json enc show [1; i] (t_outputs r)) as [wo|] eqn:Wo; cbn [rbind] in X; [|discriminate]. injection X as <-.
      apply properties_store in Wi. apply properties_store in Wo. destruct J as [_ J2].
      assert (Fi : fine show (printed (WStruct wi))) by (eapply (store_fine json show (PObj (t_inputs r))); eauto; apply J2).
      assert (Fo : fine show (printed (WStruct wo))) by (eapply (store_fine json show (PObj (t_outputs r))); eauto; apply J2).
      assert (Ss : sound_stored (mkStored (t_urn r) (t_type r) (t_iscustom r) (t_id r) wi wo (t_rest r))) by (exists rest; auto).
      split; [split; [exact Ss|split; [apply Fi|apply Fo]]|]. now apply resource_fine.
  Qed.
  Lemma sound_nesting n rs : Forall (sound n) rs -> state_nesting rs <= n.
  Proof using. intros S. unfold state_nesting. apply list_max_le. rewrite Forall_map. eapply Forall_impl; [|exact S]. intros r H. apply H. Qed.

  (** A manager with which the secrets of some resources can be kept. *)
  Definition usable (m : manager) (rs : list rstate) : Prop := works m \/ m = panic_crypter /\ Forall calm_resource rs.
  Lemma round n show m t f rs : usable m rs -> Forall (sound n) rs ->
    exists ss, store_deployment json (fun place => m_enc m t (f place)) show rs = Ok ss /\ load_deployment unjson (m_again m) (m_dec m) n ss = Ok rs /\
      List.length ss = List.length rs /\ Forall (fun s => printable s /\ fine show (write_resource s)) ss.
  Proof.
    intros U S. assert (Ss : Forall storable_resource rs) by (eapply Forall_impl; [|exact S]; intros r H; apply H).
    destruct (deployment_stored_gen json show rs (fun place => m_enc m t (f place)) Ss) as [ss W].
    { destruct U as [(T & _)|[-> C]]; [left; auto|right; exact C]. }
    exists ss. split; [exact W|].
    assert (R : reads_back json (fun place => m_enc m t (f place)) (m_dec m)).
    { destruct U as [(_ & D & _)|[-> _]]; [|intros place w c; discriminate]. intros place w c C. now apply D in C. }
    split.
    - eapply deployment_back_gen; eauto; [|now apply sound_nesting]. intros _. destruct U as [(_ & _ & A)|[-> _]]; [left; exact A|right; discriminate].
    - eapply store_deployment_ok; eauto. destruct U as [(_ & D & _)|[-> _]]; [|discriminate]. intros place x c C. now apply D in C.
  Qed.
End Snapshots.

(* ------------------------------------------------------------------ *)
(** Documents of deployments. *)
Record kept (d : v3) : Prop := {
  k_manifest : plain (v_manifest d); k_secrets : plain (v_secrets d); k_provider : read_secrets (v_secrets d) = Ok (v_secrets d);
  k_resources : Forall printable (v_resources d); k_pending : Forall (fun op => printable (snd op)) (v_pending d)
}.
Lemma any_plain d k : plain (VDict d) -> plain (any_field d k).
Proof. intros P. unfold any_field. destruct (dget d k) eqn:E; [|constructor]. inv P. rewrite Forall_forall in *. apply dget_In in E. apply (H1 _ E). Qed.
Lemma list_plain d k l : plain (VDict d) -> list_field d k = Ok l -> Forall plain l.
Proof.
  intros P. unfold list_field. destruct (dget d k) as [v|] eqn:E; [|intros [= <-]; constructor].
  assert (Pv : plain v) by (inv P; rewrite Forall_forall in *; apply dget_In in E; apply (H1 _ E)).
  destruct v; try discriminate; intros [= <-]; [constructor|now inv Pv].
Qed.
Lemma read_secrets_ok v s : plain v -> read_secrets v = Ok s -> plain s /\ read_secrets s = Ok s.
Proof.
  intros P. destruct v; try discriminate; cbn; [intros [= <-]; split; [constructor|reflexivity]|].
  destruct (text_field d "type") as [t|] eqn:T; cbn; [|discriminate]. destruct (String.eqb t "") eqn:E; intros [= <-]; [split; [constructor|reflexivity]|].
  split; [exact P|]. cbn. rewrite T. cbn. now rewrite E.
Qed.
Lemma read_deployment_ok v d : plain v -> read_deployment v = Ok d -> kept d.
Proof.
  intros P H. destruct v; try discriminate; cbn [read_deployment] in H.
  { injection H as <-. constructor; cbn; try constructor. }
  destruct (read_secrets (any_field d0 "secrets_providers")) as [s|] eqn:S; cbn [rbind] in H; [|discriminate].
  destruct (list_field d0 "resources") as [rs|] eqn:R; cbn [rbind] in H; [|discriminate]. destruct (rmap read_resource rs) as [ss|] eqn:Ss; cbn [rbind] in H; [|discriminate].
  destruct (list_field d0 "pending_operations") as [ps|] eqn:Q; cbn [rbind] in H; [|discriminate]. destruct (rmap read_operation ps) as [ops|] eqn:O; cbn [rbind] in H; [|discriminate].
  injection H as <-. destruct (read_secrets_ok _ _ (any_plain _ _ P) S) as [S1 S2]. pose proof (list_plain _ _ _ P R) as Pr. pose proof (list_plain _ _ _ P Q) as Pq.
  rewrite Forall_forall in Pr, Pq. constructor; cbn [v_manifest v_secrets v_resources v_pending]; auto; [now apply any_plain| |].
  - rewrite Forall_forall. intros x I. destruct (rmap_in _ _ _ Ss _ I) as (y & Iy & Y). exact (read_resource_ok y x (Pr _ Iy) Y).
  - rewrite Forall_forall. intros x I. destruct (rmap_in _ _ _ O _ I) as (y & Iy & Y). destruct y; try discriminate Y. cbn [read_operation] in Y.
    destruct (read_resource (any_field d "resource")) as [z|] eqn:Z; cbn [rbind] in Y; [|discriminate]. destruct (text_field d "type"); cbn [rbind] in Y; [|discriminate].
    injection Y as <-. cbn [snd]. eapply read_resource_ok; [|exact Z]. apply any_plain. apply Pq. exact Iy.
Qed.
Lemma rmap_back {A B} (f : A -> B) (g : B -> res A) l : (forall x, In x l -> g (f x) = Ok x) -> rmap g (map f l) = Ok l.
Proof.
  induction l as [|x l IH]; cbn; intros H; [reflexivity|]. rewrite H by auto. cbn. rewrite IH by auto. reflexivity.
Qed.
Lemma operation_read op : sound_stored (snd op) -> read_operation (write_operation op) = Ok op.
Proof.
  intros S. destruct op as [t s]. cbn [snd] in S. cbn [write_operation fst snd read_operation].
  change (any_field [("resource", write_resource s); ("type", VStr t)] "resource") with (write_resource s).
  rewrite (resource_read s S). cbn [rbind]. reflexivity.
Qed.
Lemma deployment_dget d k : match write_deployment d with VDict e => dget e k | _ => None end =
  if String.eqb k "manifest" then Some (v_manifest d)
  else if String.eqb k "secrets_providers" then if zero (v_secrets d) then None else Some (v_secrets d)
  else if String.eqb k "resources" then if zero (VList (map write_resource (v_resources d))) then None else Some (VList (map write_resource (v_resources d)))
  else if String.eqb k "pending_operations" then if zero (VList (map write_operation (v_pending d))) then None else Some (VList (map write_operation (v_pending d)))
  else None.
Proof.
  unfold write_deployment. cbn [dget]. destruct (String.eqb k "manifest"); [reflexivity|]. rewrite !dget_app, !dget_unless.
  destruct (String.eqb_spec k "secrets_providers") as [->|]; [|destruct (String.eqb_spec k "resources") as [->|]; [|destruct (String.eqb_spec k "pending_operations") as [->|]]];
    repeat match goal with |- context [zero ?v] => destruct (zero v) end; reflexivity.
Qed.
Lemma deployment_read d : kept d -> read_deployment (write_deployment d) = Ok d.
Proof.
  intros K. pose proof (deployment_dget d) as G. destruct (write_deployment d) eqn:E; try (unfold write_deployment in E; discriminate). rename d0 into e. clear E.
  cbn [read_deployment]. unfold any_field, list_field. rewrite !G. cbn [String.eqb Ascii.eqb Bool.eqb]. destruct d as [m s rs ops]. destruct K as [K1 K2 K3 K4 K5].
  cbn [v_manifest v_secrets v_resources v_pending] in *.
  assert (Es : read_secrets (match (if zero s then None else Some s) with Some v => v | None => VNone end) = Ok s).
  { destruct (zero s) eqn:Z; [|exact K3]. destruct s; try discriminate; [reflexivity|]. destruct d; [discriminate K3|discriminate Z]. }
  rewrite Es. cbn [rbind].
  assert (L : forall l, match (if zero (VList l) then None else Some (VList l)) with None | Some VNone => Ok [] | Some (VList l0) => Ok l0 | Some _ => mistyped end = Ok l).
  { intros l. destruct l; reflexivity. }
  rewrite !L. cbn [rbind]. rewrite rmap_back. 2:{ intros x I. apply resource_read. rewrite Forall_forall in K4. apply (K4 _ I). }
  cbn [rbind]. rewrite rmap_back. 2:{ intros x I. apply operation_read. rewrite Forall_forall in K5. apply (K5 _ I). }
  reflexivity.
Qed.
Lemma deployment_plain show d : kept d -> Forall (fun s => fine show (write_resource s)) (v_resources d) -> Forall (fun op => fine show (write_resource (snd op))) (v_pending d) ->
  plain (write_deployment d) /\ (forall l r, resources_in (write_deployment d) l -> In r l -> fine show r).
Proof.
  intros K Fr Fo. split.
  - unfold write_deployment. constructor.
    + cbn [map fst]. constructor; [cbn [In]; intros I; repeat (apply unless_in in I as [I|I]; [discriminate I|]); unfold unless_zero in I; destruct (zero _) in I; cbn in I; intuition discriminate|].
      repeat (apply unless_keys; [intros I; repeat (apply unless_in in I as [I|I]; [discriminate I|]); unfold unless_zero in I; destruct (zero _) in I; cbn in I; intuition discriminate|]).
      unfold unless_zero. destruct (zero _); cbn; repeat constructor. auto.
    + constructor; [apply K|]. assert (U : forall k v e, plain v -> Forall (fun kv => plain (snd kv)) e -> Forall (fun kv => plain (snd kv)) (unless_zero k v ++ e)).
      { intros k v e V E. unfold unless_zero. destruct (zero v); cbn; auto. }
      apply U; [apply K|]. apply U; [constructor; rewrite Forall_map; eapply Forall_impl; [|exact Fr]; intros x H; apply H|].
      rewrite <- (app_nil_r (unless_zero _ _)). apply U; [|constructor]. constructor. rewrite Forall_map. eapply Forall_impl; [|exact Fo]. intros x H.
      constructor; [apply NoDup_fields; reflexivity|]. apply Forall_cons; [exact (proj1 H)|]. apply Forall_cons; [constructor|apply Forall_nil].
  - intros l r (e & E & H) I. pose proof (deployment_dget d "resources") as G. rewrite E in G. cbn [String.eqb Ascii.eqb Bool.eqb] in G. rewrite Forall_forall in Fr.
    destruct H as [H|[_ ->]]; [|destruct I]. rewrite H in G. destruct (zero _); [discriminate|]. injection G as ->. apply in_map_iff in I as (s & <- & Is). auto.
Qed.

Section Passes.
  Variable json : wire -> string.
  Variable unjson : string -> res wire.
  Hypothesis J : json_reads json unjson.
  Variable of_type : pyval -> res manager.
  Hypothesis W : forall secrets m, of_type secrets = Ok m -> works m.
  Variable n : nat.

  Record healthy (s : snapshot) : Prop := {
    h_manifest : plain (sn_manifest s); h_secrets : plain (sn_secrets s); h_provider : read_secrets (sn_secrets s) = Ok (sn_secrets s);
    h_resources : Forall (sound n) (sn_resources s); h_pending : Forall (sound n) (map snd (sn_pending s));
    h_manager : exists m, manager_of of_type (sn_secrets s) = Ok m /\ usable m (sn_resources s) /\ usable m (map snd (sn_pending s))
  }.
  Lemma combine_snd {A B} (a : list A) (b : list B) : List.length a = List.length b -> map snd (combine a b) = b.
  Proof using. revert b. induction a; intros [|y b]; cbn; intros H; try discriminate; [reflexivity|]. f_equal. auto. Qed.
  Lemma combine_fst {A B} (a : list A) (b : list B) : List.length a = List.length b -> map fst (combine a b) = a.
  Proof using. revert b. induction a; intros [|y b]; cbn; intros H; try discriminate; [reflexivity|]. f_equal. auto. Qed.
  Lemma combine_fst_snd {A B} (l : list (A * B)) : combine (map fst l) (map snd l) = l.
  Proof using. induction l as [|[a b] l IH]; cbn; [reflexivity|]. now f_equal. Qed.

  Lemma load_length dec again ss rs : load_deployment unjson again dec n ss = Ok rs -> List.length rs = List.length ss.
  Proof using.
    unfold load_deployment. destruct (bulk_decrypt _ _ _); cbn [rbind]; [|discriminate]. rewrite rmap_inv. intros H. induction H; cbn; congruence.
  Qed.
  Lemma deserialize_ok v s : plain v -> deserialize unjson of_type n v = Ok s -> Forall ordinary (sn_resources s) -> Forall ordinary (map snd (sn_pending s)) -> healthy s.
  Proof.
    unfold deserialize. intros P E Or Op. destruct (read_deployment v) as [d|] eqn:D; cbn [rbind] in E; [|discriminate].
    destruct (read_deployment_ok _ _ P D) as [K1 K2 K3 K4 K5]. unfold load_state in E.
    destruct (manager_of of_type (v_secrets d)) as [m|] eqn:M; cbn [rbind] in E; [|discriminate].
    destruct (load_deployment unjson (m_again m) (m_dec m) n (v_resources d)) as [rs|] eqn:R; cbn [rbind] in E; [|discriminate].
    destruct (load_deployment unjson (m_again m) (m_dec m) n (map snd (v_pending d))) as [ops|] eqn:O; cbn [rbind] in E; [|discriminate]. injection E as <-.
    cbn [sn_resources sn_pending] in *. pose proof (load_length _ _ _ _ O) as Lo. rewrite map_length in Lo.
    rewrite combine_snd in Op by (rewrite map_length; congruence).
    destruct (load_deployment_ok unjson n _ _ _ _ R K4 Or) as (_ & Sr & Cr). destruct (load_deployment_ok unjson n _ _ _ _ O ltac:(now rewrite Forall_map) Op) as (_ & So & Co).
    constructor; cbn [sn_manifest sn_secrets sn_resources sn_pending]; auto; rewrite ?combine_snd by (rewrite map_length; congruence); [exact So|].
    exists m. split; [exact M|]. unfold manager_of in M. destruct (v_secrets d); try (apply W in M; split; left; exact M). injection M as <-. split; right; (split; [reflexivity|]).
    - apply Cr; discriminate.
    - apply Co; discriminate.
  Qed.
  Lemma serialize_ok s t show : healthy s -> exists v, serialize json of_type t show s = Ok v /\ plain v /\ deserialize unjson of_type n v = Ok s /\
    (forall l r, resources_in v l -> In r l -> fine show r).
  Proof.
    intros [H1 H2 H3 H4 H5 (m & M & U1 & U2)]. unfold serialize, store_state. rewrite M. cbn [rbind].
    destruct (round json unjson J n show m t (fun p => p) _ U1 H4) as (ss & S1 & L1 & N1 & F1). destruct (round json unjson J n show m t (fun p => p ++ [1]) _ U2 H5) as (ops & S2 & L2 & N2 & F2).
    cbn beta in S1. change (fun place => m_enc m t place) with (m_enc m t) in S1. rewrite S1. cbn [rbind]. rewrite S2. cbn [rbind].
    rewrite map_length in N2. set (d := mkV3 _ _ _ _).
    assert (K : kept d).
    { constructor; cbn [d v_manifest v_secrets v_resources v_pending]; auto.
      - eapply Forall_impl; [|exact F1]. cbn. tauto.
      - rewrite <- (Forall_map snd printable). rewrite combine_snd by (rewrite map_length; congruence). eapply Forall_impl; [|exact F2]. cbn. tauto. }
    exists (write_deployment d). split; [reflexivity|]. destruct (deployment_plain show d K) as [P F].
    { eapply Forall_impl; [|exact F1]. cbn. tauto. }
    { cbn [d v_pending]. rewrite <- (Forall_map snd (fun s => fine show (write_resource s))). rewrite combine_snd by (rewrite map_length; congruence). eapply Forall_impl; [|exact F2]. cbn. tauto. }
    split; [exact P|]. split; [|exact F].
    unfold deserialize. rewrite (deployment_read d K). cbn [rbind]. unfold load_state. cbn [d v_manifest v_secrets v_resources v_pending]. rewrite M. cbn [rbind]. rewrite L1. cbn [rbind].
    rewrite combine_snd by (rewrite map_length; congruence). rewrite L2. cbn [rbind]. rewrite combine_fst by (rewrite map_length; congruence). rewrite combine_fst_snd. now destruct s.
  Qed.
  Lemma healthy_cleared s : healthy s -> healthy (mkSnapshot (sn_manifest s) (sn_secrets s) (sn_resources s) []).
  Proof using.
    intros [H1 H2 H3 H4 H5 (m & M & U1 & U2)]. constructor; cbn [sn_manifest sn_secrets sn_resources sn_pending map]; auto.
    exists m. split; [exact M|]. split; [exact U1|]. destruct U2 as [U2|[U2 _]]; [now left|right; auto].
  Qed.
End Passes.

(* ------------------------------------------------------------------ *)
(** Integrity. *)
Lemma cut_app c s x y : cut c s = Some (x, y) -> s = (x ++ String c y)%string.
Proof.
  revert x y. induction s as [|a s IH]; cbn; intros x y; [discriminate|]. destruct (Ascii.eqb_spec a c) as [->|]; [now intros [= <- <-]|].
  destruct (cut c s) as [[u v]|] eqn:E; [|discriminate]. intros [= <- <-]. cbn. now rewrite (IH _ _ eq_refl).
Qed.
Lemma sapp_assoc (a b c : string) : ((a ++ b) ++ c = a ++ (b ++ c))%string.
Proof. induction a; cbn; [reflexivity|]. now f_equal. Qed.
Lemma is_provider_type_spec t : is_provider_type t = true <-> provider_type t.
Proof.
  unfold is_provider_type. split.
  - destruct (cut ":" t) as [[p r]|] eqn:E1; [|discriminate]. destruct (cut ":" r) as [[m name]|] eqn:E2; [|discriminate]. intros H. apply andb_prop in H as [A B].
    apply String.eqb_eq in A. exists name. split; [intros ->; discriminate|]. apply cut_app in E1. apply cut_app in E2. subst t r.
    transitivity ((p ++ ":" ++ m) ++ String ":" name)%string; [now rewrite !sapp_assoc|]. rewrite A. reflexivity.
  - intros (name & N & ->). cbn. destruct (String.eqb_spec name ""); [contradiction|reflexivity].
Qed.
Lemma prefix_app p s : String.prefix p s = true <-> exists r, s = (p ++ r)%string.
Proof.
  revert s. induction p as [|a p IH]; intros s.
  - split; [intros _; now exists s|]. destruct s; reflexivity.
  - destruct s as [|b s]; [split; [discriminate|intros (r & [=])]|].
    change (String.prefix (String a p) (String b s)) with (if ascii_dec a b then String.prefix p s else false).
    destruct (ascii_dec a b) as [->|Nab].
    + split; [intros H; apply IH in H as (r & ->); now exists r|intros (r & [= ->]); apply IH; now exists r].
    + split; [discriminate|]. intros (r & [= H _]). congruence.
Qed.
Lemma validate_urn_spec u : validate_urn u = true <-> provider_urn u.
Proof.
  unfold validate_urn, provider_urn, slast. rewrite !Bool.andb_true_iff, prefix_app, Nat.eqb_eq, is_provider_type_spec. split.
  - intros (((r & ->) & L) & T). exists r. auto.
  - intros (r & -> & L & T). repeat split; eauto.
Qed.
Lemma in_stack_spec name u : in_stack name u = true <-> of_stack name u.
Proof.
  unfold in_stack, of_stack. rewrite Bool.andb_true_iff, prefix_app, String.eqb_eq. split.
  - intros ((r & ->) & H). exists r. auto.
  - intros (r & -> & H). split; [eauto|exact H].
Qed.
Lemma rfind_sound s : forall i, rfind_cc s = Some i -> refers_to s (stake i s) (sdrop (i + 2) s).
Proof.
  induction s as [|a s IH]; cbn [rfind_cc]; intros i; [discriminate|]. destruct (rfind_cc s) as [j|] eqn:E.
  - intros [= <-]. destruct (IH _ eq_refl) as [A B]. split; [|exact B]. cbn. f_equal. exact A.
  - destruct s as [|b s]; [discriminate|]. destruct (Ascii.eqb a ":" && Ascii.eqb b ":") eqn:C; [|discriminate]. intros [= <-].
    apply andb_prop in C as [C1 C2]. apply Ascii.eqb_eq in C1, C2. subst a b. split; [reflexivity|]. intros (x & y & H).
    change (sdrop (0 + 2) (String ":" (String ":" s))) with s in H. cbn in H.
    assert (K : forall t, rfind_cc t = None -> ~ exists x y, t = (x ++ "::" ++ y)%string).
    { clear. induction t as [|a t IH]; [intros _ (x & y & H); destruct x; discriminate|]. cbn [rfind_cc]. intros H (x & y & E). destruct (rfind_cc t) eqn:R; [discriminate|].
      destruct x as [|b x]; cbn in E.
      - injection E as -> ->. discriminate.
      - injection E as -> Et. apply (IH eq_refl). exists x, y. exact Et. }
    apply (K _ E). exists x, y. exact H.
Qed.
Lemma rfind_complete s u id : refers_to s u id -> rfind_cc s = Some (String.length u) /\ stake (String.length u) s = u /\ sdrop (String.length u + 2) s = id.
Proof.
  intros [-> N]. split.
  - apply Proof_Urn.rfind_last. split.
    + intros (x & y & ->). apply N. exists (":" ++ x)%string, y. reflexivity.
    + intros (y & ->). apply N. exists "", y. reflexivity.
  - clear N. induction u as [|a u IH]; cbn; [auto|]. destruct IH as [A B]. cbn in A. rewrite A. auto.
Qed.
Lemma parse_reference_spec s u id : parse_reference s = Some (u, id) <-> refers_to s u id /\ provider_urn u.
Proof.
  unfold parse_reference. split.
  - destruct (rfind_cc s) as [i|] eqn:E; [|discriminate]. cbn zeta. destruct (validate_urn (stake i s)) eqn:V; [|discriminate]. intros [= <- <-].
    split; [now apply rfind_sound|now apply validate_urn_spec].
  - intros [R P]. destruct (rfind_complete _ _ _ R) as (-> & A & B). cbn zeta. rewrite A, B. apply validate_urn_spec in P. now rewrite P.
Qed.
Lemma rest_text_spec r k p : p <> "" -> (rest_text r k = p <-> says r k (VStr p)).
Proof.
  intros N. unfold rest_text, rest_of, any_field, says. split.
  - destruct (t_rest r) as [| | | | | | | |d| | | | | | | | | |]; try (intros <-; contradiction). intros H. exists d. split; [reflexivity|].
    destruct (dget d k) as [[]|]; try (subst p; contradiction). now subst.
  - intros (d & -> & ->). reflexivity.
Qed.
Lemma rest_texts_spec r u : In u (rest_texts r "dependencies") <-> depends_on r u.
Proof.
  unfold rest_texts, rest_of, any_field, depends_on, says. split.
  - destruct (t_rest r) as [| | | | | | | |d| | | | | | | | | |]; try contradiction. destruct (dget d "dependencies") as [v|] eqn:E; [|contradiction].
    destruct v; try contradiction. intros I. apply in_flat_map in I as (v & Iv & I). destruct v; try contradiction. destruct I as [->|[]]. exists l. split; [exists d; auto|exact Iv].
  - intros (l & (d & -> & ->) & I). apply in_flat_map. exists (VStr u). split; [exact I|now left].
Qed.
Lemma rest_flag_spec r k : rest_flag r k = true <-> says r k (VBool true).
Proof.
  unfold rest_flag, rest_of, any_field, says. split.
  - destruct (t_rest r) as [| | | | | | | |d| | | | | | | | | |]; try discriminate. destruct (dget d k) as [v|] eqn:E; [|discriminate]. destruct v; try discriminate. intros ->. exists d. auto.
  - intros (d & -> & ->). reflexivity.
Qed.
Definition placed (past : list rstate) (r : rstate) : Prop :=
  (provider_type (t_type r) -> provider_urn (t_urn r)) /\
  (forall p, says r "provider" (VStr p) -> p <> "" ->
     exists urn id q, refers_to p urn id /\ provider_urn urn /\ In q (past ++ [r]) /\ provider_type (t_type q) /\ t_urn q = urn /\ t_id q = id) /\
  (forall p, says r "parent" (VStr p) -> p <> "" -> In p (map t_urn past)) /\
  (forall u, depends_on r u -> In u (map t_urn past)) /\
  (In (t_urn r) (map t_urn past) -> says r "delete" (VBool true)).
Lemma if_true (b c : bool) : (if b then c else true) = true <-> (b = true -> c = true).
Proof. destruct b; intuition. Qed.
Lemma verify_spec rs : forall past urns provs,
  (forall u, In u urns <-> In u (map t_urn past)) ->
  (forall p, In p provs <-> exists q, In q past /\ provider_type (t_type q) /\ p = (t_urn q, t_id q)) ->
  verify_resources urns provs rs = true <-> forall before r after, rs = before ++ r :: after -> placed (past ++ before) r.
Proof.
  induction rs as [|r rs IH]; intros past urns provs U P; cbn [verify_resources].
  { split; [|reflexivity]. intros _ [|? ?] ? ?; discriminate. }
  cbv zeta. set (provs' := if is_provider_type (t_type r) then (t_urn r, t_id r) :: provs else provs).
  assert (P' : forall p, In p provs' <-> exists q, In q (past ++ [r]) /\ provider_type (t_type q) /\ p = (t_urn q, t_id q)).
  { intros p. unfold provs'. destruct (is_provider_type (t_type r)) eqn:T.
    - apply is_provider_type_spec in T. cbn [In]. rewrite P. split.
      + intros [<-|(q & I & H)]; [exists r; split; [apply in_or_app; right; now left|auto]|exists q; split; [apply in_or_app; now left|exact H]].
      + intros (q & I & H). apply in_app_or in I as [I|[->|[]]]; [right; eauto|left; symmetry; apply H].
    - rewrite P. split; intros (q & I & T' & E); exists q; (split; [|auto]).
      + apply in_or_app. now left.
      + apply in_app_or in I as [I|[->|[]]]; [exact I|]. apply is_provider_type_spec in T'. congruence. }
  rewrite !Bool.andb_true_iff. rewrite (IH (past ++ [r]) (t_urn r :: urns) provs'); [| |exact P'].
  2:{ intros u. cbn [In]. rewrite map_app, in_app_iff, U. cbn. intuition. }
  assert (K : ((((if is_provider_type (t_type r) then validate_urn (t_urn r) else true) = true /\
      (if String.eqb (rest_text r "provider") "" then true else match parse_reference (rest_text r "provider") with Some ref => existsb (same_reference ref) provs' | None => false end) = true) /\
      (if String.eqb (rest_text r "parent") "" then true else smem (rest_text r "parent") urns) = true) /\
      forallb (fun dep => smem dep urns) (rest_texts r "dependencies") = true) /\
      negb (smem (t_urn r) urns && negb (rest_flag r "delete")) = true <-> placed past r).
  { unfold placed. rewrite if_true, is_provider_type_spec, validate_urn_spec.
    assert (K2 : (if String.eqb (rest_text r "provider") "" then true else match parse_reference (rest_text r "provider") with Some ref => existsb (same_reference ref) provs' | None => false end) = true <->
      (forall p, says r "provider" (VStr p) -> p <> "" ->
         exists urn id q, refers_to p urn id /\ provider_urn urn /\ In q (past ++ [r]) /\ provider_type (t_type q) /\ t_urn q = urn /\ t_id q = id)).
    { split.
      - intros H p S N. apply rest_text_spec in S; [|exact N]. rewrite S in H. destruct (String.eqb_spec p ""); [contradiction|].
        destruct (parse_reference p) as [[u i]|] eqn:R; [|discriminate]. apply parse_reference_spec in R as [R1 R2]. apply existsb_exists in H as ([u' i'] & I & E).
        unfold same_reference in E. cbn [fst snd] in E. apply andb_prop in E as [E1 E2]. apply String.eqb_eq in E1, E2. subst u' i'.
        apply P' in I as (q & Iq & T & E). injection E as -> ->. exists (t_urn q), (t_id q), q. auto 6.
      - intros H. destruct (String.eqb_spec (rest_text r "provider") "") as [|N]; [reflexivity|].
        destruct (H _ (proj1 (rest_text_spec r "provider" _ N) eq_refl) N) as (u & i & q & R & V & I & T & E1 & E2).
        rewrite (proj2 (parse_reference_spec _ u i) (conj R V)). apply existsb_exists. exists (u, i). split; [apply P'; exists q; subst; auto|].
        unfold same_reference. cbn. now rewrite !String.eqb_refl. }
    assert (K3 : (if String.eqb (rest_text r "parent") "" then true else smem (rest_text r "parent") urns) = true <->
      (forall p, says r "parent" (VStr p) -> p <> "" -> In p (map t_urn past))).
    { split.
      - intros H p S N. apply rest_text_spec in S; [|exact N]. rewrite S in H. destruct (String.eqb_spec p ""); [contradiction|]. apply smem_In in H. now apply U.
      - intros H. destruct (String.eqb_spec (rest_text r "parent") "") as [|N]; [reflexivity|]. apply smem_In, U. apply H; [now apply rest_text_spec|exact N]. }
    assert (K4 : forallb (fun dep => smem dep urns) (rest_texts r "dependencies") = true <-> (forall u, depends_on r u -> In u (map t_urn past))).
    { rewrite forallb_forall. split; intros H u D; [apply U, smem_In, H; now apply rest_texts_spec|apply smem_In, U, H; now apply rest_texts_spec]. }
    assert (K5 : negb (smem (t_urn r) urns && negb (rest_flag r "delete")) = true <-> (In (t_urn r) (map t_urn past) -> says r "delete" (VBool true))).
    { rewrite <- rest_flag_spec, <- U, <- smem_In. destruct (smem (t_urn r) urns), (rest_flag r "delete"); cbn; intuition. }
    rewrite K2, K3, K4, K5. tauto. }
  rewrite K. split.
  - intros [A B] before r0 after E. destruct before as [|x before]; cbn in E; injection E as -> E.
    + rewrite app_nil_r. exact A.
    + specialize (B before r0 after E). rewrite <- app_assoc in B. exact B.
  - intros H. split.
    + specialize (H [] r rs eq_refl). now rewrite app_nil_r in H.
    + intros before r0 after E. rewrite <- app_assoc. apply (H (r :: before) r0 after). cbn. now f_equal.
Qed.
Lemma verify_consistent rs : verify_resources [] [] rs = true <-> consistent rs.
Proof.
  rewrite (verify_spec rs [] [] []); [reflexivity|intros u; cbn; tauto|]. intros p. cbn. split; [contradiction|]. now intros (q & [] & _).
Qed.

(* ------------------------------------------------------------------ *)
(** Exporting and importing. *)
Lemma fine_readable v : (forall l r, resources_in v l -> In r l -> fine true r) -> readable v.
Proof. intros H l r d R I S. pose proof (proj2 (H _ _ R I) _ S) as E. rewrite E. cbn. split; [auto|]. intros [E1|[E1|[]]]; discriminate. Qed.
Lemma fine_hidden v : (forall l r, resources_in v l -> In r l -> fine false r) -> hidden v.
Proof. intros H l r d R I S. pose proof (proj2 (H _ _ R I) _ S) as E. rewrite E. cbn. split; [auto|]. intros [E1|[E1|[]]]; discriminate. Qed.
Definition cleared (s : snapshot) : snapshot := mkSnapshot (sn_manifest s) (sn_secrets s) (sn_resources s) [].
Lemma export_ok json unjson of_type n d s : json_reads json unjson -> (forall secrets m, of_type secrets = Ok m -> works m) ->
  plain d -> deserialize unjson of_type n d = Ok s -> Forall ordinary (sn_resources s) -> Forall ordinary (map snd (sn_pending s)) ->
  exists v, export_document json unjson of_type n d = Ok v /\ plain v /\ readable v /\ deserialize unjson of_type n v = Ok s.
Proof.
  intros J W P D Or Op. pose proof (deserialize_ok unjson of_type W n d s P D Or Op) as H. unfold export_document. rewrite D. cbn [rbind].
  destruct (serialize_ok json unjson J of_type n s 0 false H) as (v1 & -> & _ & D1 & _). cbn [rbind]. rewrite D1. cbn [rbind].
  destruct (serialize_ok json unjson J of_type n s 1 true H) as (v & -> & P2 & D2 & F2). exists v. auto using fine_readable.
Qed.
Lemma genuine_spec sha m : genuine sha m = true <-> cookie sha m.
Proof.
  assert (F : forall k, states m k match m with VDict d => match any_field d k with VStr s => s | _ => "" end | _ => "" end).
  { intros k. unfold states, any_field. destruct m; try (right; split; [reflexivity|intros; discriminate]).
    destruct (dget d k) as [v|] eqn:E; [|right; split; [reflexivity|intros ? ? [= <-]; congruence]].
    destruct v; try (right; split; [reflexivity|intros ? ? [= <-]; congruence]). left. exists d. split; [reflexivity|exact E]. }
  assert (U : forall k s t, states m k s -> states m k t -> s = t).
  { intros k s t [(d & -> & E)|[-> A]] [(d' & E1 & E2)|[-> B]]; try (injection E1 as <-); try congruence; exfalso; [eapply B|eapply A]; eauto. }
  unfold genuine, new_magic, cookie. rewrite String.eqb_eq. split.
  - intros H. eexists _, _. split; [apply F|]. split; [apply F|]. rewrite H. split; intros V; [now rewrite V|].
    match goal with |- (if ?b then _ else _) = _ => destruct b eqn:E end; [apply String.eqb_eq in E; contradiction|reflexivity].
  - intros (v & g & V & G & A & B). rewrite (U _ _ _ (F "version") V), (U _ _ _ (F "magic") G).
    destruct (String.eqb_spec v "") as [E|E]; auto.
Qed.
Definition checked sha name s : Prop := Forall (fun r => of_stack name (t_urn r)) (sn_resources s) /\ cookie sha (sn_manifest s) /\ consistent (sn_resources s).
Lemma checked_spec sha name s : forallb (fun r => in_stack name (t_urn r)) (sn_resources s) && verify_integrity sha s = true <-> checked sha name s.
Proof.
  unfold checked, verify_integrity. rewrite !Bool.andb_true_iff, forallb_forall, Forall_forall, verify_consistent, genuine_spec.
  split; intros (A & B & C); (split; [|auto]); intros r I; apply in_stack_spec; auto.
Qed.
Lemma import_ok json unjson of_type n sha upgrade name version doc s : json_reads json unjson -> (forall secrets m, of_type secrets = Ok m -> works m) ->
  forall v, untyped upgrade version doc = Ok v -> plain v -> deserialize unjson of_type n v = Ok s -> Forall ordinary (sn_resources s) -> Forall ordinary (map snd (sn_pending s)) ->
  checked sha name s ->
  exists d, import_document json unjson of_type n sha upgrade name version doc = Ok d /\ plain d /\ hidden d /\ deserialize unjson of_type n d = Ok (cleared s).
Proof.
  intros J W v U P D Or Op C. pose proof (healthy_cleared of_type n _ (deserialize_ok unjson of_type W n v s P D Or Op)) as H. unfold import_document. rewrite U. cbn [rbind]. rewrite D. cbn [rbind].
  apply checked_spec in C. rewrite C. fold (cleared s) in *.
  destruct (serialize_ok json unjson J of_type n _ 2 false H) as (v1 & -> & _ & D1 & _). cbn [rbind]. rewrite D1. cbn [rbind].
  destruct (serialize_ok json unjson J of_type n _ 3 false H) as (d & -> & P2 & D2 & F2). exists d. auto using fine_hidden.
Qed.
Lemma import_inv json unjson of_type n sha upgrade name version doc d :
  import_document json unjson of_type n sha upgrade name version doc = Ok d ->
  exists v s, untyped upgrade version doc = Ok v /\ deserialize unjson of_type n v = Ok s /\ checked sha name s.
Proof.
  unfold import_document. destruct (untyped upgrade version doc) as [v|]; cbn [rbind]; [|discriminate]. destruct (deserialize unjson of_type n v) as [s|] eqn:D; cbn [rbind]; [|discriminate].
  destruct (forallb _ _ && _) eqn:C; [|discriminate]. intros _. exists v, s. split; [reflexivity|]. split; [exact D|]. now apply checked_spec.
Qed.

Lemma untyped_inv upgrade version doc v : untyped upgrade version doc = Ok v <->
  (version = VNum 3 /\ v = doc \/ exists z, (1 <= z <= 2)%Z /\ version = VNum z /\ upgrade z doc = Ok v).
Proof.
  unfold untyped. split.
  - destruct version; try discriminate. destruct (Z.ltb_spec 3 z); [discriminate|]. destruct (Z.ltb_spec z 1); [discriminate|]. destruct (Z.eqb_spec z 3) as [->|].
    + intros [= ->]. auto.
    + intros E. right. exists z. repeat split; auto; lia.
  - intros [[-> ->]|(z & Hz & -> & E)]; [reflexivity|]. destruct (Z.ltb_spec 3 z); [lia|]. destruct (Z.ltb_spec z 1); [lia|]. destruct (Z.eqb_spec z 3); [lia|exact E].
Qed.
