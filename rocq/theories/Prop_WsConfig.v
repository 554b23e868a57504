(** C74: configuration set through the Automation API is read back. *)
From Verif Require Import Base PyVal Model_Urn Model_Cmd Model_StackInit Model_Json Spec_Json Proof_Json Proof_Capture Model_WsConfig Spec_WsConfig Proof_WsConfig.
Open Scope string_scope.
Open Scope list_scope.

(** For every project, every state of the stacks' configurations, every CLI (printing JSON in any
    layout and order, and failing at any command for reasons of its own), and every
    sequence of calls that set or remove configuration: afterwards, the configuration of each
    stack is what the calls that returned make of it, in order; the calls that raised did
    nothing; and no stack appears or disappears.  Reading one key gives its value and whether it
    is secret, or fails when there is none; reading all gives exactly all.
    Partial: the keys are proper (at most one colon; a key given by itself does not begin with
    "-", a key in a map does not contain "=" or begin with a quote); the keys of one map
    denote different variables; remove_all_config is given at least one key. *)
Theorem C74_history_partial : forall project legacy print_json order trouble st calls,
  colons project = 0 -> prints print_json order -> fit_state st -> Forall (proper_call project) calls ->
  let c := cli_config project legacy print_json order trouble in
  let '(st', rs) := make_all c st calls in
  let m := fold_left (expected project) (returned rs) (memory_of st) in
  map fst rs = calls /\
  Forall (fun ar => snd ar = Got tt \/ exists k, snd ar = CliError k) rs /\
  (forall stack, In stack (dkeys st') <-> In stack (dkeys st)) /\
  (forall stack key, proper_key key ->
     fst (get_config c st' stack key) = st' /\
     ((exists k, snd (get_config c st' stack key) = CliError k) \/
      exists v b, m stack (full_key project key) = Some (v, b) /\ snd (get_config c st' stack key) = Got (mkCV (VStr v) (VBool b)))) /\
  (forall stack, fst (get_all_config c st' stack) = st' /\
     ((exists k, snd (get_all_config c st' stack) = CliError k) \/
      exists d, snd (get_all_config c st' stack) = Got d /\ NoDup (dkeys d) /\
        forall k, dget d k = match m stack k with Some (v, b) => Some (mkCV (VStr v) (VBool b)) | None => None end)).
Proof.
  intros project legacy print_json order trouble st calls Hproj Hprints Hfit Hcalls c.
  pose proof (history project legacy print_json order trouble Hproj calls st (memory_of st) Hcalls Hfit (fun _ _ => eq_refl)) as H. fold c in H.
  destruct (make_all c st calls) as [st' rs]. destruct H as (H1 & H2 & H3 & H4 & H5). cbv zeta.
  split; [exact H4|]. split; [exact H5|]. split; [exact H2|]. split.
  - intros stack key Hk. destruct (get_spec project legacy print_json order trouble Hproj Hprints st' stack key H1 Hk) as (G1 & G2 & G3). fold c in G1, G2, G3.
    split; [exact G1|]. destruct (trouble st' (final_words (get_words stack key))) as [err|] eqn:Et; [left; now apply G3|].
    specialize (G2 eq_refl). rewrite (H3 stack (full_key project key)) in G2.
    destruct (fold_left (expected project) (returned rs) (memory_of st) stack (full_key project key)) as [[v b]|]; [right; eauto|left; exact G2].
  - intros stack. destruct (get_all_spec project legacy print_json order trouble Hprints st' stack H1) as (G1 & G2 & G3). fold c in G1, G2, G3.
    split; [exact G1|]. destruct (trouble st' (final_words (all_words stack))) as [err|] eqn:Et; [left; now apply G3|].
    specialize (G2 eq_refl). destruct (dget st' stack) as [cfg|]; [|left; exact G2].
    destruct G2 as (d & Ed & Hw & Hd). right. exists d. split; [exact Ed|]. split; [exact Hw|]. intros k. rewrite Hd, (H3 stack k). reflexivity.
Qed.
Print Assumptions C74_history_partial.

(** When the CLI itself has no trouble, nothing fails but calls on stacks that do not exist and
    reading keys that are not set. *)
Theorem C74_works : forall project legacy print_json order st calls,
  colons project = 0 -> prints print_json order -> fit_state st -> Forall (proper_call project) calls ->
  let c := cli_config project legacy print_json order (fun _ _ => None) in
  let '(st', rs) := make_all c st calls in
  (forall a r, In (a, r) rs -> In (match a with SetConfig s _ _ _ | SetAllConfig s _ | RemoveConfig s _ | RemoveAllConfig s _ => s end) (dkeys st) -> r = Got tt) /\
  (forall stack, In stack (dkeys st) -> exists d, snd (get_all_config c st' stack) = Got d) /\
  (forall stack key, proper_key key -> (exists x, snd (get_config c st' stack key) = Got x) <->
     fold_left (expected project) (returned rs) (memory_of st) stack (full_key project key) <> None).
Proof.
  intros project legacy print_json order st calls Hproj Hprints Hfit Hcalls c.
  pose proof (history project legacy print_json order (fun _ _ => None) Hproj calls st (memory_of st) Hcalls Hfit (fun _ _ => eq_refl)) as H. fold c in H.
  assert (K : forall l st, Forall (proper_call project) l -> forall a r, In (a, r) (snd (make_all c st l)) -> In (call_stack a) (dkeys st) -> r = Got tt).
  { induction l as [|b l IH]; intros s Hl a r Hin Hs; [easy|]. apply Forall_cons_iff in Hl as [Hb Hl]. cbn [make_all] in Hin.
    assert (Hm : make c s b = match dget s (call_stack b) with
                              | Some cfg => (dset s (call_stack b) (new_config project b cfg), Got tt)
                              | None => make c s b
                              end /\ (dget s (call_stack b) = None -> fst (make c s b) = s)).
    { destruct (dget s (call_stack b)) as [cfg|] eqn:Ed.
      - split; [|easy]. rewrite make_words. pose proof (cli_call project legacy print_json order (fun _ _ => None) Hproj b s Hb eq_refl) as E. rewrite Ed in E. fold c in E.
        rewrite (command_words _ _ _ _ _ _ _ E). reflexivity.
      - split; [reflexivity|]. intros _. destruct (make_spec project legacy print_json order (fun _ _ => None) Hproj b s Hb) as [(k & E)|(cfg & E & _)]; [|congruence].
        fold c in E. now rewrite E. }
    destruct Hm as [Hm Hm']. destruct (make c s b) as [s1 r1] eqn:Em. destruct (make_all c s1 l) as [s2 rs] eqn:Er. cbn [snd] in Hin.
    destruct Hin as [[= -> ->]|Hin].
    - destruct (dget s (call_stack a)) as [cfg|] eqn:Ed; [now injection Hm as _ ->|]. apply dget_None in Ed. contradiction.
    - apply (IH s1 Hl a r); [now rewrite Er|]. destruct (dget s (call_stack b)) as [cfg|] eqn:Ed.
      + injection Hm as -> _. rewrite dkeys_dset. now right.
      + cbn [fst] in Hm'. now rewrite (Hm' eq_refl). }
  specialize (K calls st Hcalls). destruct (make_all c st calls) as [st' rs]. destruct H as (H1 & H2 & H3 & H4 & H5). split; [exact K|]. split.
  - intros stack Hs. destruct (get_all_spec project legacy print_json order (fun _ _ => None) Hprints st' stack H1) as (_ & G2 & _). fold c in G2. specialize (G2 eq_refl).
    apply H2 in Hs. apply dget_Some_key in Hs as (cfg & Ec). rewrite Ec in G2. destruct G2 as (d & Ed & _). eauto.
  - intros stack key Hk. destruct (get_spec project legacy print_json order (fun _ _ => None) Hproj Hprints st' stack key H1 Hk) as (_ & G2 & _). fold c in G2. specialize (G2 eq_refl).
    rewrite <- (H3 stack (full_key project key)). destruct (memory_of st' stack (full_key project key)) as [[v b]|].
    + rewrite G2. split; [discriminate|eauto].
    + destruct G2 as (k & ->). split; [intros (x & E); discriminate|easy].
Qed.
Print Assumptions C74_works.

(* ------------------------------------------------------------------ *)
(** The property as stated is false for other keys: set_all_config with the key a=b and the value
    v returns, having set the variable a to "b=v"; a map with the keys k (secret) and
    p:k (not secret), which denote the same variable, leaves the one that was not given last;
    and removing no keys at all raises. *)
Definition ex_print (v : pyval) : string := match dumps v with Ok s => s | Err _ => "" end.
Lemma ex_prints : prints ex_print (fun d => d).
Proof.
  split; [|reflexivity]. intros v Hp. destruct (dumps_plain v Hp) as (s & E). unfold ex_print. rewrite E. now apply text_document, dumps_text.
Qed.
Definition ex_cli : cli configs := cli_config "p" (fun _ => None) ex_print (fun d => d) (fun _ _ => None).
Theorem C74_refuted :
  (exists st', make ex_cli [("dev", [])] (SetAllConfig "dev" [("a=b", ("v", false))]) = (st', Got tt) /\
     memory_of st' "dev" "p:a=b" = None /\ memory_of st' "dev" "p:a" = Some ("b=v", false)) /\
  (exists st', make ex_cli [("dev", [])] (SetAllConfig "dev" [("k", ("one", true)); ("p:k", ("two", false))]) = (st', Got tt) /\
     memory_of st' "dev" "p:k" = Some ("one", true)) /\
  (exists k, make ex_cli [("dev", [])] (RemoveAllConfig "dev" []) = ([("dev", [])], CliError k)) /\
  (exists k, make ex_cli [("dev", [])] (SetConfig "dev" "-x" "v" false) = ([("dev", [])], CliError k)).
Proof.
  split; [|split; [|split]].
  - eexists. repeat split; vm_compute; reflexivity.
  - eexists. repeat split; vm_compute; reflexivity.
  - eexists. vm_compute. reflexivity.
  - eexists. vm_compute. reflexivity.
Qed.
Print Assumptions C74_refuted.

(** A concrete history: values that look like flags, a map, removals, a call on a stack that
    does not exist; the structured value that was there before is kept. *)
Definition ex_state : configs :=
  [("dev", [("aws:region", mkEntry "west" false None); ("p:list", mkEntry "[1]" false (Some (VList [VNum 1])))]); ("prod", [])].
Definition ex_calls : list call :=
  [SetConfig "dev" "k" "--secret" true; SetConfig "none" "k" "v" false; SetAllConfig "prod" [("-k", ("a=b", false)); ("aws:region", ("", true))];
   RemoveAllConfig "dev" ["aws:region"; "k"; "gone"]; SetConfig "dev" "p:k" (String quote nl) false].
Example C74_case :
  prints ex_print (fun d => d) /\ fit_state ex_state /\ Forall (proper_call "p") ex_calls /\
  let '(st', rs) := make_all ex_cli ex_state ex_calls in
  map snd rs = [Got tt; CliError StackNotFoundError; Got tt; Got tt; Got tt] /\
  snd (get_config ex_cli st' "dev" "k") = Got (mkCV (VStr (String quote nl)) (VBool false)) /\
  snd (get_all_config ex_cli st' "prod") = Got [("p:-k", mkCV (VStr "a=b") (VBool false)); ("aws:region", mkCV (VStr "") (VBool true))] /\
  snd (get_all_config ex_cli st' "dev") = Got [("p:list", mkCV (VStr "[1]") (VBool false)); ("p:k", mkCV (VStr (String quote nl)) (VBool false))].
Proof.
  split; [exact ex_prints|]. split; [|split].
  - split; [repeat constructor; cbn; intuition discriminate|]. intros stack cfg [[= <- <-]|[[= <- <-]|[]]].
    + split; [repeat constructor; cbn; intuition discriminate|]. intros k e o [[= <- <-]|[[= <- <-]|[]]]; cbn; [discriminate|]. intros [= <-]. repeat constructor.
    + split; [constructor|easy].
  - repeat (apply Forall_cons; [|]); [..|apply Forall_nil]; cbn [proper_call].
    + split; cbn; [lia|discriminate].
    + split; cbn; [lia|discriminate].
    + split; [|repeat constructor; cbn; intuition discriminate].
      intros k x [[= <- <-]|[[= <- <-]|[]]]; (split; [cbn; lia|]; split; [reflexivity|]; intros c s [= <- _]; reflexivity).
    + split; [discriminate|]. intros k [<-|[<-|[<-|[]]]]; (split; [cbn; lia|discriminate]).
    + split; cbn; [lia|discriminate].
  - vm_compute. repeat split.
Qed.
