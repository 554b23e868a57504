(** C75-C78: what the Automation API tells about updates, outputs, stacks and plugins is what
    there is. *)
From Coq Require Import DecimalString DecimalZ.
From Verif Require Import Base PyVal Model_Urn Model_Cmd Model_Argv Model_StackInit Model_Json Spec_Json Proof_Json Proof_Capture Model_WsConfig Spec_WsConfig Proof_WsConfig Prop_WsConfig Model_WsState Spec_WsState Proof_WsState.
Open Scope string_scope.
Open Scope list_scope.

(* ------------------------------------------------------------------ *)
(** C75. *)
Lemma page_asked n page l : 0 < n -> the_page (Some (Z.of_nat n)) (option_map Z.of_nat page) l = asked (Some n) page l.
Proof.
  intros Hn. unfold the_page, asked, page_of. destruct (Z.ltb_spec 0 (Z.of_nat n)) as [_|]; [|lia]. rewrite Nat2Z.id. f_equal. f_equal.
  destruct page as [p|]; cbn [option_map]; nia.
Qed.
Lemma all_asked l : length l <= 10 -> the_page None None l = l.
Proof. intros H. unfold the_page, page_of. change (Z.to_nat 10) with 10. cbn [Z.ltb Z.compare Z.max]. change (Z.to_nat ((1 - 1) * 10)) with 0. cbn [skipn]. now apply firstn_all2. Qed.

(** For every way the CLI prints JSON and fails for reasons of its own, every state, stack, page
    size, page and whether secrets are shown: asking for the history changes nothing, and gives
    the updates asked for, the newest first, each with its version, kind, times, message,
    environment, result, changes and configuration; it fails only when the CLI does.
    Partial: the updates asked for are finished, and have no secrets unless these are to be
    shown; without a page size, there are at most ten. *)
Theorem C75_history_partial : forall strptime fmt_time print_json trouble w name s page_size page show,
  printer print_json -> clock strptime fmt_time -> fit_world w -> dget (w_stacks w) name = Some s ->
  match page_size with Some n => 0 < n | None => page = None /\ length (s_updates s) <= 10 end ->
  (forall u, In u (asked page_size page (s_updates s)) -> finished u /\ (show = true \/ has_secrets u = false)) ->
  let c := cli_state fmt_time print_json trouble in
  let r := stack_history strptime c w name (option_map Z.of_nat page_size) (option_map Z.of_nat page) show in
  fst r = w /\
  ((exists k, snd r = CliError k) \/ exists l, snd r = Got l /\ Forall2 tells_update (asked page_size page (s_updates s)) l) /\
  ((forall a b, trouble a b = None) -> exists l, snd r = Got l).
Proof.
  intros strptime fmt_time print_json trouble w name s page_size page show Hp Hc Hw Hs Hn Hu c r.
  assert (E : the_page (option_map Z.of_nat page_size) (option_map Z.of_nat page) (s_updates s) = asked page_size page (s_updates s)).
  { destruct page_size as [n|]; [now apply page_asked|]. destruct Hn as [-> Hn]. now apply all_asked. }
  destruct (history_spec strptime fmt_time print_json trouble Hp Hc w name (option_map Z.of_nat page_size) (option_map Z.of_nat page) show Hw) as (H1 & H2 & H3).
  fold c in H1, H2, H3. fold r in H1, H2, H3. split; [exact H1|].
  assert (K : (exists k, snd r = CliError k) \/ exists l, snd r = Got l /\ Forall2 tells_update (asked page_size page (s_updates s)) l).
  { destruct H2 as [H2|(s' & Es & H2)]; [now left|right]. rewrite Hs in Es. injection Es as <-. rewrite E in H2. auto. }
  split; [exact K|]. intros Hno. destruct K as [(k & K)|(l & K & _)]; [|eauto]. exfalso. exact (H3 s Hno Hs k K).
Qed.
Print Assumptions C75_history_partial.

(** Reading page after page gives every update, once, in order. *)
Theorem C75_pages_partial : forall strptime fmt_time print_json w name s n k,
  printer print_json -> clock strptime fmt_time -> fit_world w -> dget (w_stacks w) name = Some s ->
  0 < n -> length (s_updates s) <= k * n -> (forall u, In u (s_updates s) -> finished u) ->
  let c := cli_state fmt_time print_json (fun _ _ => None) in
  exists pages, length pages = k /\
    (forall p, p < k -> snd (stack_history strptime c w name (Some (Z.of_nat n)) (Some (Z.of_nat (S p))) true) = Got (nth p pages [])) /\
    Forall2 tells_update (s_updates s) (List.concat pages).
Proof.
  intros strptime fmt_time print_json w name s n k Hp Hc Hw Hs Hn Hk Hu c.
  assert (G : forall p, exists l, snd (stack_history strptime c w name (Some (Z.of_nat n)) (Some (Z.of_nat (S p))) true) = Got l
                          /\ Forall2 tells_update (firstn n (skipn (p * n) (s_updates s))) l).
  { intros p. destruct (C75_history_partial strptime fmt_time print_json (fun _ _ => None) w name s (Some n) (Some (S p)) true Hp Hc Hw Hs Hn) as (_ & H1 & H2).
    - intros u Hin. split; [|now left]. apply Hu. cbn in Hin. rewrite Nat.sub_0_r in Hin.
      rewrite <- (firstn_skipn (p * n) (s_updates s)). apply in_or_app. right. rewrite <- (firstn_skipn n (skipn (p * n) (s_updates s))). apply in_or_app. now left.
    - cbn [option_map] in H1, H2. destruct (H2 (fun _ _ => eq_refl)) as (l & E). destruct H1 as [(e & H1)|(l' & H1 & F)]; [fold c in H1, E; congruence|].
      exists l'. split; [exact H1|]. cbn [asked] in F. replace (S p - 1) with p in F by lia. exact F. }
  clear Hu. revert Hk G. generalize (s_updates s) as l.
  assert (M : forall l, (forall p, exists l', snd (stack_history strptime c w name (Some (Z.of_nat n)) (Some (Z.of_nat (S p))) true) = Got l' /\ Forall2 tells_update (firstn n (skipn (p * n) l)) l') ->
    forall j, exists pages, length pages = j /\
      (forall p, p < j -> snd (stack_history strptime c w name (Some (Z.of_nat n)) (Some (Z.of_nat (S p))) true) = Got (nth p pages [])) /\
      Forall2 tells_update (firstn (j * n) l) (List.concat pages)).
  { intros l G j. induction j as [|j (pages & L & P & F)].
    - exists []. split; [reflexivity|]. split; [lia|]. cbn. constructor.
    - destruct (G j) as (l' & E & F'). exists (pages ++ [l']). split; [rewrite app_length; cbn; lia|]. split.
      + intros p Hlt. destruct (Nat.eq_dec p j) as [->|].
        * rewrite app_nth2 by lia. rewrite L, Nat.sub_diag. exact E.
        * rewrite app_nth1 by lia. apply P. lia.
      + rewrite concat_app. cbn [List.concat]. rewrite app_nil_r. replace (S j * n) with (j * n + n) by lia.
        assert (A : firstn (j * n + n) l = firstn (j * n) l ++ firstn n (skipn (j * n) l)).
        { clear. revert l. generalize (j * n) as m. induction m as [|m IH]; intros l; [reflexivity|]. destruct l as [|x l]; [now destruct n|]. cbn. now rewrite IH. }
        rewrite A. now apply Forall2_app. }
  intros l Hk G. destruct (M l G k) as (pages & L & P & F). exists pages. split; [exact L|]. split; [exact P|].
  now rewrite firstn_all2 in F by exact Hk.
Qed.
Print Assumptions C75_pages_partial.

(** The newest one. *)
Theorem C75_info_partial : forall strptime fmt_time print_json trouble w name s show,
  printer print_json -> clock strptime fmt_time -> fit_world w -> dget (w_stacks w) name = Some s ->
  (forall u, hd_error (s_updates s) = Some u -> finished u /\ (show = true \/ has_secrets u = false)) ->
  let r := stack_info strptime (cli_state fmt_time print_json trouble) w name show in
  fst r = w /\
  ((exists k, snd r = CliError k) \/
   match hd_error (s_updates s) with Some u => exists o, snd r = Got (Some o) /\ tells_update u o | None => snd r = Got None end) /\
  ((forall a b, trouble a b = None) -> exists x, snd r = Got x).
Proof.
  intros strptime fmt_time print_json trouble w name s show Hp Hc Hw Hs Hu r. unfold stack_info in r.
  destruct (C75_history_partial strptime fmt_time print_json trouble w name s (Some 1) None show Hp Hc Hw Hs) as (H1 & H2 & H3); [cbn; lia| |].
  { intros u Hin. apply Hu. cbn in Hin. destruct (s_updates s) as [|x l]; [easy|]. destruct Hin as [->|[]]. reflexivity. }
  cbn [option_map] in H1, H2, H3. change (Z.of_nat 1) with 1%Z in H1, H2, H3. subst r.
  destruct (stack_history strptime (cli_state fmt_time print_json trouble) w name (Some 1%Z) None show) as [w' a]. cbn [fst snd] in *. split; [exact H1|]. split.
  - destruct H2 as [(k & ->)|(l & -> & F)]; [left; exists k; reflexivity|right]. cbn in F. cbn [abind].
    destruct (s_updates s) as [|u us]; cbn in *; inversion F; subst; [reflexivity|]. eexists. split; [reflexivity|assumption].
  - intros Hno. destruct (H3 Hno) as (l & ->). cbn. eauto.
Qed.
Print Assumptions C75_info_partial.

Lemma forall2_length {A B} (R : A -> B -> Prop) l l' : Forall2 R l l' -> length l = length l'.
Proof. induction 1; cbn; congruence. Qed.
(** Without a page size, the history of a stack with more than ten updates ends after ten,
    although it "defaults to all". *)
Theorem C75_default_refuted : forall strptime fmt_time print_json w name s,
  printer print_json -> clock strptime fmt_time -> fit_world w -> dget (w_stacks w) name = Some s ->
  10 < length (s_updates s) -> (forall u, In u (s_updates s) -> finished u) ->
  exists l, snd (stack_history strptime (cli_state fmt_time print_json (fun _ _ => None)) w name None None true) = Got l /\ length l = 10.
Proof.
  intros strptime fmt_time print_json w name s Hp Hc Hw Hs Hl Hu.
  destruct (history_spec strptime fmt_time print_json (fun _ _ => None) Hp Hc w name None None true Hw) as (_ & H2 & H3).
  destruct H2 as [(k & H2)|(s' & Es & H2)]; [exfalso; exact (H3 s (fun _ _ => eq_refl) Hs k H2)|].
  rewrite Hs in Es. injection Es as <-. destruct H2 as (l & El & F).
  - intros u Hin. split; [|now left]. apply Hu. now apply the_page_In in Hin.
  - exists l. split; [exact El|]. apply forall2_length in F. rewrite <- F. unfold the_page, page_of. cbn [Z.ltb Z.compare]. change (Z.to_nat 10) with 10.
    change (Z.to_nat ((Z.max 1 1 - 1) * 10)) with 0. cbn [skipn]. rewrite firstn_length. lia.
Qed.
Print Assumptions C75_default_refuted.

(* Concrete things. *)
Definition ex_strptime (s : string) : res Z := match NilEmpty.int_of_string s with Some n => Ok (Z.of_int n) | None => Err (Exn "ValueError" s) end.
Lemma ex_clock : clock ex_strptime str_int.
Proof. intros t _. unfold ex_strptime. rewrite int_back, of_to. reflexivity. Qed.
Lemma ex_printer : printer ex_print.
Proof. exact (proj1 ex_prints). Qed.
Definition ex_world_cli : cli world := cli_state str_int ex_print (fun _ _ => None).
Definition ex_update (v : Z) (cfg : dict entry) (p : progress) : update := mkUpdate v "update" 1600000000 ("number " ++ str_int v) [("git.head", "abc")] cfg p.
Definition ex_done : progress := Finished "succeeded" 1600000100 [("create", 2%Z); ("same", 1%Z)].
Definition ex_plain : dict entry := [("p:k", mkEntry "v" false None); ("p:l", mkEntry "[1]" false (Some (VList [VNum 1])))].
Definition ex_hidden : dict entry := [("p:k", mkEntry "v" false None); ("p:s", mkEntry "shh" true None)].
Definition ex_stack (l : list update) : stack :=
  mkStack l [("url", OStr "http"); ("token", OSecret (OStr "shh")); ("deep", OList [ONum 1; ODict [("a", ONone)]])] (Some 1600000100%Z) (Some 3%Z) "".
Definition ex_w (l : list update) : world :=
  mkWorld [("dev", ex_stack l); ("prod", mkStack [] [] None None "https://app")] (Some "dev")
          [mkPlugin "aws" "resource" "4.0.0" 12 (Some 1500000000%Z) (Some 1600000000%Z); mkPlugin "x" "resource" "" 0 None (Some 1600000001%Z)].

(** An update that is in progress makes the call fail, and so does a secret that is not to be shown. *)
Theorem C75_refuted :
  (let w := ex_w [ex_update 2 ex_plain InProgress; ex_update 1 ex_plain ex_done] in
   snd (stack_info ex_strptime ex_world_cli w "dev" true) = PyError (Exn "KeyError" "endTime") /\
   snd (stack_history ex_strptime ex_world_cli w "dev" None None true) = PyError (Exn "KeyError" "endTime")) /\
  (let w := ex_w [ex_update 1 ex_hidden ex_done] in
   snd (stack_info ex_strptime ex_world_cli w "dev" false) = PyError (Exn "KeyError" "value") /\
   exists l, snd (stack_history ex_strptime ex_world_cli w "dev" None None true) = Got l).
Proof. vm_compute. repeat split. eexists. reflexivity. Qed.
Print Assumptions C75_refuted.

Lemma ex_fit l : Forall fit_update l -> fit_world (ex_w l).
Proof.
  intros H. split; [repeat constructor; cbn; intuition discriminate|]. split.
  - intros k s [[= <- <-]|[[= <- <-]|[]]].
    + split; [exact H|]. split; [|intros t [= <-]; split; lia].
      constructor; [repeat constructor; cbn; intuition discriminate|]. repeat apply Forall_cons; cbn [snd]; [constructor|repeat constructor| |constructor].
      apply F_list. apply Forall_cons; [constructor|]. apply Forall_cons; [|constructor]. apply F_dict; [repeat constructor; cbn; intuition discriminate|]. apply Forall_cons; [constructor|constructor].
    + split; [constructor|]. split; [constructor; constructor|discriminate].
  - apply Forall_cons; [|apply Forall_cons; [|constructor]]; (split; intros t; cbn; intros [= <-] || discriminate); split; lia.
Qed.
Lemma ex_fit_update v cfg : cfg = ex_plain \/ cfg = ex_hidden -> fit_update (ex_update v cfg ex_done).
Proof.
  intros H. split; [repeat constructor; cbn; intuition discriminate|]. cbn [ex_update u_config u_start u_progress]. split; [|split].
  - destruct H as [-> | ->]; repeat constructor; cbn; intuition discriminate.
  - intros k e Hin o Ho. destruct H as [-> | ->]; cbn in Hin.
    + destruct Hin as [[= <- <-]|[[= <- <-]|[]]]; [discriminate|]. injection Ho as <-. repeat constructor.
    + destruct Hin as [[= <- <-]|[[= <- <-]|[]]]; discriminate.
  - split; [split; lia|]. split; [discriminate|]. split; [split; lia|]. repeat constructor; cbn; intuition discriminate.
Qed.
Example C75_case :
  let w := ex_w [ex_update 3 ex_plain ex_done; ex_update 2 ex_hidden ex_done; ex_update 1 ex_plain ex_done] in
  printer ex_print /\ clock ex_strptime str_int /\ fit_world w /\
  (forall s, dget (w_stacks w) "dev" = Some s -> forall u, In u (s_updates s) -> finished u) /\
  exists o, snd (stack_history ex_strptime ex_world_cli w "dev" (Some 2%Z) (Some 2%Z) true) = Got [o] /\
    attr o "message" = Some (CData (VStr "number 1")) /\ attr o "end_time" = Some (CTime 1600000100).
Proof.
  split; [exact ex_printer|]. split; [exact ex_clock|]. split; [|split].
  - apply ex_fit. repeat apply Forall_cons; [..|apply Forall_nil]; apply ex_fit_update; auto.
  - intros s [= <-] u [<-|[<-|[<-|[]]]]; discriminate.
  - vm_compute. eexists. repeat split.
Qed.

(* ------------------------------------------------------------------ *)
(** C76.  For every state, stack, and whatever others do between the two commands the call
    runs as long as the outputs of this stack remain: it gives exactly the stack's outputs, in
    order, each with its value, and whether it is secret.
    Partial: no output is the string [secret] itself, and none that is not secret as a whole
    has secrets inside. *)
Theorem C76_outputs_partial : forall fmt_time print_json trouble meanwhile w name s1 s2,
  printer print_json -> fit_world w -> fit_world (meanwhile w) ->
  dget (w_stacks w) name = Some s1 -> dget (w_stacks (meanwhile w)) name = Some s2 -> s_outputs s2 = s_outputs s1 ->
  (forall k v, In (k, v) (s_outputs s1) -> v <> OStr "[secret]" /\ (secretive v -> is_secret v)) ->
  let r := stack_outputs (cli_state fmt_time print_json trouble) meanwhile w name in
  (fst r = w \/ fst r = meanwhile w) /\
  ((exists k, snd r = CliError k /\ ~ (forall a b, trouble a b = None)) \/
   exists d, snd r = Got d /\
     Forall2 (fun kv out => fst out = fst kv /\ stands (snd kv) (fst (snd out)) /\ (snd (snd out) = true <-> secretive (snd kv))) (s_outputs s1) d).
Proof.
  intros fmt_time print_json trouble meanwhile w name s1 s2 Hp Hw Hw' E1 E2 Eo Hv r.
  split; [now apply outputs_spec|].
  destruct (outputs_value fmt_time print_json trouble Hp meanwhile w name s1 s2 Hw Hw' E1 E2) as [H|H]; [rewrite Eo; auto|now left|right].
  exists (map (fun k => (k, output_value (s_outputs s1) (s_outputs s2) k)) (dkeys (s_outputs s2))). split; [exact H|]. rewrite Eo. clear H.
  assert (Hn : NoDup (dkeys (s_outputs s1))).
  { apply (dget_stack w name s1 Hw) in E1. destruct E1 as (_ & E1 & _). inversion E1; subst; assumption. }
  assert (K : forall l, (forall kv, In kv l -> In kv (s_outputs s1)) ->
    Forall2 (fun kv out => fst out = fst kv /\ stands (snd kv) (fst (snd out)) /\ (snd (snd out) = true <-> secretive (snd kv))) l
      (map (fun k => (k, output_value (s_outputs s1) (s_outputs s1) k)) (dkeys l))).
  { induction l as [|[k v] l IH]; intros Hin; [constructor|]. cbn [dkeys map fst]. constructor; [|apply IH; intros; apply Hin; now right].
    cbn [fst snd]. split; [reflexivity|]. assert (Hi : In (k, v) (s_outputs s1)) by (apply Hin; now left).
    unfold output_value. rewrite (In_dget _ _ _ Hn Hi). cbn [fst snd]. split; [apply massage_stands|].
    destruct (Hv k v Hi) as [Hs Hc]. clear -Hs Hc. destruct v as [| b | z | s | l | d | v]; cbn [massage is_masked];
      try (split; [discriminate|intros H; inversion H; fail]).
    - split; [|intros H; inversion H]. intros E. apply String.eqb_eq in E. congruence.
    - split; [discriminate|]. intros H. destruct (Hc H) as (x & [=]).
    - split; [discriminate|]. intros H. destruct (Hc H) as (x & [=]).
    - split; [|reflexivity]. intros _. constructor. }
  apply K. auto.
Qed.
Print Assumptions C76_outputs_partial.

(** The property as stated is false: a plain output that reads [secret] is said to be secret; a
    secret inside a list is given as if it were not; and when the outputs change between the
    two commands, the call fails, or gives a secret as if it were not one. *)
Definition with_outputs (d : dict ov) : world := mkWorld [("dev", mkStack [] d None None "")] (Some "dev") [].
Theorem C76_refuted :
  snd (stack_outputs ex_world_cli (fun w => w) (with_outputs [("k", OStr "[secret]")]) "dev") = Got [("k", (VStr "[secret]", true))] /\
  snd (stack_outputs ex_world_cli (fun w => w) (with_outputs [("k", OList [OSecret (OStr "shh")])]) "dev") = Got [("k", (VList [VStr "shh"], false))] /\
  snd (stack_outputs ex_world_cli (fun _ => with_outputs [("k", ONum 1); ("new", ONum 2)]) (with_outputs [("k", ONum 1)]) "dev") = PyError (Exn "KeyError" "new") /\
  snd (stack_outputs ex_world_cli (fun _ => with_outputs [("k", OSecret (OStr "shh"))]) (with_outputs [("k", OStr "")]) "dev") = Got [("k", (VStr "shh", false))].
Proof. vm_compute. repeat split. Qed.
Print Assumptions C76_refuted.
Example C76_case :
  fit_world (ex_w []) /\ (forall k v, In (k, v) (s_outputs (ex_stack [])) -> v <> OStr "[secret]" /\ (secretive v -> is_secret v)) /\
  snd (stack_outputs ex_world_cli (fun w => w) (ex_w []) "dev") =
    Got [("url", (VStr "http", false)); ("token", (VStr "shh", true)); ("deep", (VList [VNum 1; VDict [("a", VNone)]], false))].
Proof.
  split; [apply ex_fit; constructor|]. split; [|vm_compute; reflexivity].
  intros k v [[= <- <-]|[[= <- <-]|[[= <- <-]|[]]]]; (split; [discriminate|]); intros H.
  - inversion H.
  - eexists. reflexivity.
  - exfalso. inversion H as [|l v Hin Hv|]; subst. destruct Hin as [<-|[<-|[]]]; [inversion Hv|].
    inversion Hv as [| |d k v Hin Hv']; subst. destruct Hin as [[= <- <-]|[]]. inversion Hv'.
Qed.

(* ------------------------------------------------------------------ *)
(** C77.  For every state: list_stacks gives exactly the stacks of the project, each with its
    name, whether it is the selected one, whether it is being updated, and the rest; stack() gives
    the selected one, if it is one of these. *)
Theorem C77_stacks : forall strptime fmt_time print_json trouble w,
  printer print_json -> clock strptime fmt_time -> fit_world w ->
  let r := list_stacks strptime (cli_state fmt_time print_json trouble) w in
  fst r = w /\
  ((exists k, snd r = CliError k /\ ~ (forall a b, trouble a b = None)) \/
   exists l, snd r = Got l /\ Forall2 (fun kv o => tells_stack (w_current w) (fst kv) (snd kv) o) (w_stacks w) l).
Proof. intros. now apply stacks_spec. Qed.
Print Assumptions C77_stacks.
Theorem C77_current : forall strptime fmt_time print_json trouble w,
  printer print_json -> clock strptime fmt_time -> fit_world w ->
  let r := current_stack strptime (cli_state fmt_time print_json trouble) w in
  fst r = w /\
  ((exists k, snd r = CliError k /\ ~ (forall a b, trouble a b = None)) \/
   (exists name s o, w_current w = Some name /\ dget (w_stacks w) name = Some s /\ snd r = Got (Some o) /\ tells_stack (w_current w) name s o) \/
   ((forall name, w_current w = Some name -> ~ In name (dkeys (w_stacks w))) /\ snd r = Got None)).
Proof.
  intros strptime fmt_time print_json trouble w Hp Hc Hw r. unfold current_stack in r.
  destruct (stacks_spec strptime fmt_time print_json trouble Hp Hc w Hw) as (H1 & H2). subst r.
  destruct (list_stacks strptime (cli_state fmt_time print_json trouble) w) as [w' a]. cbn [fst snd] in *. split; [exact H1|].
  destruct H2 as [(k & -> & Hno)|(l & -> & F)]; [left; exists k; auto|right]. cbn [abind].
  set (f := fun kv : string * stack => match w_current w with Some c => String.eqb (fst kv) c | None => false end).
  pose proof (find_forall2 _ f is_current _ _ F) as K.
  assert (Hf : forall kv o, tells_stack (w_current w) (fst kv) (snd kv) o -> is_current o = f kv).
  { intros [n s] o (_ & (b & E & Hb) & _). unfold is_current, f. unfold attr in E. rewrite E. cbn [fst] in *. destruct (w_current w) as [c|].
    - destruct (String.eqb_spec n c) as [->|Hd]; [now apply Hb|]. destruct b; [|reflexivity]. destruct Hb as [Hb _]. specialize (Hb eq_refl). congruence.
    - destruct b; [|reflexivity]. destruct Hb as [Hb _]. specialize (Hb eq_refl). discriminate. }
  specialize (K Hf). destruct (find f (w_stacks w)) as [[n s]|] eqn:Ef.
  - left. destruct K as (o & Eo & Ho). apply find_some in Ef as [Hin Hfn]. unfold f in Hfn. cbn [fst snd] in *.
    destruct (w_current w) as [c|]; [|discriminate]. apply String.eqb_eq in Hfn. subst c. exists n, s, o. rewrite Eo. split; [reflexivity|]. split; [|auto].
    apply In_dget; [apply Hw|exact Hin].
  - right. rewrite K. split; [|reflexivity]. intros n En Hin. apply in_map_iff in Hin as ((n', s) & En' & Hin). cbn in En'. subst n'.
    apply (find_none _ _ Ef) in Hin. unfold f in Hin. rewrite En in Hin. cbn [fst] in Hin. rewrite String.eqb_refl in Hin. discriminate.
Qed.
Print Assumptions C77_current.
Example C77_case :
  fit_world (ex_w []) /\
  exists o1 o2, snd (list_stacks ex_strptime ex_world_cli (ex_w [])) = Got [o1; o2] /\ snd (current_stack ex_strptime ex_world_cli (ex_w [])) = Got (Some o1) /\
    attr o1 "last_update" = Some (CTime 1600000100) /\ attr o2 "url" = Some (CData (VStr "https://app")) /\ attr o2 "resource_count" = Some (CData VNone).
Proof. split; [apply ex_fit; constructor|]. vm_compute. eexists _, _. repeat split. Qed.

(* ------------------------------------------------------------------ *)
(** C78.  For every state: list_plugins gives exactly the plugins, each with its name, kind,
    version, size and the time it was installed.
    Partial: every plugin has been used; and the time of the last use is not what the declared
    attribute gives. *)
Theorem C78_plugins_partial : forall strptime fmt_time print_json trouble w,
  printer print_json -> clock strptime fmt_time -> fit_world w -> Forall (fun p => p_used p <> None) (w_plugins w) ->
  let r := list_plugins strptime (cli_state fmt_time print_json trouble) w in
  fst r = w /\
  ((exists k, snd r = CliError k /\ ~ (forall a b, trouble a b = None)) \/
   exists l, snd r = Got l /\ Forall2 (fun p o => tells_plugin p o /\ attr o "last_used" = option_map CTime (p_used p)) (w_plugins w) l).
Proof. intros. now apply plugins_spec. Qed.
Print Assumptions C78_plugins_partial.

(** The property as stated is false: no plugin ever has the attribute last_used_time that is
    declared, and a plugin that has not been used makes the call fail. *)
Theorem C78_refuted :
  (forall S strptime (c : cli S) s l o, snd (list_plugins strptime c s) = Got l -> In o l -> attr o "last_used_time" = None) /\
  (exists l, snd (list_plugins ex_strptime ex_world_cli (ex_w [])) = Got l /\ length l = 2) /\
  snd (list_plugins ex_strptime ex_world_cli (mkWorld [] None [mkPlugin "aws" "resource" "4.0.0" 12 (Some 1500000000%Z) None])) = PyError (Exn "KeyError" "lastUsedTime").
Proof.
  split; [|vm_compute; split; [eexists; split; reflexivity|reflexivity]].
  intros S strptime c s l o. unfold list_plugins. destruct (command c s _) as [s' [out|k|e]]; cbn [snd abind]; try discriminate.
  destruct (loads out) as [j|]; cbn [rbind answer_of]; [|discriminate]. destruct (items_of j) as [js|]; cbn [rbind answer_of]; [|discriminate].
  intros E Hin. assert (M : exists js', map_res (read_plugin strptime) js' = Ok l).
  { exists js. destruct (map_res (read_plugin strptime) js); cbn in E; [now injection E as ->|discriminate]. }
  clear E. destruct M as (js' & M). revert l Hin M. induction js' as [|x js' IH]; intros l Hin M; cbn [map_res] in M.
  - injection M as <-. destruct Hin.
  - destruct (read_plugin strptime x) as [y|] eqn:Ey; cbn [rbind] in M; [|discriminate]. destruct (map_res _ js') as [ys|] eqn:Es; cbn [rbind] in M; [|discriminate].
    injection M as <-. destruct Hin as [<-|Hin]; [|now apply (IH ys)].
    unfold read_plugin in Ey. repeat match type of Ey with rbind ?m _ = _ => destruct m; cbn [rbind] in Ey; [|discriminate] end. injection Ey as <-. reflexivity.
Qed.
Print Assumptions C78_refuted.
Example C78_case : fit_world (ex_w []) /\ Forall (fun p => p_used p <> None) (w_plugins (ex_w [])) /\
  exists a b, snd (list_plugins ex_strptime ex_world_cli (ex_w [])) = Got [a; b] /\ attr a "install_time" = Some (CTime 1500000000) /\ attr b "install_time" = Some (CData VNone).
Proof. split; [apply ex_fit; constructor|]. split; [repeat constructor; discriminate|]. vm_compute. eexists _, _. repeat split. Qed.
