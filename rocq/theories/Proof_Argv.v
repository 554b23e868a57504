From Coq Require Import DecimalString.
From Verif Require Import Base PyVal Model_Cmd Spec_Cmd Proof_Cmd Model_Argv Spec_Argv.
Open Scope string_scope.

(** The words that give the values [snd e] to the flag [fst e]. *)
Definition block_word (g v : string) : list string :=
  if among g valued then [g; v] else if among g switches then [g] else [g ++ "=" ++ v].
Definition block (e : string * list string) : list string := flat_map (block_word (fst e)) (snd e).
Definition proper (e : string * list string) : Prop :=
  (among (fst e) valued = false -> among (fst e) switches = true -> Forall (eq "true") (snd e)) /\
  (among (fst e) valued = true \/ among (fst e) switches = true \/ fst e = "--client").
Definition blocks (es : list (string * list string)) : list string := flat_map block es.
Definition pairs (es : list (string * list string)) : list (string * string) := flat_map (fun e => map (pair (fst e)) (snd e)) es.

Lemma substring_all v : String.substring 0 (String.length v) v = v.
Proof. induction v as [|c v IH]; simpl; [reflexivity|]. now rewrite IH. Qed.
Lemma flags_client v rest : flags (("--client=" ++ v) :: rest) = option_map (cons ("--client", v)) (flags rest).
Proof.
  assert (E : equals_form ("--client=" ++ v) = Some ("--client", v)).
  { unfold equals_form. rewrite (proj2 (prefix_spec "--client=" ("--client=" ++ v)) (ex_intro _ v eq_refl)).
    change (String.length ("--client=" ++ v)) with (9 + String.length v). rewrite Nat.add_comm, Nat.add_sub.
    cbn [String.append String.substring]. now rewrite substring_all. }
  cbn [flags]. rewrite E. reflexivity.
Qed.

Lemma map_some {A B C} (f : B -> C) (g : A -> B) (o : option A) : option_map f (option_map g o) = option_map (fun x => f (g x)) o.
Proof. now destruct o. Qed.
Lemma flags_block e rest : proper e -> flags (block e ++ rest)%list = option_map (app (map (pair (fst e)) (snd e))) (flags rest).
Proof.
  destruct e as [g l]. unfold proper, block. cbn [fst snd]. intros [Hs Hk]. induction l as [|v l IH]; cbn [flat_map map].
  - simpl. now destruct (flags rest).
  - rewrite <- app_assoc. unfold block_word at 1. destruct (among g valued) eqn:E1.
    + cbn [app flags]. rewrite E1. rewrite IH by (intros; discriminate). rewrite map_some. reflexivity.
    + destruct (among g switches) eqn:E2.
      * assert (Hv := Hs eq_refl eq_refl). inversion Hv; subst. cbn [app flags]. rewrite E1, E2.
        rewrite IH by auto. rewrite map_some. reflexivity.
      * destruct Hk as [Hk|[Hk|Hk]]; try discriminate. subst g. cbn [app].
        change ("--client" ++ "=" ++ v) with ("--client=" ++ v). rewrite flags_client, IH by (intros; discriminate || auto). rewrite map_some. reflexivity.
Qed.
Lemma flags_blocks es : Forall proper es -> flags (blocks es) = Some (pairs es).
Proof.
  induction 1 as [|e es H Hes IH]; [reflexivity|]. cbn [blocks flat_map pairs]. unfold blocks in IH. rewrite flags_block, IH by assumption. reflexivity.
Qed.
Lemma values_app f a b : values f (a ++ b)%list = (values f a ++ values f b)%list.
Proof. unfold values. now rewrite filter_app, map_app. Qed.
Lemma values_pairs f es : values f (pairs es) = flat_map (fun e => if String.eqb f (fst e) then snd e else []) es.
Proof.
  induction es as [|[g l] es IH]; [reflexivity|]. cbn [pairs flat_map fst snd]. unfold pairs in IH. rewrite values_app, IH. f_equal.
  unfold values. induction l as [|v l IHl]; cbn [map filter fst]; [now destruct (String.eqb f g)|].
  destruct (String.eqb f g); cbn [map snd]; congruence.
Qed.

(** The flags of each command, in order. *)
Definition extra (o : op_options) : list (string * list string) :=
  [("--message", text (a_message o)); ("--expect-no-changes", switch_arg (a_expect_no_changes o)); ("--diff", switch_arg (a_diff o));
   ("--replace", all_of (a_replace o)); ("--target", all_of (a_target o));
   ("--policy-pack", all_of (a_policy_packs o)); ("--policy-pack-config", all_of (a_policy_pack_configs o));
   ("--target-dependents", switch_arg (a_target_dependents o)); ("--parallel", number (a_parallel o));
   ("--color", text (a_color o)); ("--logflow", switch_arg (a_log_flow o)); ("--verbose", number (a_log_verbosity o));
   ("--logtostderr", switch_arg (a_log_to_std_err o)); ("--tracing", text (a_tracing o)); ("--debug", switch_arg (a_debug o))].
Definition tail_of (c : command) (o : op_options) (w : surroundings) : list (string * list string) :=
  [("--client", if inline c o w then ["127.0.0.1:" ++ str_int (w_port w)] else []);
   ("--exec-kind", [if inline c o w then "auto.inline" else "auto.local"]);
   ("--event-log", if a_on_event o || match c with Preview => true | _ => false end then [w_log w] else []);
   ("--stack", [w_stack w])].
Definition yes : list (string * list string) := [("--yes", ["true"]); ("--skip-preview", ["true"])].
Definition plan_of (f : string) (o : op_options) : list (string * list string) := [(f, match a_plan o with Some p => [p] | None => [] end)].
Definition entries (c : command) (o : op_options) (w : surroundings) : list (string * list string) :=
  match c with
  | Up => yes ++ extra o ++ plan_of "--plan" o ++ tail_of c o w
  | Preview => extra o ++ plan_of "--save-plan" o ++ tail_of c o w
  | Refresh => yes ++ extra (kwargs_refresh o) ++ [("--client", [])] ++ tl (tail_of c o w)
  | Destroy => yes ++ extra (kwargs_destroy o) ++ [("--client", [])] ++ tl (tail_of c o w)
  end%list.

Lemma map_VStr_if (b : bool) l : map VStr (if b then l else []) = if b then map VStr l else [].
Proof. now destruct b. Qed.
Lemma b_text g o : among g valued = true -> map VStr (block (g, text o)) = if truthy_str o then [VStr g; str_arg o] else [].
Proof. intros H. destruct o as [[|c s]|]; try reflexivity. unfold block, text. cbn [fst snd flat_map]. unfold block_word. rewrite H. reflexivity. Qed.
Lemma b_switch g o : among g valued = false -> among g switches = true -> map VStr (block (g, switch_arg o)) = if truthy_bool o then [VStr g] else [].
Proof. intros H K. destruct o as [[|]|]; try reflexivity. unfold block, switch_arg. cbn [fst snd flat_map]. unfold block_word. rewrite H, K. reflexivity. Qed.
Lemma b_each g o : among g valued = true -> map VStr (block (g, all_of o)) = each g o.
Proof.
  intros H. destruct o as [l|]; [|reflexivity]. unfold block, each, all_of. cbn [fst snd]. induction l as [|x l IH]; [reflexivity|].
  cbn [flat_map]. rewrite map_app, IH. unfold block_word. rewrite H. reflexivity.
Qed.
Lemma b_number g o : among g valued = true -> map VStr (block (g, number o)) =
  if truthy_int o then [VStr g; VStr (match o with Some n => str_int n | None => "None" end)] else [].
Proof. intros H. destruct o as [[|p|p]|]; try reflexivity; unfold block, number; cbn [fst snd flat_map]; unfold block_word; rewrite H; reflexivity. Qed.

Lemma blocks_app a b : blocks (a ++ b) = (blocks a ++ blocks b)%list.
Proof. apply flat_map_app. Qed.
Lemma blocks_cons e es : map VStr (blocks (e :: es)) = (map VStr (block e) ++ map VStr (blocks es))%list.
Proof. unfold blocks. cbn [flat_map]. now rewrite map_app. Qed.
Lemma extra_args o : truthy_int (a_log_verbosity o) = false -> parse_extra_args o = map VStr (blocks (extra o)).
Proof.
  intros H. unfold extra. rewrite !blocks_cons. change (map VStr (blocks [])) with (@nil pyval). rewrite app_nil_r.
  rewrite !b_text, !b_switch, !b_each, !b_number by reflexivity. unfold parse_extra_args. rewrite H. reflexivity.
Qed.

Lemma plan_block f o : among f valued = true -> map VStr (blocks (plan_of f o)) = match a_plan o with Some p => [VStr f; VStr p] | None => [] end.
Proof. intros H. unfold plan_of, blocks, block, block_word. cbn [flat_map fst snd]. rewrite H. now destruct (a_plan o). Qed.
Lemma args_entries c o w : truthy_int (a_log_verbosity o) = false ->
  (command_args c o w ++ [VStr "--stack"; VStr (w_stack w)])%list = map VStr (word_of c :: blocks (entries c o w)).
Proof.
  intros H. destruct c; cbn [command_args entries]; rewrite !blocks_app; cbn [map]; rewrite !map_app;
    unfold up_args, preview_args, refresh_args, destroy_args; rewrite extra_args by exact H; rewrite <- ?app_assoc.
  - rewrite plan_block by reflexivity. change (map VStr (blocks yes)) with [VStr "--yes"; VStr "--skip-preview"]. cbn [word_of app].
    do 3 apply f_equal. do 2 apply (f_equal (app _)). unfold client_args, kind_args, tail_of, inline.
    destruct (a_program o || w_program w), (a_on_event o); reflexivity.
  - rewrite plan_block by reflexivity. cbn [word_of app]. apply f_equal. do 2 apply (f_equal (app _)). unfold client_args, kind_args, tail_of, inline.
    destruct (a_program o || w_program w), (a_on_event o); reflexivity.
  - change (map VStr (blocks yes)) with [VStr "--yes"; VStr "--skip-preview"]. cbn [word_of app].
    do 3 apply f_equal. apply (f_equal (app _)). unfold kind_args, tail_of, inline; cbn [tl].
    destruct (w_program w), (a_on_event o); reflexivity.
  - change (map VStr (blocks yes)) with [VStr "--yes"; VStr "--skip-preview"]. cbn [word_of app].
    do 3 apply f_equal. apply (f_equal (app _)). unfold kind_args, tail_of, inline; cbn [tl].
    destruct (w_program w), (a_on_event o); reflexivity.
Qed.

Lemma switch_arg_true o : Forall (eq "true") (switch_arg o).
Proof. destruct o as [[|]|]; repeat constructor. Qed.
Lemma entries_proper c o w : Forall proper (entries c o w).
Proof.
  assert (V : forall g l, among g valued = true -> proper (g, l)) by (intros g l H; split; cbn [fst]; [congruence|auto]).
  assert (S : forall g l, among g switches = true -> Forall (eq "true") l -> proper (g, l)) by (intros g l H K; split; cbn [fst snd]; auto).
  assert (C : forall l, proper ("--client", l)) by (intros l; split; cbn [fst]; [intros _ K; discriminate|auto]).
  assert (E : forall o, Forall proper (extra o)).
  { intros o'. repeat (constructor; [first [apply V; reflexivity|apply S; [reflexivity|apply switch_arg_true]]|]). constructor. }
  assert (T : forall c o w, Forall proper (tail_of c o w)).
  { intros. repeat (constructor; [first [apply V; reflexivity|apply C]|]). constructor. }
  assert (Y : Forall proper yes) by (repeat (constructor; [apply S; [reflexivity|repeat constructor]|]); constructor).
  assert (P : forall f, among f valued = true -> Forall proper (plan_of f o)) by (intros f Hf; constructor; [now apply V|constructor]).
  destruct c; cbn [entries]; rewrite !Forall_app.
  - split; [exact Y|]. split; [apply E|]. split; [now apply P|apply T].
  - split; [apply E|]. split; [now apply P|apply T].
  - split; [exact Y|]. split; [apply E|]. split; [apply Forall_cons; [apply C|apply Forall_nil]|].
    exact (Forall_inv_tail (T Refresh o w)).
  - split; [exact Y|]. split; [apply E|]. split; [apply Forall_cons; [apply C|apply Forall_nil]|].
    exact (Forall_inv_tail (T Destroy o w)).
Qed.

Lemma str_int_not n : str_int n <> "--non-interactive".
Proof.
  intros H. assert (K := NilEmpty.isi (Z.to_int n)). unfold str_int in H. rewrite H in K. discriminate.
Qed.
Lemma number_not o : ~ In "--non-interactive" (number o).
Proof. destruct o as [[|p|p]|]; simpl; try tauto; intros [H|[]]; [apply (str_int_not (Zpos p))|apply (str_int_not (Zneg p))]; exact H. Qed.
Definition quiet (e : string * list string) : Prop := fst e <> "--non-interactive" /\ (among (fst e) valued = true -> ~ In "--non-interactive" (snd e)).
Lemma quiet_block e : proper e -> quiet e -> ~ In "--non-interactive" (block e).
Proof.
  destruct e as [g l]. unfold proper, quiet, block. cbn [fst snd]. intros [_ Hp] [Hg Hv] K. apply in_flat_map in K as (v & Kv & K).
  unfold block_word in K. destruct (among g valued).
  - destruct K as [K|[K|[]]]; [congruence|subst v; now apply (Hv eq_refl)].
  - destruct (among g switches); [destruct K as [K|[]]; congruence|]. destruct Hp as [Hp|[Hp|Hp]]; try discriminate. subst g.
    destruct K as [K|[]]. discriminate.
Qed.
Lemma quiet_blocks es : Forall proper es -> Forall quiet es -> ~ In "--non-interactive" (blocks es).
Proof.
  induction 1 as [|e es H Hes IH]; intros Hq K; [destruct K|]. inversion Hq; subst. apply in_app_or in K as [K|K]; [now apply (quiet_block e)|now apply IH].
Qed.
Definition NI : string := "--non-interactive".
Lemma extra_quiet o : ~ In NI (text (a_message o)) -> ~ In NI (all_of (a_replace o)) -> ~ In NI (all_of (a_target o)) ->
  ~ In NI (all_of (a_policy_packs o)) -> ~ In NI (all_of (a_policy_pack_configs o)) -> ~ In NI (text (a_color o)) ->
  ~ In NI (text (a_tracing o)) -> Forall quiet (extra o).
Proof.
  intros. unfold extra.
  repeat (apply Forall_cons; [split; cbn [fst snd]; [discriminate|intros K; first [discriminate K|assumption|apply number_not]]|]). apply Forall_nil.
Qed.
Lemma entries_quiet c o w : ~ In "--non-interactive" (supplied o w) -> Forall quiet (entries c o w).
Proof.
  fold NI. intros H. unfold supplied in H.
  assert (Hs : w_stack w <> NI) by (intros K; apply H; now left).
  assert (Hl : w_log w <> NI) by (intros K; apply H; right; now left).
  assert (H' := fun K => H (or_intror (or_intror K))). clear H.
  assert (H1 := fun K => H' (in_or_app _ _ _ (or_introl K))). assert (H1' := fun K => H' (in_or_app _ _ _ (or_intror K))). clear H'.
  assert (H2 := fun K => H1' (in_or_app _ _ _ (or_introl K))). assert (H2' := fun K => H1' (in_or_app _ _ _ (or_intror K))). clear H1'.
  assert (H3 := fun K => H2' (in_or_app _ _ _ (or_introl K))). assert (H3' := fun K => H2' (in_or_app _ _ _ (or_intror K))). clear H2'.
  assert (H4 := fun K => H3' (in_or_app _ _ _ (or_introl K))). assert (H4' := fun K => H3' (in_or_app _ _ _ (or_intror K))). clear H3'.
  assert (H5 := fun K => H4' (in_or_app _ _ _ (or_introl K))). assert (H5' := fun K => H4' (in_or_app _ _ _ (or_intror K))). clear H4'.
  assert (H6 := fun K => H5' (in_or_app _ _ _ (or_introl K))). assert (H6' := fun K => H5' (in_or_app _ _ _ (or_intror K))). clear H5'.
  assert (H7 := fun K => H6' (in_or_app _ _ _ (or_introl K))). assert (H8 := fun K => H6' (in_or_app _ _ _ (or_intror K))). clear H6'.
  assert (E : Forall quiet (extra o)) by (apply extra_quiet; assumption).
  assert (E1 : Forall quiet (extra (kwargs_refresh o))) by (apply extra_quiet; first [assumption|intros []]).
  assert (E2 : Forall quiet (extra (kwargs_destroy o))) by (apply extra_quiet; first [assumption|intros []]).
  assert (T : forall c, Forall quiet (tail_of c o w)).
  { intros c'. unfold tail_of. repeat (apply Forall_cons; [split; cbn [fst snd]; [discriminate|intros K; try discriminate K]|]); [| | |apply Forall_nil].
    - destruct (inline c' o w); intros [K'|[]]; discriminate.
    - destruct (a_on_event o || _); [intros [K'|[]]; contradiction|intros []].
    - intros [K'|[]]; contradiction. }
  assert (Y : Forall quiet yes) by (repeat (constructor; [split; cbn [fst snd]; [discriminate|intros K; discriminate K]|]); constructor).
  assert (P : forall f, f <> "--non-interactive" -> Forall quiet (plan_of f o)).
  { intros f Hf. constructor; [|constructor]. split; [exact Hf|]. intros _. exact H8. }
  destruct c; cbn [entries]; rewrite !Forall_app.
  - split; [exact Y|]. split; [apply E|]. split; [now apply P|apply T].
  - split; [apply E|]. split; [now apply P|apply T].
  - split; [exact Y|]. split; [apply E1|]. split; [apply Forall_cons; [split; [discriminate|intros _ []]|apply Forall_nil]|].
    exact (Forall_inv_tail (T Refresh)).
  - split; [exact Y|]. split; [apply E2|]. split; [apply Forall_cons; [split; [discriminate|intros _ []]|apply Forall_nil]|].
    exact (Forall_inv_tail (T Destroy)).
Qed.

Definition known_flags : list string := "--client" :: valued ++ switches.
Lemma incl_known l : forallb (fun g => among g known_flags) l = true -> incl l known_flags.
Proof.
  intros H x Hx. rewrite forallb_forall in H. apply H in Hx. unfold among in Hx. apply existsb_exists in Hx as (y & Hy & E).
  apply String.eqb_eq in E as ->. exact Hy.
Qed.
Lemma unknown_values c o w f : ~ In f known_flags ->
  flat_map (fun e => if String.eqb f (fst e) then snd e else []) (entries c o w ++ [("--non-interactive", ["true"])])%list = asked c o w f.
Proof.
  intros H. assert (N : forall g, In g known_flags -> String.eqb f g = false).
  { intros g Hg. apply String.eqb_neq. intros ->. contradiction. }
  assert (Hn : forall es : list (string * list string), incl (map fst es) known_flags -> flat_map (fun e => if String.eqb f (fst e) then snd e else []) es = []).
  { induction es as [|e es IH]; intros Hi; [reflexivity|]. cbn [flat_map]. rewrite N by (apply Hi; now left). apply IH. intros x Hx. apply Hi. now right. }
  rewrite Hn.
  - unfold asked. destruct (lacks c f); [reflexivity|].
    assert (Hf : forall es : list (string * list string), incl (map fst es) known_flags -> find (fun e => String.eqb f (fst e)) es = None).
    { induction es as [|e es IH]; intros Hi; [reflexivity|]. cbn [find]. rewrite N by (apply Hi; now left). apply IH. intros x Hx. apply Hi. now right. }
    rewrite Hf; [reflexivity|]. apply incl_known. reflexivity.
  - apply incl_known. destruct c; reflexivity.
Qed.
Lemma asked_values c o w f : flat_map (fun e => if String.eqb f (fst e) then snd e else []) (entries c o w ++ [("--non-interactive", ["true"])])%list = asked c o w f.
Proof.
  destruct (in_dec string_dec f known_flags) as [H|H]; [|now apply unknown_values].
  unfold known_flags, valued, switches in H. cbn [app In] in H.
  decompose [or] H; subst; try contradiction; destruct c; cbn -[inline text switch_arg all_of number]; rewrite ?app_nil_r; reflexivity.
Qed.

Lemma operate_spec pulumi c o w cb : truthy_int (a_log_verbosity o) = false -> ~ In "--non-interactive" (supplied o w) ->
  exists ws ps, fst (fst (operate pulumi c o w cb)) = Some (word_of c :: ws) /\ flags ws = Some ps /\ forall f, values f ps = asked c o w f.
Proof.
  intros Hv Hn.
  assert (Q : ~ In "--non-interactive" (word_of c :: blocks (entries c o w))).
  { intros [K|K]; [destruct c; discriminate|]. revert K. apply quiet_blocks; [apply entries_proper|now apply entries_quiet]. }
  exists (blocks (entries c o w ++ [("--non-interactive", ["true"])])), (pairs (entries c o w ++ [("--non-interactive", ["true"])])).
  split; [|split].
  - unfold operate, stack_run. rewrite args_entries by exact Hv. unfold run_cmd.
    destruct (non_interactive_spec (word_of c :: blocks (entries c o w))) as (ws & Hw & Hi & [->|[_ ->]]); [contradiction|]. rewrite Hw.
    destruct (pulumi _) as [[out err] code]. destruct (report _ _) as [calls ch]. cbn [fst]. f_equal. rewrite blocks_app. reflexivity.
  - apply flags_blocks. apply Forall_app. split; [apply entries_proper|]. constructor; [|constructor]. split; cbn [fst snd]; [repeat constructor|auto].
  - intros f. rewrite values_pairs. apply asked_values.
Qed.
