From Verif Require Import Base PyVal Model_Cmd Spec_Cmd Proof_Cmd Model_Events Spec_Events.
Open Scope string_scope.

(* ------------------------------------------------------------------ *)
(** The watcher. *)
Lemma readline_line l r : one_line l -> readline (l ++ nl ++ r) = (l ++ nl, r).
Proof.
  induction l as [|c l IH]; intros H; [reflexivity|]. cbn [append readline].
  destruct (Ascii.eqb_spec c newline) as [->|N]; [exfalso; apply H; now left|].
  fold append. change ((l ++ nl ++ r)%string) with (l ++ nl ++ r). rewrite IH; [reflexivity|]. intros K. apply H. now right.
Qed.
Lemma text_app a b : text_of (a ++ b)%list = text_of a ++ text_of b.
Proof. induction a as [|l a IH]; [reflexivity|]. cbn [text_of app]. rewrite IH, !app_assoc_s. reflexivity. Qed.
(** Whole lines that begin a sequence of whole lines are its first lines. *)
Lemma text_prefix a : Forall one_line a -> forall x b, Forall one_line b -> text_of a ++ x = text_of b -> exists c, b = (a ++ c)%list /\ x = text_of c.
Proof.
  induction 1 as [|l a Hl Ha IH]; intros x b Hb E.
  - exists b. split; [reflexivity|exact E].
  - destruct Hb as [|l' b Hl' Hb]; cbn [text_of] in E.
    + exfalso. destruct l; discriminate.
    + rewrite !app_assoc_s in E. apply lines_first in E as [-> E]; auto. destruct (IH _ _ Hb E) as (c & -> & ->). exists c. auto.
Qed.
Lemma written_app a b : written (a ++ b)%list = written a ++ written b.
Proof. induction a as [|[c|] a IH]; cbn [written app]; [reflexivity| |exact IH]. now rewrite IH, app_assoc_s. Qed.

Section Watch.
Context (loads : string -> res pyval).
Notation watch := (watch loads).

Lemma cancel_spec v ev : event_from_json v = Ok ev -> is_cancel ev = true <-> cancel_event ev.
Proof.
  unfold event_from_json. destruct (as_dict v) as [d|]; [|discriminate]. cbn [rbind].
  destruct (if_truth stdout_from_json _); [|discriminate]. cbn [rbind]. destruct (if_truth diagnostic_from_json _); [|discriminate]. cbn [rbind].
  destruct (if_truth prelude_from_json _); [|discriminate]. cbn [rbind]. destruct (if_truth summary_from_json _); [|discriminate]. cbn [rbind].
  destruct (if_truth pre_from_json _); [|discriminate]. cbn [rbind]. destruct (if_truth outputs_from_json _); [|discriminate]. cbn [rbind].
  destruct (if_truth failed_from_json _); [|discriminate]. cbn [rbind]. destruct (if_truth policy_from_json _); [|discriminate]. cbn [rbind].
  intros [= <-]. unfold is_cancel, cancel_event. cbn [attr find_attr attr_or]. cbn. destruct (dmem d "cancelEvent"); cbn.
  - split; eauto.
  - split; [discriminate|]. intros (o & K). discriminate.
Qed.

(** [k] lines have been read, and their events delivered. *)
Record follows (evs : list eval) (ls : list string) (pre : list wop) (k : nat) : Prop := mkF {
  fo_split : exists c r, ls = (c ++ r)%list /\ length c = k /\ written pre = text_of c ++ w_unread (watch pre);
  fo_out : w_delivered (watch pre) = firstn k evs;
  fo_status : (w_status (watch pre) = Watching /\ Forall (fun e => ~ cancel_event e) (firstn k evs)) \/
              (w_status (watch pre) = Stopped /\ exists a e, firstn k evs = (a ++ [e])%list /\ cancel_event e /\ Forall (fun e => ~ cancel_event e) a) }.

Lemma watch_snoc pre o : watch (pre ++ [o])%list = wstep loads (watch pre) o.
Proof. unfold Model_Events.watch. now rewrite fold_left_app. Qed.

Lemma poll_line w l rest : one_line l -> w_status w = Watching -> w_unread w = l ++ nl ++ rest -> forall ev, holds_event loads l ev ->
  poll loads w = mkW rest (w_delivered w ++ [ev])%list (if is_cancel ev then Stopped else Watching).
Proof.
  intros H1 H2 H3 ev (v & Hv & He). unfold poll. rewrite H2, H3, readline_line by exact H1.
  destruct (l ++ nl) as [|c t] eqn:E; [destruct l; discriminate|]. rewrite Hv. cbn [rbind]. now rewrite He.
Qed.
Lemma poll_idle w : w_status w <> Watching \/ w_unread w = "" -> poll loads w = w.
Proof. unfold poll. destruct (w_status w) eqn:E; auto. intros [H| ->]; [congruence|]. reflexivity. Qed.

Lemma firstn_snoc {A} (l : list A) k x : nth_error l k = Some x -> firstn (S k) l = (firstn k l ++ [x])%list.
Proof. revert k. induction l as [|y l IH]; intros [|k]; simpl; try discriminate; [congruence|]. intros H. now rewrite <- (IH k H). Qed.
Lemma forall2_nth {A B} (R : A -> B -> Prop) a b k x : Forall2 R a b -> nth_error a k = Some x -> exists y, nth_error b k = Some y /\ R x y.
Proof. intros H. revert k. induction H; intros [|k]; simpl; try discriminate; [intros [= <-]; eauto|auto]. Qed.

Lemma follows_poll evs ls pre k later : Forall one_line ls -> Forall2 (holds_event loads) ls evs ->
  text_of ls = written pre ++ later -> whole (written pre) -> follows evs ls pre k ->
  exists k', follows evs ls (pre ++ [Poll])%list k' /\
    (k' = S k \/ (k' = k /\ (w_status (watch pre) = Stopped \/ (w_status (watch pre) = Watching /\ w_unread (watch pre) = "")))).
Proof.
  intros Hl He Hw (ls' & Hl' & Ew) [(c & r & -> & Ec & Es) Ho Hst].
  assert (Idle : w_status (watch pre) <> Watching \/ w_unread (watch pre) = "" -> follows evs (c ++ r) (pre ++ [Poll])%list k).
  { intros I. constructor; rewrite watch_snoc; cbn [wstep]; rewrite poll_idle by exact I; auto. exists c, r. rewrite written_app. cbn [written].
    rewrite app_nil_s. auto. }
  destruct Hst as [[Hs Hn]|[Hs Hx]].
  2:{ exists k. split; [apply Idle; left; congruence|]. auto. }
  (* the unread text consists of whole lines *)
  assert (Hc : Forall one_line c) by (apply Forall_app in Hl; tauto).
  rewrite Es in Ew. assert (Q := Ew). apply text_prefix in Q as (r' & -> & Er); auto.
  destruct r' as [|l r']; cbn [text_of] in Er.
  { exists k. split; [apply Idle; now right|]. auto. }
  rewrite Ew in Es. rewrite Es in Hw. symmetry in Hw. pose proof Hw as Q. apply text_prefix in Q as (x & Ex & _); auto.
  rewrite <- app_assoc in Ex. apply app_inv_head in Ex. cbn [app] in Ex.
  assert (Hn' : nth_error (c ++ r) k = Some l). { rewrite nth_error_app2 by lia. rewrite Ec, Nat.sub_diag, Ex. reflexivity. }
  destruct (forall2_nth _ _ _ _ _ He Hn') as (ev & Hev & Hh).
  apply Forall_app in Hl' as [_ Hl']. inversion Hl' as [|? ? Hl1 Hl2]; subst.
  pose proof (poll_line _ l _ Hl1 Hs Er ev Hh) as P. pose proof (firstn_snoc _ _ _ Hev) as F.
  exists (S (length c)). split; [|now left]. constructor; rewrite ?watch_snoc; cbn [wstep]; rewrite ?P; cbn [w_unread w_delivered w_status].
  - exists (c ++ [l])%list, (r' ++ x)%list. split; [now rewrite <- app_assoc|]. split; [rewrite app_length; simpl; lia|].
    rewrite written_app, text_app, Es, text_app. cbn [written text_of]. now rewrite !app_assoc_s, !app_nil_s.
  - now rewrite F, Ho.
  - rewrite F. destruct Hh as (v & _ & Hv). pose proof (cancel_spec _ _ Hv) as C. destruct (is_cancel ev) eqn:E.
    + right. split; [reflexivity|]. exists (firstn (length c) evs), ev. split; [reflexivity|]. split; [now apply C|exact Hn].
    + left. split; [reflexivity|]. apply Forall_app. split; [exact Hn|]. constructor; [|constructor]. intros K. apply C in K. congruence.
Qed.

Lemma follows_write evs ls pre k chunk : follows evs ls pre k -> follows evs ls (pre ++ [Write chunk])%list k.
Proof.
  intros [(c & r & E & Ec & Es) Ho Hst]. constructor; rewrite watch_snoc; cbn [wstep w_unread w_delivered w_status]; auto.
  exists c, r. rewrite written_app, Es. cbn [written]. now rewrite app_nil_s, app_assoc_s.
Qed.

Lemma at_line_ends_prefix a b : at_line_ends (a ++ b)%list -> at_line_ends a.
Proof. intros H before after E. apply (H before (after ++ b)%list). rewrite E, <- app_assoc. reflexivity. Qed.

Lemma follows_all evs ls : Forall one_line ls -> Forall2 (holds_event loads) ls evs ->
  forall ops, at_line_ends ops -> (exists later, text_of ls = written ops ++ later) -> exists k, follows evs ls ops k.
Proof.
  intros Hl He ops. induction ops as [|o ops IH] using rev_ind; intros Ha (later & Hw).
  - exists 0. constructor; [exists [], ls; auto|reflexivity|]. left. split; [reflexivity|constructor].
  - destruct IH as (k & F); [now apply at_line_ends_prefix in Ha|rewrite written_app, app_assoc_s in Hw; eauto|].
    destruct o as [chunk|].
    + exists k. now apply follows_write.
    + assert (W : whole (written ops)) by (apply (Ha ops []); reflexivity).
      rewrite written_app in Hw. cbn [written] in Hw. rewrite app_nil_s in Hw.
      destruct (follows_poll _ _ _ _ _ Hl He Hw W F) as (k' & F' & _). eauto.
Qed.

Lemma up_to_all evs : Forall (fun e => ~ cancel_event e) evs -> up_to_cancel evs evs.
Proof. induction 1; [constructor|]. now apply UC_next. Qed.
Lemma up_to_first a e evs : Forall (fun e => ~ cancel_event e) a -> cancel_event e -> up_to_cancel (a ++ e :: evs)%list (a ++ [e])%list.
Proof. intros H C. induction H; simpl; [now apply UC_cancel|now apply UC_next]. Qed.
Lemma up_to_prefix evs k : Forall (fun e => ~ cancel_event e) (firstn k evs) -> forall out, up_to_cancel evs out -> exists more, out = (firstn k evs ++ more)%list.
Proof.
  revert k. induction evs as [|e evs IH]; intros k H out U; [rewrite firstn_nil; now exists out|].
  destruct k as [|k]; [now exists out|]. cbn [firstn] in *. inversion H as [|? ? H1 H2]; subst. inversion U as [|? ? C|? ? out' C U']; subst; [contradiction|].
  destruct (IH k H2 _ U') as (more & ->). now exists more.
Qed.
Lemma up_to_det evs o1 o2 : up_to_cancel evs o1 -> up_to_cancel evs o2 -> o1 = o2.
Proof.
  intros H. revert o2. induction H; intros o2 H'; inversion H'; subst; auto; try contradiction. f_equal. auto.
Qed.

(** Polls after the last write read on. *)
Lemma follows_polls evs ls : Forall one_line ls -> Forall2 (holds_event loads) ls evs ->
  forall m ops k, written ops = text_of ls -> follows evs ls ops k -> exists k', follows evs ls (ops ++ repeat Poll m)%list k' /\
    (w_status (watch (ops ++ repeat Poll m)%list) = Stopped \/ k + m <= k' \/ w_unread (watch (ops ++ repeat Poll m)%list) = "").
Proof.
  intros Hl He m. induction m as [|m IH]; intros ops k Hw F.
  - exists k. cbn [repeat]. rewrite app_nil_r. split; [exact F|]. right. left. lia.
  - assert (Hw' : text_of ls = written ops ++ "") by (rewrite app_nil_s; auto).
    assert (W : whole (written ops)) by (exists ls; auto).
    destruct (follows_poll _ _ _ _ _ Hl He Hw' W F) as (k1 & F1 & D).
    assert (Hw1 : written (ops ++ [Poll])%list = text_of ls) by (rewrite written_app; cbn [written]; now rewrite app_nil_s).
    destruct (IH _ _ Hw1 F1) as (k2 & F2 & D2). rewrite <- app_assoc in F2, D2. cbn [app] in F2, D2. exists k2. split; [exact F2|].
    destruct D as [->|[-> Hi]]; [destruct D2 as [D2|[D2|D2]]; auto; right; left; lia|].
    destruct D2 as [D2|[D2|D2]]; auto.
    assert (I : forall n, watch (ops ++ repeat Poll n)%list = watch ops).
    { assert (P : poll loads (watch ops) = watch ops) by (apply poll_idle; destruct Hi as [Hi|[_ Hi]]; [left; congruence|now right]).
      intros n. unfold Model_Events.watch. rewrite fold_left_app. fold (watch ops). induction n as [|n In]; [reflexivity|].
      cbn [repeat fold_left wstep]. rewrite P. exact In. }
    change (Poll :: repeat Poll m) with (repeat Poll (S m)). rewrite I. destruct Hi as [Hi|[_ Hi]]; auto.
Qed.

Lemma forall2_length {A B} (R : A -> B -> Prop) a b : Forall2 R a b -> length a = length b.
Proof. induction 1; simpl; congruence. Qed.

Lemma delivery_prefix evs ls ops out : Forall one_line ls -> Forall2 (holds_event loads) ls evs -> at_line_ends ops ->
  written ops = text_of ls -> up_to_cancel evs out ->
  exists more, out = (w_delivered (watch ops) ++ more)%list /\ (w_status (watch ops) = Watching \/ w_status (watch ops) = Stopped /\ more = []).
Proof.
  intros Hl He Ha Hw U. destruct (follows_all evs ls Hl He ops Ha) as (k & [_ Ho [[Hs Hn]|[Hs (a & e & Ea & C & Hn)]]]).
  - exists "". now rewrite app_nil_s.
  - destruct (up_to_prefix _ _ Hn _ U) as (more & ->). exists more. rewrite Ho. auto.
  - assert (Q : up_to_cancel evs (a ++ [e])%list).
    { rewrite <- (firstn_skipn k evs), Ea, <- app_assoc. cbn [app]. now apply up_to_first. }
    rewrite (up_to_det _ _ _ U Q), Ho, Ea. exists []. rewrite app_nil_r. auto.
Qed.
Lemma delivery_complete evs ls ops out m : Forall one_line ls -> Forall2 (holds_event loads) ls evs -> at_line_ends ops ->
  written ops = text_of ls -> up_to_cancel evs out -> length ls <= m ->
  w_delivered (watch (ops ++ repeat Poll m)%list) = out /\
  (w_status (watch (ops ++ repeat Poll m)%list) = Stopped <-> exists e, In e evs /\ cancel_event e).
Proof.
  intros Hl He Ha Hw U Hm. destruct (follows_all evs ls Hl He ops Ha) as (k & F); [exists ""; now rewrite app_nil_s|].
  destruct (follows_polls evs ls Hl He m ops k Hw F) as (k' & [(c & r & E1 & E2 & E3) Ho Hst] & D).
  destruct Hst as [[Hs Hn]|[Hs (a & e & Ea & C & Hn)]].
  - assert (K : length evs <= k').
    { rewrite <- (forall2_length _ _ _ He). destruct D as [D|[D|D]]; [congruence|lia|].
      rewrite D, written_app, Hw, app_nil_s in E3. assert (Z : written (repeat Poll m) = "") by (clear; induction m; auto). rewrite Z, app_nil_s in E3.
      assert (Hc : Forall one_line c) by (rewrite E1 in Hl; apply Forall_app in Hl; tauto).
      rewrite <- (app_nil_s (text_of c)) in E3. symmetry in E3. apply text_prefix in E3 as (x & Ex & Ey); auto.
      destruct x as [|y x]; [|cbn [text_of] in Ey; destruct y; discriminate]. rewrite Ex, app_nil_r. lia. }
    rewrite firstn_all2 in Ho, Hn by exact K. split; [rewrite Ho; apply (up_to_det evs); [now apply up_to_all|exact U]|].
    rewrite Hs. split; [discriminate|]. intros (e & H1 & H2). rewrite Forall_forall in Hn. now apply Hn in H1.
  - assert (Q : up_to_cancel evs (a ++ [e])%list).
    { rewrite <- (firstn_skipn k' evs), Ea, <- app_assoc. cbn [app]. now apply up_to_first. }
    split; [rewrite Ho, Ea; now apply (up_to_det evs)|]. split; [|auto]. intros _. exists e. split; [|exact C].
    rewrite <- (firstn_skipn k' evs), Ea, !in_app_iff. simpl. auto.
Qed.
End Watch.

(* ------------------------------------------------------------------ *)
(** Decoding. *)
Lemma dget_app' {V} (a b : dict V) k : dget (a ++ b)%list k = match dget a k with Some v => Some v | None => dget b k end.
Proof. induction a as [|[x v] a IH]; cbn [app dget]; [reflexivity|]. destruct (String.eqb k x); auto. Qed.
Lemma dget_omit_str k s k' : dget (omit_str k s) k' = if String.eqb k' k then match s with "" => None | _ => Some (VStr s) end else None.
Proof. unfold omit_str. destruct s; cbn; destruct (String.eqb k' k); reflexivity. Qed.
Lemma dget_omit_bool k b k' : dget (omit_bool k b) k' = if String.eqb k' k then if b then Some (VBool true) else None else None.
Proof. destruct b; cbn; destruct (String.eqb k' k); reflexivity. Qed.
Lemma dget_omit_num k n k' : dget (omit_num k n) k' = if String.eqb k' k then if Z.eqb n 0 then None else Some (VNum n) else None.
Proof. unfold omit_num. destruct (Z.eqb n 0); cbn; destruct (String.eqb k' k); reflexivity. Qed.
Lemma dget_omit_strs k l k' : dget (omit_strs k l) k' = if String.eqb k' k then match l with [] => None | _ => Some (strs l) end else None.
Proof. unfold omit_strs. destruct l; cbn; destruct (String.eqb k' k); reflexivity. Qed.
#[local] Hint Rewrite @dget_app' dget_omit_str dget_omit_bool dget_omit_num dget_omit_strs : dg.

Ltac field := unfold is, attr_or, get_or; cbn [attr find_attr]; cbn [String.eqb Ascii.eqb Bool.eqb];
  autorewrite with dg; cbn [dget String.eqb Ascii.eqb Bool.eqb]; cbn [String.eqb Ascii.eqb Bool.eqb]; try reflexivity.

Lemma state_shown s : exists o, state_from_json (go_state_json s) = Ok (EObj "StepEventStateMetadata" o) /\ shows_state s (EObj "StepEventStateMetadata" o).
Proof.
  unfold state_from_json, go_state_json. cbn [as_dict rbind]. eexists. split; [reflexivity|]. unfold shows_state.
  repeat apply conj; field.
  all: try (destruct (gs_custom s); reflexivity); try (destruct (gs_delete s); reflexivity); try (destruct (gs_protect s); reflexivity).
  destruct (gs_init_errors s); reflexivity.
Qed.
Lemma state_opt_shown s : exists o, if_truth state_from_json (go_state_opt s) = Ok o /\ shows_opt s (Some o).
Proof.
  destruct s as [s|]; [|exists (EV VNone); split; reflexivity]. destruct (state_shown s) as (o & H1 & H2).
  exists (EObj "StepEventStateMetadata" o). split; [|exists (EObj "StepEventStateMetadata" o); auto]. unfold if_truth. cbn [go_state_opt].
  replace (truth (go_state_json s)) with true by reflexivity. exact H1.
Qed.
Lemma step_shown s : In (gp_op s) step_ops -> exists o, step_from_json (go_step_json s) = Ok o /\ shows_step_but_diff s o /\ is o "detailed_diff" VNone.
Proof.
  intros H. unfold step_from_json, go_step_json. cbn [as_dict rbind].
  match goal with |- context [get_or ?d "op" _] => set (D := d) end.
  assert (E1 : get_or D "op" (VStr "") = VStr (gp_op s)) by reflexivity.
  assert (E2 : get_or D "old" VNone = go_state_opt (gp_old s)) by reflexivity.
  assert (E3 : get_or D "new" VNone = go_state_opt (gp_new s)) by reflexivity.
  rewrite E1, E2, E3. unfold op_type. replace (smem (gp_op s) op_types) with true by (symmetry; now apply smem_In). cbn [rbind].
  destruct (state_opt_shown (gp_old s)) as (o1 & -> & S1). destruct (state_opt_shown (gp_new s)) as (o2 & -> & S2). cbn [rbind].
  eexists. split; [reflexivity|]. unfold shows_step_but_diff. cbn [attr find_attr attr_or]. cbn [String.eqb Ascii.eqb Bool.eqb].
  assert (X : forall k, k <> "detailedDiff" -> dget (match gp_detailed s with [] => [] | l => [("detailedDiff", VDict (map (fun kd => (fst kd, go_diff_json (snd kd))) l))] end) k = None).
  { intros k N. apply String.eqb_neq in N. destruct (gp_detailed s); cbn [dget]; [reflexivity|]. now rewrite N. }
  split; [repeat apply conj|]; try exact S1; try exact S2; unfold D; field;
    rewrite ?X by discriminate; cbn [dget String.eqb Ascii.eqb Bool.eqb]; cbn [String.eqb Ascii.eqb Bool.eqb]; try reflexivity.
  all: destruct (gp_keys s), (gp_diffs s), (gp_logical s); reflexivity.
Qed.

Lemma truth_dict kv d : truth (VDict (kv :: d)) = true. Proof. reflexivity. Qed.
Lemma truth_app a kv d : truth (VDict (a ++ kv :: d)%list) = true. Proof. now destruct a. Qed.

Lemma step_full s o : gp_detailed s = [] -> shows_step_but_diff s o -> is o "detailed_diff" VNone -> shows_step s o.
Proof. intros E H K. split; [exact H|]. rewrite E. exact K. Qed.

(** Everything but the three lost fields. *)
Definition shows_kept (p : go_payload) (o : eval) : Prop :=
  match p with
  | GoDiagnostic urn prefix m c sev stream eph =>
      is o "urn" (some_str urn) /\ is o "prefix" (some_str prefix) /\ is o "message" (VStr m) /\ is o "color" (VStr c) /\
      is o "severity" (VStr sev) /\ is o "ephemeral" (some_bool eph) /\ is o "stream_id" VNone
  | GoPre st planning | GoOutputs st planning =>
      (exists m, attr o "metadata" = Some m /\ shows_step_but_diff st m /\ is m "detailed_diff" VNone) /\ is o "planning" (some_bool planning)
  | GoFailed st status steps =>
      (exists m, attr o "metadata" = Some m /\ shows_step_but_diff st m /\ is m "detailed_diff" VNone) /\ is o "status" (VNum status) /\ is o "steps" (VNum steps)
  | GoPolicy urn m c name pack version tag level =>
      is o "resource_urn" VNone /\ is o "message" (VStr m) /\ is o "color" (VStr c) /\ is o "policy_name" (VStr name) /\
      is o "policy_pack_name" (VStr pack) /\ is o "policy_pack_version" (VStr version) /\ is o "policy_pack_version_tag" (VStr tag) /\
      is o "enforcement_level" (VStr level)
  | p => shows_payload p o
  end.
Lemma kept_shown p o : without_lost_fields p -> shows_kept p o -> shows_payload p o.
Proof.
  intros [W1 W2]. destruct p; cbn [shows_kept shows_payload steps_of] in *; auto.
  - intros H. subst stream. exact H.
  - intros ((m & E & H & K) & H'). split; [|exact H']. exists m. split; [exact E|]. apply step_full; auto. apply W1. now left.
  - intros ((m & E & H & K) & H'). split; [|exact H']. exists m. split; [exact E|]. apply step_full; auto. apply W1. now left.
  - intros ((m & E & H & K) & H'). split; [|exact H']. exists m. split; [exact E|]. apply step_full; auto. apply W1. now left.
  - intros H. subst urn. exact H.
Qed.

Ltac others := let n := fresh in let H := fresh in let N := fresh in
  intros n H N; cbn [payload_attrs In] in H; cbn [payload_attr] in N;
  repeat (destruct H as [<-|H]; [first [reflexivity|now elim N]|]); destruct H.
Ltac payload_ok := cbn [rbind]; eexists; split; [reflexivity|]; split; [reflexivity|]; split; [reflexivity|]; split; [|others]; do 2 eexists; split; [reflexivity|].

Lemma event_shown e : (forall s, In s (steps_of (ge_payload e)) -> In (gp_op s) step_ops) ->
  exists o, event_from_json (go_json e) = Ok o /\
    is o "sequence" (VNum (ge_sequence e)) /\ is o "timestamp" (VNum (ge_timestamp e)) /\
    (exists cls attrs, attr o (payload_attr (ge_payload e)) = Some (EObj cls attrs) /\ shows_kept (ge_payload e) (EObj cls attrs)) /\
    (forall n, In n payload_attrs -> n <> payload_attr (ge_payload e) -> is o n VNone).
Proof.
  destruct e as [sq ts p]. cbn [ge_sequence ge_timestamp ge_payload]. intros Hop. unfold go_json, event_from_json. cbn [ge_sequence ge_timestamp ge_payload as_dict rbind].
  destruct p as [|m c|urn prefix m c sev stream eph|config|corrupt seconds changes packs|st planning|st planning|st status steps|urn m c name pack version tag level];
    cbn [go_payload_json]; unfold get_or at 1 2 3 4 5 6 7 8; cbn [dget String.eqb Ascii.eqb Bool.eqb if_truth truth]; cbn [rbind].
  - payload_ok. exact I.
  - unfold if_truth. cbn [truth]. unfold stdout_from_json at 1. cbn. payload_ok. repeat apply conj; field.
  - unfold if_truth. match goal with |- context [truth (VDict ?d)] => replace (truth (VDict d)) with true by (symmetry; rewrite app_assoc; apply truth_app) end.
    cbn [truth diagnostic_from_json as_dict rbind]. payload_ok.
    cbn [shows_kept]. repeat apply conj; field.
    + now destruct urn.
    + now destruct prefix.
    + now destruct eph.
  - cbn. payload_ok. cbn [shows_kept shows_payload]. field.
  - cbn. payload_ok. cbn [shows_kept shows_payload]. repeat apply conj; field.
  - destruct (step_shown st) as (o & E & H1 & H2); [apply Hop; now left|]. unfold if_truth. try rewrite truth_dict. cbn [truth].
    unfold pre_from_json. cbn [as_dict rbind get_or dget String.eqb Ascii.eqb Bool.eqb]. unfold get_or. cbn [dget String.eqb Ascii.eqb Bool.eqb]. rewrite E.
    payload_ok. cbn [shows_kept]. split; [exists o; auto|]. field. now destruct planning.
  - destruct (step_shown st) as (o & E & H1 & H2); [apply Hop; now left|]. unfold if_truth. try rewrite truth_dict. cbn [truth].
    unfold outputs_from_json. cbn [as_dict rbind get_or dget String.eqb Ascii.eqb Bool.eqb]. unfold get_or. cbn [dget String.eqb Ascii.eqb Bool.eqb]. rewrite E.
    payload_ok. cbn [shows_kept]. split; [exists o; auto|]. field. now destruct planning.
  - destruct (step_shown st) as (o & E & H1 & H2); [apply Hop; now left|]. unfold if_truth. try rewrite truth_dict. cbn [truth].
    unfold failed_from_json. cbn [as_dict rbind get_or dget String.eqb Ascii.eqb Bool.eqb]. unfold get_or. cbn [dget String.eqb Ascii.eqb Bool.eqb]. rewrite E.
    payload_ok. cbn [shows_kept]. split; [exists o; auto|]. split; field.
  - unfold if_truth. rewrite truth_app. cbn [truth policy_from_json as_dict rbind]. payload_ok. cbn [shows_kept]. repeat apply conj; field.
Qed.
