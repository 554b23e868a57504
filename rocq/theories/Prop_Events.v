(** C62 and C71: engine events. *)
From Verif Require Import Base PyVal Model_Cmd Spec_Cmd Proof_Cmd Model_Events Spec_Events Proof_Events.
Open Scope string_scope.

(** C62.  However the CLI's writes and the watcher's looks at the file interleave, if the CLI
    is between two lines whenever the watcher looks: what has been delivered is an
    initial part, in order, of the events written, up to the first cancel event, each
    once; the watcher goes on, or has stopped after delivering that event.
    Partial: what is missing is a watcher that looks while a line is incomplete, see
    [C62_refuted]. *)
Theorem C62_order_partial loads ls evs ops out :
  Forall one_line ls -> Forall2 (holds_event loads) ls evs -> written ops = text_of ls -> at_line_ends ops ->
  up_to_cancel evs out ->
  exists more, out = (w_delivered (watch loads ops) ++ more)%list /\
    (w_status (watch loads ops) = Watching \/ w_status (watch loads ops) = Stopped /\ more = []).
Proof. intros. eapply delivery_prefix; eauto. Qed.
Print Assumptions C62_order_partial.

(** And once it has looked as many times as there are lines after the last write, all have
    been delivered; it stops exactly if there is a cancel event. *)
Theorem C62_complete_partial loads ls evs ops out m :
  Forall one_line ls -> Forall2 (holds_event loads) ls evs -> written ops = text_of ls -> at_line_ends ops ->
  up_to_cancel evs out -> length ls <= m ->
  w_delivered (watch loads (ops ++ repeat Poll m)%list) = out /\
  (w_status (watch loads (ops ++ repeat Poll m)%list) = Stopped <-> exists e, In e evs /\ cancel_event e).
Proof. intros. eapply delivery_complete; eauto. Qed.
Print Assumptions C62_complete_partial.

(** C62 as stated is false: if the watcher looks while a line is incomplete, and that part of
    it is not a JSON document, the watcher dies; neither that event nor any later one is
    ever delivered. *)
Theorem C62_refuted loads l1 l2 e : l1 <> "" -> one_line l1 -> loads l1 = Err e ->
  forall more, exists ops, written ops = l1 ++ l2 ++ nl ++ written more /\
    w_delivered (watch loads (ops ++ more)%list) = [] /\ w_status (watch loads (ops ++ more)%list) = Died e.
Proof.
  intros N H E more. exists [Write l1; Poll; Write (l2 ++ nl ++ written more)]. split; [cbn [written]; now rewrite app_nil_s|].
  assert (R : readline l1 = (l1, "")).
  { clear N E. induction l1 as [|c l IH]; [reflexivity|]. cbn [readline]. destruct (Ascii.eqb_spec c newline) as [->|]; [exfalso; apply H; now left|].
    rewrite IH; [reflexivity|]. intros K. apply H. now right. }
  assert (P : forall w ops, w_status w = Died e -> w_delivered (fold_left (wstep loads) ops w) = w_delivered w /\ w_status (fold_left (wstep loads) ops w) = Died e).
  { intros w ops. revert w. induction ops as [|[c|] ops IH]; intros w Hw; [auto| |]; cbn [fold_left wstep].
    - apply (IH (mkW (w_unread w ++ c) (w_delivered w) (w_status w))). exact Hw.
    - unfold poll. rewrite Hw. now apply IH. }
  unfold watch. cbn [fold_left wstep w_unread w_delivered w_status append app].
  assert (Q : poll loads (mkW l1 [] Watching) = mkW "" [] (Died e)).
  { unfold poll. cbn [w_status w_unread w_delivered]. rewrite R. destruct l1; [congruence|]. now rewrite E. }
  rewrite Q. cbn [w_unread w_delivered w_status]. now apply P.
Qed.
Print Assumptions C62_refuted.

(** C71.  Every event the CLI can write is decoded; the object shows its number, time and payload, under
    the attribute for its kind, field by field, and None under the others.
    Partial: the fields streamID (diagnostics), resourceUrn (policy violations) and detailedDiff
    (steps) are lost, see [C71_refuted]; for events without them it is the full property. *)
Theorem C71_decoded_partial e :
  (forall s, In s (steps_of (ge_payload e)) -> In (gp_op s) step_ops) ->
  exists o, event_from_json (go_json e) = Ok o /\ (without_lost_fields (ge_payload e) -> shows_event e o).
Proof.
  intros H. destruct (event_shown e H) as (o & E & H1 & H2 & (cls & attrs & H3 & H4) & H5). exists o. split; [exact E|].
  intros W. repeat split; auto. exists cls, attrs. split; [exact H3|]. now apply kept_shown.
Qed.
Print Assumptions C71_decoded_partial.

(** With those fields, everything else is shown, and those attributes are None. *)
Theorem C71_others e :
  (forall s, In s (steps_of (ge_payload e)) -> In (gp_op s) step_ops) ->
  exists o x, event_from_json (go_json e) = Ok o /\ attr o (payload_attr (ge_payload e)) = Some x /\
    match ge_payload e with
    | GoDiagnostic urn prefix m c sev stream eph =>
        is x "urn" (some_str urn) /\ is x "prefix" (some_str prefix) /\ is x "message" (VStr m) /\ is x "color" (VStr c) /\
        is x "severity" (VStr sev) /\ is x "ephemeral" (some_bool eph) /\ is x "stream_id" VNone
    | GoPolicy urn m c name pack version tag level =>
        is x "message" (VStr m) /\ is x "policy_name" (VStr name) /\ is x "enforcement_level" (VStr level) /\ is x "resource_urn" VNone
    | GoPre st _ | GoOutputs st _ | GoFailed st _ _ =>
        exists m, attr x "metadata" = Some m /\ shows_step_but_diff st m /\ is m "detailed_diff" VNone
    | _ => True
    end.
Proof.
  intros H. destruct (event_shown e H) as (o & E & H1 & H2 & (cls & attrs & H3 & H4) & H5). exists o, (EObj cls attrs). split; [exact E|].
  split; [exact H3|]. destruct (ge_payload e); cbn [shows_kept] in H4; tauto.
Qed.
Print Assumptions C71_others.

(** C71 as stated is false: a stream number, the URN of a policy violation, a detailed diff
    are not shown. *)
Theorem C71_refuted :
  (exists e o, event_from_json (go_json e) = Ok o /\ ~ shows_event e o /\ exists u p m c s n b, ge_payload e = GoDiagnostic u p m c s n b) /\
  (exists e o, event_from_json (go_json e) = Ok o /\ ~ shows_event e o /\ exists u m c n p v t l, ge_payload e = GoPolicy u m c n p v t l) /\
  (exists e o st, event_from_json (go_json e) = Ok o /\ ~ shows_event e o /\ ge_payload e = GoPre st false).
Proof.
  split; [|split].
  - exists (mkGoEvent 1 2 (GoDiagnostic "" "" "m" "" "info" 7 false)). eexists. split; [vm_compute; reflexivity|]. split; [|do 7 eexists; reflexivity].
    intros (_ & _ & (cls & attrs & E & H) & _). vm_compute in E. injection E as <- <-. destruct H as (_ & _ & _ & _ & _ & _ & H). vm_compute in H. discriminate.
  - exists (mkGoEvent 1 2 (GoPolicy "urn:x" "m" "" "n" "p" "1" "1" "mandatory")). eexists. split; [vm_compute; reflexivity|]. split; [|do 8 eexists; reflexivity].
    intros (_ & _ & (cls & attrs & E & H) & _). vm_compute in E. injection E as <- <-. destruct H as (H & _). vm_compute in H. discriminate.
  - exists (mkGoEvent 1 2 (GoPre (mkGoStep "update" "u" "t" None None [] [] [("size", ("update", true))] true "p") false)). do 2 eexists.
    split; [vm_compute; reflexivity|]. split; [|reflexivity].
    intros (_ & _ & (cls & attrs & E & H) & _). vm_compute in E. injection E as <- <-. destruct H as ((m & E & _ & H) & _).
    vm_compute in E. injection E as <-. destruct H as (attrs & H & _). vm_compute in H. discriminate.
Qed.
Print Assumptions C71_refuted.

(** A log of three lines, written in three pieces, the watcher looking in between; the last event
    is the cancel event. *)
Definition line_of (n : Z) : string := if Z.eqb n 1 then "{one}" else if Z.eqb n 2 then "{two}" else "{end}".
Definition event_of (n : Z) : go_event := mkGoEvent n 0 (if Z.eqb n 3 then GoCancel else GoStdout "hello" "raw").
Definition ex_loads (s : string) : res pyval :=
  if String.eqb s ("{one}" ++ nl) then Ok (go_json (event_of 1)) else if String.eqb s ("{two}" ++ nl) then Ok (go_json (event_of 2))
  else if String.eqb s ("{end}" ++ nl) then Ok (go_json (event_of 3)) else Err (Exn "JSONDecodeError" "").
Definition ex_ops : list wop := [Poll; Write ("{one}" ++ nl); Poll; Write "{tw"; Write ("o}" ++ nl ++ "{end}" ++ nl); Poll].
Example C62_example : exists evs, Forall2 (holds_event ex_loads) ["{one}"; "{two}"; "{end}"] evs /\
  written ex_ops = text_of ["{one}"; "{two}"; "{end}"] /\ at_line_ends ex_ops /\ up_to_cancel evs evs /\
  w_delivered (watch ex_loads ex_ops) = firstn 2 evs /\ w_delivered (watch ex_loads (ex_ops ++ [Poll])%list) = evs /\
  w_status (watch ex_loads (ex_ops ++ [Poll])%list) = Stopped.
Proof.
  eexists. split; [|split; [|split; [|split; [|split; [|split]]]]].
  - repeat apply Forall2_cons; [eexists; split; vm_compute; reflexivity..|apply Forall2_nil].
  - reflexivity.
  - intros before after E. unfold ex_ops in E.
    destruct before as [|o before]; [exists []; split; [constructor|reflexivity]|]. injection E as <- E.
    destruct before as [|o before]; [discriminate|]. injection E as <- E.
    destruct before as [|o before]; [exists ["{one}"]; split; [repeat constructor; intros K; simpl in K; intuition discriminate|reflexivity]|]. injection E as <- E.
    destruct before as [|o before]; [discriminate|]. injection E as <- E. destruct before as [|o before]; [discriminate|]. injection E as <- E.
    destruct before as [|o before]; [exists ["{one}"; "{two}"; "{end}"]; split; [repeat constructor; intros K; simpl in K; intuition discriminate|reflexivity]|].
    injection E as <- E. destruct before; discriminate.
  - do 2 (apply UC_next; [intros (o & K); vm_compute in K; discriminate|]). apply UC_cancel. eexists. vm_compute. reflexivity.
  - vm_compute. reflexivity.
  - vm_compute. reflexivity.
  - vm_compute. reflexivity.
Qed.
(** An event with nested states meets the hypotheses of [C71_decoded_partial]. *)
Definition ex_state : go_state := mkGoState "t" "u" true false "id" "" true [("a", VNum 1)] [] "prov" ["oops"].
Example C71_example : exists o, event_from_json (go_json (mkGoEvent 5 6 (GoFailed (mkGoStep "update" "u" "t" (Some ex_state) None ["k"] [] [] true "p") 1 2))) = Ok o /\
  shows_event (mkGoEvent 5 6 (GoFailed (mkGoStep "update" "u" "t" (Some ex_state) None ["k"] [] [] true "p") 1 2)) o.
Proof.
  destruct (C71_decoded_partial (mkGoEvent 5 6 (GoFailed (mkGoStep "update" "u" "t" (Some ex_state) None ["k"] [] [] true "p") 1 2))) as (o & E & H).
  - intros s [<-|[]]. right. right. now left.
  - exists o. split; [exact E|]. apply H. split; [|exact I]. intros s [<-|[]]. reflexivity.
Qed.
