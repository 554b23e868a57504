(** C64 and C72: dynamic providers. *)
From Verif Require Import Base PyVal Model_Output Model_Rpc Spec_Rpc Proof_Deser2 Model_Dynamic Spec_Dynamic Proof_Dynamic Proof_Pickle.
Open Scope string_scope.
Open Scope list_scope.

(** C64.  Over every history of a dynamic resource - checked, created, compared, updated, replaced, read, deleted, any
    request failing anywhere, the server process and the provider in the program changing
    from one operation to the next - each call is made on the right provider: the program's
    current one, except that reading and deleting use the one that last created or updated the
    resource.
    Partial: the program's provider is known, see [C64_unknown_refuted]; the providers return
    dicts and leave "__provider" in the dict they are passed alone. *)
Theorem C64_history_partial ops : Forall programmed ops ->
  forall h1 op l h2 l1 s c b l2, history ops None = h1 ++ (op, l) :: h2 -> l = l1 ++ (s, c, b) :: l2 ->
    right_provider op (concat (map snd h1) ++ l1) c s.
Proof.
  intros P h1 op l h2 l1 s c b l2 E El. pose proof (history_right ops None [] P I h1 op l h2 E) as R. cbn [app] in R. exact (R l1 s c b l2 El).
Qed.
Print Assumptions C64_history_partial.

(** Every check, create, update and read response holds the serialised provider of the
    request's inputs, whatever else it holds. *)
Theorem C64_carried_partial sv st s : decent_server sv -> holds st s ->
  (forall olds st' f, top_message olds -> snd (Check sv olds st) = Done (st', f) -> holds st' s) /\
  (forall id st', snd (Create sv st) = Done (id, st') -> holds st' s) /\
  (forall i olds st', top_message olds -> snd (Update sv i olds st) = Done st' -> holds st' s) /\
  (forall i id st', snd (Read sv i st) = Done (id, st') -> holds st' s).
Proof.
  intros D H. repeat apply conj.
  - intros olds st' f T E. exact (handles_good _ _ _ _ _ (check_handles sv olds st s D T H) E).
  - intros id st' E. exact (handles_good _ _ _ _ _ (create_handles sv st s D H) E).
  - intros i olds st' T E. exact (handles_good _ _ _ _ _ (update_handles sv i olds st s D T H) E).
  - intros i id st' E. exact (handles_good _ _ _ _ _ (read_handles sv i st s D H) E).
Qed.
Print Assumptions C64_carried_partial.

(** The provider's methods get the properties of the request; what they return comes back, with the
    serialised provider added. *)
Theorem C64_answers_partial sv st s p : c_transform (s_cfg sv) = None -> holds st s -> s_load sv s = Ok p ->
  (forall d, deserialize_properties (s_dc sv) st false false = Ok (VDict d) ->
     (forall id o d', p_create p d = Ok (id, Some (VDict o), d') \/ p_create p d = Ok (id, None, d') /\ o = [] -> keeps d d' -> plain (VDict o) ->
        exists st', Create sv st = ([(s, CCreate d)], Done (id, st')) /\
          forall dc ku, deserialize_properties dc st' ku false = Ok (drop_nulls (VDict (dset o "__provider" (VStr s))))) /\
     (forall i id o d', p_read p i d = Ok (id, Some (VDict o), d') -> keeps d d' -> plain (VDict o) ->
        exists st', Read sv i st = ([(s, CRead i d)], Done (id, st')) /\
          forall dc ku, deserialize_properties dc st' ku false = Ok (drop_nulls (VDict (dset o "__provider" (VStr s))))) /\
     (forall i, Delete sv i st = ([(s, CDelete i d)], of_res (p_delete p i d))) /\
     (forall i olds od o d', deserialize_properties (s_dc sv) olds false false = Ok (VDict od) ->
        p_update p i od d = Ok (Some (VDict o), d') \/ p_update p i od d = Ok (None, d') /\ o = [] -> keeps d d' -> plain (VDict o) ->
        exists st', Update sv i olds st = ([(s, CUpdate i od d)], Done st') /\
          forall dc ku, deserialize_properties dc st' ku false = Ok (drop_nulls (VDict (dset o "__provider" (VStr s)))))) /\
  (forall olds od d, deserialize_properties (s_dc sv) olds true false = Ok (VDict od) -> deserialize_properties (s_dc sv) st true false = Ok (VDict d) ->
     (forall o f d', p_check p od d = Ok (VDict o, f, d') -> keeps d d' -> plain (VDict o) ->
        exists st', Check sv olds st = ([(s, CCheck od d)], Done (st', f)) /\
          forall dc ku, deserialize_properties dc st' ku false = Ok (drop_nulls (VDict (dset o "__provider" (VStr s))))) /\
     (forall i ch rep stb dbr, p_diff p i od d = Ok (ch, rep, stb, dbr) ->
        exists c, Diff sv i olds st = ([(s, CDiff i od d)], Done (c, match rep with Some l => l | None => [] end, match dbr with Some b => b | None => false end)) /\
          (c = DIFF_SOME <-> ch = Some true) /\ (c = DIFF_NONE <-> ch = Some false))).
Proof.
  intros Hc H El. split.
  - intros d E. repeat apply conj.
    + intros id o d' Hp K P. eapply create_answers; eauto.
    + intros i id o d' Hp K P. eapply read_answers; eauto.
    + intros i. eapply delete_answers; eauto.
    + intros i olds od o d' Eo Hp K P. eapply update_answers; eauto.
  - intros olds od d Eo E. split.
    + intros o f d' Hp K P. eapply check_answers; eauto.
    + intros i ch rep stb dbr Hp. eapply diff_answers; eauto.
Qed.
Print Assumptions C64_answers_partial.

(** C64 as stated is false: when the program's provider is unknown, no provider is called at all, whatever the
    old one is; check and diff fail. *)
Theorem C64_unknown_refuted sv olds news o n i : top_message news -> dget news "__provider" = Some (WStr UNKNOWN) ->
  deserialize_properties (s_dc sv) olds true false = Ok o -> deserialize_properties (s_dc sv) news true false = Ok n ->
  exists e, Check sv olds news = ([], Fail (Exn "TypeError" e)) /\ Diff sv i olds news = ([], Fail (Exn "TypeError" e)).
Proof.
  intros T Hn Eo En. destruct (unknown_key _ _ _ T Hn En) as (d & -> & Hd). eexists.
  assert (G : provider_of_both sv o (VDict d) = Err (Exn "TypeError" "argument should be a bytes-like object or ASCII string")).
  { unfold provider_of_both, get_provider. unfold getitem. change PROVIDER_KEY with "__provider". rewrite Hd. reflexivity. }
  unfold Check, Diff. rewrite Eo, En. cbn [of_res]. rewrite !bind_done, G. split; reflexivity.
Qed.
Print Assumptions C64_unknown_refuted.
(** And a provider reporting that the resource no longer exists, with no outs, makes read fail. *)
Theorem C64_read_refuted sv st s p i d id d' : holds st s -> s_load sv s = Ok p -> deserialize_properties (s_dc sv) st false false = Ok (VDict d) ->
  p_read p i d = Ok (id, None, d') -> keeps d d' ->
  exists e, Read sv i st = ([(s, CRead i d)], Fail (Exn "TypeError" e)).
Proof.
  intros H El E Hp K. destruct (decoded _ _ _ _ _ H E) as (d0 & E0 & Hd). injection E0 as <-. eexists.
  unfold Read. rewrite E. cbn [of_res]. rewrite bind_done, (got _ _ _ Hd), El. cbn [rbind of_res]. rewrite bind_done. cbn [as_props of_res]. rewrite bind_done.
  rewrite Hp, bind_called; rewrite (kept_item _ _ _ Hd K); cbn [of_res setitem]. rewrite !bind_done. reflexivity.
Qed.
Print Assumptions C64_read_refuted.

(** A resource created by one provider, updated by another, read, replaced and deleted. *)
Definition echo : provider := mkProvider
  (fun o n => Ok (VDict n, [], n)) (fun _ _ _ => Ok (Some true, None, None, None))
  (fun d => Ok ("id-1", Some (VDict [("a", VNum 1)]), d)) (fun i d => Ok (i, Some (VDict d), d))
  (fun _ _ n => Ok (None, n)) (fun _ _ => Ok tt).
Definition ex_server : server := mkServer (mkCfg false false false None (fun _ => []) (fun _ => mkRinfo true (Done None) (Done None) (Done [])))
  (mkDcfg false (fun _ _ => Ok None) (fun _ _ _ => Ok None)) (fun _ => Ok echo).
Definition ex_news (s : string) : dict wire := [("x", WNum 7); ("__provider", WStr s)].
Definition ex_ops : list operation :=
  [Up ex_server (ex_news "p1") Same; Up ex_server (ex_news "p2") Change; Refresh ex_server; Up ex_server (ex_news "p3") Replace; Up ex_server (ex_news "p4") Same;
   Destroy ex_server].
Lemma ex_programmed : Forall programmed ex_ops.
Proof.
  assert (D : decent_server ex_server).
  { split; [reflexivity|]. intros s p E. injection E as <-.
    assert (B : forall o d, bag o -> d = Some (VDict o) -> returns_bag d) by (intros o d Bo -> x E; injection E as <-; eauto). split; cbn.
    - intros o n i f n' _ Bn E. injection E as <- <- <-. split; [reflexivity|eauto].
    - intros d id outs d' Bd E. injection E as <- <- <-. split; [reflexivity|]. eapply B; [|reflexivity]. split; [repeat constructor; intros []|intros [K|[]]; discriminate].
    - intros i d id outs d' Bd E. injection E as <- <- <-. split; [reflexivity|eauto].
    - intros i o n outs n' _ Bn E. injection E as <- <-. split; [reflexivity|]. intros x K. discriminate. }
  assert (H : forall s, text s -> exists s', holds (ex_news s) s').
  { intros s T. exists s. split; [|split; [reflexivity|exact T]]. split; [reflexivity|]. repeat constructor; cbn; intuition discriminate. }
  repeat apply Forall_cons; try apply Forall_nil; (split; [exact D|]); cbn; try exact I; apply H; discriminate.
Qed.
Example C64_example :
  map (fun ol => map (fun e => (fst (fst e), match snd (fst e) with CCheck _ _ => "check" | CDiff _ _ _ => "diff" | CCreate _ => "create" | CRead _ _ => "read"
                                             | CUpdate _ _ _ => "update" | CDelete _ _ => "delete" end)) (snd ol)) (history ex_ops None) =
  [[("p1", "check"); ("p1", "create")]; [("p2", "check"); ("p2", "diff"); ("p2", "update")]; [("p2", "read")];
   [("p3", "check"); ("p3", "diff"); ("p2", "delete"); ("p3", "create")]; [("p4", "check"); ("p4", "diff")]; [("p3", "delete")]].
Proof. vm_compute. reflexivity. Qed.

(* ------------------------------------------------------------------ *)
(** C72.  Serialising a provider gives a text from which it can be read back, and which does not depend on
    the order its dicts were filled in, nor on what was serialised before.
    Partial: as long as there is a text, see [C72_refuted]. *)
Theorem C72_text_partial limit vs i j v v' c c' :
  nth_error vs i = Some v -> nth_error vs j = Some v' -> wf_pval v -> wf_pval v' ->
  nth_error (serialize_all limit 0 vs) i = Some (Ok c) -> nth_error (serialize_all limit 0 vs) j = Some (Ok c') ->
  (exists w, loads c = Some w /\ same v w) /\ (same v v' -> c = c') /\ (c = c' -> exists w, same v w /\ same v' w).
Proof.
  intros Ei Ej W W' Ci Cj. rewrite (serialize_nth _ _ _ _ _ Ei) in Ci. rewrite (serialize_nth _ _ _ _ _ Ej) in Cj. injection Ci as Ci. injection Cj as Cj.
  apply save_written in Ci. apply save_written in Cj. subst c c'.
  assert (L : forall u, wf_pval u -> loads (flat (norm u)) = Some (norm u)).
  { intros u Wu. unfold loads. rewrite loads_flat by now apply wf_norm. reflexivity. }
  repeat apply conj.
  - exists (norm v). split; [now apply L|apply same_norm].
  - intros H. now rewrite (norm_same v W v' H).
  - intros E. exists (norm v). split; [apply same_norm|]. assert (E' : norm v = norm v') by (apply f_equal with (f := loads) in E; rewrite !L in E by auto; now injection E).
    rewrite E'. apply same_norm.
Qed.
Print Assumptions C72_text_partial.
(** There is one, if the interpreter's recursion limit is high enough for the number of providers
    serialised so far; it fails only with a RecursionError. *)
Theorem C72_room vs i v : nth_error vs i = Some v -> exists enough, forall limit,
  (enough <= limit -> exists c, nth_error (serialize_all limit 0 vs) i = Some (Ok c)) /\
  (forall e, nth_error (serialize_all limit 0 vs) i = Some (Err e) -> exists m, e = Exn "RecursionError" m).
Proof.
  intros E. exists (depth (S i) v). intros limit. rewrite (serialize_nth _ _ _ _ _ E). split.
  - intros L. destruct (save_room (S i) v limit L) as (c & Ec). exists c. cbn [Nat.add]. now rewrite Ec.
  - intros e Ee. injection Ee as Ee. apply save_err in Ee. injection Ee as ->. eauto.
Qed.
Print Assumptions C72_room.
(** C72 as stated is false: whatever the recursion limit, once that many providers have been serialised, no
    provider with a dict in it can be; and a dict of properties used for one resource cannot be used for
    another. *)
Theorem C72_refuted :
  (forall limit vs v, nth_error vs limit = Some v -> has_dict v ->
     exists m, nth_error (serialize_all limit 0 vs) limit = Some (Err (Exn "RecursionError" m))) /\
  (forall props s props' t, dget props "__provider" = None -> resource_init (Ok s) props = (Ok props', props') ->
     exists m, resource_init t props' = (Err (Exn "Exception" m), props')).
Proof.
  split.
  - intros limit vs v E H. rewrite (serialize_nth _ _ _ _ _ E), save_deep by (auto; cbn; lia). eexists. reflexivity.
  - intros props s props' t Hn E. unfold resource_init in *. unfold dmem in *. change PROVIDER_KEY with "__provider" in *. rewrite Hn in E. injection E as <-.
    rewrite dget_dset. cbn. eexists. reflexivity.
Qed.
Print Assumptions C72_refuted.

(** The first two of these three, equal but for the order of a dict, get the same text; the third is
    serialised too. *)
Definition ex_vs : list pval :=
  [PObj "P" (PDict [("a", PNum 1); ("b", PList [PStr "x"; PDict []])]); PObj "P" (PDict [("b", PList [PStr "x"; PDict []]); ("a", PNum 1)]); PObj "Q" PNone].
Example C72_example : exists c c2, serialize_all 100 0 ex_vs = [Ok c; Ok c; Ok c2] /\ Forall wf_pval ex_vs /\ loads c = Some (PObj "P" (PDict [("a", PNum 1); ("b", PList [PStr "x"; PDict []])])).
Proof.
  eexists _, _. split; [vm_compute; reflexivity|]. split; [|vm_compute; reflexivity].
  repeat constructor; cbn; try tauto; intuition discriminate.
Qed.
