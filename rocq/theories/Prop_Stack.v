(** C46, C47: stack exports. *)
From Verif Require Import Base Model_Stack Spec_Stack Proof_Stack.
From Coq Require Import Relations.Relation_Operators.
Open Scope string_scope.

(** C46, in part.  Exporting any finite object graph ends.  If dict keys are
    strings (and, in a preview, nothing but a resource refers to its
    [__dict__]) it gives a value without private keys, whatever order the
    outputs in it are resolved in: every such output is converted at most once,
    each waiting one can be converted, and its value has no private keys
    either.  Plain data in which no object occurs twice is unchanged.
    Missing: plain data with sharing and dicts with other keys, see below. *)
Theorem C46_export_partial :
  (forall dry g a fuel, closed g -> a < length g -> length g < fuel -> massage fuel dry g a [] <> Err out_of_fuel) /\
  (forall dry g a, exportable dry g -> a < length g -> (dry = true -> ~ is_attrs g a) ->
     exists m seen, massage (S (length g)) dry g a [] = Ok (m, seen) /\ clean m /\
       forall s, clos_refl_trans_1n _ (resolve dry g) (mkExporting seen (pending m) []) s ->
         Forall (fun r => clean (snd r)) (e_results s) /\ NoDup (map fst (e_results s)) /\ length (e_results s) <= length g /\
         (forall l1 b l2, e_waiting s = (l1 ++ b :: l2)%list ->
            exists m' seen', resolve dry g s (mkExporting seen' (l1 ++ l2 ++ pending m')%list ((b, m') :: e_results s)))) /\
  (forall dry g a m l, tree g a m l -> NoDup l -> massage (S (length g)) dry g a [] = Ok (m, l)).
Proof. exact (conj massage_ends (conj export_ok plain_unchanged)). Qed.
Print Assumptions C46_export_partial.

(** A component (resource 0) with a child that refers back to it and to an
    output of a list. *)
Definition ex_graph : ograph :=
  [OResource 1 2; ODict [(KStr "urn", 2); (KStr "child", 4); (KStr "_name", 3)]; OOutput 3; OPrim (PStr "u");
   OObject 5; ODict [(KStr "parent", 0); (KStr "data", 6)]; OOutput 7; OIter [3; 6; 4]].
Definition ex_result : mval :=
  MDict [("urn", MOut 2); ("child", MDict [("parent", MRef 2); ("data", MOut 6)]); ("@isPulumiResource", MPrim (PBool true))].
Example C46_example :
  exportable true ex_graph /\ ~ is_attrs ex_graph 0 /\
  massage 9 true ex_graph 0 [] = Ok (ex_result, [0; 1; 2; 4; 5; 6]) /\
  (exists s, resolve true ex_graph (mkExporting [0; 1; 2; 4; 5; 6] [2; 6] []) s /\ e_results s = [(6, MList [MPrim (PStr "u"); MPrim PNone; MPrim PNone])]) /\
  (exists m l, tree [ODict [(KStr "a", 1); (KStr "b", 2)]; OIter [2; 3]; OPrim (PNum 1); OIter []] 0 m l /\ NoDup l /\
     m = MDict [("a", MList [MPrim (PNum 1); MList []]); ("b", MPrim (PNum 1))]).
Proof.
  assert (Cases : forall a, a < 8 \/ obj_at ex_graph a = OPrim PNone).
  { intros a. destruct (lt_dec a 8); [auto|]. right. unfold obj_at. apply nth_overflow. simpl. lia. }
  assert (Ref : forall a b, refers ex_graph a b -> In (a, b) [(0,1);(1,2);(1,4);(1,3);(2,3);(4,5);(5,0);(5,6);(6,7);(7,3);(7,6);(7,4)]).
  { intros a b R. destruct (Cases a) as [L|K]; [|destruct R; congruence].
    destruct a as [|[|[|[|[|[|[|[|a]]]]]]]]; [| | | | | | | |lia].
    all: destruct R as [k es E H|l E H|E|E|u E|E]; cbn in E; inversion E; subst; simpl in H || idtac; simpl;
      try (repeat (destruct H as [H|H]; [try (injection H as _ H); subst; tauto|]); contradiction); tauto. }
  split.
  { split; [|split; [|split]].
    - intros a b _ R. apply Ref in R. simpl in R. simpl. repeat (destruct R as [R|R]; [injection R as <- <-; lia|]). contradiction.
    - intros a d u E. destruct (Cases a) as [L|K]; [|congruence].
      destruct a as [|[|[|[|[|[|[|[|a]]]]]]]]; cbn in E; try discriminate; [|destruct a; discriminate]. injection E as <- <-. eexists; reflexivity.
    - intros a es k b E H. destruct (Cases a) as [L|K]; [|congruence].
      destruct a as [|[|[|[|[|[|[|[|a]]]]]]]]; cbn in E; try discriminate; [| |destruct a; discriminate]; injection E as <-; simpl in H;
        repeat (destruct H as [H|H]; [injection H as <- _; eauto|]); contradiction.
    - intros _ a d u b E R. apply Ref in R. destruct (Cases a) as [L|K]; [|congruence].
      destruct a as [|[|[|[|[|[|[|[|a]]]]]]]]; cbn in E; try discriminate; [|destruct a; discriminate]. injection E as <- <-.
      simpl in R. repeat (destruct R as [R|R]; [injection R; intros; subst; congruence|]). contradiction. }
  split.
  { intros (a & u & E). destruct (Cases a) as [L|K]; [|congruence].
    destruct a as [|[|[|[|[|[|[|[|a]]]]]]]]; cbn in E; try discriminate. destruct a; discriminate. }
  split; [reflexivity|]. split.
  { eexists. split; [|shelve]. eapply (do_resolve _ _ _ [2] 6 []); reflexivity. Unshelve. reflexivity. }
  eexists _, _. split; [|split; [|reflexivity]].
  - refine (tr_dict _ 0 _ ["a"; "b"] [MList [MPrim (PNum 1); MList []]; MPrim (PNum 1)] _ _ _ _ _); [reflexivity|reflexivity| |].
    + intros k s [<-|[<-|[]]]; discriminate.
    + simpl. eapply (trs_cons _ 1 [2] _ _ [1; 3] []); [|eapply (trs_cons _ 2 [] _ _ [] []); [apply tr_prim; reflexivity|constructor]].
      eapply (tr_list _ 1 [2; 3]); [reflexivity|]. eapply (trs_cons _ 2 [3] _ _ [] [3]); [apply tr_prim; reflexivity|].
      eapply (trs_cons _ 3 [] _ _ [3] []); [|constructor]. eapply (tr_list _ 3 [] [] []); [reflexivity|constructor].
  - repeat constructor; simpl; intuition discriminate.
Qed.

(** C46 is false in general.  An object that occurs twice in plain acyclic data
    (here a list exported under two names) is exported as None the second time;
    and exporting a dict with a key that is not a string raises. *)
Theorem C46_refuted :
  (exists g a m l seen, closed g /\ tree g a m l /\ massage (S (length g)) false g a [] = Ok (MDict [("a", MList [MPrim (PNum 1)]); ("b", MPrim PNone)], seen) /\
     m = MDict [("a", MList [MPrim (PNum 1)]); ("b", MList [MPrim (PNum 1)])]) /\
  (exists g a, closed g /\ massage (S (length g)) false g a [] = Err key_error).
Proof.
  split.
  - exists [ODict [(KStr "a", 1); (KStr "b", 1)]; OIter [2]; OPrim (PNum 1)], 0. do 3 eexists. split; [|split; [|split; [reflexivity|reflexivity]]].
    + intros a b L R. simpl in L. destruct a as [|[|[|a]]]; [| | |lia];
        destruct R as [k es E H|l E H|E|E|u E|E]; cbn in E; inversion E; subst; simpl in *;
        repeat (destruct H as [H|H]; [try (injection H as _ H); subst; lia|]); try contradiction.
    + assert (T : tree [ODict [(KStr "a", 1); (KStr "b", 1)]; OIter [2]; OPrim (PNum 1)] 1 (MList [MPrim (PNum 1)]) ([1] ++ [])%list).
      { eapply (tr_list _ 1 [2]); [reflexivity|]. eapply (trs_cons _ 2 [] _ _ [] []); [apply tr_prim; reflexivity|constructor]. }
      refine (tr_dict _ 0 _ ["a"; "b"] [MList [MPrim (PNum 1)]; MList [MPrim (PNum 1)]] _ _ _ _ _); [reflexivity|reflexivity| |].
      * intros k s [<-|[<-|[]]]; discriminate.
      * simpl. eapply (trs_cons _ 1 [1]); [exact T|]. eapply (trs_cons _ 1 []); [exact T|constructor].
  - exists [ODict [(KOther 7, 1)]; OPrim PNone], 0. split; [|reflexivity].
    intros a b L R. simpl in L. destruct a as [|[|a]]; [| |lia];
        destruct R as [k es E H|l E H|E|E|u E|E]; cbn in E; inversion E; subst; simpl in *;
        repeat (destruct H as [H|H]; [try (injection H as _ H); subst; lia|]); try contradiction.
Qed.
Print Assumptions C46_refuted.

(** C47, in part.  However the program ends, the exports made so far (the last
    value for each public name) are registered exactly once and the outcome of
    the program is kept; a second active stack is refused and registers
    nothing.  Plain exports without sharing are registered unchanged.
    Missing: exports that cannot be converted, see below. *)
Theorem C47_stack_outputs_partial :
  (forall dry g exports outcome, exportable dry g ->
     (forall k v, In (k, v) exports -> v < length g /\ (dry = true -> ~ is_attrs g v)) ->
     exists d, run_stack false dry g exports outcome = ([MDict d], outcome) /\ clean (MDict d) /\
       (forall k, In k (map fst d) <-> (exists v, exported exports k v) /\ forall s, k <> "_" ++ s) /\
       (forall m l, tree (g ++ [ODict (exports_dict exports)])%list (length g) m l -> NoDup l -> MDict d = m)) /\
  (forall dry g exports outcome, run_stack true dry g exports outcome = ([], Err two_stacks)).
Proof. exact (conj stack_registers stack_second). Qed.
Print Assumptions C47_stack_outputs_partial.
Example C47_example :
  exportable true ex_graph /\
  exported [("r", 3); ("r", 0); ("_x", 3)] "r" 0 /\
  run_stack false true ex_graph [("r", 3); ("r", 0); ("_x", 3)] (Err (Exn "E" "boom")) = ([MDict [("r", ex_result)]], Err (Exn "E" "boom")).
Proof.
  split; [apply C46_example|]. split; [|reflexivity]. exists [("r", 3)], [("_x", 3)]. split; [reflexivity|]. intros [H|[]]. discriminate.
Qed.

(** C47 is false in general: if an export cannot be converted nothing is
    registered, and the exception of the program is lost. *)
Theorem C47_refuted : exists g exports e, run_stack false false g exports (Err (Exn "E" "boom")) = ([], Err e) /\ e <> Exn "E" "boom" /\
  forall k v, In (k, v) exports -> v < length g.
Proof.
  exists [ODict [(KOther 7, 1)]; OPrim PNone], [("x", 0); ("y", 1)], key_error.
  split; [reflexivity|]. split; [discriminate|]. intros k v [H|[H|[]]]; injection H as _ <-; simpl; lia.
Qed.
Print Assumptions C47_refuted.
