(** C36-C38: merging options. *)
From Verif Require Import Base PyVal Model_Output Model_Options Spec_Options Proof_Options.
Open Scope string_scope.

(** C36.  ResourceOptions.merge of any two option objects (or None) always
    succeeds with a new object in which every option is merged as specified,
    and no existing object changes; the empty options are a unit on both sides,
    and merging is associative. *)
Theorem C36_merge :
  (forall h o1 o2 a b, stands_for h o1 a -> stands_for h o2 b ->
     exists h' d r, merge h o1 o2 = Ok (h', d) /\ nth_error h' d = Some r /\ merged a b r /\
       length h <= d /\ (forall x v, nth_error h x = Some v -> nth_error h' x = Some v) /\
       (forall x, o1 = Some x -> ro_merge r = ro_merge a)) /\
  (forall a n r, merged a (new_ropts n) r -> same_options r a /\
     forall l, waits_on (ro_depends_on a) l -> waits_on (ro_depends_on r) l) /\
  (forall a n r, merged (new_ropts n) a r -> same_options r a /\
     forall l, waits_on (ro_depends_on a) l -> waits_on (ro_depends_on r) l) /\
  (forall a b c ab bc l r, merged a b ab -> merged ab c l -> merged b c bc -> merged a bc r ->
     same_options l r /\
     forall la lb lc, waits_on (ro_depends_on a) la -> waits_on (ro_depends_on b) lb -> waits_on (ro_depends_on c) lc ->
       waits_on (ro_depends_on l) (la ++ lb ++ lc) /\ waits_on (ro_depends_on r) (la ++ lb ++ lc)).
Proof. exact (conj merge_ok (conj merged_right_unit (conj merged_left_unit merged_assoc))). Qed.
Print Assumptions C36_merge.

Definition ex_a : ropts := mkRopts 0 (Some 7) (Some (VRes (RObj 1))) (Some true) None (Some (PList [mkProvider "aws" 1; mkProvider "gcp" 2])) None
  (Some ["x"]) (Some "1.0") None None None None None None None None None None.
Definition ex_b : ropts := mkRopts 1 None (Some (VOut (Done []) (Done (VList [VRes (RObj 2)])) (Done true) (Done false))) None None
  (Some (PMap [("any", mkProvider "aws" 3)])) (Some false) (Some ["y"]) (Some "2.0") None None None None None None None None None None.
Example C36_example :
  stands_for [ex_a; ex_b] (Some 0) ex_a /\ stands_for [ex_a; ex_b] None (new_ropts 5) /\
  waits_on (ro_depends_on ex_a) [VRes (RObj 1)] /\ waits_on (ro_depends_on ex_b) [VRes (RObj 2)] /\
  exists h' d, merge [ex_a; ex_b] (Some 0) (Some 1) = Ok (h', d) /\
    oget h' d = mkRopts 0 (Some 7) (Some (VOut (Done []) (Done (VList [VRes (RObj 1); VRes (RObj 2)])) (Done true) (Done false))) (Some true) None
      (Some (PMap [("aws", mkProvider "aws" 3); ("gcp", mkProvider "gcp" 2)])) (Some false) (Some ["x"; "y"]) (Some "2.0")
      None None None None None None None None None None.
Proof.
  split; [reflexivity|]. split; [exists 5; reflexivity|].
  split; [apply wo_plain; [reflexivity|reflexivity|constructor; discriminate]|].
  split; [apply wo_output; [discriminate|reflexivity|constructor]|].
  do 2 eexists. split; reflexivity.
Qed.

(** C37, for one merge: on an object made by the constructor (bound to itself),
    o.merge(b) merges o and b.  Missing: chains, see the refutation. *)
Theorem C37_instance_merge_partial :
  (forall h a ra o b, nth_error h a = Some ra -> ro_merge ra = a -> stands_for h o b ->
     exists h' d r, merge_instance h a o = Ok (h', d) /\ nth_error h' d = Some r /\ merged ra b r /\
       (forall x v, nth_error h x = Some v -> nth_error h' x = Some v)) /\
  (forall h a ra o b, nth_error h a = Some ra -> io_merge ra = a -> istands_for h o b ->
     exists h' d r, imerge_instance h a o = (h', d) /\ nth_error h' d = Some r /\ imerged ra b r /\
       (forall x v, nth_error h x = Some v -> nth_error h' x = Some v)).
Proof. exact (conj instance_ok iinstance_ok). Qed.
Print Assumptions C37_instance_merge_partial.

(** C37 is false: in a.merge(b).merge(c) the second merge is bound to [a]: what
    [b] set is lost. *)
Theorem C37_refuted :
  (exists h a b c rb h1 ab h2 d, nth_error h b = Some rb /\ ro_version rb = Some "2.0" /\
     (exists ra, nth_error h a = Some ra /\ ro_merge ra = a) /\ nth_error h c = Some (new_ropts c) /\
     merge_instance h a (Some b) = Ok (h1, ab) /\ merge_instance h1 ab (Some c) = Ok (h2, d) /\
     ro_version (oget h2 d) <> Some "2.0") /\
  (exists h a b c rb h1 ab h2 d, nth_error h b = Some rb /\ io_plugin_download_url rb = Some "u" /\
     (exists ra, nth_error h a = Some ra /\ io_merge ra = a) /\ nth_error h c = Some (new_iopts c) /\
     imerge_instance h a (Some b) = (h1, ab) /\ imerge_instance h1 ab (Some c) = (h2, d) /\
     io_plugin_download_url (iget h2 d) <> Some "u").
Proof.
  split.
  - exists [ex_a; ex_b; new_ropts 2], 0, 1, 2, ex_b. do 4 eexists. do 2 (split; [reflexivity|]).
    split; [eexists; split; reflexivity|]. split; [reflexivity|]. split; [vm_compute; reflexivity|].
    split; [vm_compute; reflexivity|]. discriminate.
  - exists [new_iopts 0; mkIopts 1 None None None (Some "u"); new_iopts 2], 0, 1, 2. do 5 eexists. split; [reflexivity|]. split; [reflexivity|].
    split; [eexists; split; reflexivity|]. split; [reflexivity|]. split; [vm_compute; reflexivity|].
    split; [vm_compute; reflexivity|]. discriminate.
Qed.
Print Assumptions C37_refuted.

(** C38, field by field: a field of the right operand that is not None replaces
    the left's.  Missing: the version of default options, see the refutation. *)
Theorem C38_invoke_merge_partial : forall h o1 o2 a b, istands_for h o1 a -> istands_for h o2 b ->
  exists h' d r, imerge h o1 o2 = (h', d) /\ nth_error h' d = Some r /\ imerged a b r /\
    length h <= d /\ (forall x v, nth_error h x = Some v -> nth_error h' x = Some v) /\
    (forall x, o1 = Some x -> io_merge r = io_merge a).
Proof. exact imerge_ok. Qed.
Print Assumptions C38_invoke_merge_partial.
Example C38_example : let h := [mkIopts 0 (Some 3) None (Some "1.0") None; mkIopts 1 None (Some (mkProvider "aws" 1)) None (Some "u")] in
  istands_for h (Some 0) (mkIopts 0 (Some 3) None (Some "1.0") None) /\
  iget (fst (imerge h (Some 0) (Some 1))) (snd (imerge h (Some 0) (Some 1))) =
    mkIopts 0 (Some 3) (Some (mkProvider "aws" 1)) (Some "1.0") (Some "u").
Proof. split; reflexivity. Qed.

(** C38 is false: merging with default options (or None) erases the version. *)
Theorem C38_refuted : exists h a ra, nth_error h a = Some ra /\ io_version ra = Some "1.0" /\
  forall h' d, imerge h (Some a) None = (h', d) -> io_version (iget h' d) = Some "".
Proof.
  exists [mkIopts 0 None None (Some "1.0") None], 0. eexists. split; [reflexivity|]. split; [reflexivity|].
  intros h' d E. vm_compute in E. injection E as <- <-. reflexivity.
Qed.
Print Assumptions C38_refuted.
