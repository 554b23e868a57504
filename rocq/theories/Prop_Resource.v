(** C33-C35: constructing resources. *)
From Verif Require Import Base PyVal Model_Options Spec_Options Model_Resource Spec_Resource Proof_Resource.
Open Scope string_scope.

(** C33.  Whatever the transformations made of its options, a custom resource
    gets the provider of its [provider] option, else the one its [providers]
    hold for the package of its type, else its parent's for that package, else
    none; components get none; a provider never serves another package: if the
    selected one does, construction raises. *)
Theorem C33_provider_selection :
  (forall tf w t name custom props given w' n q, honest tf -> reachable tf w -> wf_opts given -> parent_exists w given -> named t ->
     construct tf w t name custom props given = Ok (w', n, q) ->
     exists ts props' opts r, applies w given ts /\ runs tf t name ts (props, given) (props', opts) /\ request_props q = props' /\
       wget w n = None /\ wget w' n = Some r /\ s_type r = t /\ s_custom r = custom /\
       (custom = true -> selected w t opts (s_provider r)) /\ (custom = false -> s_provider r = None) /\
       (forall p, s_provider r = Some p -> has_package t (p_package p)) /\
       passes_on w t opts r /\ protection w opts (s_protect r) /\
       (forall k x, wget w k = Some x -> wget w' k = Some x)) /\
  (forall tf w t name props given ts props' opts p, honest tf -> reachable tf w -> wf_opts given -> parent_exists w given -> named t ->
     t <> "" -> name <> "" -> applies w given ts ->
     runs tf t name ts (props, given) (props', opts) -> selected w t opts (Some p) -> ~ has_package t (p_package p) ->
     construct tf w t name true props given = Err wrong_provider).
Proof. exact (conj construct_ok construct_wrong_provider). Qed.
Print Assumptions C33_provider_selection.

(** C34.  A new resource is protected as its own option says, else as its
    parent is; it hands its children what its own options give, else what its
    parent hands down; and what a resource has is never changed later, neither
    by creating resources nor by registering transformations. *)
Theorem C34_inheritance :
  (forall tf w t name custom props given w' n q, honest tf -> reachable tf w -> wf_opts given -> parent_exists w given -> named t ->
     construct tf w t name custom props given = Ok (w', n, q) ->
     exists ts opts r, applies w given ts /\ runs tf t name ts (props, given) (request_props q, opts) /\ wget w' n = Some r /\
       protection w opts (s_protect r) /\ passes_on w t opts r /\
       (forall k x, wget w k = Some x -> wget w' k = Some x)) /\
  (forall w x w' k r, register_stack_transformation w x = Ok w' -> wget w' k = Some r ->
     exists r0, wget w k = Some r0 /\ s_protect r = s_protect r0 /\ s_provider r = s_provider r0 /\ s_providers r = s_providers r0).
Proof.
  split; [|exact transformation_keeps]. intros tf w t name custom props given w' n q Hn Re Wo Pe N H.
  destruct (construct_ok _ _ _ _ _ _ _ _ _ _ Hn Re Wo Pe N H) as (ts & props' & opts & r & A & R & E & _ & G & _ & _ & _ & _ & _ & P & Pr & K).
  subst props'. exists ts, opts, r. auto 8.
Qed.
Print Assumptions C34_inheritance.

(** C35, for programs that register stack transformations before they create
    resources.  Missing: stack transformations registered later, for which it
    is false (below). *)
Theorem C35_transformations_partial :
  (forall tf ts w t name custom props given w' n q, program tf ts w -> parent_exists w given ->
     construct tf w t name custom props given = Ok (w', n, q) ->
     exists p l opts, parent_of w given p /\ hands_down w ts p l /\
       runs tf t name (items (ro_transformations given) ++ l) (props, given) (request_props q, opts) /\ ro_parent opts = ro_parent given /\
       match q with
       | RGet u _ => ro_urn opts = Some u
       | RRead _ _ _ o => exists pr pv, o = set_provider opts pr pv
       | RRegister _ _ _ _ o => exists pr pv, o = set_provider opts pr pv
       end) /\
  (forall tf ts w t name custom props given p l x ts1 ts2 props1 opts1, program tf ts w -> parent_exists w given ->
     t <> "" -> name <> "" -> parent_of w given p -> hands_down w ts p l ->
     (items (ro_transformations given) ++ l = ts1 ++ x :: ts2)%list -> runs tf t name ts1 (props, given) (props1, opts1) ->
     (forall props2 opts2, tf x t name props1 opts1 = Ok (Some (props2, opts2)) -> ro_parent opts2 <> ro_parent opts1 ->
        construct tf w t name custom props given = Err reparented) /\
     (forall e, tf x t name props1 opts1 = Err e -> construct tf w t name custom props given = Err e)).
Proof. exact (conj construct_transforms construct_stops). Qed.
Print Assumptions C35_transformations_partial.

(** An example: stack, component with a transformation and a provider, child. *)
Definition ex_tf (x : nat) : transformation := fun t name p o =>
  if Nat.eqb x 2 then Ok None else Ok (Some (p ++ [("seen", VNum (Z.of_nat x))], o))%list.
Definition with_opts (parent : option nat) (protect : option bool) (prov : option provider) (provs : option providers) (ts : option (list nat)) : ropts :=
  mkRopts 0 parent None protect prov provs None None None None None None None None ts None None None None.
Definition get_ok {A} (d : A) (r : res A) : A := match r with Ok a => a | Err _ => d end.
Definition w_none : world := mkWorld [] None.
Definition ex_w0 : world := get_ok w_none (new_stack ex_tf w_none "stack").
Definition ex_w1 : world := get_ok w_none (register_stack_transformation ex_w0 9).
Definition o_comp := with_opts None (Some true) None (Some (PList [mkProvider "aws" 1; mkProvider "gcp" 2])) (Some [3; 2]).
Definition c1 := construct ex_tf ex_w1 "my:index:Comp" "comp" false [] o_comp.
Definition ex_w2 : world := match c1 with Ok (w, _, _) => w | Err _ => w_none end.
Definition o_child := with_opts (Some 1) None None None (Some [4]).
Definition c2 := construct ex_tf ex_w2 "aws:s3:Bucket" "b" true [("k", VNum 1)] o_child.
Lemma ex_honest : honest ex_tf.
Proof. intros x t name p o p' o' W. unfold ex_tf. destruct (Nat.eqb x 2); [discriminate|]. intros [= _ <-]. exact W. Qed.

Example C33_example :
  honest ex_tf /\ reachable ex_tf ex_w2 /\ wf_opts o_child /\ parent_exists ex_w2 o_child /\ named "aws:s3:Bucket" /\
  has_package "aws:s3:Bucket" "aws" /\
  (exists w' r, c2 = Ok (w', 2, RRegister "aws:s3:Bucket" "b" true [("k", VNum 1); ("seen", VNum 4); ("seen", VNum 3); ("seen", VNum 9)]
                               (set_provider o_child (Some true) (Some (mkProvider "aws" 1)))) /\
     wget w' 2 = Some r /\ s_protect r = true /\ s_provider r = Some (mkProvider "aws" 1)) /\
  construct ex_tf ex_w2 "aws:s3:Bucket" "b" true [] (with_opts (Some 1) None (Some (mkProvider "gcp" 2)) None None) = Err wrong_provider.
Proof.
  split; [exact ex_honest|]. split.
  { eapply (re_new _ ex_w1 "my:index:Comp" "comp" false [] o_comp); [|exact I|intros n H; discriminate|reflexivity].
    eapply (re_transform _ ex_w0 9); [|reflexivity]. eapply (re_stack _ w_none "stack"); [constructor|reflexivity]. }
  split; [exact I|]. split; [intros n [= <-]; eexists; reflexivity|]. split; [intros s H; discriminate|].
  split; [exists "s3", "Bucket"; repeat split; intros H; simpl in H; repeat (destruct H as [H|H]; [discriminate|]); exact H|].
  split; [|reflexivity]. do 2 eexists. repeat split; reflexivity.
Qed.
Example C35_example : program ex_tf [9] ex_w2 /\ parent_exists ex_w2 o_child /\ parent_of ex_w2 o_child 1 /\
  hands_down ex_w2 [9] 1 [3; 2; 9] /\ (exists w' q, c2 = Ok (w', 2, q)).
Proof.
  split.
  { eapply (pr_new _ [9] ex_w1 "my:index:Comp" "comp" false [] o_comp); [|intros n H; discriminate|reflexivity].
    apply (pr_transform _ [] ex_w0 9); [apply (pr_stack _ "stack"); reflexivity|reflexivity|reflexivity]. }
  split; [intros n [= <-]; eexists; reflexivity|]. split; [left; reflexivity|].
  split; [|do 2 eexists; reflexivity].
  refine (hd_child ex_w2 [9] 1 (mkResource _ _ o_comp _ _ _ _ _) 0 [9] _ _ _ _); [reflexivity|discriminate|right; split; reflexivity|apply hd_stack; reflexivity].
Qed.

(** C35 is false in general: a stack transformation registered after a
    component was created is not run for the resources later created under
    that component, although it is run for other later resources. *)
Theorem C35_refuted : exists tf w x w1 t name props o o' w2 n q w3 n' q', honest tf /\ reachable tf w /\
  register_stack_transformation w x = Ok w1 /\
  (forall t name p o, tf x t name p o = Ok (Some ([("changed", VBool true)], mkRopts 0 (ro_parent o) None None None None None None None None None None None None None None None None None))) /\
  parent_exists w1 o /\ construct tf w1 t name true props o = Ok (w2, n, q) /\ request_props q = props /\ props = [("k", VNum 1)] /\
  construct tf w1 t name true props o' = Ok (w3, n', q') /\ request_props q' = [("changed", VBool true)].
Proof.
  pose (tf := fun (x : nat) => (fun t name p o => Ok (Some ([("changed", VBool true)], mkRopts 0 (ro_parent o) None None None None None None None None None None None None None None None None None))) : transformation).
  pose (w0 := get_ok w_none (new_stack tf w_none "stack")).
  pose (w1 := match construct tf w0 "my:index:Comp" "comp" false [] (with_opts None None None None None) with Ok (w, _, _) => w | Err _ => w_none end).
  pose (w2 := get_ok w_none (register_stack_transformation w1 0)).
  exists tf, w1, 0, w2, "aws:s3:Bucket", "b", [("k", VNum 1)], (with_opts (Some 1) None None None None), (with_opts None None None None None).
  do 6 eexists. split; [intros x t name p o p' o' _ [= <- <-]; exact I|]. split.
  { eapply (re_new _ w0 "my:index:Comp" "comp" false [] (with_opts None None None None None)); [|exact I|intros n H; discriminate|reflexivity].
    eapply (re_stack _ w_none "stack"); [constructor|reflexivity]. }
  split; [reflexivity|]. split; [reflexivity|]. split; [intros n [= <-]; eexists; reflexivity|].
  split; [reflexivity|]. split; [reflexivity|]. split; [reflexivity|]. split; reflexivity.
Qed.
Print Assumptions C35_refuted.
