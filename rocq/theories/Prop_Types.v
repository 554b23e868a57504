(** C54: declared input and output types. *)
From Verif Require Import Base PyVal Model_Types Spec_Types Proof_Types.
Open Scope string_scope.

(** C54.  For every class declared with @input_type or @output_type whose
    properties do not clash: calling it with values for its properties works
    exactly when every argument is a property and every property without default
    is given, and after any writes each property reads as last written, else as
    given, else as its default. *)
Theorem C54_stored : forall D args ws,
  well_declared D -> (forall n v, In (n, v) ws -> declared_name D n) ->
  ((exists o, construct D args = Ok o) <->
     (forall k v, In (k, v) args -> declared_name D k) /\
     (forall p, In p (d_props D) -> p_default p = None -> exists v, dget args (p_python p) = Some v)) /\
  forall o, construct D args = Ok o ->
    exists o', tsets D o ws = Ok o' /\
      forall p, In p (d_props D) -> exists v0 v, initial args p v0 /\ last_written (p_python p) v0 ws v /\ tget D o' (p_python p) = Ok v.
Proof.
  intros D args ws W Hws.
  assert (Q : forall o, construct D args = Ok o -> (forall k v, In (k, v) args -> declared_name D k) /\
     (forall p, In p (d_props D) -> p_default p = None -> exists v, dget args (p_python p) = Some v)).
  { intros o H. apply construct_inv in H as [H1 H2]. split; [intros k v Hk; exact (H1 _ Hk)|]. intros p Hp Hd.
    destruct (dget args (p_python p)) as [v|] eqn:E; [eauto|]. now apply H2 in E. }
  assert (Q' : (forall k v, In (k, v) args -> declared_name D k) /\
     (forall p, In p (d_props D) -> p_default p = None -> exists v, dget args (p_python p) = Some v) ->
     exists o, construct D args = Ok o /\ forall p, In p (d_props D) -> exists v, initial args p v /\ tget D o (p_python p) = Ok v).
  { intros [H1 H2]. apply construct_ok; auto.
    - intros [k v]. apply H1.
    - intros p Hp Hd K. destruct (H2 p Hp K). congruence. }
  split; [split; [intros [o H]; eauto|intros H; destruct (Q' H) as (o & Ho & _); eauto]|].
  intros o Ho. destruct (Q' (Q o Ho)) as (o1 & E & Hi). rewrite Ho in E. injection E as <-.
  destruct (writes D W ws o Hws) as (o' & E' & H'). exists o'. split; auto. intros p Hp.
  destruct (Hi p Hp) as (v0 & Hv0 & Hg). rewrite tget_stored in Hg by assumption. injection Hg as Hg.
  exists v0. eexists. split; [exact Hv0|]. split; [exact (H' p v0 Hp Hg)|]. now apply tget_stored.
Qed.
Print Assumptions C54_stored.

(** C54: converting an input to a dict gives exactly its properties that are
    not None, under their declared names. *)
Theorem C54_to_dict : forall D o,
  well_declared D -> d_input D = true ->
  exists d, input_to_dict D o = Ok d /\
    forall n v, dget d n = Some v <-> exists p, In p (d_props D) /\ p_pulumi p = n /\ tget D o (p_python p) = Ok v /\ v <> VNone.
Proof.
  intros D o W Hi. unfold input_to_dict. rewrite Hi.
  destruct (to_dict_spec D o W (d_props D) []) as (d & -> & H); try apply W; auto using incl_refl.
  eexists. split; [reflexivity|]. intros n v. rewrite H. simpl. split.
  - intros [K|(p & Hp & Hn & Hs & Hv)]; [discriminate|]. exists p. rewrite tget_stored by assumption. repeat split; auto. congruence.
  - intros (p & Hp & Hn & Hs & Hv). right. exists p. rewrite tget_stored in Hs by assumption. repeat split; auto. congruence.
Qed.
Print Assumptions C54_to_dict.

(** C54: an output type made from a dict reads each property from the entry
    with its declared name, None when there is none. *)
Theorem C54_from_dict : forall D output,
  well_declared D -> d_input D = false ->
  exists o, output_from_dict D output = Ok o /\
    forall p, In p (d_props D) -> tget D o (p_python p) = Ok (match dget output (p_pulumi p) with Some v => v | None => VNone end).
Proof.
  intros D output W Hi. unfold output_from_dict. rewrite Hi. match goal with |- context [construct D ?a] => set (args := a) end.
  assert (Hg : forall p, In p (d_props D) -> dget args (p_python p) = Some (match dget output (p_pulumi p) with Some v => v | None => VNone end)).
  { intros p Hp. apply from_dict_given; auto. apply W. }
  destruct (construct_ok D args W) as (o & -> & H).
  - intros [k v] Hk. apply (in_map fst) in Hk. apply from_dict_keys in Hk as [[]|Hk]. apply in_map_iff in Hk as (p & <- & Hp). now exists p.
  - intros p Hp K. rewrite Hg in K by assumption. discriminate.
  - eexists. split; [reflexivity|]. intros p Hp. destruct (H p Hp) as (v & Hv & E). rewrite E. f_equal.
    pose proof (Hg p Hp). inversion Hv; congruence.
Qed.
Print Assumptions C54_from_dict.

(** An output type whose Python and Pulumi names cross over, with a translation. *)
Definition ex_out : decl :=
  mkDecl false [mkProp "a" "b" None; mkProp "b" "a" (Some VNone); mkProp "camel_case" "camelCase" (Some (VNum 1))]
    (Some (fun s => if String.eqb s "camelCase" then "camel_case" else s)) IAnnotations.
Example C54_example :
  well_declared ex_out /\
  output_from_dict ex_out [("b", VNum 7); ("camelCase", VStr "x")] = Ok [("b", VNum 7); ("camel_case", VStr "x")] /\
  construct ex_out [("a", VBool true)] = Ok [("b", VBool true); ("camel_case", VNum 1)] /\
  input_to_dict (mkDecl true [mkProp "a" "A" None; mkProp "b" "B" None] None ISetCalls) [("b", VNum 2); ("a", VNone)] = Ok [("B", VNum 2)].
Proof.
  split; [|repeat split]. constructor; try reflexivity; simpl.
  - repeat constructor; simpl; intuition discriminate.
  - repeat constructor; simpl; intuition discriminate.
  - intros p [<-|[<-|[<-|[]]]]; discriminate.
  - intros tr [= <-] _ p q [<-|[<-|[<-|[]]]] [<-|[<-|[<-|[]]]]; simpl; auto; discriminate.
Qed.

(** C54: which declarations are accepted. *)
Theorem C54_declared : forall D, declare D = Ok tt <-> accepted D.
Proof. exact declare_spec. Qed.
Print Assumptions C54_declared.
