(** C73: to_json writes a JSON text of the value, or refuses. *)
From Verif Require Import Base PyVal Model_Rpc Model_Argv Model_Cmd Model_Json Spec_Json Proof_Json Proof_Capture.
Open Scope string_scope.
Open Scope list_scope.

(** Whenever a value stands for plain data [d] (its input objects being dicts of their
    properties, under their Pulumi names), to_json writes a JSON text of [d], and that text
    read back is [d] and no other plain data.  [plain_data d] adds only that the keys of each
    dict are distinct, as they are in Python. *)
Theorem C73_text : forall classes v d,
  (forall cls, NoDup (map f_pulumi (classes cls))) -> means classes v d -> plain_data d ->
  exists s, to_json classes v = Ok s /\ text d s /\ loads s = Ok d /\ (forall d', plain_data d' -> document d' s -> d' = d).
Proof.
  intros classes v d Hn Hm Hp. unfold to_json. rewrite (means_serializable classes Hn v d Hm).
  destruct (dumps_plain d Hp) as (s & E). exists s. pose proof (dumps_text _ _ E) as Ht. pose proof (text_document _ _ Ht) as Hd.
  repeat split; [exact E|exact Ht|now apply loads_document|]. intros d' Hp' Hd'. now apply (document_unique d' d s).
Qed.

(** A value that stands for no plain data (one that holds an output, a resource, an asset...)
    is refused. *)
Theorem C73_refusal : forall classes v,
  (forall cls, NoDup (map f_pulumi (classes cls))) -> (forall d, ~ means classes v d) ->
  exists m, to_json classes v = Err (Exn "TypeError" m).
Proof.
  intros classes v Hn H. unfold to_json. destruct (dumps (to_serializable classes v)) as [s|e] eqn:E.
  - exfalso. apply (H (to_serializable classes v)). now apply (serializable_means classes Hn v s).
  - destruct (dumps_error _ _ E) as (m & ->). now exists m.
Qed.

(** The reader: every JSON document of a value, however laid out, is read as that value; so is
    what the Automation API captures of it when the CLI prints it (line by line, line ends
    stripped). *)
Theorem C73_read : forall v s, plain_data v -> document v s ->
  loads s = Ok v /\ loads (join nl (map rstrip (readlines s))) = Ok v.
Proof. intros v s Hp Hd. split; [now apply loads_document|now apply loads_captured]. Qed.

(* ------------------------------------------------------------------ *)
(** A concrete case: nested input objects, an unset property, a string with a quote and a
    line end. *)
Definition ex_classes (cls : nat) : list field :=
  match cls with
  | 0 => [mkField "bucket_name" "bucketName" None; mkField "acl" "acl" None; mkField "rules" "lifecycleRules" None]
  | _ => [mkField "max_age" "maxAge" None]
  end.
Definition ex_value : pyval :=
  VDict [("bucket", VInput 0 [("bucket_name", VStr (String quote (String newline "x"))); ("acl", VNone); ("rules", VList [VInput 1 [("max_age", VNum (-30))]; VDict []])]);
         ("on", VBool true)].
Definition ex_data : pyval :=
  VDict [("bucket", VDict [("bucketName", VStr (String quote (String newline "x"))); ("lifecycleRules", VList [VDict [("maxAge", VNum (-30))]; VDict []])]);
         ("on", VBool true)].
Example C73_case :
  (forall cls, NoDup (map f_pulumi (ex_classes cls))) /\ means ex_classes ex_value ex_data /\ plain_data ex_data /\
  to_json ex_classes ex_value = Ok "{""bucket"": {""bucketName"": ""\""\nx"", ""lifecycleRules"": [{""maxAge"": -30}, {}]}, ""on"": true}" /\
  (exists s, document ex_data s /\ s <> join nl (map rstrip (readlines s))) /\
  (forall d, ~ means ex_classes (VList [VNum 1; VUnknown]) d).
Proof.
  split; [|split; [|split; [|split; [|split]]]].
  - intros [|cls]; repeat constructor; simpl; intuition discriminate.
  - repeat (constructor; try split; try reflexivity).
  - repeat (constructor; try (simpl; intuition discriminate)).
  - reflexivity.
  - assert (H : plain_data ex_data) by repeat (constructor; try (simpl; intuition discriminate)).
    destruct (dumps_plain _ H) as (s & E). pose proof (dumps_text _ _ E) as Ht.
    exists (s ++ nl)%string. split; [exists "", s, nl; split; [constructor|]; split; [exact Ht|]; split; [|reflexivity]; apply (B_more 10); [simpl; tauto|constructor]|].
    vm_compute in E. injection E as <-. vm_compute. discriminate.
  - intros d H. inversion H; subst. inversion H1; subst. inversion H5; subst. inversion H4.
Qed.

Print Assumptions C73_text.
Print Assumptions C73_refusal.
Print Assumptions C73_read.
