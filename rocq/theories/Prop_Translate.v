(** C55: translating engine outputs to declared types. *)
From Verif Require Import Base PyVal Model_Translate Spec_Translate Proof_Translate.
Open Scope string_scope.

(** C55.  For every declared type and every value from the engine, the
    translation succeeds with [r] exactly when the value becomes [r] (see
    [becomes]: lists keep length and order, maps keep their entries, secrets
    stay secret, unknowns and other leaves stay as they are, output types have
    every declared property), and raises exactly on a mismatch at some depth. *)
Theorem C55_translate :
  forall c, (forall cls, good_class (o_class c cls)) ->
  forall v, engine_value c v -> forall t,
    (forall r, translate c v t = Ok r <-> becomes c t v r) /\
    ((exists e, translate c v t = Err e) <-> mismatch c t v).
Proof. exact (fun c H v E t => conj (translate_iff c H v E t) (mismatch_iff c H v E t)). Qed.
Print Assumptions C55_translate.

Definition ex_cfg : ocfg := mkOcfg
  (fun n => match n with
            | 0 => [mkOfield "bucket_name" "bucketName" None; mkOfield "rules" "rules" (Some (OOptional (OList (OClass 1))));
                    mkOfield "kind" "kind" (Some (OEnum 7)); mkOfield "missing" "missing" (Some OAny)]
            | 1 => [mkOfield "id_" "id" None]
            | _ => []
            end)
  (fun cls v => match v with VStr s => String.eqb s "big" || String.eqb s "small" | _ => false end)
  true (fun k => if String.eqb k "bucketName" then "bucket_name" else k).
Definition ex_value : pyval := VDict
  [("bucketName", VUnknown);
   ("rules", VDict [("4dabf18193072939515e22adb298388d", VStr "1b47061264138c4ac30d75fd1eb44270");
                    ("value", VList [VDict [("id", VNum 1)]; VDict [("extra", VNone)]])]);
   ("kind", VStr "big"); ("undeclared", VList [])].

Ltac keys := unfold wf_dict, dkeys; simpl; repeat (apply NoDup_nil || apply NoDup_cons); simpl; intuition discriminate.
Example C55_example :
  (forall cls, good_class (o_class ex_cfg cls)) /\ engine_value ex_cfg ex_value /\
  translate ex_cfg ex_value (Some (OClass 0)) =
    Ok (TObj 0 [("bucket_name", Some (TLeaf VUnknown));
                ("rules", Some (TSecret (TList [TObj 1 [("id_", Some (TLeaf (VNum 1)))]; TObj 1 [("id_", None)]])));
                ("kind", Some (TEnum 7 (VStr "big"))); ("missing", None)]) /\
  translate ex_cfg ex_value None =
    Ok (TDict [("bucket_name", TLeaf VUnknown);
               ("rules", TSecret (TList [TDict [("id", TLeaf (VNum 1))]; TDict [("extra", TLeaf VNone)]]));
               ("kind", TLeaf (VStr "big")); ("undeclared", TList [])]) /\
  mismatch ex_cfg (Some (OClass 0)) (VDict [("rules", VList [VDict []; VList []])]).
Proof.
  split; [|split; [|split; [reflexivity|split; [reflexivity|]]]].
  - intros [|[|n]]; split; keys.
  - apply ev_dict; [keys|intros K; unfold marks_secret in K; simpl in K; intuition discriminate|keys|].
    assert (L : forall v, (forall d, v <> VDict d) -> (forall l, v <> VList l) -> engine_value ex_cfg v) by (intros; now apply ev_leaf).
    repeat apply Forall_cons; try apply Forall_nil; cbn [snd]; try (apply L; discriminate).
    + eapply ev_secret; [keys|left; reflexivity|right; left; reflexivity|discriminate|].
      apply ev_list. repeat apply Forall_cons; try apply Forall_nil; (apply ev_dict; [keys|intros K; unfold marks_secret in K; simpl in K; intuition discriminate|keys|]); repeat apply Forall_cons; try apply Forall_nil; apply L; discriminate.
    + apply ev_list. constructor.
  - eapply m_in_dict; [intros K; unfold marks_secret in K; simpl in K; intuition discriminate| |left; reflexivity|].
    + right. right. exists 0. split; [left; reflexivity|]. left. exists (mkOfield "rules" "rules" (Some (OOptional (OList (OClass 1))))). simpl. auto.
    + eapply m_in_list; [right; eexists; split; [right; reflexivity|reflexivity]|right; left; reflexivity|].
      apply m_list; intros; intros K; unfold untyped, declared in K; intuition discriminate.
Qed.
