(** C01-C09: Outputs. *)
From Verif Require Import Base PyVal Model_Output Spec_Output Proof_Output Proof_FromInput Proof_Output2.

(* ------------------------------------------------------------------ *)
(** C01.  Whenever the callback runs and returns, the result depends on the
    resources of the source and of the returned Output, is secret iff one of
    the two is, and is known exactly when the produced value is.  The
    invariant that an output claiming to be known has an unknown-free value
    holds of every output apply builds. *)
Theorem C01_apply_propagates :
  (forall dry o rs v k s f x rs' v' k' s',
     settled o rs v k s ->
     dry = false \/ k = true ->
     f v = Ok x -> yields x rs' v' k' s' ->
     settled (apply dry o f false) (rs ++ rs') v' k' (s || s')) /\
  (forall dry o f rwu, well_formed (apply dry o f rwu)) /\
  (forall dry o rs v k s f e,
     settled o rs v k s ->
     dry = false \/ k = true ->
     f v = Err e ->
     o_res (apply dry o f false) = Done rs /\ o_val (apply dry o f false) = Fail e /\
     o_known (apply dry o f false) = Done false).
Proof. exact apply_propagates. Qed.
Print Assumptions C01_apply_propagates.

(** A secret known output whose callback returns another Output. *)
Example C01_example :
  let o := {| o_res := Done [RObj 1]; o_val := Done (VStr "a"); o_known := Done true; o_secret := Done true |} in
  let f := fun _ : pyval => Ok (VOut (Done [RObj 2]) (Done (VNum 3)) (Done true) (Done false)) in
  settled o [RObj 1] (VStr "a") true true /\
  settled (apply true o f false) [RObj 1; RObj 2] (VNum 3) true true.
Proof. split; vm_compute; repeat split. Qed.

(* ------------------------------------------------------------------ *)
(** C02.  [apply_calls] lists the arguments the callback was called with.
    During a preview a not-known output's callback is not called, and the
    result is the same whatever the callback is. *)
Theorem C02_preview_no_callback :
  (forall o f g, o_known o = Done false ->
     apply_calls true o f false = [] /\
     apply true o f false = apply true o g false) /\
  (forall o rs v s f, settled o rs v false s ->
     settled (apply true o f false) rs VNone false s) /\
  (forall dry o rs v k s f, settled o rs v k s -> dry = false \/ k = true ->
     apply_calls dry o f false = [v]).
Proof. exact preview_no_callback. Qed.
Print Assumptions C02_preview_no_callback.

Example C02_example :
  let o := {| o_res := Done [RObj 1]; o_val := Done (VStr "placeholder"); o_known := Done false; o_secret := Done true |} in
  apply_calls true o (fun v => Ok v) false = [] /\
  apply_calls false o (fun v => Ok v) false = [VStr "placeholder"] /\
  settled (apply true o (fun v => Ok v) false) [RObj 1] VNone false true.
Proof. vm_compute; repeat split. Qed.

(* ------------------------------------------------------------------ *)
(** C03.  Output.all, positional and keyword form. *)
Theorem C03_output_all :
  (forall dry args infos,
     Forall2 (fun a i => settled (from_input dry a) (i_rs i) (i_v i) (i_k i) (i_s i)) args infos ->
     exists o, output_all dry args [] = Ok o /\
       settled o (concat (map i_rs infos)) (VList (map i_v infos))
                 (forallb (fun b => b) (map i_k infos)) (existsb (fun b => b) (map i_s infos))) /\
  (forall dry kwargs infos,
     kwargs <> [] ->
     Forall2 (fun kv i => settled (from_input dry (snd kv)) (i_rs i) (i_v i) (i_k i) (i_s i)) kwargs infos ->
     exists o, output_all dry [] kwargs = Ok o /\
       settled o (concat (map i_rs infos)) (VDict (combine (map fst kwargs) (map i_v infos)))
                 (forallb (fun b => b) (map i_k infos)) (existsb (fun b => b) (map i_s infos))) /\
  (forall dry a args kv kwargs, exists e, output_all dry (a :: args) (kv :: kwargs) = Err e).
Proof. exact output_all_ok. Qed.
Print Assumptions C03_output_all.

Definition ex_o1 := {| o_res := Done [RObj 1]; o_val := Done (VStr "a"); o_known := Done true; o_secret := Done true |}.
Definition ex_o2 := {| o_res := Done [RObj 2]; o_val := Done (VList [VNum 3]); o_known := Done true; o_secret := Done false |}.
Example C03_example :
  let infos := [mkInfo [RObj 1] (VStr "a") true true;
                mkInfo [RObj 2] (VDict [("k", VList [VNum 3])]) true false;
                mkInfo [] (VNum 7) true false] in
  let args := [VO ex_o1; VDict [("k", VO ex_o2)]; VAwait (Done (VNum 7))] in
  Forall2 (fun a i => settled (from_input true a) (i_rs i) (i_v i) (i_k i) (i_s i)) args infos.
Proof. repeat constructor. Qed.

(* ------------------------------------------------------------------ *)
(** C04. *)
Theorem C04_secret_unsecret :
  (forall dry v, o_secret (secret dry v) = Done true /\
     o_val (secret dry v) = o_val (from_input dry v) /\
     o_known (secret dry v) = o_known (from_input dry v) /\
     o_res (secret dry v) = o_res (from_input dry v)) /\
  (forall o, well_formed o ->
     o_secret (unsecret o) = Done false /\ o_val (unsecret o) = o_val o /\
     o_known (unsecret o) = o_known o /\ o_res (unsecret o) = o_res o) /\
  (forall dry v, o_secret (from_input dry v) = Done false ->
     unsecret (secret dry v) = from_input dry v).
Proof. exact secret_unsecret_ok. Qed.
Print Assumptions C04_secret_unsecret.

Example C04_example :
  let v := VList [VStr "pw"; VO ex_o2] in
  o_secret (from_input false v) = Done false /\
  o_secret (secret false v) = Done true /\ o_val (secret false v) = Done (VList [VStr "pw"; VList [VNum 3]]).
Proof. vm_compute; repeat split. Qed.

(* ------------------------------------------------------------------ *)
(** C05.  Full statement: for every value [v] whose nested futures resolved,
    [from_input v] resolves; its value contains no Output and no awaitable; it
    depends exactly on the resources of the nested outputs; it is secret iff
    a nested output is; in a preview it is known iff all nested outputs are
    known and no unknown is nested (in an update: only the "if" direction,
    since an update treats every output as known); and it has [v]'s shape.

    Missing from the full property, hence [_partial]: an input-type object
    without any field ([settled_value] excludes it, see the refutation), and
    the shape of an input-type object with unknown fields in a preview (its
    value is then None and the result not known). *)
Theorem C05_from_input_deep_partial :
  forall dry v, settled_value v ->
    exists rs x k s,
      settled (from_input dry v) rs x k s /\
      fully_unwrapped x /\
      (forall r, In r rs <-> exists o rs', nested dry o v /\ o_res o = Done rs' /\ In r rs') /\
      (s = true <-> exists o, nested dry o v /\ o_secret o = Done true) /\
      (dry = true -> k = true ->
         (forall o, nested dry o v -> o_known o = Done true) /\ ~ bare_unknown dry v) /\
      ((forall o, nested dry o v -> o_known o = Done true) /\ ~ bare_unknown dry v -> k = true) /\
      (dry = false \/ k = true \/ input_free v -> x = unwrapped dry v).
Proof. exact from_input_deep. Qed.
Print Assumptions C05_from_input_deep_partial.

(** Nothing is left pending unless something nested is pending. *)
Theorem C05_from_input_resolves :
  forall dry v, never_pending v -> all_resolved (from_input dry v).
Proof. exact from_input_resolved. Qed.
Print Assumptions C05_from_input_resolves.

(** An input-type object without fields is not lifted: the output's value is
    an error. *)
Theorem C05_empty_input_type_refuted :
  exists v, fully_unwrapped v /\ never_pending v /\
    forall dry, exists e, o_val (from_input dry v) = Fail e.
Proof.
  exists (VInput 0 []). split; [exact I|split; [exact I|]].
  intros dry. exists (Exn "TypeError" "argument after ** must be a mapping"). destruct dry; reflexivity.
Qed.
Print Assumptions C05_empty_input_type_refuted.

Definition ex_deep : pyval :=
  VDict [("a", VList [VO ex_o1; VAwait (Done (VO ex_o2))]);
         ("b", VInput 5 [("f", VOut (Done [RObj 3]) (Done (VO ex_o2)) (Done true) (Done false))])].
Example C05_example :
  settled_value ex_deep /\
  settled (from_input true ex_deep) [RObj 1; RObj 2; RObj 3; RObj 2]
    (VDict [("a", VList [VStr "a"; VList [VNum 3]]); ("b", VInput 5 [("f", VList [VNum 3])])]) true true.
Proof. split; vm_compute; repeat split; auto; discriminate. Qed.

(* ------------------------------------------------------------------ *)
(** C06.  [access] is Python's attribute or item access. *)
Theorem C06_lifted_access :
  (forall o rs v s access, settled o rs v false s -> contains_unknowns v = false ->
     settled (getitem true o access) rs VUnknown false s) /\
  (forall dry o rs s access, settled o rs VUnknown false s ->
     settled (getitem dry o access) rs VUnknown false s) /\
  (forall dry o rs v k s access x, settled o rs v k s -> well_formed o ->
     v <> VUnknown ->
     (dry = false \/ k = true \/ contains_unknowns v = true) ->
     access v = Ok x -> is_prompt x = true ->
     settled (getitem dry o access) rs x (negb (contains_unknowns x)) s).
Proof. exact lifted_access_ok. Qed.
Print Assumptions C06_lifted_access.

Example C06_example :
  let access := fun v => match v with
                         | VDict d => match dget d "k" with Some x => Ok x | None => Err (Exn "KeyError" "k") end
                         | _ => Err (Exn "TypeError" "not subscriptable") end in
  let o := {| o_res := Done [RObj 1]; o_val := Done (VDict [("k", VNum 1); ("u", VUnknown)]);
              o_known := Done false; o_secret := Done true |} in
  settled (getitem true o access) [RObj 1] (VNum 1) true true /\
  settled (getitem true {| o_res := Done [RObj 1]; o_val := Done VNone; o_known := Done false; o_secret := Done true |} access)
    [RObj 1] VUnknown false true.
Proof. vm_compute; repeat split. Qed.

(* ------------------------------------------------------------------ *)
(** C07.  Full statement: the three laws for all callbacks.  Proved for
    callbacks that return; the two refutations show what fails otherwise. *)
Theorem C07_apply_laws_partial :
  (forall dry o rs v s, settled o rs v true s -> well_formed o -> is_prompt v = true ->
     apply dry o (fun x => Ok x) false = o) /\
  (forall dry o rs v k s f g y z,
     settled o rs v k s -> dry = false \/ k = true ->
     f v = Ok y -> is_prompt y = true -> contains_unknowns y = false ->
     g y = Ok z -> is_prompt z = true ->
     out_equiv (apply dry (apply dry o f false) g false)
               (apply dry o (fun u => match f u with Ok w => g w | Err e => Err e end) false)) /\
  (forall dry o rs v k s f fo rsf vf kf sf g,
     settled o rs v k s -> dry = false \/ k = true ->
     f v = Ok (VO fo) -> settled fo rsf vf kf sf -> well_formed fo ->
     (exists x r w kk ss, g vf = Ok x /\ yields x r w kk ss) ->
     out_equiv (apply dry (apply dry o f false) g false)
               (apply dry o (fun u => match f u with
                                      | Ok (VOut a b c d) =>
                                          Ok (VO (apply dry {| o_res := a; o_val := b; o_known := c; o_secret := d |} g false))
                                      | r => r
                                      end) false)).
Proof. exact apply_laws. Qed.
Print Assumptions C07_apply_laws_partial.

(** Left identity: lifting a plain value and applying is calling. *)
Theorem C07_left_identity :
  forall dry v f fo rs w k s,
    contains_unknowns v = false -> f v = Ok (VO fo) -> settled fo rs w k s -> well_formed fo ->
    out_equiv (apply dry (of_value v) f false) fo.
Proof. exact apply_left_identity. Qed.
Print Assumptions C07_left_identity.

(** With a raising second callback, nesting the applies keeps a secret's
    secretness while chaining them loses it. *)
Theorem C07_assoc_raising_refuted :
  exists o f fo g, settled o [] (VNum 1) true true /\ f (VNum 1) = Ok (VO fo) /\ settled fo [] (VNum 2) true false /\
    ~ out_equiv (apply false (apply false o f false) g false)
                (apply false o (fun u => match f u with
                                      | Ok (VOut a b c d) =>
                                          Ok (VO (apply false {| o_res := a; o_val := b; o_known := c; o_secret := d |} g false))
                                      | r => r
                                      end) false).
Proof.
  exists {| o_res := Done []; o_val := Done (VNum 1); o_known := Done true; o_secret := Done true |},
         (fun _ => Ok (VO (of_value (VNum 2)))), (of_value (VNum 2)), (fun _ => Err (Exn "E" "boom")).
  repeat split. intros (_ & _ & _ & E). vm_compute in E. discriminate.
Qed.
Print Assumptions C07_assoc_raising_refuted.

(** In an update, apply of the identity to an output that is not known makes
    it known. *)
Theorem C07_identity_update_refuted :
  exists o, settled o [] (VNum 1) false false /\ well_formed o /\
    o_known (apply false o (fun x => Ok x) false) = Done true.
Proof.
  exists {| o_res := Done []; o_val := Done (VNum 1); o_known := Done false; o_secret := Done false |}.
  repeat split. intros H; discriminate H.
Qed.
Print Assumptions C07_identity_update_refuted.

Example C07_example :
  let f := fun v => Ok (VList [v; v]) in
  let g := fun v => Ok (VDict [("x", v)]) in
  f (VStr "a") = Ok (VList [VStr "a"; VStr "a"]) /\
  out_equiv (apply true (apply true ex_o1 f false) g false)
            (apply true ex_o1 (fun u => match f u with Ok w => g w | Err e => Err e end) false).
Proof.
  split; [reflexivity|]. vm_compute. repeat split; auto.
  exists [RObj 1], [RObj 1]. repeat split; auto.
Qed.

(* ------------------------------------------------------------------ *)
(** C08.  Full statement: value raises the same error, nothing is left
    unresolved, and secretness is kept.  The last part is false of the code
    (output.py:222-230 sets an unset is_secret to False). *)
Theorem C08_failing_apply_partial :
  (forall dry o rs v k s f rwu e, settled o rs v k s ->
     dry = false \/ k = true \/ rwu = true -> f (passed dry v k rwu) = Err e ->
     o_res (apply dry o f rwu) = Done rs /\ o_val (apply dry o f rwu) = Fail e /\
     all_resolved (apply dry o f rwu)) /\
  (forall dry o f rwu, all_resolved o -> (forall v, result_resolves (f v)) ->
     all_resolved (apply dry o f rwu)) /\
  (forall dry o f rwu e, all_resolved o -> o_val o = Fail e ->
     exists e', o_val (apply dry o f rwu) = Fail e').
Proof. exact failing_apply. Qed.
Print Assumptions C08_failing_apply_partial.

Theorem C08_keeps_secretness_refuted :
  exists o f e, settled o [RObj 1] (VStr "pw") true true /\ f (VStr "pw") = Err e /\
    forall dry, o_secret (apply dry o f false) = Done false.
Proof.
  exists {| o_res := Done [RObj 1]; o_val := Done (VStr "pw"); o_known := Done true; o_secret := Done true |},
         (fun _ => Err (Exn "ValueError" "boom")), (Exn "ValueError" "boom").
  repeat split. intros []; reflexivity.
Qed.
Print Assumptions C08_keeps_secretness_refuted.

(* ------------------------------------------------------------------ *)
(** C09.  Full statement: merged output is known only if both are, secret if
    either is, and depends on the resources of both.  Only the resources
    and the second operand's knownness and secretness are right: the code
    combines future objects with [and]/[or] (output.py:576-577). *)
Theorem C09_merge_outputs_partial :
  forall o1 o2 r1 v1 k1 s1 r2 v2 k2 s2 t x,
    settled o1 r1 v1 k1 s1 -> settled o2 r2 v2 k2 s2 ->
    contains_unknowns v1 = false -> contains_unknowns v2 = false ->
    v1 <> VNone -> v2 <> VNone ->
    t v1 v2 = Ok x -> contains_unknowns x = false ->
    settled (map2_output o1 o2 t) (r1 ++ r2) x k2 s2.
Proof. exact merge_outputs. Qed.
Print Assumptions C09_merge_outputs_partial.

Theorem C09_merge_metadata_refuted :
  exists o1 o2 t r1 r2 v1 v2,
    settled o1 r1 v1 false true /\ settled o2 r2 v2 true false /\
    o_known (map2_output o1 o2 t) = Done true /\ o_secret (map2_output o1 o2 t) = Done false.
Proof.
  exists {| o_res := Done []; o_val := Done (VList []); o_known := Done false; o_secret := Done true |},
         {| o_res := Done []; o_val := Done (VList []); o_known := Done true; o_secret := Done false |},
         (fun _ _ => Ok (VList [])). do 4 eexists. repeat split.
Qed.
Print Assumptions C09_merge_metadata_refuted.
