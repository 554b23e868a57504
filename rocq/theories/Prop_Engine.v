(** C81 and C82: values exchanged with the engine.  [serialize_properties] and
    [deserialize_properties] are the SDK's; [unmarshal_properties] and
    [marshal_properties] are the engine's, modelled from its own source. *)
From Verif Require Import Base PyVal Model_Urn Model_Rpc Spec_Rpc Model_Engine Spec_Engine Proof_Engine Proof_Engine2.

(** C81.  The engine receives exactly the values the program supplied.
    Partial: [means] leaves out the values of [C81_refuted]. *)
Theorem C81_engine_receives_partial :
  forall c o typ keep inputs ps,
  (forall cls, class_declared (c_class c cls)) ->
  (keep = true -> u_outputs o = true) ->
  bag_means c (u_hash o) typ keep inputs ps -> NoDup (map fst ps) ->
  exists message deps,
    serialize_properties c typ keep inputs = Done (message, deps) /\
    unmarshal_properties o message = Ok ps.
Proof. intros c o typ keep inputs ps Hc Hk Hb Hn. exact (engine_reads c o Hc typ keep inputs ps Hk Hb Hn). Qed.
Print Assumptions C81_engine_receives_partial.

Definition ex_class : list field :=
  [mkField "bucket_name" "bucketName" (Some TyAny); mkField "tags" "tags" (Some (TyDict TyAny))].
Definition ex_bucket : string := "urn:pulumi:dev::proj::aws:s3/bucket:Bucket::b".
Definition ex_bucket2 : string := "urn:pulumi:dev::proj::aws:s3/bucket:Bucket::b2".
Definition ex_res (r : rsrc) : rinfo :=
  match r with
  | RObj 1 => mkRinfo true (Done (Some ex_bucket)) (Done (Some "b-123")) (Done [ex_bucket])
  | RObj 2 => mkRinfo true (Done (Some ex_bucket2)) (Done None) (Done [ex_bucket2])
  | _ => mkRinfo false Pending Pending Pending
  end.
Definition ex_c (secrets : bool) : cfg :=
  mkCfg secrets true true None (fun _ => ex_class) ex_res.
Definition ex_o : uopts := mkUopts true (Some (fun _ => Ok "abc")).

Lemma ex_declared : forall cls, class_declared (c_class (ex_c true) cls).
Proof.
  intros cls. repeat split; [repeat constructor; cbn; intuition discriminate|repeat constructor; cbn; intuition discriminate|].
  intros f [<-|[<-|[]]]; discriminate.
Qed.

Example C81_example :
  let inputs := [("a_list", VList [VNum 1; VStr "x"; VUnknown; VRes (RObj 1)]);
                 ("the_bucket", VInput 0 [("bucket_name", VOut (Done [RObj 2]) (Done (VStr "pw")) (Done true) (Done true))]);
                 ("gone", VNone);
                 ("asset", VAssetArchive [("index.html", VStringAsset "hi"); ("lib", VFileArchive "./lib")]);
                 ("fresh", VAwait (Done (VRes (RObj 2))))] in
  let ps := [("a_list", PArr [PNum 1; PStr "x"; PComputed (PStr ""); PRef ex_bucket (Some (PStr "b-123")) ""]);
             ("the_bucket", PObj [("bucketName", POutput (PStr "pw") true true [ex_bucket2])]);
             ("asset", PArchive "abc" (Some [("index.html", PAsset "abc" "hi" "" ""); ("lib", PArchive "abc" None "./lib" "")]) "" "");
             ("fresh", PRef ex_bucket2 (Some (PComputed (PStr ""))) "")] in
  bag_means (ex_c true) (u_hash ex_o) None true inputs ps /\ NoDup (map fst ps) /\
  exists message deps,
    serialize_properties (ex_c true) None true inputs = Done (message, deps) /\
    unmarshal_properties ex_o message = Ok ps.
Proof.
  intros inputs ps.
  assert (Ord : forall s, existsb (String.eqb s) sentinels = false -> ordinary s).
  { intros s H Hi. rewrite <- not_true_iff_false in H. apply H. apply existsb_exists. exists s. split; auto. apply String.eqb_refl. }
  assert (Hb : bag_means (ex_c true) (u_hash ex_o) None true inputs ps).
  { unfold inputs, ps. assert (Hnm : forall k, sent_as (ex_c true) None k k) by (intros; constructor; reflexivity).
    repeat match goal with
    | |- ordinary _ => apply Ord; reflexivity
    | |- names_ok _ => split; [repeat constructor; cbn; intuition discriminate|cbn; intuition discriminate]
    | |- bag_means _ _ _ _ ((?k, VNone) :: _) _ => eapply Bag_null; [apply Hnm|apply Et_untyped|apply Me_none|]
    | |- bag_means _ _ _ _ (_ :: _) _ => eapply Bag_cons; [apply Hnm|apply Et_untyped| |discriminate|]
    | |- bag_means _ _ _ _ [] _ => constructor
    | |- digest _ _ _ => reflexivity
    | |- sent_as _ _ _ _ => apply Hnm
    | |- asset_or_archive _ => exact I
    | |- means _ _ (Some TyAny) _ _ _ => apply Me_any
    | |- means _ _ _ _ (VRes (RObj 1)) _ => apply Me_custom
    | |- means _ _ _ _ (VRes (RObj 2)) _ => apply Me_custom_new
    | |- means _ _ _ _ (VOut _ _ _ _) _ => apply Me_kept
    | |- means _ _ _ _ VUnknown _ => apply Me_unknown
    | |- means _ _ _ _ _ _ => econstructor
    | |- all_mean _ _ _ _ _ _ => econstructor
    | |- elements _ _ => constructor
    | |- members_mean _ _ _ _ => econstructor
    | |- fields_mean _ _ _ _ [] _ => apply Fl_nil
    | |- _ = _ => reflexivity
    | |- _ <> _ => discriminate
    end.
    - eapply Fl_given; [reflexivity|discriminate| |].
      + apply Me_any. apply Me_kept; try reflexivity; [apply Me_str; apply Ord; reflexivity|].
        split; [|split; [|split]].
        * intros r [[<-|[]]|[_ Hm]]; [eexists _, _; split; reflexivity|inversion Hm].
        * constructor.
        * repeat constructor. apply Ord. reflexivity.
        * intros u. split.
          -- intros [<-|[]]. exists (RObj 2), [ex_bucket2]. split; [left; now left|]. split; [reflexivity|now left].
          -- intros (r & l & [[<-|[]]|[_ Hm]] & Hl & Hi); [|inversion Hm]. injection Hl as <-. exact Hi.
      + apply Fl_absent; [now left|apply Fl_nil]. }
  split; [exact Hb|].
  assert (Hn : NoDup (map fst ps)) by (repeat constructor; cbn; intuition discriminate).
  split; [exact Hn|]. apply (C81_engine_receives_partial (ex_c true) ex_o None true inputs ps ex_declared (fun _ => eq_refl) Hb Hn).
Qed.

(** What does not arrive as supplied. *)
Theorem C81_refuted :
  let c := ex_c true in
  let plain := mkUopts false None in
  let sent c keep v := match serialize_properties c None keep [("p", v)] with Done (m, _) => Some m | _ => None end in
  (* a plain string that is one of the placeholders: unknown *)
  (forall s, In s sentinels -> exists m e, sent c false (VStr s) = Some m /\
     unmarshal_properties plain m = Ok [("p", PComputed e)]) /\
  (* a map with the reserved key: rejected, or taken for something else *)
  (exists m, sent c false (VDict [(reserved_key, VStr "x")]) = Some m /\
     unmarshal_properties plain m = Err (Exn "error" "unrecognized signature")) /\
  (exists m, sent c false (VDict [(reserved_key, VStr "1b47061264138c4ac30d75fd1eb44270"); ("value", VNum 1)]) = Some m /\
     unmarshal_properties plain m = Ok [("p", PSecret (PNum 1))]) /\
  (* a string asset with no text, or a file archive with no path, when the
     engine computes digests: an error, and the end of the engine *)
  (exists m, sent c false (VStringAsset "") = Some m /\
     unmarshal_properties ex_o m = Err (Exn "error" "unrecognized asset type")) /\
  (exists m, sent c false (VFileArchive "") = Some m /\
     unmarshal_properties ex_o m = Err (Exn "panic" "cannot read an archive that has no contents")) /\
  (* an unknown secret output, when output values are not sent: not secret *)
  (exists m, sent c false (VOut (Done []) (Done VUnknown) (Done false) (Done true)) = Some m /\
     unmarshal_properties plain m = Ok [("p", PComputed (PStr ""))]).
Proof.
  repeat split; try (eexists; split; reflexivity).
  intros s Hs. repeat (destruct Hs as [<-|Hs]; [eexists _, _; split; reflexivity|]). destruct Hs.
Qed.
Print Assumptions C81_refuted.

(** C82.  The program sees exactly the values the engine reports: on a
    preview unknowns as unknown, otherwise as nothing; entries that are
    nothing are left out of maps and bags.  Partial: [seen] leaves out the
    values of [C82_refuted], and unknowns kept outside of previews (C17). *)
Theorem C82_program_sees_partial :
  forall dc accepts keep ki ps vs,
  (keep = true -> d_dry dc = true) ->
  ~ In "4dabf18193072939515e22adb298388d" (map fst ps) ->
  bag_seen dc accepts (d_dry dc) ki ps vs ->
  exists message,
    marshal_properties accepts ps = Ok message /\
    deserialize_properties dc message keep ki = Ok (VDict vs).
Proof.
  intros dc acc keep ki ps vs Hk Hr Hb. apply program_reads; auto. destruct keep; auto.
Qed.
Print Assumptions C82_program_sees_partial.

Definition ex_dc (dry : bool) : dcfg :=
  mkDcfg dry (fun _ _ => Ok None) (fun p m _ => if String.eqb p "aws" then Ok (Some 7) else Ok None).

Example C82_example :
  let ps := [("id", PStr "b-123"); ("__defaults", PArr []);
             ("tags", PObj [("a", PNull); ("pw", PSecret (PStr "x")); ("new", PComputed (PStr ""))]);
             ("peer", PRef ex_bucket (Some (PStr "b-123")) "4.0.0");
             ("code", PArchive "abc" (Some [("index.html", PAsset "abc" "hi" "" "")]) "" "")] in
  let vs := [("id", VStr "b-123");
             ("tags", carried true (VDict [("pw", VStr "x"); ("new", VUnknown)]));
             ("peer", VConstructed 7 "b" "aws:s3/bucket:Bucket" ex_bucket);
             ("code", VAssetArchive [("index.html", VStringAsset "hi")])] in
  bag_seen (ex_dc true) (mkMopts true true) true false ps vs /\
  exists message, marshal_properties (mkMopts true true) ps = Ok message /\
    deserialize_properties (ex_dc true) message false false = Ok (VDict vs).
Proof.
  intros ps vs.
  assert (Hb : bag_seen (ex_dc true) (mkMopts true true) true false ps vs).
  { apply (Bs_cons _ _ _ _ "id" _ (VStr "b-123") false); [now right|constructor; discriminate|left; discriminate|].
    eapply Bs_internal; [reflexivity|reflexivity|reflexivity|].
    apply (Bs_cons _ _ _ _ "tags" _ (VDict [("pw", VStr "x"); ("new", VUnknown)]) true); [now right| |left; discriminate|].
    { apply Se_obj; [repeat constructor; cbn; intuition discriminate|cbn; intuition discriminate|].
      apply Esn_nothing; [reflexivity|constructor|].
      apply (Esn_cons _ _ _ "pw" _ _ (VStr "x") _ true false); [reflexivity| |left; discriminate|].
      { apply Se_secret with false; [reflexivity|]. constructor. discriminate. }
      apply (Esn_cons _ _ _ "new" _ _ VUnknown _ false false); [reflexivity| |left; discriminate|constructor].
      apply (Se_unknown (ex_dc true) (mkMopts true true) true). constructor. }
    apply (Bs_cons _ _ _ _ "peer" _ (VConstructed 7 "b" "aws:s3/bucket:Bucket" ex_bucket) false); [now right| |left; discriminate|].
    { apply (Se_resource (ex_dc true) (mkMopts true true) true ex_bucket _ _ (mkParts "b" "aws:s3/bucket:Bucket" "aws" "s3/bucket" "Bucket") 7);
        [reflexivity|vm_compute; reflexivity|reflexivity]. }
    apply (Bs_cons _ _ _ _ "code" _ (VAssetArchive [("index.html", VStringAsset "hi")]) false); [now right| |left; discriminate|constructor].
    apply Se_asset_archive; [repeat constructor; cbn; intuition discriminate|cbn; intuition discriminate|].
    apply Msn_cons; [reflexivity|exact I|constructor; discriminate|constructor]. }
  split; [exact Hb|].
  apply (C82_program_sees_partial (ex_dc true) (mkMopts true true) false false ps vs); auto; try discriminate.
  cbn. intuition discriminate.
Qed.

(** What the program does not see as reported. *)
Theorem C82_refuted :
  let a := mkMopts true true in
  let read dry p := let+ m := marshal_properties a [("p", p)] in deserialize_properties (ex_dc dry) m false false in
  (* an unknown value that is not a string: a string that names its kind,
     previewing or not *)
  (forall dry,
   read dry (PComputed (PBool true)) = Ok (VDict [("p", VStr "1c4a061d-8072-4f0a-a4cb-0ff528b18fe7")]) /\
   read dry (PComputed (PNum 1)) = Ok (VDict [("p", VStr "3eeb2bf0-c639-47a8-9e75-3b44932eb421")]) /\
   read dry (PComputed (PArr [])) = Ok (VDict [("p", VStr "6a19a0b0-7e62-4c92-b797-7f8e31da9cc2")]) /\
   read dry (PComputed (PObj [])) = Ok (VDict [("p", VStr "dd056dcd-154b-4c76-9bd3-c8f88648b5ff")])) /\
  (* a string that happens to be the placeholder: unknown, or left out *)
  read true (PStr "04da6b54-80e4-46f7-96ec-b56ff0331ba9") = Ok (VDict [("p", VUnknown)]) /\
  read false (PStr "04da6b54-80e4-46f7-96ec-b56ff0331ba9") = Ok (VDict []) /\
  (* an asset of which only the digest is known: an error *)
  (forall dry, read dry (PAsset "abc" "" "" "") = Err (Exn "AssertionError" "Invalid asset encountered when unmarshalling resource property")) /\
  (* an archive member with two leading underscores: left out *)
  (forall dry, read dry (PArchive "" (Some [("__init__.py", PAsset "" "x" "" ""); ("b.py", PAsset "" "y" "" "")]) "" "") =
     Ok (VDict [("p", VAssetArchive [("b.py", VStringAsset "y")])])).
Proof. repeat split; intros; try (destruct dry; reflexivity); reflexivity. Qed.
Print Assumptions C82_refuted.
