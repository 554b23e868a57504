(** C100: a state is read back as it was stored.
    C101: of secrets the stored state has the ciphertexts only. *)
From Verif Require Import Base PyVal Model_Rpc Model_Engine Model_State Spec_State Proof_State.
Open Scope string_scope.

(** For every secrets manager that encrypts and decrypts what it encrypted, and
    every state whose values do not use the engine's own marks: the state is
    stored, whether or not secrets are to be shown, and what is stored is read
    back as the same state.  Missing: texts equal to the mark of unknown values,
    objects that use the key of kinds, output values ([C100_refuted]). *)
Theorem C100_read_back_partial :
  forall (json : wire -> string) (unjson : string -> res wire)
         (enc : list nat -> string -> res string) (again dec : string -> res string) (show : bool) (rs : list rstate),
    json_reads json unjson -> decrypts enc dec ->
    (forall place text, exists c, enc place text = Ok c) -> (forall text, exists c, again text = Ok c) ->
    Forall storable_resource rs ->
    exists ss, store_deployment json enc show rs = Ok ss /\
      forall n, state_nesting rs <= n -> load_deployment unjson again dec n ss = Ok rs.
Proof.
  intros json unjson enc again dec show rs J D T A S.
  destruct (deployment_stored json show rs enc S T) as [ss W]. exists ss. split; [exact W|].
  apply (deployment_back json unjson again J show rs enc dec ss (fun _ => A) S); [|exact W].
  intros place w c C. exact (D _ _ _ C).
Qed.

(** However a caching crypter is used, it answers with ciphertexts of the
    plaintexts it is given, provided that the encrypter does and that only right
    ciphertexts are remembered. *)
Theorem C100_cached :
  forall (dec : string -> res string) (calls : list crypt_call),
    (forall s text fresh, In (CEncrypt s text fresh) calls -> forall c, fresh text = Ok c -> dec c = Ok text) ->
    (forall s text c, In (CInsert s text c) calls -> dec c = Ok text) ->
    forall text c, In (text, c) (crypt_run [] calls) -> dec c = Ok text.
Proof.
  intros dec calls He Hi text c. apply (cache_right dec calls []); [discriminate|].
  apply Forall_forall. intros [s p fresh|s p ct] I; cbn; eauto.
Qed.

(** A secret in a secret, a resource, an archive, an unknown value: *)
Definition shift (s : string) : string := "#" ++ s.
Definition unshift (s : string) : res string :=
  match s with String "#" s' => Ok s' | _ => Err (Exn "" "cipher: message authentication failed") end.
Definition a_state : list rstate :=
  [mkRstate "urn:pulumi:dev::p::a:m:T::n" "a:m:T" true "i-1"
     [("password", PSecret (PObj [("user", PStr "admin"); ("pass", PSecret (PStr "hunter2"))]))]
     [("password", PSecret (PObj [("user", PStr "admin"); ("pass", PSecret (PStr "hunter2"))]));
      ("other", PRef "urn:pulumi:dev::p::a:m:T::o" (Some (PComputed (PStr ""))) "1.0");
      ("code", PArchive "h" (Some [("f", PAsset "" "text" "" "")]) "" "");
      ("n", PArr [PNum 3; PNull; PComputed (PStr "")])] VNone].
Example C100_nonvacuous :
  json_reads toy_json toy_unjson /\ decrypts (fun _ text => Ok (shift text)) unshift /\ Forall storable_resource a_state /\
  load_deployment toy_unjson (fun t => Ok t) unshift 3
    match store_deployment toy_json (fun _ text => Ok (shift text)) false a_state with Ok ss => ss | Err _ => [] end = Ok a_state.
Proof.
  split; [exact toy_reads|]. split; [intros place text c [= <-]; repeat split; discriminate|]. split; [|vm_compute; reflexivity].
  repeat constructor; try discriminate; intros I; cbn in I; intuition discriminate.
Qed.
Print Assumptions C100_read_back_partial.
Print Assumptions C100_cached.

Definition of_value (p : pval) : list rstate := [mkRstate "urn:pulumi:dev::p::a:m:T::n" "a:m:T" true "i-1" [] [("v", p)] VNone].
Definition there_and_back (p : pval) : res (list rstate) :=
  let+ ss := store_deployment toy_json (fun _ text => Ok (shift text)) false (of_value p) in
  load_deployment toy_unjson (fun t => Ok t) unshift 3 ss.
Theorem C100_refuted :
  (* a text that is the mark comes back as an unknown value *)
  there_and_back (PStr "04da6b54-80e4-46f7-96ec-b56ff0331ba9") = Ok (of_value (PComputed (PStr ""))) /\
  (* a known output comes back as an unknown value *)
  there_and_back (POutput (PNum 1) true false []) = Ok (of_value (PComputed (PStr ""))) /\
  (* an object with the key of kinds is stored, and the state cannot be read any more *)
  there_and_back (PObj [("4dabf18193072939515e22adb298388d", PStr "x")]) = Err (Exn "error" "unrecognized signature").
Proof. repeat split; vm_compute; reflexivity. Qed.

(** Let the secrets manager answer with certain ciphertexts, whatever the
    plaintexts.  Two states that differ only in what their secrets contain are
    stored as the same document. *)
Theorem C101_ciphertexts_only :
  forall (json : wire -> string) (answers : list nat -> res string) (rs rs' : list rstate) (ss ss' : list stored),
    Forall2 alike_resources rs rs' ->
    store_deployment json (fun place _ => answers place) false rs = Ok ss ->
    store_deployment json (fun place _ => answers place) false rs' = Ok ss' ->
    ss = ss'.
Proof. intros. eapply deployment_hidden; eassumption. Qed.

(** With secrets of quite different shapes: *)
Example C101_nonvacuous :
  let b := of_value (PArr [PSecret (PObj [("k", PSecret (PStr "s"))]); PNum 1]) in
  let b' := of_value (PArr [PSecret (PNum 7); PNum 1]) in
  Forall2 alike_resources b b' /\
  store_deployment toy_json (fun _ _ => Ok "xyz") false b
  = Ok [mkStored "urn:pulumi:dev::p::a:m:T::n" "a:m:T" true "i-1" []
          [("v", WList [WStruct [("4dabf18193072939515e22adb298388d", WStr "1b47061264138c4ac30d75fd1eb44270"); ("ciphertext", WStr "xyz")]; WNum 1])] VNone] /\
  store_deployment toy_json (fun _ _ => Ok "xyz") false b = store_deployment toy_json (fun _ _ => Ok "xyz") false b'.
Proof.
  split; [|split; vm_compute; reflexivity].
  constructor; [|constructor]. repeat split; try apply Al_same. cbn. constructor.
  repeat constructor.
Qed.
Print Assumptions C101_ciphertexts_only.
