(** Properties C43 (configuration lookup), C44 (environment variables), C45
    (replacing all configuration) and C67 (bags of different names). *)
From Verif Require Import Base PyVal Model_Output Model_Config Spec_Output Spec_Config Proof_Config.
Open Scope string_scope.

(** C43.  For every configuration, environment and key, and each family of
    getters.  If the key has a value that parses, the getter and the requirer
    return the parsed value and the secret versions a secret Output of it; if
    it has a value that does not parse, all raise ConfigTypeError; if it has
    none, the getter returns the default, the secret getter a secret of the
    default, and the requirers raise ConfigMissingError.  Missing from the full
    property: the parsed value must not be None, see [C43_refuted]. *)
Theorem C43_lookup_partial : forall B env dry s c name key kd default,
  let k := name ++ ":" ++ key in
  let m := set_values s c in
  (forall v x, found m env (py_loads B) k v -> v <> VNone -> parses B v kd x -> x <> VNone ->
     getter B env s c name key kd default = Ok x /\
     requirer B env s c name key kd = Ok x /\
     (json x -> secret_value (secret_getter B env dry s c name key kd default) x /\
                secret_value (secret_requirer B env dry s c name key kd) x)) /\
  (forall v, found m env (py_loads B) k v -> v <> VNone -> (forall x, ~ parses B v kd x) ->
     raises "ConfigTypeError" (getter B env s c name key kd default) /\
     raises "ConfigTypeError" (requirer B env s c name key kd) /\
     raises "ConfigTypeError" (secret_getter B env dry s c name key kd default) /\
     raises "ConfigTypeError" (secret_requirer B env dry s c name key kd)) /\
  (no_value m env (py_loads B) k ->
     getter B env s c name key kd default = Ok default /\
     raises "ConfigMissingError" (requirer B env s c name key kd) /\
     raises "ConfigMissingError" (secret_requirer B env dry s c name key kd) /\
     (kd = KText \/ default = VNone -> secret_getter B env dry s c name key kd default = Ok VNone) /\
     (kd <> KText -> default <> VNone -> json default ->
      secret_value (secret_getter B env dry s c name key kd default) default)).
Proof.
  intros B env dry s c name key kd default k m.
  assert (N : forall v, v <> VNone -> is_none v = false) by (intros v; destruct v; simpl; congruence).
  split; [|split].
  - intros v x F Hv P Hx. apply families_ok; auto. eapply raw_parsed; [apply lookup_found; exact F| |exact P]; auto.
  - intros v F Hv P. apply families_ill. eapply raw_ill; [apply lookup_found; exact F| |exact P]; auto.
  - intros [A|F]; apply families_none, raw_none; [now apply lookup_absent|now apply lookup_found].
Qed.
Print Assumptions C43_lookup_partial.

(** The full property fails: a key whose value is the JSON document [null] has
    a value, but [require_object] reports it missing. *)
Theorem C43_refuted : forall B, py_loads B (VStr "null") = Ok VNone ->
  exists env s c name key v x,
    found (set_values s c) env (py_loads B) (name ++ ":" ++ key) v /\ v <> VNone /\ parses B v KObject x /\
    raises "ConfigMissingError" (requirer B env s c name key KObject).
Proof.
  intros B H. exists [], (set_config cinit 0 "p:k" (VStr "null")), 0, "p", "k", (VStr "null"), VNone.
  repeat split.
  - now apply fd_set.
  - discriminate.
  - now constructor.
  - unfold requirer, require_object, raw_object, raw_get, get_config. simpl. rewrite H. simpl. eexists. reflexivity.
Qed.
Print Assumptions C43_refuted.

Definition ex_B : builtins := mkB (fun v => match v with VStr "12" => Ok (VNum 12) | _ => Err (Exn "ValueError" "") end)
  (fun _ => Err (Exn "ValueError" ""))
  (fun v => match v with VStr "{}" => Ok (VDict []) | VStr "{p:n}" => Ok (VDict [("p:n", VStr "12")]) | _ => Err (Exn "ValueError" "") end).
(** A program that set [p:flag], with [PULUMI_CONFIG_P_LEVEL] and
    [PULUMI_CONFIG] in the environment. *)
Definition ex_env : dict string := [("PULUMI_CONFIG_P_LEVEL", "high"); ("PULUMI_CONFIG", "{p:n}")].
Definition ex_s : cstate := set_config cinit 0 "p:flag" (VStr "True").
Example C43_satisfiable :
  found (set_values ex_s 0) ex_env (py_loads ex_B) "p:flag" (VStr "True") /\
  found (set_values ex_s 0) ex_env (py_loads ex_B) "p:level" (VStr "high") /\
  found (set_values ex_s 0) ex_env (py_loads ex_B) "p:n" (VStr "12") /\
  absent (set_values ex_s 0) ex_env (py_loads ex_B) "p:other" /\
  parses ex_B (VStr "True") KBool (VBool true) /\ parses ex_B (VStr "12") KInt (VNum 12) /\
  (forall x, ~ parses ex_B (VStr "high") KInt x).
Proof.
  assert (D : forall A (P Q : A), P <> Q -> ~ (P = Q \/ False)) by (intros; tauto).
  repeat split.
  - now apply fd_set.
  - apply (fd_var _ _ _ _ "PULUMI_CONFIG_P_LEVEL"); [simpl; intuition discriminate|now apply variable_spec|reflexivity].
  - eapply fd_bag with (t := "{p:n}") (d := [("p:n", VStr "12")]); try reflexivity.
    + simpl; intuition discriminate.
    + intros e V. apply variable_spec in V as ->. simpl. intuition discriminate.
  - eapply ab_bag with (t := "{p:n}") (d := [("p:n", VStr "12")]); try reflexivity.
    + simpl; intuition discriminate.
    + intros e V. apply variable_spec in V as ->. simpl. intuition discriminate.
    + simpl; intuition discriminate.
  - constructor. auto.
  - now constructor.
  - intros x P. inversion P; subst. discriminate.
Qed.

(** C44.  Two keys read the same environment variable exactly when they have
    the same length and, place by place, characters that are spelled alike;
    so two different keys of small letters, digits and colons read different
    variables.  Missing: other keys, see [C44_refuted]. *)
Theorem C44_variables_partial : forall k1 k2,
  ((exists e, variable k1 e /\ variable k2 e) <->
   Forall2 (fun a b => exists d, var_char a d /\ var_char b d) (list_ascii_of_string k1) (list_ascii_of_string k2)) /\
  (plain_key k1 -> plain_key k2 -> k1 <> k2 -> ~ exists e, variable k1 e /\ variable k2 e) /\
  (forall B env s c t, ~ In k1 (dkeys (set_values s c)) -> variable k1 t -> forall v,
     dget env t = Some v -> get_config B env s c k1 = Ok (VStr v)).
Proof.
  intros k1 k2. split; [apply same_variable|split].
  - intros P1 P2 N (e & V1 & V2). apply N. eapply plain_same; eauto.
  - intros B env s c t H V v E. apply lookup_found. eapply fd_var; eauto.
Qed.
Print Assumptions C44_variables_partial.

(** The full property fails: setting the variable of the key [p:api-key] also
    gives the key [p:api_key] a value. *)
Theorem C44_refuted : exists k1 k2 env, k1 <> k2 /\ (exists e, env = [(e, "v")] /\ variable k1 e) /\
  forall B, get_config B env cinit 0 k2 = Ok (VStr "v").
Proof.
  exists "p:api-key", "p:api_key", [("PULUMI_CONFIG_P_API_KEY", "v")]. split; [discriminate|split].
  - eexists. split; [reflexivity|]. now apply variable_spec.
  - reflexivity.
Qed.
Print Assumptions C44_refuted.

Example C44_satisfiable : plain_key "p:region2" /\ plain_key "p:region" /\ variable "p:region2" "PULUMI_CONFIG_P_REGION2".
Proof.
  split; [|split]; [| |now apply variable_spec].
  all: unfold plain_key; simpl; repeat (apply Forall_cons || apply Forall_nil);
    first [right; right; reflexivity|left; split; apply Nat.leb_le; reflexivity
          |right; left; split; apply Nat.leb_le; reflexivity].
Qed.

(** C45.  After any history of configuration calls in any contexts, once
    [set_all_config(m, secrets)] is called in context [c], lookups in [c] see
    exactly [m] over the environment and exactly the keys in [secrets] are
    secret, and so they stay whatever happens in other contexts, until a
    further call in [c] or until [c] is copied.  Without [secrets] the answers
    of [is_config_secret] stay as they were. *)
Theorem C45_replace_all : forall h c m secrets h2 B env k,
  c < length (s_ctxs (crun cinit h)) -> wf_dict m -> Forall (elsewhere c) h2 ->
  let s' := crun cinit (h ++ OpSetAll c m secrets :: h2)%list in
  (forall v, found (as_values m) env (py_loads B) k v -> get_config B env s' c k = Ok v) /\
  (absent (as_values m) env (py_loads B) k -> get_config B env s' c k = Ok VNone) /\
  (is_config_secret s' c k = true <->
   match secrets with Some l => In k l | None => is_config_secret (crun cinit h) c k = true end).
Proof. intros h c m l h2 B env k. exact (replace_all h h2 c m l B env k). Qed.
Print Assumptions C45_replace_all.

(** Setting one variable changes that variable only. *)
Theorem C45_set_one : forall h c k v, c < length (s_ctxs (crun cinit h)) ->
  let s := crun cinit h in
  let s' := crun cinit (h ++ [OpSet c k v])%list in
  (forall B env, get_config B env s' c k = Ok v) /\
  (forall B env k', k' <> k -> get_config B env s' c k' = get_config B env s c k') /\
  (forall k', is_config_secret s' c k' = is_config_secret s c k').
Proof. exact set_one. Qed.
Print Assumptions C45_set_one.

Example C45_satisfiable :
  let h := [OpSet 0 "p:a" (VStr "old"); OpCopy 0; OpNew; OpSetAll 1 [] (Some ["p:z"])] in
  2 < length (s_ctxs (crun cinit h)) /\ wf_dict [("p:a", "1"); ("p:b", "2")] /\
  Forall (elsewhere 2) [OpSet 0 "p:a" (VStr "x"); OpCopy 1; OpNew; OpSetAll 1 [] None].
Proof.
  simpl. repeat split; auto.
  - unfold wf_dict; simpl. repeat constructor; simpl; intuition discriminate.
  - repeat constructor; discriminate.
Qed.

(** C67.  Setting a variable of one bag never changes what a bag of another
    name returns for the variable of the same name, nor what the same bag
    returns for another variable. *)
Theorem C67_bags : forall h c n1 n2 k1 k2 v B env kd default,
  c < length (s_ctxs (crun cinit h)) ->
  (n1 <> n2 /\ k1 = k2) \/ (n1 = n2 /\ k1 <> k2) ->
  getter B env (crun cinit (h ++ [OpSet c (n1 ++ ":" ++ k1) v])%list) c n2 k2 kd default =
  getter B env (crun cinit h) c n2 k2 kd default.
Proof.
  intros h c n1 n2 k1 k2 v B env kd default L N. apply getter_ext.
  destruct (set_one h c (n1 ++ ":" ++ k1) v L) as (_ & O & _). apply O. unfold full_key. intros E.
  destruct N as [[N ->]|[-> N]].
  - apply N. symmetry. apply (sapp_inj_tail _ _ (":" ++ k2)). exact E.
  - apply N. clear - E. induction n2 as [|ch n IH]; simpl in E; injection E as E; auto.
Qed.
Print Assumptions C67_bags.
Example C67_satisfiable : 0 < length (s_ctxs (crun cinit [])) /\ ("aws" <> "aws:foo" /\ "region" = "region").
Proof. simpl. repeat split; auto; discriminate. Qed.
