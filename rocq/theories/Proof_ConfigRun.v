(** Lemmas about the configuration that a program sees. *)
From Verif Require Import Base PyVal Model_Json Model_Config Spec_Config Proof_Config Model_Settings Model_Host Spec_Host Proof_Host Spec_ConfigRun.
Open Scope string_scope.
Open Scope list_scope.

Lemma get_config_loads B env s c k : (forall t, py_loads B (VStr t) = loads t) -> get_config B env s c k = get_config exec_builtins env s c k.
Proof. intros H. unfold get_config, get_config_env. destruct (dget env "PULUMI_CONFIG"); [rewrite H|]; reflexivity. Qed.

Lemma run_sees legacy chdir environ h r :
  Forall plain [q_monitor r; h_engine h; q_project r; q_stack r; q_pwd r; h_tracing h; q_organization r] ->
  Forall plain (q_program r :: q_args r) ->
  NoDup (map fst (q_config r)) ->
  (q_pwd r = "" \/ chdir (q_pwd r) = true) ->
  (q_config r <> [] \/ ~ In "PULUMI_CONFIG" (map fst environ)) ->
  exists w, exec_start legacy chdir (spawn environ h r) = Starts w /\
    forall m, (forall k, m k = match dget (q_config r) k with Some v => Some (v, smem k (q_secret_keys r)) | None => None end) ->
      (forall k, In k (q_secret_keys r) -> In k (map fst (q_config r))) -> sees environ w m.
Proof.
  intros H1 H2 Hn Hp Hc. destruct (run_view legacy chdir environ h r H1 H2 Hn Hp Hc) as (w & S & C & A & N). exists w. split; [exact S|].
  intros m Hm Hs ns name. rewrite Hm. destruct (dget (q_config r) (ns ++ ":" ++ name)%string) as [v|] eqn:E.
  - split; [rewrite C; reflexivity|]. intros B dry kd default.
    assert (G : get_config B (w_env w) (w_config w) 0 (ns ++ ":" ++ name)%string = Ok (VStr v)).
    { unfold get_config. rewrite C. change (dict_at (config_of r) (c_loc (ctx_at (config_of r) 0))) with (map str_pair (q_config r)).
      rewrite dget_str, E. reflexivity. }
    split.
    + intros x P Hx. apply families_ok; [|destruct x; simpl; congruence]. eapply raw_parsed; [exact G|reflexivity|exact P].
    + intros P. assert (I : raises "ConfigTypeError" (raw B (w_env w) (w_config w) 0 ns name kd)) by (eapply raw_ill; [exact G|reflexivity|exact P]).
      destruct (families_ill B (w_env w) dry (w_config w) 0 ns name kd default I) as (I1 & I2 & _). now split.
  - assert (Ni : ~ In (ns ++ ":" ++ name)%string (map fst (q_config r))) by now apply dget_None. split.
    + destruct (is_config_secret (w_config w) 0 (ns ++ ":" ++ name)%string) eqn:K; [|reflexivity]. apply (k_secret _ _ _ _ A) in K. now apply Hs in K.
    + intros e V Ke Ne B dry kd default HB. pose proof (N _ _ Ni V Ke Ne) as G. rewrite <- (get_config_loads B) in G by exact HB.
      destruct (families_none B (w_env w) dry (w_config w) 0 ns name kd default (raw_none B (w_env w) (w_config w) 0 ns name kd G)) as (F1 & F2 & F3 & _). auto.
Qed.
