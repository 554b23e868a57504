(** Independent specification of the configuration that a program sees (C103). *)
From Verif Require Import Base PyVal Model_Json Model_Config Spec_Config Model_Host.
Open Scope string_scope.
Open Scope list_scope.

(** [sees environ w m]: to a program started in the surrounding environment [environ], the
    Config objects show exactly the configuration [m] of texts and whether they are secret.  *)
Definition sees (environ : list (string * string)) (w : view) (m : string -> option (string * bool)) : Prop :=
  forall ns name,
    match m (ns ++ ":" ++ name)%string with
    | Some (v, b) =>
        is_config_secret (w_config w) 0 (ns ++ ":" ++ name) = b /\
        forall B dry kd default,
          (* the text is returned, parsed by the getter *)
          (forall x, parses B (VStr v) kd x -> x <> VNone ->
             getter B (w_env w) (w_config w) 0 ns name kd default = Ok x /\
             requirer B (w_env w) (w_config w) 0 ns name kd = Ok x /\
             (json x -> secret_value (secret_getter B (w_env w) dry (w_config w) 0 ns name kd default) x /\
                        secret_value (secret_requirer B (w_env w) dry (w_config w) 0 ns name kd) x)) /\
          ((forall x, ~ parses B (VStr v) kd x) ->
             raises "ConfigTypeError" (getter B (w_env w) (w_config w) 0 ns name kd default) /\
             raises "ConfigTypeError" (requirer B (w_env w) (w_config w) 0 ns name kd))
    | None =>
        is_config_secret (w_config w) 0 (ns ++ ":" ++ name) = false /\
        forall e, variable (ns ++ ":" ++ name) e -> ~ In e (map fst environ) -> e <> "PULUMI_CONFIG_SECRET_KEYS" ->
        forall B dry kd default, (forall s, py_loads B (VStr s) = loads s) ->
          getter B (w_env w) (w_config w) 0 ns name kd default = Ok default /\
          raises "ConfigMissingError" (requirer B (w_env w) (w_config w) 0 ns name kd) /\
          raises "ConfigMissingError" (secret_requirer B (w_env w) dry (w_config w) 0 ns name kd)
    end.
