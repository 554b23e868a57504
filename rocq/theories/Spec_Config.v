(** Independent specification of configuration (C43-C45, C67). *)
From Verif Require Import Base PyVal Model_Output Model_Config Spec_Output.
Open Scope string_scope.

(** JSON data. *)
Inductive json : pyval -> Prop :=
| j_none : json VNone
| j_bool b : json (VBool b)
| j_num z : json (VNum z)
| j_str s : json (VStr s)
| j_list l : Forall json l -> json (VList l)
| j_dict d : Forall (fun kv => json (snd kv)) d -> json (VDict d).

(** How a character of a key appears in the name of its environment
    variable: capital letters, digits and underscores as they are, small
    letters as capitals, anything else as an underscore. *)
Definition in_range (lo hi c : ascii) : Prop :=
  nat_of_ascii lo <= nat_of_ascii c <= nat_of_ascii hi.
Inductive var_char (c : ascii) : ascii -> Prop :=
| vc_same : in_range "A" "Z" c \/ in_range "0" "9" c \/ c = "_"%char -> var_char c c
| vc_small d : in_range "a" "z" c -> nat_of_ascii c = nat_of_ascii d + 32 -> var_char c d
| vc_other : ~ in_range "A" "Z" c -> ~ in_range "0" "9" c -> ~ in_range "a" "z" c -> var_char c "_"%char.
(** [variable k e]: [e] is the environment variable of the key [k]. *)
Definition variable (k e : string) : Prop :=
  exists l, e = "PULUMI_CONFIG_" ++ string_of_list_ascii l /\ Forall2 var_char (list_ascii_of_string k) l.

(** What has been set by the program, seen from context [c]. *)
Definition set_values (s : cstate) (c : nat) : dict pyval := dict_at s (c_loc (ctx_at s c)).

(** [found m env loads k v]: the value of key [k] is [v] when the program has
    set [m] and the environment is [env]. *)
Inductive found (m : dict pyval) (env : dict string) (loads : pyval -> res pyval) (k : string) : pyval -> Prop :=
| fd_set v : dget m k = Some v -> found m env loads k v
| fd_var e t : ~ In k (dkeys m) -> variable k e -> dget env e = Some t -> found m env loads k (VStr t)
| fd_bag t d v : ~ In k (dkeys m) -> (forall e, variable k e -> ~ In e (dkeys env)) ->
    dget env "PULUMI_CONFIG" = Some t -> loads (VStr t) = Ok (VDict d) -> dget d k = Some v ->
    found m env loads k v.
Inductive absent (m : dict pyval) (env : dict string) (loads : pyval -> res pyval) (k : string) : Prop :=
| ab_no_bag : ~ In k (dkeys m) -> (forall e, variable k e -> ~ In e (dkeys env)) ->
    ~ In "PULUMI_CONFIG" (dkeys env) -> absent m env loads k
| ab_bag t d : ~ In k (dkeys m) -> (forall e, variable k e -> ~ In e (dkeys env)) ->
    dget env "PULUMI_CONFIG" = Some t -> loads (VStr t) = Ok (VDict d) -> ~ In k (dkeys d) -> absent m env loads k
| ab_null t : ~ In k (dkeys m) -> (forall e, variable k e -> ~ In e (dkeys env)) ->
    dget env "PULUMI_CONFIG" = Some t -> loads (VStr t) = Ok VNone -> absent m env loads k.
(** A key with the value None counts as having no value. *)
Definition no_value m env loads k : Prop := absent m env loads k \/ found m env loads k VNone.

(** The families of getters of a [Config] object. *)
Inductive kind := KText | KBool | KInt | KFloat | KObject.
Inductive parses (B : builtins) (v : pyval) : kind -> pyval -> Prop :=
| ps_text : parses B v KText v
| ps_true : v = VStr "true" \/ v = VStr "True" -> parses B v KBool (VBool true)
| ps_false : v = VStr "false" \/ v = VStr "False" -> parses B v KBool (VBool false)
| ps_int x : py_int B v = Ok x -> parses B v KInt x
| ps_float x : py_float B v = Ok x -> parses B v KFloat x
| ps_object x : py_loads B v = Ok x -> parses B v KObject x.

Section Families.
  Variables (B : builtins) (env : dict string) (dry : bool) (s : cstate) (c : nat) (name key : string).
  Definition getter (kd : kind) (default : pyval) : res pyval :=
    match kd with
    | KText => get B env s c name key default
    | KBool => get_bool B env s c name key default
    | KInt => get_int B env s c name key default
    | KFloat => get_float B env s c name key default
    | KObject => get_object B env s c name key default
    end.
  (** [get_secret] has no default. *)
  Definition secret_getter (kd : kind) (default : pyval) : res pyval :=
    match kd with
    | KText => get_secret B env dry s c name key
    | KBool => get_secret_bool B env dry s c name key default
    | KInt => get_secret_int B env dry s c name key default
    | KFloat => get_secret_float B env dry s c name key default
    | KObject => get_secret_object B env dry s c name key default
    end.
  Definition requirer (kd : kind) : res pyval :=
    match kd with
    | KText => require B env s c name key
    | KBool => require_bool B env s c name key
    | KInt => require_int B env s c name key
    | KFloat => require_float B env s c name key
    | KObject => require_object B env s c name key
    end.
  Definition secret_requirer (kd : kind) : res pyval :=
    match kd with
    | KText => require_secret B env dry s c name key
    | KBool => require_secret_bool B env dry s c name key
    | KInt => require_secret_int B env dry s c name key
    | KFloat => require_secret_float B env dry s c name key
    | KObject => require_secret_object B env dry s c name key
    end.
End Families.

Definition raises {A} (cls : string) (r : res A) : Prop := exists msg, r = Err (Exn cls msg).
(** [r] is a secret Output of [x]. *)
Definition secret_value (r : res pyval) (x : pyval) : Prop :=
  exists o, r = Ok (VO o) /\ settled o [] x true true.

(** An operation that neither changes the configuration of context [c] nor
    gives another context access to it. *)
Definition elsewhere (c : nat) (o : cop) : Prop :=
  match o with
  | OpSet c' _ _ => c' <> c
  | OpSetAll c' _ _ => c' <> c
  | OpCopy c' => c' <> c
  | OpNew => True
  end.

(** A map of strings as a map of values. *)
Definition as_values (m : dict string) : dict pyval := map (fun kv => (fst kv, VStr (snd kv))) m.

(** Keys made of small letters, digits and colons only. *)
Definition plain_key (k : string) : Prop :=
  Forall (fun c => in_range "a" "z" c \/ in_range "0" "9" c \/ c = ":"%char) (list_ascii_of_string k).
