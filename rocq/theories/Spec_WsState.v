(** The CLI's commands that tell about stacks and plugins, and what is expected of the calls that
    use them. *)
From Coq Require Import DecimalString.
From Verif Require Import Base PyVal Model_Urn Model_Cmd Model_StackInit Model_Json Spec_Json Model_WsConfig Spec_WsConfig Model_WsState.
Open Scope string_scope.
Open Scope list_scope.

(* ------------------------------------------------------------------ *)
(** What there is. *)

(** An update: in progress, or finished with a result, at a time, having changed resources. *)
Inductive progress : Type :=
| InProgress
| Finished (result : string) (end_time : Z) (changes : dict Z).
Record update : Type := mkUpdate {
  u_version : Z; u_kind : string; u_start : Z; u_message : string; u_environment : dict string;
  u_config : dict entry; u_progress : progress }.

(** An output: data, parts of which are secret. *)
Inductive ov : Type :=
| ONone | OBool (b : bool) | ONum (z : Z) | OStr (s : string)
| OList (l : list ov) | ODict (d : dict ov)
| OSecret (v : ov).

Record stack : Type := mkStack {
  s_updates : list update;         (* the newest first *)
  s_outputs : dict ov;
  s_last_update : option Z;        (* 0: an update is in progress *)
  s_resources : option Z;
  s_url : string }.                (* "": none *)
Record plugin : Type := mkPlugin {
  p_name : string; p_kind : string; p_version : string; p_size : Z; p_installed : option Z; p_used : option Z }.
(** The stacks of the project, sorted by name; the selected one; the plugins. *)
Record world : Type := mkWorld { w_stacks : dict stack; w_current : option string; w_plugins : list plugin }.

(* ------------------------------------------------------------------ *)
(** The CLI. *)
Section Cli.
  Variable fmt_time : Z -> string.
  Variable print_json : pyval -> string.
  Variable trouble : world -> list string -> option (string * Z).

  Definition say {S} (st : S) (v : pyval) : S * (string * string * Z) := (st, ((print_json v ++ nl)%string, "", 0%Z)).
  Definition fails {S} (st : S) (err : string * Z) : S * (string * string * Z) := (st, ("", fst err, snd err)).
  Definition usage {S} (st : S) (err : string) := fails st (err, 255%Z).
  Definition of_stack (w : world) (fl : list (string * string)) (f : stack -> world * (string * string * Z)) :=
    match flag_values fl "stack" with
    | [name] => match dget (w_stacks w) name with Some s => f s | None => usage w ("error: no stack named '" ++ name ++ "' found")%string end
    | _ => usage w "error: no stack"
    end.
  Definition some {A} (o : option A) (f : A -> dict pyval) : dict pyval := match o with Some x => f x | None => [] end.

  (** pkg/cmd/pulumi/stack_history.go:90-148 [displayUpdatesJSON]; secrets can be decrypted.  A map
      that is nil is printed as null: here, the empty one. *)
  Definition shown_entry (show : bool) (e : entry) : pyval :=
    VDict ((if show || negb (e_secret e) then [("value", VStr (e_value e))] ++ some (e_object e) (fun o => [("objectValue", o)]) else [])
           ++ [("secret", VBool (e_secret e))]).
  Definition environment_json (d : dict string) : pyval :=
    match d with [] => VNone | _ => VDict (map (fun kv => (fst kv, VStr (snd kv))) d) end.
  Definition update_json (show : bool) (u : update) : pyval :=
    VDict ([("version", VNum (u_version u)); ("kind", VStr (u_kind u)); ("startTime", VStr (fmt_time (u_start u)));
            ("message", VStr (u_message u)); ("environment", environment_json (u_environment u));
            ("config", VDict (map (fun kv => (fst kv, shown_entry show (snd kv))) (u_config u)))]
           ++ match u_progress u with
              | InProgress => [("result", VStr "in-progress")]
              | Finished r t ch =>
                  (if String.eqb r "" then [] else [("result", VStr r)]) ++
                  [("endTime", VStr (fmt_time t)); ("resourceChanges", VDict (map (fun kv => (fst kv, VNum (snd kv))) ch))]
              end).
  (** stack_history.go:70-84: pages of 10, the first page; pkg/backend/filestate/state.go:442-457.
      Simplification: numbers are not bounded. *)
  Definition number_flag (fl : list (string * string)) (name : string) (default : Z) : option Z :=
    match flag_values fl name with
    | [] => Some default
    | [t] => match NilEmpty.int_of_string t with Some n => Some (Z.of_int n) | None => None end
    | _ => None
    end.
  Definition page_of (page_size page : Z) (l : list update) : list update :=
    if Z.ltb 0 page_size
    then let p := Z.max page 1 in firstn (Z.to_nat page_size) (skipn (Z.to_nat ((p - 1) * page_size)) l)
    else l.

  (** pkg/backend/display/json.go:34-56 [massagePropertyValue]. *)
  Fixpoint massage (show : bool) (v : ov) : pyval :=
    match v with
    | ONone => VNone | OBool b => VBool b | ONum z => VNum z | OStr s => VStr s
    | OList l => VList (map (massage show) l)
    | ODict d => VDict (map (fun kv => (fst kv, massage show (snd kv))) d)
    | OSecret x => if show then massage show x else VStr "[secret]"
    end.
  Definition outputs_json (show : bool) (d : dict ov) : pyval := VDict (map (fun kv => (fst kv, massage show (snd kv))) d).

  (** stack_ls.go:191-222 [formatStackSummariesJSON]. *)
  Definition stack_json (current : option string) (name : string) (s : stack) : pyval :=
    VDict ([("name", VStr name); ("current", VBool (match current with Some c => String.eqb name c | None => false end))]
           ++ some (s_last_update s) (fun t => if Z.eqb t 0 then [] else [("lastUpdate", VStr (fmt_time t))])
           ++ [("updateInProgress", VBool (match s_last_update s with Some t => Z.eqb t 0 | None => false end))]
           ++ some (s_resources s) (fun n => [("resourceCount", VNum n)])
           ++ (if String.eqb (s_url s) "" then [] else [("url", VStr (s_url s))])).
  (** plugin_ls.go:83-125 [formatPluginsJSON]. *)
  Definition plugin_json (p : plugin) : pyval :=
    VDict ([("name", VStr (p_name p)); ("kind", VStr (p_kind p)); ("version", VStr (p_version p)); ("size", VNum (p_size p))]
           ++ some (p_installed p) (fun t => [("installTime", VStr (fmt_time t))])
           ++ some (p_used p) (fun t => [("lastUsedTime", VStr (fmt_time t))])).

  Definition cli_state : cli world := fun w args =>
    match trouble w args with
    | Some err => if Z.eqb (snd err) 0 then usage w (fst err) else fails w err
    | None =>
    match args with
    | "stack" :: "history" :: rest =>
        match parse_flags ["json"; "show-secrets"; "full-dates"; "non-interactive"] ["stack"; "page-size"; "page"] rest with
        | Some (fl, []) =>
            of_stack w fl (fun s =>
              match number_flag fl "page-size" 10, number_flag fl "page" 1 with
              | Some page_size, Some page =>
                  if flag_given fl "json" then say w (VList (map (update_json (flag_given fl "show-secrets")) (page_of page_size page (s_updates s))))
                  else usage w "not modelled"
              | _, _ => usage w "error: invalid argument"
              end)
        | _ => usage w "error: usage"
        end
    | "stack" :: "output" :: rest =>
        match parse_flags ["json"; "show-secrets"; "non-interactive"] ["stack"] rest with
        | Some (fl, []) =>
            of_stack w fl (fun s =>
              if flag_given fl "json" then say w (outputs_json (flag_given fl "show-secrets") (s_outputs s)) else usage w "not modelled")
        | _ => usage w "error: usage"
        end
    | "stack" :: "ls" :: rest =>
        match parse_flags ["json"; "all"; "non-interactive"] ["organization"; "project"; "tag"] rest with
        | Some (fl, []) =>
            if flag_given fl "json" && negb (flag_given fl "all")
            then say w (VList (map (fun kv => stack_json (w_current w) (fst kv) (snd kv)) (w_stacks w))) else usage w "not modelled"
        | _ => usage w "error: usage"
        end
    | "plugin" :: "ls" :: rest =>
        match parse_flags ["json"; "project"; "non-interactive"] [] rest with
        | Some (fl, []) =>
            if flag_given fl "json" && negb (flag_given fl "project")
            then say w (VList (map plugin_json (w_plugins w))) else usage w "not modelled"
        | _ => usage w "error: usage"
        end
    | _ => usage w "error: unknown command"
    end
    end.
End Cli.

(** What is assumed of the CLI's printing, and of the times it prints: those between 1970 and 9999
    are read back. *)
Definition printer (print_json : pyval -> string) : Prop := forall v, plain_data v -> document v (print_json v).
Definition usual_time (t : Z) : Prop := (0 <= t < 253402300800)%Z.
Definition clock (strptime : string -> res Z) (fmt_time : Z -> string) : Prop := forall t, usual_time t -> strptime (fmt_time t) = Ok t.

(** Well-formedness: dicts have distinct keys and structured values are data. *)
Definition fit_entry (e : entry) : Prop := forall o, e_object e = Some o -> plain_data o.
Definition fit_update (u : update) : Prop :=
  NoDup (dkeys (u_environment u)) /\ NoDup (dkeys (u_config u)) /\ (forall k e, In (k, e) (u_config u) -> fit_entry e) /\
  usual_time (u_start u) /\
  match u_progress u with InProgress => True | Finished r t ch => r <> "" /\ usual_time t /\ NoDup (dkeys ch) end.
Inductive fit_ov : ov -> Prop :=
| F_none : fit_ov ONone
| F_bool b : fit_ov (OBool b)
| F_num z : fit_ov (ONum z)
| F_str s : fit_ov (OStr s)
| F_list l : Forall fit_ov l -> fit_ov (OList l)
| F_dict d : NoDup (dkeys d) -> Forall (fun kv => fit_ov (snd kv)) d -> fit_ov (ODict d)
| F_secret v : fit_ov v -> fit_ov (OSecret v).
Definition fit_stack (s : stack) : Prop :=
  Forall fit_update (s_updates s) /\ fit_ov (ODict (s_outputs s)) /\ (forall t, s_last_update s = Some t -> usual_time t).
Definition fit_plugin (p : plugin) : Prop :=
  (forall t, p_installed p = Some t -> usual_time t) /\ (forall t, p_used p = Some t -> usual_time t).
Definition fit_world (w : world) : Prop :=
  NoDup (dkeys (w_stacks w)) /\ (forall k s, In (k, s) (w_stacks w) -> fit_stack s) /\ Forall fit_plugin (w_plugins w).

(* ------------------------------------------------------------------ *)
(** The specification. *)
Definition attr (o : object) (name : string) : option cell := dget o name.
(** The configuration of a summary says of each variable its value and whether it is secret. *)
Definition tells_config (cfg : dict entry) (d : dict config_value) : Prop :=
  dkeys d = dkeys cfg /\ forall k, dget d k = match dget cfg k with Some e => Some (mkCV (VStr (e_value e)) (VBool (e_secret e))) | None => None end.
(** A summary tells about a finished update. *)
Definition tells_update (u : update) (o : object) : Prop :=
  attr o "version" = Some (CData (VNum (u_version u))) /\
  attr o "kind" = Some (CData (VStr (u_kind u))) /\
  attr o "start_time" = Some (CTime (u_start u)) /\
  attr o "message" = Some (CData (VStr (u_message u))) /\
  (exists v, attr o "environment" = Some (CData v) /\
     v = match u_environment u with [] => VNone | d => VDict (map (fun kv => (fst kv, VStr (snd kv))) d) end) /\
  (exists d, attr o "config" = Some (CConfig d) /\ tells_config (u_config u) d) /\
  match u_progress u with
  | InProgress => attr o "result" = Some (CData (VStr "in-progress"))
  | Finished r t ch =>
      attr o "result" = Some (CData (VStr r)) /\ attr o "end_time" = Some (CTime t) /\
      attr o "resource_changes" = Some (CData (VDict (map (fun kv => (fst kv, VNum (snd kv))) ch)))
  end.
(** The updates a call with these arguments asks for: the page, or all of them. *)
Definition asked (page_size page : option nat) (l : list update) : list update :=
  match page_size with
  | None => l
  | Some n => let p := match page with Some p => p | None => 1 end in firstn n (skipn ((p - 1) * n) l)
  end.
(** Finished, and nothing secret in its configuration. *)
Definition finished (u : update) : Prop := u_progress u <> InProgress.
Definition has_secrets (u : update) : bool := existsb (fun kv => e_secret (snd kv)) (u_config u).

(** What an output is, and whether it is secret or holds something that is. *)
Inductive stands : ov -> pyval -> Prop :=
| V_none : stands ONone VNone
| V_bool b : stands (OBool b) (VBool b)
| V_num z : stands (ONum z) (VNum z)
| V_str s : stands (OStr s) (VStr s)
| V_list l l' : Forall2 stands l l' -> stands (OList l) (VList l')
| V_dict d d' : Forall2 (fun kv kv' => fst kv = fst kv' /\ stands (snd kv) (snd kv')) d d' -> stands (ODict d) (VDict d')
| V_secret v x : stands v x -> stands (OSecret v) x.
Inductive secretive : ov -> Prop :=
| X_secret v : secretive (OSecret v)
| X_list l v : In v l -> secretive v -> secretive (OList l)
| X_dict d k v : In (k, v) d -> secretive v -> secretive (ODict d).
Definition is_secret (v : ov) : Prop := exists x, v = OSecret x.

(** A summary of a stack. *)
Definition tells_stack (current : option string) (name : string) (s : stack) (o : object) : Prop :=
  attr o "name" = Some (CData (VStr name)) /\
  (exists b, attr o "current" = Some (CData (VBool b)) /\ (b = true <-> current = Some name)) /\
  (exists b, attr o "update_in_progress" = Some (CData (VBool b)) /\ (b = true <-> s_last_update s = Some 0%Z)) /\
  attr o "last_update" = Some (match s_last_update s with
                               | Some t => if Z.eq_dec t 0 then CData VNone else CTime t
                               | None => CData VNone
                               end) /\
  attr o "resource_count" = Some (CData (match s_resources s with Some n => VNum n | None => VNone end)) /\
  attr o "url" = Some (CData (if string_dec (s_url s) "" then VNone else VStr (s_url s))).
(** A summary of a plugin, but for the time of its last use. *)
Definition tells_plugin (p : plugin) (o : object) : Prop :=
  attr o "name" = Some (CData (VStr (p_name p))) /\
  attr o "kind" = Some (CData (VStr (p_kind p))) /\
  attr o "version" = Some (CData (VStr (p_version p))) /\
  attr o "size" = Some (CData (VNum (p_size p))) /\
  attr o "install_time" = Some (match p_installed p with Some t => CTime t | None => CData VNone end).
