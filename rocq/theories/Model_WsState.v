(** automation/_stack.py and _local_workspace.py: asking the CLI about stacks, updates, outputs,
    plugins and deployments *)
From Verif Require Import Base PyVal Model_Urn Model_Cmd Model_Argv Model_StackInit Model_Json Model_WsConfig.
Open Scope string_scope.
Open Scope list_scope.

(** Attributes of objects: data, points in time, configuration. *)
Inductive cell : Type :=
| CData (v : pyval)
| CTime (t : Z)
| CConfig (d : dict config_value).
Definition object : Type := dict cell.

(** [v[k] if k in v else None]. *)
Definition item_or_none (v : pyval) (k : string) : res pyval :=
  match v with
  | VDict d => Ok (match dget d k with Some x => x | None => VNone end)
  | VList _ | VStr _ => Err (Exn "TypeError" "indices must be integers")
  | _ => Err (Exn "TypeError" "object is not iterable")
  end.
(** [datetime.strptime(v, _DATETIME_FORMAT)]. *)
Definition time_of (strptime : string -> res Z) (v : pyval) : res Z :=
  match v with VStr s => strptime s | _ => Err (Exn "TypeError" "strptime() argument 1 must be str") end.
(** [datetime.strptime(v[k], ...) if k in v else None]. *)
Definition time_or_none (strptime : string -> res Z) (v : pyval) (k : string) : res cell :=
  match v with
  | VDict d => match dget d k with Some x => let+ t := time_of strptime x in Ok (CTime t) | None => Ok (CData VNone) end
  | _ => Err (Exn "TypeError" "object is not iterable")
  end.
(** [for x in v]. *)
Definition items_of (v : pyval) : res (list pyval) :=
  match v with VList l => Ok l | VDict d => Ok (map VStr (dkeys d)) | _ => Err (Exn "TypeError" "object is not iterable") end.
Fixpoint map_res {A B} (f : A -> res B) (l : list A) : res (list B) :=
  match l with [] => Ok [] | x :: l' => let+ y := f x in let+ ys := map_res f l' in Ok (y :: ys) end.

(** _stack.py:53-83 [UpdateSummary.__init__]: the configuration. *)
Definition summary_config (v : pyval) : res (dict config_value) :=
  let+ ks := keys_of v in read_all_config v ks [].
(** _stack.py:651-671. *)
Definition read_summary (strptime : string -> res Z) (j : pyval) : res object :=
  let+ kind := item j "kind" in
  let+ s := item j "startTime" in
  let+ start_time := time_of strptime s in
  let+ message := item j "message" in
  let+ environment := item j "environment" in
  let+ config := item j "config" in
  let+ result := item j "result" in
  let+ e := item j "endTime" in
  let+ end_time := time_of strptime e in
  let+ version := item_or_none j "version" in
  let+ deployment := item_or_none j "Deployment" in
  let+ changes := item_or_none j "resourceChanges" in
  let+ cfg := summary_config config in
  Ok [("kind", CData kind); ("start_time", CTime start_time); ("end_time", CTime end_time); ("message", CData message);
      ("environment", CData environment); ("result", CData result); ("Deployment", CData deployment);
      ("resource_changes", CData changes); ("version", CData version); ("config", CConfig cfg)].

(** _stack.py:712-725 [Stack._run_pulumi_cmd_sync]. *)
Definition stack_command {S} (c : cli S) (s : S) (name : string) (args : list pyval) : S * answer string :=
  command c s (args ++ [VStr "--stack"; VStr name]).
(** _stack.py:624-672 [history]. *)
Definition history_args (page_size page : option Z) (show_secrets : bool) : list pyval :=
  [VStr "stack"; VStr "history"; VStr "--json"] ++
  (if show_secrets then [VStr "--show-secrets"] else []) ++
  match page_size with
  | Some n => [VStr "--page-size"; VStr (str_int n); VStr "--page"; VStr (str_int (match page with Some p => p | None => 1%Z end))]
  | None => []
  end.
Definition stack_history {S} (strptime : string -> res Z) (c : cli S) (s : S) (name : string)
  (page_size page : option Z) (show_secrets : bool) : S * answer (list object) :=
  let '(s', r) := stack_command c s name (history_args page_size page show_secrets) in
  (s', abind r (fun out => answer_of (let+ j := loads out in let+ l := items_of j in map_res (read_summary strptime) l))).
(** _stack.py:674-683 [info]. *)
Definition stack_info {S} (strptime : string -> res Z) (c : cli S) (s : S) (name : string) (show_secrets : bool) : S * answer (option object) :=
  let '(s', r) := stack_history strptime c s name (Some 1%Z) None show_secrets in
  (s', abind r (fun l => Got (hd_error l))).

(** _local_workspace.py:356-369 [stack_outputs]: the value of each output and whether it is secret.
    [meanwhile]: what others do between the two commands. *)
Definition is_masked (v : pyval) : bool := match v with VStr s => String.eqb s "[secret]" | _ => false end.
Fixpoint read_outputs (masked plaintext : pyval) (keys : list string) (acc : dict (pyval * bool)) : res (dict (pyval * bool)) :=
  match keys with
  | [] => Ok acc
  | k :: keys' =>
      let+ m := item masked k in let+ v := item plaintext k in
      read_outputs masked plaintext keys' (dset acc k (v, is_masked m))
  end.
Definition stack_outputs {S} (c : cli S) (meanwhile : S -> S) (s : S) (name : string) : S * answer (dict (pyval * bool)) :=
  let '(s1, r1) := command c s [VStr "stack"; VStr "output"; VStr "--json"; VStr "--stack"; VStr name] in
  match r1 with
  | Got out1 =>
      let '(s2, r2) := command c (meanwhile s1) [VStr "stack"; VStr "output"; VStr "--json"; VStr "--show-secrets"; VStr "--stack"; VStr name] in
      (s2, abind r2 (fun out2 => answer_of (
        let+ masked := loads out1 in let+ plaintext := loads out2 in
        let+ ks := keys_of plaintext in read_outputs masked plaintext ks [])))
  | CliError k => (s1, CliError k)
  | PyError e => (s1, PyError e)
  end.

(** _local_workspace.py:280-300 [list_stacks], _workspace.py:27-51 [StackSummary]. *)
Definition read_stack (strptime : string -> res Z) (j : pyval) : res object :=
  let+ name := item j "name" in
  let+ current := item j "current" in
  let+ busy := item j "updateInProgress" in
  let+ last := time_or_none strptime j "lastUpdate" in
  let+ count := item_or_none j "resourceCount" in
  let+ url := item_or_none j "url" in
  Ok [("name", CData name); ("current", CData current); ("update_in_progress", CData busy);
      ("last_update", last); ("resource_count", CData count); ("url", CData url)].
Definition list_stacks {S} (strptime : string -> res Z) (c : cli S) (s : S) : S * answer (list object) :=
  let '(s', r) := command c s [VStr "stack"; VStr "ls"; VStr "--json"] in
  (s', abind r (fun out => answer_of (let+ j := loads out in let+ l := items_of j in map_res (read_stack strptime) l))).
(** _local_workspace.py:261-266 [stack]; [stack.current] is a bool. *)
Definition is_current (o : object) : bool := match dget o "current" with Some (CData (VBool b)) => b | _ => false end.
Definition current_stack {S} (strptime : string -> res Z) (c : cli S) (s : S) : S * answer (option object) :=
  let '(s', r) := list_stacks strptime c s in (s', abind r (fun l => Got (find is_current l))).

(** _local_workspace.py:319-339 [list_plugins], _workspace.py:63-85 [PluginInfo]: the time of the last
    use is stored as [last_used]. *)
Definition read_plugin (strptime : string -> res Z) (j : pyval) : res object :=
  let+ name := item j "name" in
  let+ kind := item j "kind" in
  let+ size := item j "size" in
  let+ u := item j "lastUsedTime" in
  let+ used := time_of strptime u in
  let+ installed := time_or_none strptime j "installTime" in
  let+ version := item_or_none j "version" in
  Ok [("name", CData name); ("kind", CData kind); ("size", CData size); ("install_time", installed);
      ("last_used", CTime used); ("version", CData version)].
Definition list_plugins {S} (strptime : string -> res Z) (c : cli S) (s : S) : S * answer (list object) :=
  let '(s', r) := command c s [VStr "plugin"; VStr "ls"; VStr "--json"] in
  (s', abind r (fun out => answer_of (let+ j := loads out in let+ l := items_of j in map_res (read_plugin strptime) l))).
