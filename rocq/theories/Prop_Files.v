(** Stacks in files: creating, updating, removing and listing them. *)
From Verif Require Import Base Model_Lock Model_Save Model_Files Spec_Files Proof_Save Proof_Files.
From Coq Require Import Lia.
Open Scope string_scope.
Open Scope list_scope.

(* ------------------------------------------------------------------ *)
(** C114.  Whatever stacks are created, updated and removed, one command after another:
    each succeeds exactly if it should; the state of a stack is what its last update
    saved, and its history has its updates since it was created, page by page, the
    newest first; listing gives exactly the stacks that were created and not removed,
    each once.  States may be kept compressed or not, by each command as it is set.
    Partial: the storage works, and no stack is called "." or "..". *)
Theorem C114_stacks_partial : forall (S U : Type) (has_resources : S -> bool) (cs : list (env S * command S U)) t0,
  Forall (fun ec => working (fst ec) /\ proper (about (snd ec))) cs -> going_on t0 (map (fun ec => e_stamp (fst ec)) cs) ->
  let (b, oks) := run_all has_resources [] cs in
  let (a, oks') := does_all has_resources no_stacks (map snd cs) in
  oks = oks' /\
  (forall n, proper n -> current (".pulumi/stacks/" ++ n ++ ".json")%string b = match a n with Some x => Some (Checkpoint (s_state x)) | None => None end) /\
  (forall n size page, proper n -> get_history b n size page =
     Some (let us := match a n with Some x => s_history x | None => [] end in if Nat.ltb 0 size then firstn size (skipn ((page - 1) * size) us) else us)) /\
  exists l, list_stacks b (fun _ => b) = Some l /\ NoDup (map fst l) /\ forall n s, In (n, s) l <-> exists x, a n = Some x /\ s_state x = s.
Proof.
  intros S U has_resources cs t0 F G. destruct (inv_all has_resources cs [] no_stacks t0 (inv_start t0) F G) as (t & E & I).
  destruct (run_all has_resources [] cs) as [b oks]. destruct (does_all has_resources no_stacks (map snd cs)) as [a oks']. cbn [fst snd] in *. split; [exact E|]. split; [|split].
  - intros n Pn. rewrite <- (current_read b a t n I Pn). now rewrite plain_P.
  - intros n size page Pn. rewrite (history_read b a t n size page I Pn). reflexivity.
  - exact (list_read b a t I).
Qed.
Print Assumptions C114_stacks_partial.
(** A stack called ".." can be created, but is not listed. *)
Theorem C114_refuted : forall (S U : Type) (has_resources : S -> bool) (e : env S), working e ->
  exists b, run_all has_resources [] [(e, @Create S U "..")] = (b, [true]) /\ list_stacks b (fun _ => b) = Some [].
Proof.
  intros S U has_resources e [W _]. destruct e as [gzip r clock stamp readable]. cbn in W. destruct gzip; eexists; (split; [cbn; unfold save, save_stack, backup_target, at_step; cbn; unfold at_step; rewrite !W; cbn; reflexivity|reflexivity]).
Qed.
Print Assumptions C114_refuted.
Definition ex_env (stamp : string) (gzip : bool) : env string := mkEnv gzip (fun _ _ => Fine) (fun i => 100 + i) stamp (fun _ => true).
Definition ex_commands : list (env string * command string nat) :=
  [(ex_env "01" false, Create "dev"); (ex_env "02" false, Create "dev.json"); (ex_env "03" true, Update "dev" ["s1"; "s2"] 1); (ex_env "04" false, Update "prod" ["s"] 9);
   (ex_env "05" false, Update "dev" ["s3"] 2); (ex_env "06" true, Remove "dev.json"); (ex_env "07" true, Create "dev.json"); (ex_env "08" true, Update "dev" [""] 3); (ex_env "09" true, Create "dev")].
Example C114_case :
  Forall (fun ec => working (fst ec) /\ proper (about (snd ec))) ex_commands /\ going_on "00" (map (fun ec => e_stamp (fst ec)) ex_commands) /\
  let (b, oks) := run_all (fun s => negb (String.eqb s "")) [] ex_commands in
  oks = [true; true; true; false; true; true; true; true; false] /\
  get_history b "dev" 2 1 = Some [3; 2] /\ get_history b "dev" 2 2 = Some [1] /\ list_stacks b (fun _ => b) = Some [("dev", Some ""); ("dev.json", None)].
Proof.
  split; [|split].
  - assert (Pr : forall n, has_slash n = false -> n <> "." -> n <> ".." -> proper n).
    { intros n Hs N1 N2. split; [|split; assumption]. intros a b. now apply slash_no. }
    unfold ex_commands. repeat match goal with |- Forall _ (_ :: _) => constructor end; [split; [split; reflexivity|apply Pr; [reflexivity|discriminate|discriminate]] ..|constructor].
  - cbn [ex_commands map fst e_stamp ex_env going_on]. repeat match goal with |- _ /\ _ => split end; try reflexivity; try exact I; intros a b; now apply slash_no.
  - vm_compute. repeat split; reflexivity.
Qed.

(* ------------------------------------------------------------------ *)
(** C115.  A removal that succeeds has removed the stack, and one that fails nothing.
    A removal fails, and changes nothing, if the stack is not there, has resources or
    cannot be read, whatever the storage does. *)
Theorem C115_refused : forall (S U : Type) (has_resources : S -> bool) (e : env S) (b : bucket (content S U)) n b',
  remove has_resources e b n = (b', false) -> b' = b.
Proof. intros S U has_resources e b n b' E. now apply (remove_refused has_resources e b n). Qed.
Print Assumptions C115_refused.
Theorem C115_has_resources : forall (S U : Type) (has_resources : S -> bool) (e : env S) (b : bucket (content S U)) n s, proper n ->
  current (".pulumi/stacks/" ++ n ++ ".json")%string b = Some (Checkpoint (Some s)) -> has_resources s = true -> remove has_resources e b n = (b, false).
Proof. intros S U has_resources e b n s Pn E R. now apply (remove_resources has_resources e b n s). Qed.
Print Assumptions C115_has_resources.
(** Partial: one that succeeds has removed the stack if the deletion worked and there was
    only one file with its state. *)
Theorem C115_removed_partial : forall (S U : Type) (has_resources : S -> bool) (e : env S) (b : bucket (content S U)) n b', proper n ->
  remove has_resources e b n = (b', true) -> e_io e 0 1 = Fine ->
  dget b (".pulumi/stacks/" ++ n ++ ".json")%string = None \/ dget b (".pulumi/stacks/" ++ n ++ ".json.gz")%string = None ->
  current (".pulumi/stacks/" ++ n ++ ".json")%string b' = None.
Proof. intros S U has_resources e b n b' Pn E W O. now apply (remove_removed has_resources e b n b'). Qed.
Print Assumptions C115_removed_partial.
(** If the file cannot be deleted, removing succeeds and does not remove.  If both files
    are there (after a failure to delete one when switching the way of keeping states),
    removing the stack brings back its older state. *)
Theorem C115_refuted : forall (S U : Type) (has_resources : S -> bool) n (s : S), proper n -> has_resources s = false ->
  (exists (e : env S) (b b' : bucket (content S U)), remove has_resources e b n = (b', true) /\ current (".pulumi/stacks/" ++ n ++ ".json")%string b' = Some (Checkpoint (Some s))) /\
  (forall old (e : env S), working e -> exists (b b' : bucket (content S U)), current (".pulumi/stacks/" ++ n ++ ".json")%string b = Some (Checkpoint (Some s)) /\
     remove has_resources e b n = (b', true) /\ current (".pulumi/stacks/" ++ n ++ ".json")%string b' = Some (Checkpoint (Some old))).
Proof. intros S U has_resources n s Pn R. split; [now apply remove_fault|]. intros old e W. now apply remove_twice. Qed.
Print Assumptions C115_refuted.
Example C115_case :
  let b := [(".pulumi/stacks/dev.json", (Checkpoint (Some "x"), 3)); (".pulumi/history/dev/dev-17.history.json", (Record_of 1, 3)); (".pulumi/history/dev2/dev2-18.history.json", (Record_of 2, 4))] in
  remove (fun s => String.eqb s "resources") (ex_env "20" false) b "dev" =
    ([(".pulumi/history/dev2/dev2-18.history.json", (Record_of 2, 4)); (".pulumi/stacks/dev.json.bak", (Checkpoint (Some "x"), 100))], true).
Proof. reflexivity. Qed.

(* ------------------------------------------------------------------ *)
(** C116.  Creating a stack that exists fails and changes nothing.
    Partial: if its state can be read. *)
Theorem C116_exists_partial : forall (S U : Type) (e : env S) (b : bucket (content S U)) n s, proper n ->
  current (".pulumi/stacks/" ++ n ++ ".json")%string b = Some (Checkpoint s) -> (forall s', s = Some s' -> e_readable e s' = true) -> create e b n = (b, false).
Proof. intros S U e b n s Pn E R. now apply (create_exists e b n s). Qed.
Print Assumptions C116_exists_partial.
(** Otherwise (as with a wrong passphrase) it is replaced by an empty one, without an
    error; after the next update the old state is in no file of the stack. *)
Theorem C116_refuted : forall (S U : Type) (e : env S) n (s : S) (b : bucket (content S U)), proper n -> (forall p i, e_io e p i = Fine) -> e_gzip e = false -> e_readable e s = false ->
  (forall k t, dget b k = Some (Checkpoint (Some s), t) -> k = (".pulumi/stacks/" ++ n ++ ".json")%string) -> current (".pulumi/stacks/" ++ n ++ ".json")%string b = Some (Checkpoint (Some s)) ->
  let (b', ok) := create e b n in
  ok = true /\ current (".pulumi/stacks/" ++ n ++ ".json")%string b' = Some (Checkpoint None) /\
  forall e' s' u, working e' -> (forall x y, e_stamp e' <> (x ++ "/" ++ y)%string) -> e_gzip e' = false -> s' <> s ->
    let (b'', ok') := update e' b' n [s'] u in
    ok' = true /\ forall k t, dget b'' k <> Some (Checkpoint (Some s), t).
Proof.
  intros S U e n s b Pn W G R O C. pose proof (create_lost e n s b Pn W G R O C) as L. destruct (create e b n) as [b' ok]. destruct L as (L1 & L2 & L3). split; [exact L1|]. split; [exact L2|].
  intros e' s' u W' Ss G' N. apply L3; auto. now apply no_slash.
Qed.
Print Assumptions C116_refuted.
Example C116_case :
  let b : bucket (content string nat) := [(".pulumi/stacks/dev.json", (Checkpoint (Some "secret"), 3)); (".pulumi/stacks/prod.json.gz", (Checkpoint (Some "x"), 4))] in
  let e := mkEnv false (fun _ _ => Fine) (fun i => 10 + i) "20" (fun s => negb (String.eqb s "secret")) in
  create e b "prod" = (b, false) /\ current ".pulumi/stacks/prod.json" b = Some (Checkpoint (Some "x")) /\
  current ".pulumi/stacks/dev.json" b = Some (Checkpoint (Some "secret")) /\
  create e b "dev" = ([(".pulumi/stacks/dev.json", (Checkpoint None, 14)); (".pulumi/stacks/prod.json.gz", (Checkpoint (Some "x"), 4)); (".pulumi/stacks/dev.json.bak", (Checkpoint (Some "secret"), 12))], true).
Proof. repeat split; reflexivity. Qed.

(* ------------------------------------------------------------------ *)
(** C117.  list_stacks lists the stacks even while others work on the same backend.
    Partial: if none of them removes a stack.  Then all stacks that were there are
    listed once, each with a state it has had since. *)
Theorem C117_listed_partial : forall (S U : Type) (has_resources : S -> bool) (cs : list (env S * command S U)) t0 (later : nat -> bucket (content S U)),
  Forall (fun ec => working (fst ec) /\ proper (about (snd ec))) cs -> going_on t0 (map (fun ec => e_stamp (fst ec)) cs) ->
  (forall i, exists ds, later i = fst (run_all has_resources [] (cs ++ ds)) /\
     Forall (fun ec => (working (fst ec) /\ proper (about (snd ec))) /\ forall n, snd ec <> Remove n) ds /\ going_on t0 (map (fun ec => e_stamp (fst ec)) (cs ++ ds))) ->
  exists l, list_stacks (fst (run_all has_resources [] cs)) later = Some l /\ NoDup (map fst l) /\
    (forall n, In n (map fst l) <-> fst (does_all has_resources no_stacks (map snd cs)) n <> None) /\
    forall n s, In (n, s) l -> exists j, current (".pulumi/stacks/" ++ n ++ ".json")%string (later j) = Some (Checkpoint s).
Proof. intros S U has_resources cs t0 later F G L. exact (list_kept has_resources cs t0 later F G L). Qed.
Print Assumptions C117_listed_partial.
(** If one of the stacks is removed meanwhile, or its state is being saved in the other
    way, nothing is listed. *)
Theorem C117_refuted : exists (b b' : bucket (content string nat)) (e : env string), working e /\
  list_stacks b (fun _ => b) = Some [("dev", None); ("prod", Some "x")] /\ remove (fun _ => false) e b "dev" = (b', true) /\
  list_stacks b (fun _ => b') = None /\ list_stacks b' (fun _ => b') = Some [("prod", Some "x")] /\
  exists k, let xs := save_stack ".pulumi/stacks/dev.json" (e_io e 0) (e_clock e) true (Checkpoint (Some "y")) in
    list_stacks b (fun _ => perform_all b (firstn k xs)) = None /\ list_stacks b (fun _ => perform_all b xs) = Some [("dev", Some "y"); ("prod", Some "x")].
Proof.
  exists [(".pulumi/stacks/dev.json", (Checkpoint None, 1)); (".pulumi/stacks/prod.json", (Checkpoint (Some "x"), 2))]. eexists. exists (ex_env "20" false).
  split; [split; reflexivity|]. split; [reflexivity|]. split; [reflexivity|]. split; [reflexivity|]. split; [reflexivity|]. exists 3. split; reflexivity.
Qed.
Print Assumptions C117_refuted.
Example C117_case :
  let cs : list (env string * command string nat) := [(ex_env "01" false, Create "dev"); (ex_env "02" true, Create "prod")] in
  let ds := [(ex_env "03" false, Update "dev" ["s"] 1); (ex_env "04" false, Create "test")] in
  let at_end := fst (run_all (fun _ => false) [] (cs ++ ds)) in let between := fst (run_all (fun _ => false) [] (cs ++ firstn 1 ds)) in
  list_stacks (fst (run_all (fun _ => false) [] cs)) (fun i => if Nat.eqb i 0 then between else at_end) = Some [("dev", Some "s"); ("prod", None)] /\
  list_stacks at_end (fun _ => at_end) = Some [("dev", Some "s"); ("prod", None); ("test", None)].
Proof. split; reflexivity. Qed.
