(** Specification vocabulary for dynamic providers. *)
From Verif Require Import Base PyVal Model_Rpc Spec_Rpc Model_Dynamic.
Open Scope string_scope.
Open Scope list_scope.

(** A property bag as a provider gets or gives it: a dict, its keys distinct, none the mark of special
    objects. *)
Definition bag (d : dict pyval) : Prop := wf_dict d /\ ~ In sig_key (dkeys d).
(** The text of a serialised provider: any but the sentinel for unknown values. *)
Definition text (s : string) : Prop := s <> UNKNOWN.
(** A message holding the serialised provider [s]. *)
Definition holds (st : dict wire) (s : string) : Prop := top_message st /\ dget st "__provider" = Some (WStr s) /\ text s.
(** A provider whose methods, passed bags, return bags and do not touch the serialised provider in the bag they are
    passed. *)
Definition keeps (d d' : dict pyval) : Prop := dget d' "__provider" = dget d "__provider".
Definition returns_bag (v : option pyval) : Prop := forall x, v = Some x -> exists d, x = VDict d /\ bag d.
Record decent (p : provider) : Prop := {
  dc_check : forall o n i f n', bag o -> bag n -> p_check p o n = Ok (i, f, n') -> keeps n n' /\ returns_bag (Some i);
  dc_create : forall d id outs d', bag d -> p_create p d = Ok (id, outs, d') -> keeps d d' /\ returns_bag outs;
  dc_read : forall i d id outs d', bag d -> p_read p i d = Ok (id, outs, d') -> keeps d d' /\ returns_bag outs;
  dc_update : forall i o n outs n', bag o -> bag n -> p_update p i o n = Ok (outs, n') -> keeps n n' /\ returns_bag outs
}.
Definition decent_server (sv : server) : Prop :=
  c_transform (s_cfg sv) = None /\ forall s p, s_load sv s = Ok p -> decent p.

(* ------------------------------------------------------------------ *)
(** A deployment engine driving one dynamic resource. *)
Record made : Type := mkMade { m_id : string; m_inputs : dict wire; m_outs : dict wire }.
(** What the engine does after Diff. *)
Inductive decision : Type := Same | Change | Replace.
(** One operation of the engine, with the server process it talks to. *)
Inductive operation : Type :=
| Up (sv : server) (news : dict wire) (what : decision)
| Refresh (sv : server)
| Destroy (sv : server).

(** A line of the log: a method called on a provider, and whether the request succeeded. *)
Definition entry : Type := (string * call * bool)%type.
Definition ok {R} (m : fut R) : bool := match m with Done _ => true | _ => false end.
Definition logged {R} (h : handled R) : list entry := map (fun sc => (sc, ok (snd h))) (fst h).

(** The operation, on the resource if there is one: the log, and the resource after it.  A request that fails
    ends the operation. *)
Definition do_create (sv : server) (inputs : dict wire) : list entry * option made :=
  (logged (Create sv inputs),
   match snd (Create sv inputs) with Done (id, outs) => Some (mkMade id inputs outs) | _ => None end).
Definition operate (op : operation) (r : option made) : list entry * option made :=
  match op with
  | Up sv news what =>
      let ch := Check sv (match r with Some m => m_inputs m | None => [] end) news in
      match snd ch with
      | Done (inputs, []) =>
          match r with
          | None => let (l, r') := do_create sv inputs in (logged ch ++ l, r')
          | Some m =>
              let df := Diff sv (m_id m) (m_outs m) inputs in
              match snd df, what with
              | Done _, Change =>
                  let u := Update sv (m_id m) (m_outs m) inputs in
                  (logged ch ++ logged df ++ logged u,
                   match snd u with Done outs => Some (mkMade (m_id m) inputs outs) | _ => r end)
              | Done _, Replace =>
                  let d := Delete sv (m_id m) (m_outs m) in
                  match snd d with
                  | Done _ => let (l, r') := do_create sv inputs in (logged ch ++ logged df ++ logged d ++ l, r')
                  | _ => (logged ch ++ logged df ++ logged d, r)
                  end
              | _, _ => (logged ch ++ logged df, r)
              end
          end
      | _ => (logged ch, r)
      end
  | Refresh sv =>
      match r with
      | Some m =>
          let h := Read sv (m_id m) (m_outs m) in
          (logged h, match snd h with Done (id, outs) => Some (mkMade id (m_inputs m) outs) | _ => r end)
      | None => ([], None)
      end
  | Destroy sv =>
      match r with
      | Some m => let h := Delete sv (m_id m) (m_outs m) in (logged h, match snd h with Done _ => None | _ => r end)
      | None => ([], None)
      end
  end.
Fixpoint history (ops : list operation) (r : option made) : list (operation * list entry) :=
  match ops with
  | [] => []
  | op :: ops' => let (l, r') := operate op r in (op, l) :: history ops' r'
  end.

(** The provider that last created or updated the resource, according to a log. *)
Definition making (c : call) : bool := match c with CCreate _ | CUpdate _ _ _ => true | _ => false end.
Fixpoint last_maker (log : list entry) (before : option string) : option string :=
  match log with
  | [] => before
  | (s, c, succeeded) :: log' => last_maker log' (if making c && succeeded then Some s else before)
  end.
Definition server_of (op : operation) : server := match op with Up sv _ _ | Refresh sv | Destroy sv => sv end.
(** The program's properties hold the program's provider. *)
Definition programmed (op : operation) : Prop :=
  decent_server (server_of op) /\ match op with Up _ news _ => exists s, holds news s | _ => True end.
(** The provider an entry of the log has to be for: reading and deleting, the one that made the
    resource; anything else, the program's. *)
Definition right_provider (op : operation) (before : list entry) (c : call) (s : string) : Prop :=
  match c with
  | CRead _ _ | CDelete _ _ => last_maker before None = Some s
  | _ => exists sv news what, op = Up sv news what /\ dget news "__provider" = Some (WStr s)
  end.

(* ------------------------------------------------------------------ *)
(** Pickles. *)

(** The unpickler: a stack of values and marks. *)
Inductive item : Type := IVal (v : pval) | IMark.
Fixpoint pop_mark (stack : list item) : option (list pval * list item) :=
  match stack with
  | IVal v :: st => match pop_mark st with Some (vs, rest) => Some (vs ++ [v], rest) | None => None end
  | IMark :: st => Some ([], st)
  | [] => None
  end.
Fixpoint pairs (vs : list pval) : option (list (string * pval)) :=
  match vs with
  | [] => Some []
  | PStr k :: v :: vs' => match pairs vs' with Some d => Some ((k, v) :: d) | None => None end
  | _ => None
  end.
Definition exec1 (o : opcode) (stack : list item) : option (list item) :=
  match o with
  | ONone => Some (IVal PNone :: stack)
  | ONum z => Some (IVal (PNum z) :: stack)
  | OStr s => Some (IVal (PStr s) :: stack)
  | OEmptyList => Some (IVal (PList []) :: stack)
  | OMark => Some (IMark :: stack)
  | OAppends => match pop_mark stack with Some (vs, IVal (PList l) :: st) => Some (IVal (PList (l ++ vs)) :: st) | _ => None end
  | OEmptyDict => Some (IVal (PDict []) :: stack)
  | OSetItems => match pop_mark stack with
                 | Some (vs, IVal (PDict d) :: st) => match pairs vs with Some d' => Some (IVal (PDict (dupdate d d')) :: st) | None => None end
                 | _ => None end
  | ONewObj cls => Some (IVal (PObj cls PNone) :: stack)
  | OBuild => match stack with IVal state :: IVal (PObj cls _) :: st => Some (IVal (PObj cls state) :: st) | _ => None end
  end.
Fixpoint exec (code : list opcode) (stack : list item) : option (list item) :=
  match code with [] => Some stack | o :: code' => match exec1 o stack with Some st => exec code' st | None => None end end.
Definition loads (code : list opcode) : option pval :=
  match exec code [] with Some [IVal v] => Some v | _ => None end.

(** The same value, but for the order of dict entries. *)
Inductive same : pval -> pval -> Prop :=
| Same_none : same PNone PNone
| Same_num z : same (PNum z) (PNum z)
| Same_str s : same (PStr s) (PStr s)
| Same_list l l' : Forall2 same l l' -> same (PList l) (PList l')
| Same_dict d d1 d' : Permutation d d1 -> Forall2 (fun a b => fst a = fst b /\ same (snd a) (snd b)) d1 d' -> same (PDict d) (PDict d')
| Same_obj cls st st' : same st st' -> same (PObj cls st) (PObj cls st').

(** A value whose dicts have distinct keys. *)
Inductive wf_pval : pval -> Prop :=
| WP_none : wf_pval PNone
| WP_num z : wf_pval (PNum z)
| WP_str s : wf_pval (PStr s)
| WP_list l : Forall wf_pval l -> wf_pval (PList l)
| WP_dict d : wf_dict d -> Forall (fun kv => wf_pval (snd kv)) d -> wf_pval (PDict d)
| WP_obj cls st : wf_pval st -> wf_pval (PObj cls st).
Inductive has_dict : pval -> Prop :=
| HD_dict d : has_dict (PDict d)
| HD_list x l : In x l -> has_dict x -> has_dict (PList l)
| HD_obj cls st : has_dict st -> has_dict (PObj cls st).

(** Serialising providers one after the other, as a program creating dynamic resources does. *)
Fixpoint serialize_all (limit n : nat) (vs : list pval) : list (res (list opcode)) :=
  match vs with
  | [] => []
  | v :: vs' => let (r, n') := serialize_provider limit n v in r :: serialize_all limit n' vs'
  end.
