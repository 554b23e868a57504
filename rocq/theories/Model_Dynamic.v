(** dynamic/__main__.py, dynamic/dynamic.py: dynamic providers *)
From Verif Require Import Base PyVal Model_Output Model_Rpc.
Open Scope string_scope.
Open Scope list_scope.

(** dynamic.py:26. *)
Definition PROVIDER_KEY : string := "__provider".

(** A provider, as its methods behave when called with the given dicts: dynamic.py:29-211.
    [check] gives the inputs and the failures (property, reason); [diff] the four fields of a
    DiffResult; [create] the id and outs; [read] the id and outs; [update] the outs.  Each but
    [delete] also gives the contents, after the call, of the dict of new properties it was
    passed, which it may have changed.  Simplification: a [read] id of None is the empty
    string, as the response has it. *)
Record provider : Type := mkProvider {
  p_check : dict pyval -> dict pyval -> res ((pyval * list (string * string)) * dict pyval);
  p_diff : string -> dict pyval -> dict pyval -> res (option bool * option (list string) * option (list string) * option bool);
  p_create : dict pyval -> res ((string * option pyval) * dict pyval);
  p_read : string -> dict pyval -> res ((string * option pyval) * dict pyval);
  p_update : string -> dict pyval -> dict pyval -> res (option pyval * dict pyval);
  p_delete : string -> dict pyval -> res unit
}.

(** The methods called, with their arguments. *)
Inductive call : Type :=
| CCheck (olds news : dict pyval)
| CDiff (id : string) (olds news : dict pyval)
| CCreate (props : dict pyval)
| CRead (id : string) (props : dict pyval)
| CUpdate (id : string) (olds news : dict pyval)
| CDelete (id : string) (props : dict pyval).

(** The server: what (de)serialisation depends on, and [dill.loads(base64.b64decode(s))]. *)
Record server : Type := mkServer {
  s_cfg : cfg;
  s_dc : dcfg;
  s_load : string -> res provider
}.

(** [d[k]]: of a dict; anything else that deserialisation can give has no such item. *)
Definition getitem (v : pyval) (k : string) : res pyval :=
  match v with
  | VDict d => match dget d k with Some x => Ok x | None => Err (Exn "KeyError" k) end
  | _ => Err (Exn "TypeError" "object is not subscriptable")
  end.
(** [d[k] = x].  Simplification: only dicts have items with string keys. *)
Definition setitem (v : option pyval) (k : string) (x : pyval) : res (dict pyval) :=
  match v with
  | Some (VDict d) => Ok (dset d k x)
  | _ => Err (Exn "TypeError" "object does not support item assignment")
  end.
(** The dict a property bag is, for the methods of the provider. *)
Definition as_props (v : pyval) : res (dict pyval) :=
  match v with VDict d => Ok d | _ => Err (Exn "TypeError" "object is not subscriptable") end.

(** __main__.py:36-38 [get_provider]: b64decode takes only strings (and bytes). *)
Definition get_provider (S : server) (props : pyval) : res (string * provider) :=
  let+ key := getitem props PROVIDER_KEY in
  match key with
  | VStr s => let+ p := s_load S s in Ok (s, p)
  | _ => Err (Exn "TypeError" "argument should be a bytes-like object or ASCII string")
  end.

(** Handling a request: the methods called, each with the serialised provider it was called
    on, and the response. *)
Definition handled (R : Type) : Type := (list (string * call) * fut R)%type.
Definition h_do {R} (m : fut R) : handled R := ([], m).
Definition h_bind {A B} (m : handled A) (f : A -> handled B) : handled B :=
  match snd m with
  | Done a => (fst m ++ fst (f a), snd (f a))
  | Fail e => (fst m, Fail e)
  | Pending => (fst m, Pending)
  end.
Definition h_call {R} (s : string) (c : call) (m : res R) : handled R := ([(s, c)], of_res m).
Notation "'let!' x ':=' m 'in' k" := (h_bind m (fun x => k)) (at level 200, x pattern, m at level 100, k at level 200).

(** [news[PROVIDER_KEY] == rpc.UNKNOWN]: rpc.UNKNOWN is the sentinel string. *)
Definition is_sentinel (v : pyval) : bool := match v with VStr s => String.eqb s UNKNOWN | _ => false end.

(** __main__.py:64-67, 134-137. *)
Definition provider_of_both (S : server) (olds news : pyval) : res (string * provider) :=
  let+ key := getitem news PROVIDER_KEY in
  if is_sentinel key then get_provider S olds else get_provider S news.

(** __main__.py:100-103: [loop.run_until_complete(rpc.serialize_properties(outs, {}))]. *)
Definition to_struct (S : server) (outs : dict pyval) : fut (dict wire) :=
  let* (st, _) := serialize_properties (s_cfg S) None false outs in Done st.

(** __main__.py:61-87 [Diff]; the response has changes (unknown, none, some), replaces and
    deleteBeforeReplace. *)
Inductive changes : Type := DIFF_UNKNOWN | DIFF_NONE | DIFF_SOME.
Definition Diff (S : server) (id : string) (olds news : dict wire) : handled (changes * list string * bool) :=
  let! o := h_do (of_res (deserialize_properties (s_dc S) olds true false)) in
  let! n := h_do (of_res (deserialize_properties (s_dc S) news true false)) in
  let! (s, p) := h_do (of_res (provider_of_both S o n)) in
  let! od := h_do (of_res (as_props o)) in
  let! nd := h_do (of_res (as_props n)) in
  let! (ch, rep, _, dbr) := h_call s (CDiff id od nd) (p_diff p id od nd) in
  h_do (Done (match ch with Some true => DIFF_SOME | Some false => DIFF_NONE | None => DIFF_UNKNOWN end,
              match rep with Some l => l | None => [] end, match dbr with Some b => b | None => false end)).

(** __main__.py:89-105 [Update]. *)
Definition Update (S : server) (id : string) (olds news : dict wire) : handled (dict wire) :=
  let! o := h_do (of_res (deserialize_properties (s_dc S) olds false false)) in
  let! n := h_do (of_res (deserialize_properties (s_dc S) news false false)) in
  let! (s, p) := h_do (of_res (get_provider S n)) in
  let! od := h_do (of_res (as_props o)) in
  let! nd := h_do (of_res (as_props n)) in
  let! (outs, nd') := h_call s (CUpdate id od nd) (p_update p id od nd) in
  let! key := h_do (of_res (getitem (VDict nd') PROVIDER_KEY)) in
  let! outs' := h_do (of_res (setitem (match outs with Some x => Some x | None => Some (VDict []) end) PROVIDER_KEY key)) in
  h_do (to_struct S outs').

(** __main__.py:107-112 [Delete]. *)
Definition Delete (S : server) (id : string) (props : dict wire) : handled unit :=
  let! v := h_do (of_res (deserialize_properties (s_dc S) props false false)) in
  let! (s, p) := h_do (of_res (get_provider S v)) in
  let! d := h_do (of_res (as_props v)) in
  h_call s (CDelete id d) (p_delete p id d).

(** __main__.py:117-129 [Create]. *)
Definition Create (S : server) (props : dict wire) : handled (string * dict wire) :=
  let! v := h_do (of_res (deserialize_properties (s_dc S) props false false)) in
  let! (s, p) := h_do (of_res (get_provider S v)) in
  let! d := h_do (of_res (as_props v)) in
  let! (id, outs, d') := h_call s (CCreate d) (p_create p d) in
  let! key := h_do (of_res (getitem (VDict d') PROVIDER_KEY)) in
  let! outs' := h_do (of_res (setitem (match outs with Some x => Some x | None => Some (VDict []) end) PROVIDER_KEY key)) in
  let! st := h_do (to_struct S outs') in
  h_do (Done (id, st)).

(** __main__.py:131-154 [Check]. *)
Definition Check (S : server) (olds news : dict wire) : handled (dict wire * list (string * string)) :=
  let! o := h_do (of_res (deserialize_properties (s_dc S) olds true false)) in
  let! n := h_do (of_res (deserialize_properties (s_dc S) news true false)) in
  let! (s, p) := h_do (of_res (provider_of_both S o n)) in
  let! od := h_do (of_res (as_props o)) in
  let! nd := h_do (of_res (as_props n)) in
  let! (inputs, failures, nd') := h_call s (CCheck od nd) (p_check p od nd) in
  let! key := h_do (of_res (getitem (VDict nd') PROVIDER_KEY)) in
  let! inputs' := h_do (of_res (setitem (Some inputs) PROVIDER_KEY key)) in
  let! st := h_do (to_struct S inputs') in
  h_do (Done (st, failures)).

(** __main__.py:171-184 [Read]. *)
Definition Read (S : server) (id : string) (props : dict wire) : handled (string * dict wire) :=
  let! v := h_do (of_res (deserialize_properties (s_dc S) props false false)) in
  let! (s, p) := h_do (of_res (get_provider S v)) in
  let! d := h_do (of_res (as_props v)) in
  let! (id', outs, d') := h_call s (CRead id d) (p_read p id d) in
  let! key := h_do (of_res (getitem (VDict d') PROVIDER_KEY)) in
  let! outs' := h_do (of_res (setitem outs PROVIDER_KEY key)) in
  let! st := h_do (to_struct S outs') in
  h_do (Done (id', st)).

(* ------------------------------------------------------------------ *)
(** dynamic.py:215-247 [serialize_provider]: pickling with sorted dicts. *)

(** Picklable values.  Simplifications: dict keys are strings; no object occurs twice, so the
    memo is not used. *)
Inductive pval : Type :=
| PNone
| PNum (z : Z)
| PStr (s : string)
| PList (l : list pval)
| PDict (d : list (string * pval))
| PObj (cls : string) (state : pval).

(** Pickle opcodes (protocol 2 and up): the number, string and None pushes; [MARK] and [APPENDS],
    [EMPTY_DICT] and [SETITEMS]; [GLOBAL]/[NEWOBJ] pushing an instance; [BUILD] setting its
    state. *)
Inductive opcode : Type :=
| ONone | ONum (z : Z) | OStr (s : string) | OEmptyList | OMark | OAppends | OEmptyDict | OSetItems | ONewObj (cls : string) | OBuild.

(** [sorted(items)]: distinct string keys, so the values are never compared. *)
Fixpoint kinsert {A} (kv : string * A) (l : list (string * A)) : list (string * A) :=
  match l with
  | [] => [kv]
  | kv' :: l' => if String.leb (fst kv) (fst kv') then kv :: l else kv' :: kinsert kv l'
  end.
Definition ksort {A} (l : list (string * A)) : list (string * A) := fold_right kinsert [] l.

Definition recursion_error {A} : res A := Err (Exn "RecursionError" "maximum recursion depth exceeded").
(** Calling a function: one more frame. *)
Definition frame {A} (room : nat) (k : nat -> res A) : res A :=
  match room with O => recursion_error | S r => k r end.

(** pickle.py [_batch_setitems]: the items between a mark and SETITEMS.  Simplification: in
    one batch. *)
Fixpoint save_items (room : nat) (items : list (string * (nat -> res (list opcode)))) : res (list opcode) :=
  match items with
  | [] => Ok []
  | (k, f) :: rest => let+ c := frame room f in let+ c' := save_items room rest in Ok (OStr k :: c ++ c')
  end.
(** dynamic.py:223-228: [_batch_setitems] after [n] replacements of it by a function that sorts
    the items and calls the one before. *)
Fixpoint batch_setitems (n room : nat) (items : list (string * (nat -> res (list opcode)))) : res (list opcode) :=
  match n with
  | O => frame room (fun r => let+ c := save_items r items in Ok (OMark :: c ++ [OSetItems]))
  | S n' => frame room (fun r => batch_setitems n' r (ksort items))
  end.
(** pickle.py [save], and dynamic.py:230-237 [save_dict_sorted]; [room] is how many more frames the
    interpreter allows.  Simplification: a frame for each call of [save] and of [_batch_setitems],
    none for the functions between. *)
Fixpoint save (n : nat) (v : pval) (room : nat) : res (list opcode) :=
  match v with
  | PNone => Ok [ONone]
  | PNum z => Ok [ONum z]
  | PStr s => Ok [OStr s]
  | PList l =>
      let+ c := (fix go (l : list pval) : res (list opcode) :=
                   match l with
                   | [] => Ok []
                   | x :: l' => let+ c := frame room (save n x) in let+ c' := go l' in Ok (c ++ c')
                   end) l in
      Ok (OEmptyList :: OMark :: c ++ [OAppends])
  | PDict d =>
      let+ c := batch_setitems n room (map (fun kv => (fst kv, save n (snd kv))) d) in
      Ok (OEmptyDict :: c)
  | PObj cls state => let+ c := frame room (save n state) in Ok (ONewObj cls :: c ++ [OBuild])
  end.

(** A call: [_batch_setitems] is replaced once more, and stays so (only [pickle.Pickler] is put
    back, line 247).  The result is base64 of the opcodes' bytes; here, the opcodes. *)
Definition serialize_provider (limit : nat) (n : nat) (v : pval) : res (list opcode) * nat :=
  (save (S n) v limit, S n).

(** dynamic.py:262-283 [Resource.__init__]: the properties registered, or an exception; and the
    contents of the caller's dict afterwards. *)
Definition resource_init (text : res string) (props : dict pyval) : res (dict pyval) * dict pyval :=
  if dmem props PROVIDER_KEY then (Err (Exn "Exception" "A dynamic resource must not define the __provider key"), props)
  else match text with
       | Err e => (Err e, props)
       | Ok s => (Ok (dset props PROVIDER_KEY (VStr s)), dset props PROVIDER_KEY (VStr s))
       end.
