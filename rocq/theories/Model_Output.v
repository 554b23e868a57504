(** output.py *)
From Verif Require Import Base PyVal.

(** The four futures of an Output, output.py:76-86. *)
Record output : Type := mkOut {
  o_res : fut (list rsrc);
  o_val : fut pyval;
  o_known : fut bool;
  o_secret : fut bool
}.

Definition VO (o : output) : pyval := VOut (o_res o) (o_val o) (o_known o) (o_secret o).

(** output.py:88-114 [Output.__init__]: the stored is_known is recomputed from
    the given one and the value.  [None] for is_secret is [Done false]. *)
Definition new_output (rs : fut (list rsrc)) (v : fut pyval) (known secret : fut bool) : output :=
  {| o_res := rs;
     o_val := v;
     o_known := let* k := known in
                if k then (let* x := v in Done (negb (contains_unknowns x))) else Done false;
     o_secret := secret |}.

(** output.py:120-127 [Output.future]. *)
Definition future (o : output) (with_unknowns : bool) : fut pyval :=
  let* v := o_val o in
  Done (if negb with_unknowns && contains_unknowns v then VNone else v).

(** What the callback of apply is called with. *)
Inductive call_arg := ArgValue | ArgUnknown.

(** output.py:137-233 [Output.apply].  [call] is the callback already paired
    with the value: [call ArgValue] is func(value), [call ArgUnknown] is
    func(UNKNOWN); this form lets [from_input] below be structurally
    recursive.  [dry] is runtime.is_dry_run(); [rwu] is run_with_unknowns.
    The result lists the four futures in the state the coroutine [run] leaves
    them, including its [finally] clause (lines 222-230), which sets whatever is
    still unset; a coroutine stuck on a never-completed future leaves the
    rest pending.  The second component records the calls of the callback. *)
Definition apply_run (dry : bool) (o : output) (rwu : bool) (call : call_arg -> res pyval)
  : output * list call_arg :=
  (* an exception: the finally clause sets what is still unset *)
  let fail_all (rs : list rsrc) (e : exn) :=
    new_output (Done rs) (Fail e) (Done false) (Done false) in
  let stuck := new_output Pending Pending Pending Pending in
  match o_res o with                                        (* line 167 *)
  | Pending => (stuck, [])
  | Fail e => (fail_all [] e, [])
  | Done rs =>
  match o_known o with                                      (* line 168 *)
  | Pending => (stuck, [])
  | Fail e => (fail_all rs e, [])
  | Done known =>
  match o_secret o with                                     (* line 169 *)
  | Pending => (stuck, [])
  | Fail e => (fail_all rs e, [])
  | Done secret =>
  match o_val o with                                        (* line 170 *)
  | Pending => (stuck, [])
  | Fail e => (fail_all rs e, [])
  | Done value =>
      if dry && negb (known || rwu) then                    (* lines 172-183 *)
        (new_output (Done rs) (Done VNone) (Done false) (Done secret), [])
      else
        (* lines 188-193 *)
        let arg := if dry && (negb known && rwu && negb (contains_unknowns value))
                   then ArgUnknown else ArgValue in
        (match call arg with                                (* line 195 *)
        | Err e => fail_all rs e
        | Ok (VOut trs tv tk ts) =>                         (* lines 198-207 *)
            match trs with
            | Pending => stuck
            | Fail e => fail_all rs e
            | Done rs' =>
                match tk with
                | Pending => new_output (Done (rs ++ rs')) Pending Pending Pending
                | Fail e => new_output (Done (rs ++ rs')) (Fail e) (Done false) (Done false)
                | Done k =>
                    match ts with
                    | Pending => new_output (Done (rs ++ rs')) Pending (Done k) Pending
                    | Fail e => new_output (Done (rs ++ rs')) (Fail e) (Done k) (Done false)
                    | Done s => new_output (Done (rs ++ rs')) tv (Done k) (Done (s || secret))
                    end
                end
            end
        | Ok (VAwait f) =>                                  (* lines 210-215 *)
            new_output (Done rs) f (Done true) (Done secret)
        | Ok v =>                                           (* lines 218-221 *)
            new_output (Done rs) (Done v) (Done true) (Done secret)
        end, [arg])
  end end end end.

Definition apply_call (dry : bool) (o : output) (rwu : bool) (call : call_arg -> res pyval) : output :=
  fst (apply_run dry o rwu call).

(** The callback given as a Python function: what [call_arg] stands for. *)
Definition arg_value (o : output) (a : call_arg) : pyval :=
  match a with
  | ArgUnknown => VUnknown
  | ArgValue => match o_val o with Done v => v | _ => VNone end
  end.

(** [o.apply(func, run_with_unknowns)], output.py:137-233. *)
Definition apply (dry : bool) (o : output) (func : pyval -> res pyval) (rwu : bool) : output :=
  apply_call dry o rwu (fun a => func (arg_value o a)).

(** The arguments the callback was called with, in order. *)
Definition apply_calls (dry : bool) (o : output) (func : pyval -> res pyval) (rwu : bool) : list pyval :=
  map (arg_value o) (snd (apply_run dry o rwu (fun a => func (arg_value o a)))).

(** asyncio.gather: fails as soon as one future fails, otherwise waits for
    all.  Simplification: when several fail, the first in list order is
    reported (in Python, the first in time). *)
Fixpoint gather {A} (l : list (fut A)) : fut (list A) :=
  match l with
  | [] => Done []
  | Fail e :: _ => Fail e
  | Pending :: l' => match gather l' with Fail e => Fail e | _ => Pending end
  | Done a :: l' => match gather l' with Done r => Done (a :: r) | Fail e => Fail e | Pending => Pending end
  end.

(** output.py:422-425, 429-432, 434-438: aggregation inside [Output.all]. *)
Definition all_known (os : list output) : fut bool :=
  fmap (forallb (fun b => b)) (gather (map o_known os)).
Definition all_secret (os : list output) : fut bool :=
  fmap (existsb (fun b => b)) (gather (map o_secret os)).
Definition all_resources (os : list output) : fut (list rsrc) :=
  fmap (@concat rsrc) (gather (map o_res os)).

(** output.py:400-480 [Output.all] after the arguments went through
    [from_input]: positional form (line 442-446) and keyword form (447-451,
    629-631 [_gather_from_dict]). *)
Definition all_list (os : list output) : output :=
  new_output (all_resources os)
             (fmap VList (gather (map (fun o => future o true) os)))
             (all_known os) (all_secret os).
Definition all_dict (kos : list (string * output)) : output :=
  let os := map snd kos in
  new_output (all_resources os)
             (fmap (fun vs => VDict (combine (map fst kos) vs))
                   (gather (map (fun o => future o true) os)))
             (all_known os) (all_secret os).

(** output.py:343-355, 320-324: a value (or awaitable) lifted to an Output. *)
Definition of_fut (f : fut pyval) : output := new_output (Done []) f (Done true) (Done false).
Definition of_value (v : pyval) : output := of_fut (Done v).

(** [typ( **d )] for an input type, output.py:291-293: rebuilds the args object
    from keyword arguments; anything but a dict is a TypeError. *)
Definition rebuild_input (cls : nat) (v : pyval) : res pyval :=
  match v with
  | VDict d => Ok (VInput cls d)
  | _ => Err (Exn "TypeError" "argument after ** must be a mapping")
  end.

(** output.py:272-324 [Output.from_input].  For an input type with an empty
    [__dict__], [Output.all()] takes its positional form (line 465). *)
Fixpoint from_input (dry : bool) (v : pyval) : output :=
  match v with
  | VOut rs x k s =>                                            (* 283-284 *)
      apply_call dry {| o_res := rs; o_val := x; o_known := k; o_secret := s |} true
        (fun a => match a with
                  | ArgUnknown => Ok (VO (of_value VUnknown))
                  | ArgValue => match x with
                                | Done y => Ok (VO (from_input dry y))
                                | _ => Ok VNone
                                end
                  end)
  | VInput cls fields =>                                         (* 287-294 *)
      let inner := match fields with
                   | [] => all_list []
                   | _ => all_dict (map (fun kv => (fst kv, from_input dry (snd kv))) fields)
                   end in
      apply dry inner (rebuild_input cls) false
  | VDict ((_ :: _) as d) =>                                     (* 297-299 *)
      all_dict (map (fun kv => (fst kv, from_input dry (snd kv))) d)
  | VList ((_ :: _) as l) =>                                     (* 301-303 *)
      all_list (map (from_input dry) l)
  | VAwait f =>                                                  (* 313-318 *)
      apply_call dry (of_fut f) true
        (fun a => match a with
                  | ArgUnknown => Ok (VO (of_value VUnknown))
                  | ArgValue => match f with
                                | Done y => Ok (VO (from_input dry y))
                                | _ => Ok VNone
                                end
                  end)
  | _ => of_value v                                              (* 320-324 *)
  end.

(** output.py:400-480 [Output.all( *args, **kwargs )]. *)
Definition output_all (dry : bool) (args : list pyval) (kwargs : list (string * pyval)) : res output :=
  match args, kwargs with
  | _ :: _, _ :: _ =>
      Err (Exn "ValueError" "Output.all() was supplied a mix of named and unnamed inputs")
  | _, _ :: _ => Ok (all_dict (map (fun kv => (fst kv, from_input dry (snd kv))) kwargs))
  | _, [] => Ok (all_list (map (from_input dry) args))
  end.

(** output.py:327-355 [_from_input_shallow]. *)
Definition from_input_shallow (v : pyval) : output :=
  match v with
  | VOut rs x k s => {| o_res := rs; o_val := x; o_known := k; o_secret := s |}
  | VAwait f => of_fut f
  | _ => of_value v
  end.

(** output.py:358-368 [unsecret], 371-385 [secret]. *)
Definition unsecret (o : output) : output :=
  new_output (o_res o) (o_val o) (o_known o) (Done false).
Definition secret (dry : bool) (v : pyval) : output :=
  let o := from_input dry v in
  new_output (o_res o) (o_val o) (o_known o) (Done true).

(** output.py:235-261 [__getattr__] / [__getitem__]: [access] is Python's
    [getattr(v, item)] or [v[key]]. *)
Definition lift_access (access : pyval -> res pyval) (v : pyval) : res pyval :=
  match v with VUnknown => Ok VUnknown | _ => access v end.
Definition getitem (dry : bool) (o : output) (access : pyval -> res pyval) : output :=
  apply dry o (lift_access access) true.

(** ["".join(list)], used by concat: every element must be a string. *)
Fixpoint join_strings (l : list pyval) : res string :=
  match l with
  | [] => Ok EmptyString
  | VStr s :: l' => let+ r := join_strings l' in Ok (String.append s r)
  | _ :: _ => Err (Exn "TypeError" "sequence item: expected str instance")
  end.
Definition join_value (v : pyval) : res pyval :=
  match v with
  | VList l => let+ s := join_strings l in Ok (VStr s)
  | _ => Err (Exn "TypeError" "can only join an iterable")
  end.

(** output.py:483-499 [Output.concat].  The arguments pass through from_input
    twice (line 497 and inside [all]). *)
Definition concat_output (dry : bool) (args : list pyval) : res output :=
  let+ o := output_all dry (map (fun v => VO (from_input dry v)) args) [] in
  Ok (apply dry o join_value false).

(** output.py:536-548 [_map_output]. *)
Definition map_output (o : output) (transform : pyval -> res pyval) : output :=
  new_output (o_res o)
    (let* v := future o false in
     if is_none v then Done VUnknown else of_res (transform v))
    (o_known o) (o_secret o).

(** output.py:551-578 [_map2_output].  Lines 576-577 combine *future objects*
    with the Python operators [and]/[or]: a Future object is truthy, so
    [f1 and f2] is f2 and [g2 or g2] is g2. *)
Definition map2_output (o1 o2 : output) (transform : pyval -> pyval -> res pyval) : output :=
  new_output
    (let* r1 := o_res o1 in let* r2 := o_res o2 in Done (r1 ++ r2))
    (let* v1 := future o1 false in
     let* v2 := future o2 false in
     if negb (is_none v1) && negb (is_none v2) then of_res (transform v1 v2) else Done VUnknown)
    (o_known o2)
    (o_secret o2).

(** output.py:530-533 [_is_prompt]. *)
Definition is_prompt (v : pyval) : bool :=
  match v with VAwait _ => false | VOut _ _ _ _ => false | _ => true end.

(** output.py:581-595 [_map_input]. *)
Definition map_input (i : pyval) (transform : pyval -> res pyval) : res pyval :=
  match i with
  | VAwait f => Ok (VAwait (let* v := f in of_res (transform v)))
  | VOut rs x k s => Ok (VO (map_output {| o_res := rs; o_val := x; o_known := k; o_secret := s |} transform))
  | _ => transform i
  end.

(** output.py:598-626 [_map2_input]. *)
Definition map2_input (i1 i2 : pyval) (transform : pyval -> pyval -> res pyval) : res pyval :=
  if is_prompt i1 then map_input i2 (transform i1)
  else if is_prompt i2 then map_input i1 (fun v1 => transform v1 i2)
  else match i1, i2 with
       | VAwait f1, VAwait f2 =>
           Ok (VAwait (let* v1 := f1 in let* v2 := f2 in of_res (transform v1 v2)))
       | _, _ => Ok (VO (map2_output (from_input_shallow i1) (from_input_shallow i2) transform))
       end.
