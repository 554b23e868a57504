(** Specifications for function calls (C53, C68). *)
From Verif Require Import Base PyVal Model_Rpc Spec_Rpc Model_Translate Model_Register Model_Options Model_Resource Model_Invoke.
Open Scope string_scope.

(** The provider a function [tok] is to be called with, given options [o]: the
    options' provider; otherwise the one recorded on the parent for the
    function's package (its first component of three); otherwise none. *)
Inductive expected_provider (w : world) (o : iopts) (tok : string) : option provider -> Prop :=
| XP_given p : io_provider o = Some p -> expected_provider w o tok (Some p)
| XP_parent a r pkg : io_provider o = None -> io_parent o = Some a -> wget w a = Some r ->
    type_package tok = Some pkg -> expected_provider w o tok (dget (s_providers r) pkg)
| XP_token a r : io_provider o = None -> io_parent o = Some a -> wget w a = Some r ->
    type_package tok = None -> expected_provider w o tok None
| XP_none : io_provider o = None -> io_parent o = None -> expected_provider w o tok None.

(** How the engine is told: URN and id, the latter possibly not known. *)
Definition reference_of (E : ienv) (p : option provider) (s : option string) : Prop :=
  match p with
  | None => s = None
  | Some p => exists urn id, e_prov_urn E p = Done (Some urn) /\ e_prov_id E p = Done id /\
      s = Some (urn ++ "::" ++ match id with Some i => if String.eqb i "" then UNKNOWN else i | None => UNKNOWN end)
  end.

(** The parents options name are resources that exist. *)
Definition parents_exist (w : world) (h : iheap) : Prop :=
  forall o p, In o h -> io_parent o = Some p -> exists r, wget w p = Some r.

(** What a message says as the type [typ]: nothing for an empty one. *)
Definition reads_as (E : ienv) (typ : option oty) (ret : dict wire) (v : ival) : Prop :=
  (ret = [] /\ v = INone) \/
  (ret <> [] /\ exists u, deserialize_properties (e_dc E) ret false false = Ok u /\
    match typ with
    | None => v = IPlain u
    | Some t => exists x, translate (e_oc E) u (Some t) = Ok x /\ v = ITyped x
    end).

(** The options objects after a sequence of invokes. *)
Record invocation : Type := mkInvocation {
  n_tok : string; n_props : dict pyval; n_opts : option nat; n_type : option oty }.
Fixpoint invokes (E : ienv) (w : world) (m : option (invoke_request -> answer invoke_response)) (h : iheap) (l : list invocation) : iheap :=
  match l with
  | [] => h
  | c :: l' => invokes E w m (fst (fst (invoke E w m h (n_tok c) (n_props c) (n_opts c) (n_type c)))) l'
  end.

(** A result type may be left out or be a class declared as an output type. *)
Definition result_type (typ : option oty) : Prop := typ = None \/ exists cls, typ = Some (OClass cls).
