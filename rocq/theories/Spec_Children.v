(** Independent specification of aggregation by components (C87). *)
From Verif Require Import Base PyVal Model_Options Spec_Options Model_Resource Spec_Resource Model_Children.
Open Scope string_scope.

(** A component that is not remote. *)
Definition local (f : family) (n : nat) : Prop :=
  exists r, wget (fm_world f) n = Some r /\ s_custom r = false /\ ~ In n (fm_remote f).
(** [inside f d x]: [x] is [d], or was created with a parent option naming a
    local component inside [d]. *)
Inductive inside (f : family) (d : nat) : nat -> Prop :=
| In_self : inside f d d
| In_child p x r : inside f d p -> local f p -> wget (fm_world f) x = Some r -> ro_parent (s_given r) = Some p -> inside f d x.

(** The constructor gets past its checks of type and name and past all
    transformations. *)
Definition gets_far (tf : nat -> transformation) (w : world) (t name : string) (props : inputs) (given : ropts) : Prop :=
  t <> "" /\ name <> "" /\ exists ts po, applies w given ts /\ runs tf t name ts (props, given) po.

(** Programs that catch exceptions of constructors; [late] lists the parents
    of the resources whose constructors got far and still raised. *)
Inductive history (tf : nat -> transformation) : list nat -> family -> Prop :=
| hi_start : history tf [] (mkFamily (mkWorld [] None) [] [] 0)
| hi_stack late f name w : history tf late f -> new_stack tf (fm_world f) name = Ok w ->
    history tf late (mkFamily w (fm_remote f) (fm_children f) (fm_broken f))
| hi_transform late f x w : history tf late f -> register_stack_transformation (fm_world f) x = Ok w ->
    history tf late (mkFamily w (fm_remote f) (fm_children f) (fm_broken f))
| hi_made late f aliases t name custom remote props given f' n q : history tf late f ->
    wf_opts given -> parent_exists (fm_world f) given ->
    attempt tf aliases f t name custom remote props given = (f', Ok (n, q)) -> history tf late f'
| hi_early late f aliases t name custom remote props given f' e : history tf late f ->
    wf_opts given -> parent_exists (fm_world f) given ->
    attempt tf aliases f t name custom remote props given = (f', Err e) ->
    ~ gets_far tf (fm_world f) t name props given \/ ro_parent given = None -> history tf late f'
| hi_late late f aliases t name custom remote props given f' e p : history tf late f ->
    wf_opts given -> parent_exists (fm_world f) given ->
    attempt tf aliases f t name custom remote props given = (f', Err e) ->
    ro_parent given = Some p -> history tf (p :: late) f'.
