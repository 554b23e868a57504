(** C39, C40: package and module registries, version compatibility. *)
From Verif Require Import Base Model_Semver Spec_Semver Model_Registry Spec_Registry Proof_Registry.
Open Scope string_scope.

(** C39.  In any registry a program can build (by any sequence of
    registrations, refused ones included): registering fails, changing nothing,
    exactly when a registered entry of that name clashes, and otherwise adds that
    entry and no other; a lookup raises only if the version does not parse and
    otherwise yields the highest compatible entry, or None if there is none;
    what it yields depends only on which entries are registered; and
    registrations that do not clash all take effect in any order. *)
Theorem C39_registry :
  (forall r k e, reachable r ->
     (register_resource_package r k e = Err re_register /\ exists x, registered r k x /\ clash (e_version x) (e_version e)) \/
     (exists r', register_resource_package r k e = Ok r' /\ reachable r' /\
        (forall x, registered r k x -> ~ clash (e_version x) (e_version e)) /\
        forall k' x, registered r' k' x <-> registered r k' x \/ (k' = k /\ x = e))) /\
  (forall parse r key s, reachable r ->
     (exists e, s <> "" /\ parse s = Err e /\ get_resource_package parse r key s = Err e) \/
     exists want, is_parsed parse s want /\
       ((exists e, highest r key want e /\ get_resource_package parse r key s = Ok (Some (e_id e))) \/
        ((forall e, registered r key e -> ~ compatible want (e_version e)) /\ get_resource_package parse r key s = Ok None))) /\
  (forall parse r r' key s, reachable r -> reachable r' -> (forall x, registered r key x <-> registered r' key x) ->
     get_resource_package parse r key s = get_resource_package parse r' key s) /\
  (forall calls, no_clashes calls -> forall k x, registered (register_all [] calls) k x <-> In (k, x) calls).
Proof.
  split; [exact register_spec|split; [exact lookup_spec|split; [exact lookup_order|]]].
  intros calls N k x. rewrite (register_all_distinct calls [] (ex_intro _ [] eq_refl) N); [|intros k0 e x0 _ (l & [] & _)].
  split; [intros [(l & [] & _)|H]; exact H|auto].
Qed.
Print Assumptions C39_registry.

(** C39 for modules, which are registered and looked up under package and module
    name; a package name has no colon. *)
Theorem C39_modules :
  (forall r p m e, register_resource_module r p m e = register_resource_package r (module_key p m) e) /\
  (forall parse r p m s, get_resource_module parse r p m s = get_resource_package parse r (module_key p m) s) /\
  (forall p m p' m', ~ In ":"%char (list_ascii_of_string p) -> ~ In ":"%char (list_ascii_of_string p') ->
     module_key p m = module_key p' m' -> p = p' /\ m = m').
Proof. split; [reflexivity|split; [reflexivity|exact module_key_inj]]. Qed.
Print Assumptions C39_modules.

Definition v (a b c : N) (p : list ident) : version := mkVersion a b c p "".
Definition ex_calls : list (string * entry) :=
  [("aws", mkEntry (Some (v 1 2 0 [])) 0); ("aws", mkEntry (Some (v 1 10 0 [])) 1); ("gcp", mkEntry None 2);
   ("aws", mkEntry (Some (mkVersion 1 2 0 [] "b1")) 3); ("aws", mkEntry (Some (v 2 0 0 [IStr "rc"; INum 1])) 4); ("gcp", mkEntry (Some (v 1 0 0 [])) 5)].
Definition ex_parse (s : string) : res version :=
  if String.eqb s "1.1.0" then Ok (v 1 1 0 []) else if String.eqb s "3.0.0" then Ok (v 3 0 0 []) else Err (Exn "ValueError" s).
Example C39_example : let r := register_all [] ex_calls in
  reachable r /\ map (fun kv => (fst kv, map e_id (snd kv))) r = [("aws", [0; 1; 4]); ("gcp", [2])] /\
  lookup ex_parse r "aws" "1.1.0" = Ok (Some 1) /\ lookup ex_parse r "aws" "" = Ok (Some 4) /\
  lookup ex_parse r "aws" "3.0.0" = Ok None /\ lookup ex_parse r "gcp" "3.0.0" = Ok (Some 2) /\
  lookup ex_parse r "gcp" "x" = Err (Exn "ValueError" "x") /\
  register r "gcp" (mkEntry (Some (v 9 0 0 [])) 7) = Err re_register /\
  no_clashes [("aws", mkEntry (Some (v 1 2 0 [])) 0); ("aws", mkEntry (Some (v 1 10 0 [])) 1); ("gcp", mkEntry None 2)].
Proof.
  split; [exists ex_calls; reflexivity|]. repeat (split; [reflexivity|]).
  repeat constructor; simpl; intros K; try discriminate.
  intros [H|[H|(a & b & [= <-] & [= <-] & (_ & H & _))]]; discriminate.
Qed.

(** C40, where it holds: for releases (no prerelease part), a version accepted
    is always one semver accepts, and the two agree whenever the minor versions
    are equal or the patch version is not lower.  Missing: higher minor with
    lower patch, and prereleases; see the refutation. *)
Theorem C40_check_version_partial :
  (forall want have, v_pre have = [] -> check_version (Some want) (Some have) = true -> semver_accepts want have) /\
  (forall want have, v_pre want = [] -> v_pre have = [] -> (v_minor have = v_minor want \/ (v_patch want <= v_patch have)%N) ->
     (check_version (Some want) (Some have) = true <-> semver_accepts want have)).
Proof. exact (conj check_sound check_semver). Qed.
Print Assumptions C40_check_version_partial.
Example C40_example :
  check_version (Some (v 1 2 3 [])) (Some (v 1 4 3 [])) = true /\ check_version (Some (v 1 2 3 [])) (Some (v 1 2 2 [])) = false /\
  check_version (Some (v 1 2 3 [])) (Some (v 2 2 3 [])) = false.
Proof. repeat split. Qed.

(** C40 is false: 1.2.0 is refused where 1.1.5 is wanted, and the prerelease
    1.0.0-rc is accepted where 1.0.0 is wanted. *)
Theorem C40_refuted :
  (exists want have, v_pre want = [] /\ v_pre have = [] /\ semver_accepts want have /\ check_version (Some want) (Some have) = false) /\
  (exists want have, ~ semver_accepts want have /\ check_version (Some want) (Some have) = true).
Proof.
  split.
  - exists (v 1 1 5 []), (v 1 2 0 []). repeat split; try reflexivity.
    intros [L|[[_ L]|[(_ & L & _)|(_ & L & _)]]]; vm_compute in L; discriminate.
  - exists (v 1 0 0 []), (v 1 0 0 [IStr "rc"]). split; [|reflexivity]. intros [_ N]. apply N.
    right; right; right. repeat split. left. split; [discriminate|reflexivity].
Qed.
Print Assumptions C40_refuted.
