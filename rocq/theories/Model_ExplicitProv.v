(** The plugin of a provider that a program registers itself.

    Models pkg/resource/deploy/source_eval.go:1010-1033. *)
From Coq Require Import List Bool Ascii String.
From Verif Require Import Model_DefaultProv.
Import ListNotations.

(** The version and the URL of the plugin in the inputs of a provider. *)
Record plugin := { p_version : option version; p_url : text }.

(** RegisterResource for a provider (source_eval.go:1010-1033): [v] and [u] are the
    version and plugin URL of its options, and [inputs] what its inputs have of
    them. A version that cannot be parsed is an error and left out. *)
Definition explicit_plugin (defaults : text -> option version * text) (p : text)
    (v : option version) (u : text) (inputs : plugin) : plugin :=
  let v1 := match v with Some _ => v | None => p_version inputs end in
  let u1 := match u with [] => p_url inputs | _ => u end in
  match v, u with
  | None, [] =>
      {| p_version := match fst (defaults p) with Some w => Some w | None => v1 end;
         p_url := match snd (defaults p) with [] => u1 | w => w end |}
  | _, _ => {| p_version := v1; p_url := u1 |}
  end.

(** The plugin of a default provider that is registered
    (source_eval.go:293-324). *)
Definition plugin_of (g : registration) : plugin :=
  {| p_version := g_version g; p_url := g_url g |}.
