(** Independent specifications for the stored state (C100, C101). *)
From Verif Require Import Base PyVal Model_Rpc Model_Engine Model_State.

(** The string that stands for an unknown value in the state, and the key that
    tells what kind of thing an object is. *)
Definition mark : string := "04da6b54-80e4-46f7-96ec-b56ff0331ba9".
Definition kind_key : string := "4dabf18193072939515e22adb298388d".

Definition is_asset_or_archive (p : pval) : Prop :=
  match p with PAsset _ _ _ _ | PArchive _ _ _ _ => True | _ => False end.

(** [storable p]: no text in [p] is the mark of unknown values, no object in it
    uses the key that tells kinds, and nothing in it is an output value. *)
Inductive storable : pval -> Prop :=
| So_null : storable PNull
| So_bool b : storable (PBool b)
| So_num z : storable (PNum z)
| So_str s : s <> mark -> storable (PStr s)
| So_arr l : Forall storable l -> storable (PArr l)
| So_obj d : Forall (fun kv => storable (snd kv)) d -> ~ In kind_key (map fst d) -> storable (PObj d)
| So_asset hash text path uri : Forall (fun s => s <> mark) [hash; text; path; uri] -> storable (PAsset hash text path uri)
| So_archive hash path uri : Forall (fun s => s <> mark) [hash; path; uri] -> storable (PArchive hash None path uri)
| So_archive_of hash d path uri : Forall (fun s => s <> mark) [hash; path; uri] ->
    Forall (fun kv => is_asset_or_archive (snd kv)) d -> Forall (fun kv => storable (snd kv)) d ->
    ~ In kind_key (map fst d) -> storable (PArchive hash (Some d) path uri)
| So_unknown : storable (PComputed (PStr ""))
| So_secret e : storable e -> storable (PSecret e)
| So_component urn version : urn <> mark -> version <> mark -> storable (PRef urn None version)
| So_custom urn id version : urn <> mark -> version <> mark -> id <> mark -> id <> ""%string ->
    storable (PRef urn (Some (PStr id)) version)
| So_custom_new urn version : urn <> mark -> version <> mark -> storable (PRef urn (Some (PComputed (PStr ""))) version).

(** How deep secrets are nested in secrets. *)
Fixpoint nesting (p : pval) : nat :=
  match p with
  | PArr l => list_max (map nesting l)
  | PObj d => list_max (map (fun kv => nesting (snd kv)) d)
  | PSecret e => S (nesting e)
  | _ => 0
  end.
Definition state_nesting (rs : list rstate) : nat :=
  list_max (map (fun r => Nat.max (nesting (PObj (t_inputs r))) (nesting (PObj (t_outputs r)))) rs).

(** A resource of a state as the engine makes it. *)
Definition storable_resource (r : rstate) : Prop :=
  t_urn r <> ""%string /\ t_type r <> ""%string /\ (t_iscustom r = false -> t_id r = ""%string) /\
  storable (PObj (t_inputs r)) /\ storable (PObj (t_outputs r)).

(** What the engine assumes of encoding/json: texts are read back, and neither
    nothing nor the mark is the text of a document. *)
Definition json_reads (json : wire -> string) (unjson : string -> res wire) : Prop :=
  (forall w, unjson (json w) = Ok w) /\ (forall w, json w <> ""%string /\ json w <> mark).
(** What it assumes of a secrets manager: whatever ciphertext it gave, it
    decrypts. *)
Definition decrypts (enc : list nat -> string -> res string) (dec : string -> res string) : Prop :=
  forall place text c, enc place text = Ok c -> dec c = Ok text /\ c <> ""%string /\ c <> mark.

(** [alike p q]: [p] and [q] differ only in what is in their secrets. *)
Inductive alike : pval -> pval -> Prop :=
| Al_same p : alike p p
| Al_arr l l' : Forall2 alike l l' -> alike (PArr l) (PArr l')
| Al_obj d d' : Forall2 (fun kv kv' => fst kv = fst kv' /\ alike (snd kv) (snd kv')) d d' -> alike (PObj d) (PObj d')
| Al_secret e e' : alike (PSecret e) (PSecret e').
Definition alike_resources (r r' : rstate) : Prop :=
  t_urn r = t_urn r' /\ t_type r = t_type r' /\ t_iscustom r = t_iscustom r' /\ t_id r = t_id r' /\ t_rest r = t_rest r' /\
  alike (PObj (t_inputs r)) (PObj (t_inputs r')) /\ alike (PObj (t_outputs r)) (PObj (t_outputs r')).
