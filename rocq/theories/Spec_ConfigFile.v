(** Independent specification of stack settings files (C103, C104). *)
From Verif Require Import Base PyVal Model_Json Spec_Json Model_WsConfig Spec_WsConfig Model_ConfigFile.
Open Scope string_scope.
Open Scope list_scope.

(** The JSON library reads what it writes. *)
Definition reads_back (to_json : pyval -> string) (of_json : string -> res pyval) : Prop :=
  forall v, plain_data v -> of_json (to_json v) = Ok v.
(** Decryption undoes encryption. *)
Definition undoes (dec : string -> string -> res string) (enc : files -> string -> string -> string -> res string) : Prop :=
  forall st stack key text c, enc st stack key text = Ok c -> dec stack c = Ok text.

Section File.
  Variable to_json : pyval -> string.
  Variable dec : string -> res string.    (* of the stack *)
  (** [opened v o]: the data [v] of a file, with its ciphertexts decrypted, is [o]. *)
  Inductive opened : pyval -> pyval -> Prop :=
  | O_secret c t : dec c = Ok t -> opened (VDict [("secure", VStr c)]) (VStr t)
  | O_dict d d' : (forall c, d <> [("secure", VStr c)]) -> Forall2 (fun a b => fst a = fst b /\ opened (snd a) (snd b)) d d' ->
      opened (VDict d) (VDict d')
  | O_list l l' : Forall2 opened l l' -> opened (VList l) (VList l')
  | O_none : opened VNone VNone
  | O_bool b : opened (VBool b) (VBool b)
  | O_num z : opened (VNum z) (VNum z)
  | O_str s : opened (VStr s) (VStr s).
  Inductive holds_secret : pyval -> Prop :=
  | H_here c : holds_secret (VDict [("secure", VStr c)])
  | H_dict d k x : In (k, x) d -> holds_secret x -> holds_secret (VDict d)
  | H_list l x : In x l -> holds_secret x -> holds_secret (VList l).
  Definition structured (v : pyval) : Prop := match v with VDict _ | VList _ => True | _ => False end.
  (** [says y e]: the data [y] of a file stands for the configuration value [e]. *)
  Inductive says : pyval -> entry -> Prop :=
  | Y_text s : says (VStr s) (mkEntry s false None)
  | Y_num z : says (VNum z) (mkEntry (to_json (VNum z)) false None)
  | Y_bool b : says (VBool b) (mkEntry (to_json (VBool b)) false None)
  | Y_null : says VNone (mkEntry "" false None)
  | Y_secret c t : dec c = Ok t -> says (VDict [("secure", VStr c)]) (mkEntry t true None)
  | Y_object v o b : structured v -> (forall c, v <> VDict [("secure", VStr c)]) -> opened v o ->
      (b = true <-> holds_secret v) -> says v (mkEntry (to_json o) b (Some o)).
End File.
(** [spells s k]: the word [s] in a file is a way to write the key [k]. *)
Inductive spells : string -> string -> Prop :=
| Sp_key k : colons k = 1 -> spells k k
| Sp_old ns name : colons ns = 0 -> colons name = 0 -> spells (ns ++ ":config:" ++ name)%string (ns ++ ":" ++ name)%string.

(** [configured files st]: [st] is the configuration that the files stand for. *)
Definition configured (to_json : pyval -> string) (dec : string -> string -> res string) (fs : files) (st : configs) : Prop :=
  NoDup (map fst fs) /\
  Forall2 (fun f c => fst f = fst c /\ NoDup (map fst (snd c)) /\ Forall (fun ky => plain_data (snd ky)) (snd f) /\
             Forall2 (fun ky ke => spells (fst ky) (fst ke) /\ says to_json (dec (fst f)) (snd ky) (snd ke)) (snd f) (snd c)) fs st.

(* ------------------------------------------------------------------ *)
(** C104: calls that differ at most in the values set as secrets. *)
Inductive alike_call : call -> call -> Prop :=
| A_secret stack key v v' : alike_call (SetConfig stack key v true) (SetConfig stack key v' true)
| A_map stack config config' :
    Forall2 (fun a b => fst a = fst b /\ snd (snd a) = snd (snd b) /\ (snd (snd a) = false -> fst (snd a) = fst (snd b))) config config' ->
    alike_call (SetAllConfig stack config) (SetAllConfig stack config')
| A_same a : alike_call a a.
