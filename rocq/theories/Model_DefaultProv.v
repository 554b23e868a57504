(** Default providers: which provider a resource, read or invoke gets that names
    none.

    Models pkg/resource/deploy/source_eval.go:247-470, 561-616 and
    pkg/resource/deploy/providers/provider.go:39-116. *)
From Coq Require Import List Bool Ascii String.
Import ListNotations.

Definition text := list ascii.
Definition text_eqb (a b : text) : bool := if list_eq_dec ascii_dec a b then true else false.
Definition lit (s : string) : text := list_ascii_of_string s.

(** A parsed version: blang/semver's Version (provider.go:40). Simplified: numbers
    and numeric parts of pre-releases are kept as the digits they are written
    with; semver.Parse refuses leading zeros, so both are the same. *)
Record version := { v_major : text; v_minor : text; v_patch : text;
                    v_pre : list text; v_build : list text }.

(** provider.go:39-43. *)
Record request := { r_version : option version; r_pkg : text; r_url : text }.

(** strings.TrimSuffix(url, "/") (provider.go:51, source_eval.go:613). *)
Definition trim_slash (u : text) : text :=
  match rev u with
  | "/"%char :: t => rev t
  | _ => u
  end.

(** NewProviderRequest (provider.go:47-53). *)
Definition new_request (v : option version) (p u : text) : request :=
  {| r_version := v; r_pkg := p; r_url := trim_slash u |}.

(** parseProviderRequest (source_eval.go:601-616), once the version is parsed. A
    version that cannot be parsed is an error before anything else happens, and is
    left out. *)
Definition parse_request (p : text) (v : option version) (u : text) : request :=
  match v with
  | None => new_request None p u
  | Some _ => new_request v p (trim_slash u)
  end.

(** strings.Join. *)
Fixpoint join (sep : ascii) (l : list text) : text :=
  match l with
  | [] => []
  | [x] => x
  | x :: r => x ++ sep :: join sep r
  end.

(** semver's Version.String, used at provider.go:107. *)
Definition version_string (v : version) : text :=
  v_major v ++ "."%char :: v_minor v ++ "."%char :: v_patch v
  ++ (match v_pre v with [] => [] | l => "-"%char :: join "."%char l end)
  ++ (match v_build v with [] => [] | l => "+"%char :: join "."%char l end).

(** ProviderRequest.String (provider.go:103-114). *)
Definition request_string (r : request) : text :=
  r_pkg r
  ++ (match r_version r with None => [] | Some v => "-"%char :: version_string v end)
  ++ (match r_url r with [] => [] | u => "-"%char :: u end).

(** tokens.IntoQName (sdk/go/common/tokens/names.go:65-87). *)
Definition name_char (c : ascii) : bool :=
  let n := nat_of_ascii c in
  (Nat.leb 65 n && Nat.leb n 90) || (Nat.leb 97 n && Nat.leb n 122)
  || (Nat.leb 48 n && Nat.leb n 57) || Ascii.eqb c "_" || Ascii.eqb c "." || Ascii.eqb c "-".

Fixpoint split_slash (cur u : text) : list text :=
  match u with
  | [] => [rev cur]
  | c :: r => if Ascii.eqb c "/" then rev cur :: split_slash [] r else split_slash (c :: cur) r
  end.

Definition into_qname (u : text) : text :=
  let segs := filter (fun s => match s with [] => false | _ => true end) (split_slash [] u) in
  match join "/"%char (map (map (fun c => if name_char c then c else "_"%char)) segs) with
  | [] => ["_"%char]
  | s => s
  end.

(** ProviderRequest.Name (provider.go:77-100). The assertion that this is a legal
    name is left out. *)
Definition request_name (r : request) : text :=
  lit "default"
  ++ (match r_version r with
      | None => []
      | Some v =>
          "_"%char :: v_major v ++ "_"%char :: v_minor v ++ "_"%char :: v_patch v
          ++ flat_map (fun p => "_"%char :: p) (v_pre v)
          ++ flat_map (fun p => "_"%char :: p) (v_build v)
      end)
  ++ (match r_url r with [] => [] | u => "_"%char :: into_qname u end).

(** The goal of the registration of a default provider (source_eval.go:326-334):
    its type by its package, its name, and its inputs: what is configured for the
    package, the version and the URL. Simplified: the configuration is kept as it
    is, apart from the version and the URL that are set in it. *)
Record registration := { g_pkg : text; g_name : text; g_config : text;
                         g_version : option version; g_url : text }.

(** newRegisterDefaultProviderEvent (source_eval.go:274-336). [config] is
    GetPackageConfig, which may fail; [defaults] is defaultProviderInfo. *)
Definition new_event (config : text -> option text) (defaults : text -> option version * text)
    (r : request) : option registration :=
  match config (r_pkg r) with
  | None => None
  | Some c =>
      Some {| g_pkg := r_pkg r; g_name := request_name r; g_config := c;
              g_version := match r_version r with
                           | Some v => Some v
                           | None => fst (defaults (r_pkg r))
                           end;
              g_url := match r_url r with
                       | [] => snd (defaults (r_pkg r))
                       | u => u
                       end |}
  end.

(** A reference to a provider: its URN, which is its package and its name in this
    stack and project, and its ID (providers/reference.go:80-97). *)
Record ref := { ref_pkg : text; ref_name : text; ref_id : text }.

(** The setting pulumi:disable-default-providers as it is read and parsed
    (source_eval.go:403-424). *)
Inductive item := Text (t : text) | Other.
Inductive setting :=
| Unset
| Unreadable     (* the configuration cannot be read, or it is no string, or no JSON list *)
| Empty          (* the empty string *)
| Listed (l : list item).

(** strings.TrimSpace (source_eval.go:430), for ASCII. *)
Definition white (c : ascii) : bool :=
  let n := nat_of_ascii c in Nat.eqb n 32 || (Nat.leb 9 n && Nat.leb n 13).
Fixpoint drop_white (t : text) : text :=
  match t with
  | [] => []
  | c :: r => if white c then drop_white r else t
  end.
Definition trim_space (t : text) : text := rev (drop_white (rev (drop_white t))).

(** shouldDenyRequest (source_eval.go:403-442): the loop at 425-436. *)
Fixpoint deny_loop (l : list item) (p : text) : option bool :=
  match l with
  | [] => Some false
  | Other :: _ => None
  | Text t :: r =>
      if text_eqb (trim_space t) (lit "*") || text_eqb (trim_space t) p
      then Some true else deny_loop r p
  end.

Definition should_deny (s : setting) (p : text) : option bool :=
  match s with
  | Unset => Some false
  | Unreadable => None
  | Empty => Some false
  | Listed l => deny_loop l p
  end.

(** What is asked for: the provider that is named, if any, and the package,
    version and URL (source_eval.go:561-562, 643, 849, 966). *)
Record call := { c_explicit : option ref; c_pkg : text; c_version : option version; c_url : text }.

Definition request_of (c : call) : request := parse_request (c_pkg c) (c_version c) (c_url c).

(** What is answered. [Denied] is the reference of a denied provider, which
    makes the operation fail wherever it is used (source_eval.go:589-592, 856-859,
    step_generator.go:1479-1483, step.go:1228-1232). *)
Inductive answer := Got (r : ref) | Denied | Failed | Cancelled.

(** defaultProviders (source_eval.go:247-260). [s_log] is what has been sent to
    the engine, in order, each with the request it was sent for. *)
Record state := { s_cache : list (text * ref); s_log : list (request * registration);
                  s_cancelled : bool }.

Definition start : state := {| s_cache := []; s_log := []; s_cancelled := false |}.

Fixpoint lookup (k : text) (l : list (text * ref)) : option ref :=
  match l with
  | [] => None
  | (k', r) :: l' => if text_eqb k k' then Some r else lookup k l'
  end.

(** providers.UnknownID, which is plugin.UnknownStringValue (source_eval.go:390-393). *)
Definition unknown_id : text := lit "04da6b54-80e4-46f7-96ec-b56ff0331ba9".

Definition made (ev : registration) (id : text) : ref :=
  {| ref_pkg := g_pkg ev; ref_name := g_name ev;
     ref_id := match id with [] => unknown_id | _ => id end |}.

(** handleRequest (source_eval.go:345-400). [engine n] is the ID that the engine
    gives to the n-th registration; there is none if the deployment is cancelled,
    as it is if the registration fails. After this nothing is answered any more. *)
Definition handle (s : setting) (config : text -> option text)
    (defaults : text -> option version * text) (engine : nat -> option text)
    (st : state) (r : request) : state * answer :=
  if s_cancelled st then (st, Cancelled)
  else
    match should_deny s (r_pkg r) with
    | None => (st, Failed)
    | Some true => (st, Denied)
    | Some false =>
        match lookup (request_string r) (s_cache st) with
        | Some f => (st, Got f)
        | None =>
            match new_event config defaults r with
            | None => (st, Failed)
            | Some ev =>
                match engine (List.length (s_log st)) with
                | None => ({| s_cache := s_cache st; s_log := s_log st ++ [(r, ev)];
                              s_cancelled := true |}, Cancelled)
                | Some id =>
                    ({| s_cache := (request_string r, made ev id) :: s_cache st;
                        s_log := s_log st ++ [(r, ev)]; s_cancelled := false |},
                     Got (made ev id))
                end
            end
        end
    end.

(** getProviderReference (source_eval.go:561-576). That a named provider is
    parsed is left out. *)
Definition answer_call (s : setting) (config : text -> option text)
    (defaults : text -> option version * text) (engine : nat -> option text)
    (st : state) (c : call) : state * answer :=
  match c_explicit c with
  | Some f => (st, Got f)
  | None => handle s config defaults engine st (request_of c)
  end.

(** serve (source_eval.go:445-457): requests are handled one after another, in
    any order that they come in. *)
Fixpoint run (s : setting) (config : text -> option text)
    (defaults : text -> option version * text) (engine : nat -> option text)
    (st : state) (l : list call) : state * list answer :=
  match l with
  | [] => (st, [])
  | c :: r =>
      let (st1, a) := answer_call s config defaults engine st c in
      let (st2, as_) := run s config defaults engine st1 r in
      (st2, a :: as_)
  end.
