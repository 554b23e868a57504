(** What is in an archive. *)
From Verif Require Import Base Model_Archives.
Open Scope string_scope.
Open Scope list_scope.

(** Following links from [n], one comes to [m], which is no link. *)
Inductive leads : node -> node -> Prop :=
| l_file x b : leads (File x b) (File x b)
| l_dir es : leads (Dir es) (Dir es)
| l_link t m : leads t m -> leads (Link (Some t)) m.
(** At the path is a file with the contents [b], or links to one. *)
Definition holds (d : disk) (p b : string) : Prop := exists n x, node_at d p = Some n /\ leads n (File x b).
(** The contents of an asset. *)
Inductive gives (d : disk) : asset -> string -> Prop :=
| g_text t : gives d (Text t) t
| g_path p b : holds d p b -> gives d (At_path p) b
| g_uri u b : fetch d u = Some b -> gives d (At_uri u) b.

(** From the entry [n] of a directory, with the name [k], comes the file [m] with the contents [b].  Links to
    files count as files; links to directories and what is named .pulumi do not count. *)
Inductive under : string -> node -> string -> string -> Prop :=
| u_file k x b : k <> ".pulumi" -> under k (File x b) k b
| u_link k t x b : k <> ".pulumi" -> leads (Link t) (File x b) -> under k (Link t) k b
| u_dir k es k' n m b : k <> ".pulumi" -> In (k', n) es -> under k' n m b -> under k (Dir es) (k ++ "/" ++ m)%string b.
(** The archive has the file [m] with the contents [b] in it. *)
Inductive contains (T : tools) (d : disk) : archive -> string -> string -> Prop :=
| c_asset ms k x b : In (k, M_asset x) ms -> gives d x b -> contains T d (Members ms) k b
| c_archive ms k y m b : In (k, M_archive y) ms -> contains T d y m b -> contains T d (Members ms) (join T k m) b
| c_directory p es k n m b : path_format T p = None -> node_at d p = Some (Dir es) -> In (k, n) es -> under k n m b -> contains T d (In_path p) m b
| c_file p f bytes l m b : path_format T p = Some f -> holds d p bytes -> unpack T f bytes = Some l -> In (m, b) l -> contains T d (In_path p) m b
| c_uri u f bytes l m b : uri_format T u = Some f -> fetch d u = Some bytes -> unpack T f bytes = Some l -> In (m, b) l -> contains T d (In_uri u) m b.
(** The format of an archive that is a file. *)
Definition packed (T : tools) (a : archive) : option nat :=
  match a with
  | Members _ => None
  | In_path p => path_format T p
  | In_uri u => uri_format T u
  end.
(** From the entry [n], with the name [k], leads a link to nowhere. *)
Inductive astray : string -> node -> Prop :=
| a_link k t : k <> ".pulumi" -> (forall m, ~ leads (Link t) m) -> astray k (Link t)
| a_dir k es k' n : k <> ".pulumi" -> In (k', n) es -> astray k' n -> astray k (Dir es).
(** Something of the archive cannot be had. *)
Inductive broken (T : tools) (d : disk) : archive -> Prop :=
| b_asset ms k x : In (k, M_asset x) ms -> (forall b, ~ gives d x b) -> broken T d (Members ms)
| b_archive ms k y : In (k, M_archive y) ms -> broken T d y -> broken T d (Members ms)
| b_nothing p : path_format T p = None -> node_at d p = None -> broken T d (In_path p)
| b_no_directory p n : path_format T p = None -> node_at d p = Some n -> (forall es, ~ leads n (Dir es)) -> broken T d (In_path p)
| b_astray p es k n : path_format T p = None -> node_at d p = Some (Dir es) -> In (k, n) es -> astray k n -> broken T d (In_path p)
| b_no_file p f : path_format T p = Some f -> (forall b, ~ holds d p b) -> broken T d (In_path p)
| b_garbled p f bytes : path_format T p = Some f -> holds d p bytes -> unpack T f bytes = None -> broken T d (In_path p)
| b_uri u : uri_format T u = None -> broken T d (In_uri u)
| b_no_answer u f : uri_format T u = Some f -> fetch d u = None -> broken T d (In_uri u)
| b_garbled_answer u f bytes : uri_format T u = Some f -> fetch d u = Some bytes -> unpack T f bytes = None -> broken T d (In_uri u).
