(** Loading configurations, independently of the code. *)
From Verif Require Export M_Config S_Config S_Paths S_Units.
From Coq Require Export Permutation.

(** What is assumed of the world: the map of services is iterated in some order; a parsed file
    has no two services with the same key and an empty routing table (it is not part of the
    file format). *)
Definition world_ok (w : world) : Prop :=
  (forall l, Permutation (e_order w l) l)
  /\ forall fp c, e_file w fp = Some c -> NoDup (map fst (c_services c)) /\ c_slab c = [].

(** [t] is [s] without surrounding white space *)
Definition blank (s : str) : Prop := Forall (fun c => is_ws c = true) s.
Definition trimmed (s t : str) : Prop :=
  exists a b, s = a ++ t ++ b /\ blank a /\ blank b
  /\ (forall c t', t = c :: t' -> is_ws c = false) /\ (forall c t', t = t' ++ [c] -> is_ws c = false).

(** [entry] is a service file giving service [s] under [name]: a regular file, not hidden, that
    can be parsed; its name is the one it states or, if that is blank, its file name without
    extension *)
Definition service_file (entry : option matched) (name : str) (s : service_config) : Prop :=
  exists m c, entry = Some m /\ m_is_file m = true /\ last_component (m_path m) c
  /\ (forall c', c <> [dot] ++ c') /\ m_service m = Some s
  /\ ((trimmed (s_name s) name /\ name <> []) \/ (blank (s_name s) /\ stem c name)).
(** an entry that is passed over: unreadable, no regular file, without a file name, or hidden *)
Definition passed_over (entry : option matched) : Prop :=
  match entry with
  | None => True
  | Some m => m_is_file m = false \/ (forall c, ~ last_component (m_path m) c)
              \/ exists c, last_component (m_path m) c /\ exists c', c = [dot] ++ c'
  end.

(** the settings [s], under another name *)
Definition renamed (s : service_config) (name : str) : service_config :=
  {| s_idx := s_idx s; s_name := name; s_host := s_host s; s_kind := s_kind s; s_logging := s_logging s;
     s_tcp := s_tcp s; s_http := s_http s |}.
(** the services given by a list of entries, each under its name *)
Inductive gives : list (option matched) -> list (str * service_config) -> Prop :=
| gives_nil : gives [] []
| gives_skip e es l : passed_over e -> gives es l -> gives (e :: es) l
| gives_add e es l name s : service_file e name s -> gives es l ->
    gives (e :: es) ((name, renamed s name) :: l).

(** the patterns a configuration includes *)
Definition patterns (c : config) : list str :=
  match c_include c with [] => [] | p => [p] end ++ c_includes c.
