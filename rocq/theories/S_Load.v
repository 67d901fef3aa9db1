(** Whole configurations, independently of the code. *)
From Verif Require Export S_Config2.

(** service [s] is configured under key [k]: in the main file [c0], or in a service file matched by
    one of its patterns *)
Definition given (w : world) (c0 : config) (k : str) (s : service_config) : Prop :=
  In (k, s) (c_services c0)
  \/ exists p es e, In p (patterns c0) /\ e_glob w p = Some es /\ In e es /\ service_file e k s.

(** file [fp], which says [c0], is loaded as configuration [c] *)
Definition loads (w : world) (fp : str) (c0 c : config) : Prop :=
  world_ok w /\ ~ blank fp /\ e_file w fp = Some c0 /\ load_config w fp = Some c.

(** a file service's root is not empty and exists *)
Definition root_fine (w : world) (s : service_config) : Prop :=
  forall root, s_kind s = FileService root -> root <> [] /\ e_exists w root = true.

(** the part of a service's configuration that is not fixed up: its kind, its host, the address it
    listens on, its certificate, its key and its log outputs *)
Definition same_service (s0 s : service_config) : Prop :=
  s_kind s = s_kind s0 /\ s_host s = s_host s0 /\ t_addr (s_tcp s) = t_addr (s_tcp s0)
  /\ tls_cert (t_tls (s_tcp s)) = tls_cert (t_tls (s_tcp s0)) /\ tls_key (t_tls (s_tcp s)) = tls_key (t_tls (s_tcp s0))
  /\ l_appenders (s_logging s) = l_appenders (s_logging s0) /\ l_disable (s_logging s) = l_disable (s_logging s0).
