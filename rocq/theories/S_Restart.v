(** The same configuration loaded in another run of the program. *)
From Verif Require Export S_Config2.

(** Another run finds the same files and directories, but the entries of the map of services come in
    another order (std's HashMap is seeded anew in every process). *)
Definition another_run (w w' : world) : Prop :=
  e_file w' = e_file w /\ e_chdir w' = e_chdir w /\ e_glob w' = e_glob w /\ e_exists w' = e_exists w /\ e_log w' = e_log w
  /\ (forall l, Permutation (e_order w' l) l).

(** the same service but for its number *)
Definition same_unnumbered (s s' : service_config) : Prop :=
  s_name s' = s_name s /\ s_host s' = s_host s /\ s_kind s' = s_kind s /\ s_tcp s' = s_tcp s /\ s_http s' = s_http s
  /\ l_service_name (s_logging s') = l_service_name (s_logging s) /\ l_disable (s_logging s') = l_disable (s_logging s)
  /\ l_timelayout (s_logging s') = l_timelayout (s_logging s) /\ l_appenders (s_logging s') = l_appenders (s_logging s).
(** the same settings outside services *)
Definition same_settings (c c' : config) : Prop :=
  c_workdir c' = c_workdir c /\ c_runtime c' = c_runtime c /\ c_logging c' = c_logging c /\ c_logpath c' = c_logpath c
  /\ c_loglevel c' = c_loglevel c /\ c_tcp c' = c_tcp c /\ c_http c' = c_http c.
(** the same services but for their order and numbers *)
Definition same_services (c c' : config) : Prop :=
  exists l, Permutation (c_services c') l
  /\ Forall2 (fun e e' => fst e' = fst e /\ same_unnumbered (snd e) (snd e')) (c_services c) l.
(** the outputs of service number [n] (0: those of the program itself) *)
Definition outputs_of (l : list appender) (n : nat) : list appender := filter (fun a => a_service a =? n) l.
Definition same_outputs (l l' : list appender) : Prop :=
  Forall2 (fun a a' => a_renderer a' = a_renderer a /\ a_filter a' = a_filter a /\ a_sink a' = a_sink a) l l'.
(** each service, and the program itself, has the same outputs of log entries in the same order *)
Definition same_logs (c : config) (l : list appender) (c' : config) (l' : list appender) : Prop :=
  length l' = length l /\ same_outputs (outputs_of l 0) (outputs_of l' 0)
  /\ exists p, Permutation (c_services c') p
     /\ Forall2 (fun e e' => fst e' = fst e /\ same_unnumbered (snd e) (snd e')
                  /\ same_outputs (outputs_of l (s_idx (snd e))) (outputs_of l' (s_idx (snd e')))) (c_services c) p.
