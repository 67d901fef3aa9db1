(** The directories of log files, independently of the code. *)
From Verif Require Export M_Program S_Load S_LogPlace.

(** the directory of the log files of a section: the log directory for the root, for a service the
    subdirectory of its name *)
Definition log_dir (logpath : str) (s : logging_config) : str :=
  match l_service_name s with [] => logpath | name => logpath ++ [slash] ++ name end.
(** a section that logs to files *)
Definition logs_to_files (s : logging_config) : Prop :=
  l_disable s <> Some true /\ exists o equal daily n, In (FileCfg o equal daily n) (l_appenders s).
(** a file can be opened only in a directory that exists (open(2), ENOENT) *)
Definition needs_dirs (exists_dir : str -> bool) (e : log_env) : Prop :=
  forall d f, ~ In slash f -> can_open e (d ++ [slash] ++ f) = true -> exists_dir d = true.
(** in an existing directory files can be opened *)
Definition writes_in (exists_dir : str -> bool) (e : log_env) : Prop :=
  forall d f, ~ In slash f -> f <> [] -> exists_dir d = true -> can_open e (d ++ [slash] ++ f) = true.
(** the day can be told: today's midnight is known, or no file is rotated daily *)
Definition days_known (w : world) (c : config) : Prop :=
  midnight_known (e_log w) = true \/ forall s, In s (sections c) -> ~ rotates s.
