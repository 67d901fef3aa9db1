(** Where the appenders of a logging section write, independently of the code. *)
From Verif Require Export S_Log.

(** the name of a level in file names *)
Definition capitals (l : level) : string :=
  match l with Error => "ERROR" | Warn => "WARN" | Info => "INFO" | Debug => "DEBUG" | Trace => "TRACE" end.

(** a log file in the log directory: a service has a subdirectory of its own name, the root's
    files (no name) are marked "httpd." *)
Definition in_place (logpath name : str) (file : str) : str :=
  match name with
  | [] => logpath ++ chars "/httpd." ++ file
  | _ => logpath ++ chars "/" ++ name ++ chars "/" ++ file
  end.

(** one of these appender settings asks for a file of this level *)
Definition taken (before : list appender_cfg) (l : level) : Prop :=
  exists o equal daily n, In (FileCfg o equal daily n) before /\ asks_for o l.

(** the file of level [l] asked for after the settings [before]: named after the level, and
    numbered with its position if the plain name is taken *)
Definition log_file (logpath name : str) (before : list appender_cfg) (l : level) (path : str) : Prop :=
  (~ taken before l /\ path = in_place logpath name (chars (capitals l) ++ chars ".log"))
  \/ (taken before l
      /\ path = in_place logpath name (chars (capitals l) ++ chars "." ++ dec_str (length before) ++ chars ".log")).

(** what the appender created for a setting writes to, after the settings [before] *)
Definition laid_out (logpath name : str) (before : list appender_cfg) (cfg : appender_cfg) (a : appender) : Prop :=
  match cfg with
  | ConsoleCfg _ => a_sink a = Stdout
  | FileCfg o _ daily n => exists l path, asks_for o l /\ log_file logpath name before l path
      /\ a_sink a = (if daily then Daily path n else Plain path n)
  end.

(** the appenders of a section, one for each setting, in order *)
Definition section_laid_out (logpath : str) (s : logging_config) (p : list appender) : Prop :=
  match l_disable s with
  | Some true => p = []
  | _ => length p = length (l_appenders s)
         /\ forall i cfg, nth_error (l_appenders s) i = Some cfg -> exists a, nth_error p i = Some a
            /\ laid_out logpath (l_service_name s) (firstn i (l_appenders s)) cfg a
  end.

(** the files a section asks for *)
Definition asked_for (logpath : str) (s : logging_config) (path : str) : Prop :=
  l_disable s <> Some true
  /\ exists i o equal daily n l, nth_error (l_appenders s) i = Some (FileCfg o equal daily n) /\ asks_for o l
     /\ log_file logpath (l_service_name s) (firstn i (l_appenders s)) l path.
(** a section that asks for a file rotated daily *)
Definition rotates (s : logging_config) : Prop :=
  l_disable s <> Some true /\ exists o equal n, In (FileCfg o equal true n) (l_appenders s).
