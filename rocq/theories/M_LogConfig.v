(** Model of src/config/logging.rs: levels, appender settings, filters and the creation of a
    section's appenders.  Strings are lists of code points. *)
From Verif Require Export M_Paths M_Settings.

(** log::Level (crate log), ordered Error < Warn < Info < Debug < Trace *)
Inductive level := Error | Warn | Info | Debug | Trace.
Definition level_num (l : level) : N :=
  match l with Error => 1 | Warn => 2 | Info => 3 | Debug => 4 | Trace => 5 end.
Definition level_leb (a b : level) : bool := (level_num a <=? level_num b)%N.
Definition level_eqb (a b : level) : bool := (level_num a =? level_num b)%N.
(** Level::as_str and Display *)
Definition level_str (l : level) : str :=
  chars (match l with Error => "ERROR" | Warn => "WARN" | Info => "INFO" | Debug => "DEBUG"
         | Trace => "TRACE" end)%string.

(** str::eq_ignore_ascii_case on code points *)
Definition ascii_lower (c : N) : N := if in_range 65 90 c then (c + 32)%N else c.
Definition eq_nocase (a b : str) : bool := chars_eqb (map ascii_lower a) (map ascii_lower b).

(** log::Level::from_str: the position among OFF, ERROR, ..., TRACE, without OFF *)
Definition level_names : list string := ["OFF"; "ERROR"; "WARN"; "INFO"; "DEBUG"; "TRACE"]%string.
Definition level_from_str (s : str) : option level :=
  match position (fun n => eq_nocase (chars n) s) level_names with
  | Some 1 => Some Error
  | Some 2 => Some Warn
  | Some 3 => Some Info
  | Some 4 => Some Debug
  | Some 5 => Some Trace
  | _ => None
  end.
Definition unwrap_or {A} (o : option A) (d : A) : A := match o with Some a => a | None => d end.

(** src/config/logging.rs:107-109, 127-129: level.unwrap_or("trace"), from_str, unwrap_or(Trace) *)
Definition level_of (o : option str) : level :=
  unwrap_or (level_from_str (unwrap_or o (chars "trace"))) Trace.

(** src/config/logging.rs:9-31 *)
Inductive appender_cfg :=
| ConsoleCfg (lv : option str)
| FileCfg (lv : option str) (equal : option bool) (daily : bool) (bufsize : N).
(** src/config/logging.rs:33-39 *)
Definition appender_default : appender_cfg := ConsoleCfg (Some (chars "trace")).

(** src/config/logging.rs:41-57 *)
Record logging_config := LoggingConfig {
  l_service_name : str;
  l_service_idx : nat;
  l_disable : option bool;
  l_timelayout : str;
  l_appenders : list appender_cfg
}.
(** src/config/logging.rs:59-69 *)
Definition logging_default : logging_config := LoggingConfig [] 0 None [] [appender_default].

(** src/config/logging.rs:71-85 *)
Record filter_cfg := FilterConfig { f_level : level; f_level_equal : bool }.
Definition filter_accepts (f : filter_cfg) (item_level : level) : bool :=
  if f_level_equal f then level_eqb item_level (f_level f) else level_leb item_level (f_level f).

(** src/config/logging.rs:88-92 *)
Definition logging_autofix (l : logging_config) (name : str) (idx : nat) : logging_config :=
  LoggingConfig name idx (l_disable l) (l_timelayout l) (l_appenders l).

(** where an appender writes: standard output (src/logging/console_appender.rs), a file
    (src/logging/file_appender.rs) or a file rotated daily (rotation_file_appender.rs) *)
Inductive sink := Stdout | Plain (path : str) (bufsize : N) | Daily (path : str) (bufsize : N).
(** Box<dyn Appender>: what the trait methods service(), renderer() and filter() return *)
Record appender := Appender {
  a_service : nat;
  a_renderer : str;
  a_filter : filter_cfg;
  a_sink : sink
}.

(** Display of usize, as code points *)
Definition dec_str (n : nat) : str := map code (dec (N.of_nat n)).

(** src/config/logging.rs:132-147: the path of a file appender *)
Definition log_path (logpath name : str) (lv : level) : str :=
  match name with
  | [] => logpath ++ chars "/httpd." ++ level_str lv ++ chars ".log"
  | _ => logpath ++ chars "/" ++ name ++ chars "/" ++ level_str lv ++ chars ".log"
  end.
Definition log_path_idx (logpath name : str) (lv : level) (idx : nat) : str :=
  match name with
  | [] => logpath ++ chars "/httpd." ++ level_str lv ++ chars "." ++ dec_str idx ++ chars ".log"
  | _ => logpath ++ chars "/" ++ name ++ chars "/" ++ level_str lv ++ chars "." ++ dec_str idx
         ++ chars ".log"
  end.

(** What creating file appenders asks of the system: whether a file can be opened for appending
    (src/logging/file_appender.rs:41-43) and whether the local midnight of today exists and is
    unique (the unwrap in rotation_file_appender.rs:114, reached from :91). *)
Record log_env := LogEnv { can_open : str -> bool; midnight_known : bool }.

(** src/config/logging.rs:94-176.  The loop over the appenders; [fps] is the set of paths used.
    Ret None is an error. *)
Fixpoint init_appenders (e : log_env) (logpath name : str) (service : nat)
    (cfgs : list appender_cfg) (idx : nat) (fps : list str) : outcome (option (list appender)) :=
  match cfgs with
  | [] => Ret (Some [])
  | ConsoleCfg lv :: rest =>
      let a := Appender service (chars "colored") (FilterConfig (level_of lv) false) Stdout in
      r <- init_appenders e logpath name service rest (S idx) fps ;;
      Ret (option_map (cons a) r)
  | FileCfg lv equal daily bufsize :: rest =>
      let level := level_of lv in
      let path0 := log_path logpath name level in
      let path := if existsb (chars_eqb path0) fps then log_path_idx logpath name level idx
                  else path0 in
      let f := FilterConfig level (unwrap_or equal false) in
      if negb (can_open e path) then Ret None
      else if daily && negb (midnight_known e) then Panic
      else if daily && is_none (log_name path) then Ret None
      else
        let a := Appender service (chars "json") f
                   (if daily then Daily path bufsize else Plain path bufsize) in
        r <- init_appenders e logpath name service rest (S idx) (path :: fps) ;;
        Ret (option_map (cons a) r)
  end.
(** Ret (Some None): disabled *)
Definition logging_init (e : log_env) (l : logging_config) (logpath : str)
    : outcome (option (option (list appender))) :=
  match l_disable l with
  | Some true => Ret (Some None)
  | _ =>
      r <- init_appenders e logpath (l_service_name l) (l_service_idx l) (l_appenders l) 0 [] ;;
      Ret (option_map Some r)
  end.
