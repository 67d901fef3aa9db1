(** Model of how a configuration file becomes a configuration: the serde attributes of the records
    in src/config/*.rs, src/config/matchs.rs, and reading the main file and the service files in
    src/config/mod.rs:71-147.
    The TOML syntax is not modelled: a file is a tree of values.  Library behaviour (serde 1.0.197,
    toml 0.8.10 over toml_edit 0.22.6) is modelled from its documentation: a record is read from a
    table by the names and aliases of its fields, unknown keys being ignored, or from an array by
    position; an enum from a table with one entry, or from a string if the variant has no data; a
    date is given to a record's visitor as a table with one private key; the table of a variant with
    named fields must not have unknown keys; a missing field has the default of its type. *)
From Verif Require Export M_Config.

Inductive toml :=
| TStr (s : str) | TInt (n : Z) | TFloat (text : str) | TBool (b : bool) | TDate (text : str)
| TArr (l : list toml) | TTable (l : list (str * toml)).

(** What the model leaves open: Unicode (M_Units), whether arithmetic is checked (dev profile), and
    whether a table with several entries in the place of an enum is taken by its first entry. *)
Record reading := Reading { rd_unicode : unicode; rd_checked : bool; rd_first : bool }.

(** Deserialize: [Ret None] is an error, [Panic] a panic in a visitor *)
Definition de (A : Type) := toml -> outcome (option A).
Definition de_string : de str := fun t => Ret (match t with TStr s => Some s | _ => None end).
Definition de_bool : de bool := fun t => Ret (match t with TBool b => Some b | _ => None end).
Definition de_int (lo hi : Z) : de Z :=
  fun t => Ret (match t with
                | TInt n => if ((lo <=? n) && (n <=? hi))%Z then Some n else None
                | _ => None
                end).
Definition de_fmap {A B} (f : A -> B) (d : de A) : de B := fun t => x <- d t ;; Ret (option_map f x).
Definition de_u32 : de N := de_fmap Z.to_N (de_int 0 4294967295).
Definition de_i32 : de Z := de_int (-2147483648) 2147483647.
(** TOML has no null *)
Definition de_opt {A} (d : de A) : de (option A) := de_fmap Some d.
(** String, where the model has its bytes (its UTF-8 encoding) *)
Definition utf8_char (c : N) : bytes :=
  if (c <? 128)%N then [ascii_of_N c]
  else if (c <? 2048)%N then [ascii_of_N (192 + c / 64); ascii_of_N (128 + c mod 64)]
  else if (c <? 65536)%N then
    [ascii_of_N (224 + c / 4096); ascii_of_N (128 + c / 64 mod 64); ascii_of_N (128 + c mod 64)]
  else [ascii_of_N (240 + c / 262144); ascii_of_N (128 + c / 4096 mod 64);
        ascii_of_N (128 + c / 64 mod 64); ascii_of_N (128 + c mod 64)].
Definition utf8_bytes (s : str) : bytes := concat (map utf8_char s).
Definition de_bytes : de bytes := de_fmap utf8_bytes de_string.

(** Vec and HashMap<String, _> *)
Fixpoint de_all {A} (d : de A) (l : list toml) : outcome (option (list A)) :=
  match l with
  | [] => Ret (Some [])
  | t :: l' =>
      x <- d t ;;
      match x with
      | None => Ret None
      | Some a => y <- de_all d l' ;; Ret (option_map (cons a) y)
      end
  end.
Definition de_vec {A} (d : de A) : de (list A) :=
  fun t => match t with TArr l => de_all d l | _ => Ret None end.
Fixpoint de_entries {A} (d : de A) (l : list (str * toml)) : outcome (option (list (str * A))) :=
  match l with
  | [] => Ret (Some [])
  | (k, t) :: l' =>
      x <- d t ;;
      match x with
      | None => Ret None
      | Some a => y <- de_entries d l' ;; Ret (option_map (cons (k, a)) y)
      end
  end.
Definition private_key : str := chars "$__toml_private_datetime".
Definition de_table {A} (d : de A) : de (list (str * A)) :=
  fun t => match t with
           | TTable l => de_entries d l
           | TDate s => de_entries d [(private_key, TStr s)]
           | _ => Ret None
           end.

(** A field of a record [R]: its name and aliases, its type, how that is read and stored. *)
Record tfield (R : Type) := Field {
  fd_names : list string;
  fd_type : Type;
  fd_de : de fd_type;
  fd_put : fd_type -> R -> R
}.
Arguments Field {R} _ {fd_type} _ _.
Arguments fd_names {R} _.
Arguments fd_type {R} _.
Arguments fd_de {R} _.
Arguments fd_put {R} _.

Definition called {R} (k : str) (f : tfield R) : bool := is_one_of k (fd_names f).
Definition read_field {R} (f : tfield R) (t : toml) (r : R) : outcome (option R) :=
  x <- fd_de f t ;; Ret (option_map (fun a => fd_put f a r) x).

(** the derived visit_map: the entries in order, [seen] being the keys so far; a field that occurs
    twice is an error *)
Fixpoint visit_entries {R} (fields : list (tfield R)) (l : list (str * toml)) (seen : list str) (r : R)
    : outcome (option R) :=
  match l with
  | [] => Ret (Some r)
  | (k, t) :: l' =>
      match find (called k) fields with
      | None => visit_entries fields l' (k :: seen) r
      | Some f =>
          if existsb (fun k' => called k' f) seen then Ret None
          else
            x <- read_field f t r ;;
            match x with
            | None => Ret None
            | Some r' => visit_entries fields l' (k :: seen) r'
            end
      end
  end.
(** the derived visit_seq *)
Fixpoint visit_elements {R} (fields : list (tfield R)) (l : list toml) (r : R) : outcome (option R) :=
  match fields, l with
  | f :: fields', t :: l' =>
      x <- read_field f t r ;;
      match x with
      | None => Ret None
      | Some r' => visit_elements fields' l' r'
      end
  | _, _ => Ret (Some r)
  end.
(** [base] has the defaults of all fields *)
Definition de_struct {R} (fields : list (tfield R)) (base : R) : de R :=
  fun t => match t with
           | TTable l => visit_entries fields l [] base
           | TArr l => visit_elements fields l base
           | TDate s => visit_entries fields [(private_key, TStr s)] [] base
           | _ => Ret None
           end.
(** the named fields of a variant *)
Definition de_variant {R} (fields : list (tfield R)) (base : R) : de R :=
  fun t => if match t with
              | TTable l => forallb (fun e => existsb (called (fst e)) fields) l
              | _ => true
              end
           then de_struct fields base t else Ret None.

(** A variant: its name and aliases, its value if it has no data, how it is read from its data. *)
Record variant (E : Type) := Variant {
  va_names : list string;
  va_unit : option E;
  va_de : de E
}.
Arguments Variant {E} _ _ _.
Arguments va_names {E} _.
Arguments va_unit {E} _.
Arguments va_de {E} _.
(** the data of a variant without data: an empty array or table *)
Definition de_empty {E} (e : E) : de E :=
  fun t => Ret (match t with TArr [] | TTable [] => Some e | _ => None end).
Definition find_variant {E} (vs : list (variant E)) (k : str) : option (variant E) :=
  find (fun v => is_one_of k (va_names v)) vs.
Definition de_enum {E} (rd : reading) (vs : list (variant E)) : de E :=
  fun t => match t with
           | TStr s => Ret (match find_variant vs s with Some v => va_unit v | None => None end)
           | TTable ((k, t') :: rest) =>
               if negb (rd_first rd) && negb (match rest with [] => true | _ => false end) then Ret None
               else match find_variant vs k with Some v => va_de v t' | None => Ret None end
           | _ => Ret None
           end.

(** the fields of the variant File, src/config/logging.rs:18-30 *)
Record log_file := LogFile {
  lf_level : option str; lf_equal : option bool; lf_daily : bool; lf_bufsize : N
}.

Section Records.
Variable rd : reading.

(** src/config/bytes_size.rs:78-85, src/config/duration_in_millis.rs:92-99: the visitors know
    strings only *)
Definition de_size : de N :=
  fun t => match t with TStr s => size_string (rd_unicode rd) (rd_checked rd) s | _ => Ret None end.
Definition de_duration : de N :=
  fun t => match t with TStr s => duration_string (rd_unicode rd) (rd_checked rd) s | _ => Ret None end.

Local Open Scope string_scope.

(** src/config/http.rs:6-19 *)
Definition ws_fields : list (tfield ws_config) :=
  [Field ["max_frame_body_size"; "MaxFrameBodySize"] de_size
     (fun a r => WsConfig a (ws_max_message_body_size r) (ws_read_timeout r) (ws_compression r));
   Field ["max_message_body_size"; "MaxMessageBodySize"] de_size
     (fun a r => WsConfig (ws_max_frame_body_size r) a (ws_read_timeout r) (ws_compression r));
   Field ["read_timeout"; "ReadTimeout"] de_duration
     (fun a r => WsConfig (ws_max_frame_body_size r) (ws_max_message_body_size r) a (ws_compression r));
   Field ["compression"; "Compression"] (de_opt de_i32)
     (fun a r => WsConfig (ws_max_frame_body_size r) (ws_max_message_body_size r) (ws_read_timeout r) a)].
Definition ws_default : ws_config := WsConfig 0 0 0 None.
Definition de_ws : de ws_config := de_struct ws_fields ws_default.

(** src/config/http.rs:21-46 *)
Definition http_fields : list (tfield http_config) :=
  [Field ["keep_alive"; "KeepAlive"] (de_opt de_bool)
     (fun a r => HttpConfig a (h_idle_timeout r) (h_max_url_size r) (h_max_header_line_size r)
                   (h_max_headers_count r) (h_max_body_size r) (h_compression r) (h_websocket r));
   Field ["idle_timeout"; "IdleTimeout"] de_duration
     (fun a r => HttpConfig (h_keep_alive r) a (h_max_url_size r) (h_max_header_line_size r)
                   (h_max_headers_count r) (h_max_body_size r) (h_compression r) (h_websocket r));
   Field ["max_url_size"; "MaxUrlSize"] de_size
     (fun a r => HttpConfig (h_keep_alive r) (h_idle_timeout r) a (h_max_header_line_size r)
                   (h_max_headers_count r) (h_max_body_size r) (h_compression r) (h_websocket r));
   Field ["max_header_line_size"; "MaxHeaderLineSize"] de_size
     (fun a r => HttpConfig (h_keep_alive r) (h_idle_timeout r) (h_max_url_size r) a
                   (h_max_headers_count r) (h_max_body_size r) (h_compression r) (h_websocket r));
   Field ["max_headers_count"; "MaxHeadersCount"] de_u32
     (fun a r => HttpConfig (h_keep_alive r) (h_idle_timeout r) (h_max_url_size r) (h_max_header_line_size r)
                   a (h_max_body_size r) (h_compression r) (h_websocket r));
   Field ["max_body_size"; "MaxBodySize"] de_size
     (fun a r => HttpConfig (h_keep_alive r) (h_idle_timeout r) (h_max_url_size r) (h_max_header_line_size r)
                   (h_max_headers_count r) a (h_compression r) (h_websocket r));
   Field ["compression"; "Compression"] (de_opt de_i32)
     (fun a r => HttpConfig (h_keep_alive r) (h_idle_timeout r) (h_max_url_size r) (h_max_header_line_size r)
                   (h_max_headers_count r) (h_max_body_size r) a (h_websocket r));
   Field ["websocket"; "Websocket"; "ws"] (de_opt de_ws)
     (fun a r => HttpConfig (h_keep_alive r) (h_idle_timeout r) (h_max_url_size r) (h_max_header_line_size r)
                   (h_max_headers_count r) (h_max_body_size r) (h_compression r) a)].
Definition de_http : de http_config := de_struct http_fields http_default.

(** src/config/tls.rs:6-16 *)
Definition tls_fields : list (tfield tls_config) :=
  [Field ["cert"] de_bytes (fun a r => TlsConfig a (tls_key r) (tls_timeout r));
   Field ["key"] de_bytes (fun a r => TlsConfig (tls_cert r) a (tls_timeout r));
   Field ["timeout"] de_duration (fun a r => TlsConfig (tls_cert r) (tls_key r) a)].
Definition de_tls : de tls_config := de_struct tls_fields tls_default.

(** src/config/tcp.rs:7-23 *)
Definition tcp_fields : list (tfield tcp_config) :=
  [Field ["addr"; "address"; "Address"; "Addr"] de_bytes
     (fun a r => TcpConfig a (t_tls r) (t_read_buf r) (t_write_buf r) (t_buf r));
   Field ["tls"] de_tls
     (fun a r => TcpConfig (t_addr r) a (t_read_buf r) (t_write_buf r) (t_buf r));
   Field ["read_stream_buf_size"; "ReadStreamBufSize"] de_size
     (fun a r => TcpConfig (t_addr r) (t_tls r) a (t_write_buf r) (t_buf r));
   Field ["write_stream_buf_size"; "WriteStreamBufSize"] de_size
     (fun a r => TcpConfig (t_addr r) (t_tls r) (t_read_buf r) a (t_buf r));
   Field ["buf_size"; "BufSize"] de_size
     (fun a r => TcpConfig (t_addr r) (t_tls r) (t_read_buf r) (t_write_buf r) a)].
Definition de_tcp : de tcp_config := de_struct tcp_fields tcp_default.

(** src/config/runtime.rs:5-12 *)
Definition runtime_fields : list (tfield runtime_config) :=
  [Field ["worker_threads"; "WorkerThreads"] de_u32 (fun a r => RuntimeConfig a (rt_per_core r));
   Field ["per_core"; "PerCore"] (de_opt de_bool) (fun a r => RuntimeConfig (rt_worker_threads r) a)].
Definition de_runtime : de runtime_config := de_struct runtime_fields (RuntimeConfig 0 None).

(** src/config/logging.rs:9-31 *)
Definition console_fields : list (tfield (option str)) :=
  [Field ["level"; "Level"] (de_opt de_string) (fun a _ => a)].
Definition file_fields : list (tfield log_file) :=
  [Field ["level"; "Level"] (de_opt de_string)
     (fun a r => LogFile a (lf_equal r) (lf_daily r) (lf_bufsize r));
   Field ["equal"; "Equal"] (de_opt de_bool)
     (fun a r => LogFile (lf_level r) a (lf_daily r) (lf_bufsize r));
   Field ["daily"; "Daily"] de_bool
     (fun a r => LogFile (lf_level r) (lf_equal r) a (lf_bufsize r));
   Field ["bufsize"; "BufferSize"] de_size
     (fun a r => LogFile (lf_level r) (lf_equal r) (lf_daily r) a)].
Definition appender_variants : list (variant appender_cfg) :=
  [Variant ["Console"; "console"] None (de_fmap ConsoleCfg (de_variant console_fields None));
   Variant ["File"; "file"] None
     (de_fmap (fun r => FileCfg (lf_level r) (lf_equal r) (lf_daily r) (lf_bufsize r))
        (de_variant file_fields (LogFile None None false 0)))].
Definition de_appender : de appender_cfg := de_enum rd appender_variants.

(** src/config/logging.rs:41-57: missing appenders are an empty Vec; the Default of :59-69 is used
    when the whole section is missing *)
Definition logging_fields : list (tfield logging_config) :=
  [Field ["disable"; "Disable"] (de_opt de_bool)
     (fun a r => LoggingConfig (l_service_name r) (l_service_idx r) a (l_timelayout r) (l_appenders r));
   Field ["timelayout"; "TimeLayout"; "time_layout"] de_string
     (fun a r => LoggingConfig (l_service_name r) (l_service_idx r) (l_disable r) a (l_appenders r));
   Field ["appenders"; "Appender"] (de_vec de_appender)
     (fun a r => LoggingConfig (l_service_name r) (l_service_idx r) (l_disable r) (l_timelayout r) a)].
Definition de_logging : de logging_config := de_struct logging_fields (LoggingConfig [] 0 None [] []).

(** src/config/matchs.rs:80-112: every string is a match, and its text is not looked at.
    Conditions, static responses and rules are never used, so only whether they can be read is
    kept. *)
Definition de_match : de unit := fun t => Ret (match t with TStr _ => Some tt | _ => None end).
Definition unused {A} (d : de A) : de unit := de_fmap (fun _ => tt) d.
Definition aside {R} (names : list string) (d : de unit) : tfield R := Field names d (fun _ r => r).
(** src/config/service.rs:9-10 *)
Definition de_rewrite : de unit := de_struct [] tt.
(** src/config/service.rs:12-26 *)
Definition body_variants : list (variant unit) :=
  [Variant ["None"; "none"; "null"; "nil"] (Some tt) (de_empty tt);
   Variant ["Text"; "text"; "Txt"; "txt"] None (unused de_string);
   Variant ["File"; "file"] None (unused de_string)].
(** src/config/service.rs:28-41 *)
Definition response_fields : list (tfield unit) :=
  [aside ["code"; "Code"] (unused (de_opt de_u32));
   aside ["reason"; "Reason"] (unused (de_opt de_string));
   aside ["headers"; "Headers"] (unused (de_vec de_string));
   aside ["body"; "Body"] (de_enum rd body_variants)].
(** src/config/service.rs:52-59 (EarlyReturnPattern, :43-50, is not used) *)
Definition early_fields : list (tfield unit) :=
  [aside ["matchs"; "Matchs"] (unused (de_vec de_match));
   aside ["resp"; "Resp"; "response"; "Response"] (unused (de_opt (de_struct response_fields tt)))].
Definition de_early : de unit := unused (de_opt (de_struct early_fields tt)).
(** src/config/service.rs:61-71 *)
Definition rule_fields : list (tfield unit) :=
  [aside ["match"; "Match"] de_match;
   aside ["reqrewrites"; "ReqRewrites"; "req_rewrites"] (unused (de_opt de_rewrite));
   aside ["resprewrites"; "RespRewrites"; "resp_rewrites"] (unused (de_opt de_rewrite))].
Definition de_rule : de unit := de_struct rule_fields tt.

(** src/config/service.rs:73-120 *)
Definition early_names : list string := ["early"; "Early"; "filter"; "Filter"].
Definition hello_fields : list (tfield unit) := [aside early_names de_early].
Definition fs_fields : list (tfield str) :=
  [aside early_names de_early;
   Field ["root"; "Root"] de_string (fun a _ => a);
   aside ["rewrites"; "Rewrites"] (unused (de_table de_rewrite))].
Definition forward_fields : list (tfield unit) :=
  [aside early_names de_early;
   aside ["target_addr"; "target"; "Target"; "TargetAddress"] (unused de_string);
   aside ["rules"; "Rules"] (unused (de_table de_rule))].
Definition upstream_fields : list (tfield unit) :=
  [aside early_names de_early;
   aside ["target_addrs"; "targets"; "target_addresses"; "Targets"; "TargetAddrs"; "TargetAddresses"]
     (unused (de_vec de_string));
   aside ["rules"; "Rules"] (unused (de_vec de_rule))].
Definition kind_variants : list (variant service_kind) :=
  [Variant ["HelloWorld"; "helloworld"] None (de_fmap (fun _ => HelloService) (de_variant hello_fields tt));
   Variant ["FileSystem"; "fs"] None (de_fmap FileService (de_variant fs_fields []));
   Variant ["Forward"; "forward"] None (de_fmap (fun _ => ForwardService) (de_variant forward_fields tt));
   Variant ["Upstream"; "upstream"] None (de_fmap (fun _ => UpstreamService) (de_variant upstream_fields tt))].
Definition de_kind : de service_kind := de_enum rd kind_variants.

(** src/config/service.rs:160-185 *)
Definition service_fields : list (tfield service_config) :=
  [Field ["name"; "Name"] de_string
     (fun a r => ServiceConfig (s_idx r) a (s_host r) (s_kind r) (s_logging r) (s_tcp r) (s_http r));
   Field ["host"; "Host"] de_string
     (fun a r => ServiceConfig (s_idx r) (s_name r) a (s_kind r) (s_logging r) (s_tcp r) (s_http r));
   Field ["service"; "Service"] de_kind
     (fun a r => ServiceConfig (s_idx r) (s_name r) (s_host r) a (s_logging r) (s_tcp r) (s_http r));
   Field ["logging"; "Logging"; "Log"; "log"] de_logging
     (fun a r => ServiceConfig (s_idx r) (s_name r) (s_host r) (s_kind r) a (s_tcp r) (s_http r));
   Field ["tcp"; "Tcp"] de_tcp
     (fun a r => ServiceConfig (s_idx r) (s_name r) (s_host r) (s_kind r) (s_logging r) a (s_http r));
   Field ["http"; "Http"] de_http
     (fun a r => ServiceConfig (s_idx r) (s_name r) (s_host r) (s_kind r) (s_logging r) (s_tcp r) a)].
Definition de_service : de service_config := de_struct service_fields service_default.

(** src/config/mod.rs:34-68 *)
Definition config_fields : list (tfield config) :=
  [Field ["workdir"; "Workdir"] de_string
     (fun a r => Config a (c_runtime r) (c_logging r) (c_logpath r) (c_loglevel r) (c_tcp r) (c_http r)
                   (c_include r) (c_includes r) (c_services r) (c_slab r));
   Field ["runtime"; "Runtime"] de_runtime
     (fun a r => Config (c_workdir r) a (c_logging r) (c_logpath r) (c_loglevel r) (c_tcp r) (c_http r)
                   (c_include r) (c_includes r) (c_services r) (c_slab r));
   Field ["logging"; "Logging"; "Log"; "log"] de_logging
     (fun a r => Config (c_workdir r) (c_runtime r) a (c_logpath r) (c_loglevel r) (c_tcp r) (c_http r)
                   (c_include r) (c_includes r) (c_services r) (c_slab r));
   Field ["logpath"; "LogPath"; "log_path"] de_string
     (fun a r => Config (c_workdir r) (c_runtime r) (c_logging r) a (c_loglevel r) (c_tcp r) (c_http r)
                   (c_include r) (c_includes r) (c_services r) (c_slab r));
   Field ["loglevel"; "LogLevel"; "log_level"] (de_opt de_string)
     (fun a r => Config (c_workdir r) (c_runtime r) (c_logging r) (c_logpath r) a (c_tcp r) (c_http r)
                   (c_include r) (c_includes r) (c_services r) (c_slab r));
   Field ["tcp"; "Tcp"] de_tcp
     (fun a r => Config (c_workdir r) (c_runtime r) (c_logging r) (c_logpath r) (c_loglevel r) a (c_http r)
                   (c_include r) (c_includes r) (c_services r) (c_slab r));
   Field ["http"; "Http"] de_http
     (fun a r => Config (c_workdir r) (c_runtime r) (c_logging r) (c_logpath r) (c_loglevel r) (c_tcp r) a
                   (c_include r) (c_includes r) (c_services r) (c_slab r));
   Field ["include"; "Include"] de_string
     (fun a r => Config (c_workdir r) (c_runtime r) (c_logging r) (c_logpath r) (c_loglevel r) (c_tcp r) (c_http r)
                   a (c_includes r) (c_services r) (c_slab r));
   Field ["includes"; "Includes"] (de_vec de_string)
     (fun a r => Config (c_workdir r) (c_runtime r) (c_logging r) (c_logpath r) (c_loglevel r) (c_tcp r) (c_http r)
                   (c_include r) a (c_services r) (c_slab r));
   Field ["services"; "Services"] (de_table de_service)
     (fun a r => Config (c_workdir r) (c_runtime r) (c_logging r) (c_logpath r) (c_loglevel r) (c_tcp r) (c_http r)
                   (c_include r) (c_includes r) a (c_slab r))].
Definition de_config : de config := de_struct config_fields config_default.

(** ** Loading from files *)

(** A path matched by a pattern: [d_tree] is None if it cannot be read or is not TOML. *)
Record file_match := FileMatch { d_path : str; d_is_file : bool; d_tree : option toml }.
(** The files: as [world] (M_Config), before they are read as configurations. *)
Record disk := Disk {
  z_file : str -> option toml;
  z_chdir : str -> bool;
  z_glob : str -> option (list (option file_match));
  z_exists : str -> bool;
  z_order : list (str * service_config) -> list (str * service_config);
  z_log : log_env
}.
Definition tree_as {A} (d : de A) (o : option toml) : option A :=
  match o with Some t => match d t with Ret x => x | _ => None end | None => None end.
Definition matched_of (m : file_match) : matched :=
  Matched (d_path m) (d_is_file m) (tree_as de_service (d_tree m)).
Definition world_of (z : disk) : world :=
  World (fun fp => tree_as de_config (z_file z fp)) (z_chdir z)
    (fun p => option_map (map (option_map matched_of)) (z_glob z p))
    (z_exists z) (z_order z) (z_log z).

(** reading a value panics *)
Definition panics {A} (o : outcome A) : bool := match o with Panic => true | _ => false end.
(** src/config/mod.rs:75-92: the entry is read, and that panics *)
Definition entry_panics (e : option file_match) : bool :=
  match e with
  | None => false
  | Some m =>
      match file_name (d_path m), d_tree m with
      | Some base, Some t =>
          d_is_file m && negb (match base with c :: _ => (c =? dot)%N | [] => false end)
          && panics (de_service t)
      | _, _ => false
      end
  end.
(** src/config/mod.rs:71-119 *)
Fixpoint read_all (services : list (str * service_config)) (entries : list (option file_match))
    : outcome (option (list (str * service_config))) :=
  match entries with
  | [] => Ret (Some services)
  | e :: es =>
      if entry_panics e then Panic
      else match include_one services (option_map matched_of e) with
           | None => Ret None
           | Some services' => read_all services' es
           end
  end.
Fixpoint read_patterns (z : disk) (services : list (str * service_config)) (ps : list str)
    : outcome (option (list (str * service_config))) :=
  match ps with
  | [] => Ret (Some services)
  | p :: ps' =>
      match z_glob z p with
      | None => Ret None
      | Some entries =>
          x <- read_all services entries ;;
          match x with
          | None => Ret None
          | Some services' => read_patterns z services' ps'
          end
      end
  end.
(** src/config/mod.rs:121-147; the pattern of [include] comes before those of [includes] *)
Definition read_config (z : disk) (fp : str) : outcome (option config) :=
  match z_file z fp with
  | None => Ret None
  | Some t =>
      x <- de_config t ;;
      match x with
      | None => Ret None
      | Some c =>
          if match c_workdir c with [] => false | d => negb (z_chdir z d) end then Ret None
          else
            y <- read_patterns z (c_services c)
                   (match c_include c with [] => [] | p => [p] end ++ c_includes c) ;;
            match y with
            | None => Ret None
            | Some services =>
                Ret (config_autofix (world_of z)
                       (set_services c (match services with
                                        | [] => [(chars "helloworld", hello_service)]
                                        | l => l
                                        end)))
            end
      end
  end.
(** src/main.rs:47-65, release profile *)
Definition read_program (z : disk) (arg : str) : outcome (option config) :=
  match trim_str arg with
  | [] => Ret (config_autofix (world_of z) config_default)
  | _ => read_config z arg
  end.

End Records.
