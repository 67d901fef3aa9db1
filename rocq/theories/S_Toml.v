(** What a configuration file says, independently of how it is read. *)
From Verif Require Export M_Toml S_Load.
From Verif Require S_Text.
Local Open Scope string_scope.
Local Open Scope list_scope.

(** ** Single values *)
Definition says_text (t : toml) (s : str) : Prop := t = TStr s.
Definition says_bytes (t : toml) (b : bytes) : Prop := exists s, t = TStr s /\ b = S_Text.utf8 s.
Definition says_flag (t : toml) (b : bool) : Prop := t = TBool b.
Definition says_int (lo hi : Z) (t : toml) (n : Z) : Prop := t = TInt n /\ (lo <= n <= hi)%Z.
Definition says_count (t : toml) (n : N) : Prop := t = TInt (Z.of_N n) /\ (n < 2 ^ 32)%N.
(** a text of numbers with units (C35-C40), empty meaning zero; sums that are too large wrap (C37) *)
Definition says_amount (table : list (string * N)) (t : toml) (v : N) : Prop :=
  exists s, t = TStr s
  /\ (s = [] /\ v = 0%N \/ exists vs, accepted table s vs /\ v = (sum vs mod 2 ^ 64)%N).
Definition says_size := says_amount coded_table.
Definition says_duration := says_amount duration_table.

Definition says_some {A} (says : toml -> A -> Prop) (t : toml) (o : option A) : Prop :=
  exists a, o = Some a /\ says t a.
Definition says_list {A} (says : toml -> A -> Prop) (t : toml) (l : list A) : Prop :=
  exists ts, t = TArr ts /\ Forall2 says ts l.
Definition says_map {A} (says : toml -> A -> Prop) (t : toml) (l : list (str * A)) : Prop :=
  exists es, t = TTable es /\ Forall2 (fun e x => fst e = fst x /\ says (snd e) (snd x)) es l.

(** ** Records *)

(** A setting: the names it can be given under, what a value says, and what it is if not given. *)
Record setting (R : Type) := Setting {
  st_names : list string;
  st_type : Type;
  st_says : toml -> st_type -> Prop;
  st_default : st_type;
  st_get : R -> st_type
}.
Arguments Setting {R} _ {st_type} _ _ _.
Arguments st_names {R} _.
Arguments st_type {R} _.
Arguments st_says {R} _.
Arguments st_default {R} _.
Arguments st_get {R} _.

Definition one_of (names : list string) (k : str) : Prop := exists n, In n names /\ k = chars n.
Definition none_of (names : list string) (l : list (str * toml)) : Prop :=
  forall e, In e l -> ~ one_of names (fst e).

(** in a table every setting is absent or given once, under one of its names; in an array the
    settings come in order *)
Definition said {R} (l : list (str * toml)) (r : R) (s : setting R) : Prop :=
  none_of (st_names s) l /\ st_get s r = st_default s
  \/ exists l1 k t l2, l = l1 ++ (k, t) :: l2 /\ one_of (st_names s) k /\ none_of (st_names s) (l1 ++ l2)
     /\ st_says s t (st_get s r).
Fixpoint said_in_order {R} (ss : list (setting R)) (l : list toml) (r : R) : Prop :=
  match ss, l with
  | [], _ => True
  | s :: ss', [] => st_get s r = st_default s /\ said_in_order ss' [] r
  | s :: ss', t :: l' => st_says s t (st_get s r) /\ said_in_order ss' l' r
  end.
Definition says_record {R} (ss : list (setting R)) (t : toml) (r : R) : Prop :=
  match t with
  | TTable l => Forall (said l r) ss
  | TArr l => said_in_order ss l r
  | TDate _ => Forall (fun s => st_get s r = st_default s) ss
  | _ => False
  end.
(** ... with no other keys *)
Definition only_known {R} (ss : list (setting R)) (t : toml) : Prop :=
  forall l, t = TTable l -> forall e, In e l -> exists s, In s ss /\ one_of (st_names s) (fst e).
Definition says_only {R} (ss : list (setting R)) (t : toml) (r : R) : Prop :=
  only_known ss t /\ says_record ss t r.

(** a choice: the names of a case and what its data says *)
Definition says_case {E} (first : bool) (cases : list (list string * (toml -> E -> Prop))) (t : toml) (e : E)
    : Prop :=
  exists k data rest names says, t = TTable ((k, data) :: rest) /\ (rest = [] \/ first = true)
  /\ In (names, says) cases /\ one_of names k /\ says data e.

Section Settings.
Variable first : bool.

Definition ws_settings : list (setting ws_config) :=
  [Setting ["max_frame_body_size"; "MaxFrameBodySize"] says_size 0%N ws_max_frame_body_size;
   Setting ["max_message_body_size"; "MaxMessageBodySize"] says_size 0%N ws_max_message_body_size;
   Setting ["read_timeout"; "ReadTimeout"] says_duration 0%N ws_read_timeout;
   Setting ["compression"; "Compression"] (says_some (says_int (- 2 ^ 31) (2 ^ 31 - 1))) None ws_compression].
Definition http_settings : list (setting http_config) :=
  [Setting ["keep_alive"; "KeepAlive"] (says_some says_flag) None h_keep_alive;
   Setting ["idle_timeout"; "IdleTimeout"] says_duration 0%N h_idle_timeout;
   Setting ["max_url_size"; "MaxUrlSize"] says_size 0%N h_max_url_size;
   Setting ["max_header_line_size"; "MaxHeaderLineSize"] says_size 0%N h_max_header_line_size;
   Setting ["max_headers_count"; "MaxHeadersCount"] says_count 0%N h_max_headers_count;
   Setting ["max_body_size"; "MaxBodySize"] says_size 0%N h_max_body_size;
   Setting ["compression"; "Compression"] (says_some (says_int (- 2 ^ 31) (2 ^ 31 - 1))) None h_compression;
   Setting ["websocket"; "Websocket"; "ws"] (says_some (says_record ws_settings)) None h_websocket].
Definition tls_settings : list (setting tls_config) :=
  [Setting ["cert"] says_bytes [] tls_cert;
   Setting ["key"] says_bytes [] tls_key;
   Setting ["timeout"] says_duration 0%N tls_timeout].
Definition tcp_settings : list (setting tcp_config) :=
  [Setting ["addr"; "address"; "Address"; "Addr"] says_bytes [] t_addr;
   Setting ["tls"] (says_record tls_settings) (TlsConfig [] [] 0) t_tls;
   Setting ["read_stream_buf_size"; "ReadStreamBufSize"] says_size 0%N t_read_buf;
   Setting ["write_stream_buf_size"; "WriteStreamBufSize"] says_size 0%N t_write_buf;
   Setting ["buf_size"; "BufSize"] says_size 0%N t_buf].
Definition runtime_settings : list (setting runtime_config) :=
  [Setting ["worker_threads"; "WorkerThreads"] says_count 0%N rt_worker_threads;
   Setting ["per_core"; "PerCore"] (says_some says_flag) None rt_per_core].

(** the two kinds of log output *)
Definition console_settings : list (setting (option str)) :=
  [Setting ["level"; "Level"] (says_some says_text) None (fun r => r)].
Definition log_file_settings : list (setting log_file) :=
  [Setting ["level"; "Level"] (says_some says_text) None lf_level;
   Setting ["equal"; "Equal"] (says_some says_flag) None lf_equal;
   Setting ["daily"; "Daily"] says_flag false lf_daily;
   Setting ["bufsize"; "BufferSize"] says_size 0%N lf_bufsize].
Definition says_appender : toml -> appender_cfg -> Prop :=
  says_case first
    [(["Console"; "console"], fun t a => exists l, says_only console_settings t l /\ a = ConsoleCfg l);
     (["File"; "file"], fun t a => exists f, says_only log_file_settings t f
        /\ a = FileCfg (lf_level f) (lf_equal f) (lf_daily f) (lf_bufsize f))].
(** a logging section that does not list outputs has none *)
Definition logging_settings : list (setting logging_config) :=
  [Setting ["disable"; "Disable"] (says_some says_flag) None l_disable;
   Setting ["timelayout"; "TimeLayout"; "time_layout"] says_text [] l_timelayout;
   Setting ["appenders"; "Appender"] (says_list says_appender) [] l_appenders].
Definition says_logging (t : toml) (l : logging_config) : Prop :=
  says_record logging_settings t l /\ l_service_name l = [] /\ l_service_idx l = 0.
(** no logging section: one output, the console *)
Definition console_only : logging_config := LoggingConfig [] 0 None [] [ConsoleCfg (Some (chars "trace"))].

(** Conditions, static responses and rules: well-formed or not, without further meaning. *)
Definition unread {R} (names : list string) (well_formed : toml -> Prop) : setting R :=
  Setting names (fun t (_ : unit) => well_formed t) tt (fun _ => tt).
Definition is_text (t : toml) : Prop := exists s, t = TStr s.
Definition is_list (P : toml -> Prop) (t : toml) : Prop := exists ts, t = TArr ts /\ Forall P ts.
Definition is_map (P : toml -> Prop) (t : toml) : Prop :=
  exists es, t = TTable es /\ Forall (fun e => P (snd e)) es.
Definition is_record (ss : list (setting unit)) (t : toml) : Prop := says_record ss t tt.
Definition is_body (t : toml) : Prop :=
  (exists s, t = TStr s /\ one_of ["None"; "none"; "null"; "nil"] s)
  \/ says_case first
       [(["None"; "none"; "null"; "nil"], fun t (_ : unit) => t = TArr [] \/ t = TTable []);
        (["Text"; "text"; "Txt"; "txt"], fun t _ => is_text t);
        (["File"; "file"], fun t _ => is_text t)] t tt.
Definition is_response : toml -> Prop :=
  is_record
    [unread ["code"; "Code"] (fun t => exists n, says_count t n);
     unread ["reason"; "Reason"] is_text;
     unread ["headers"; "Headers"] (is_list is_text);
     unread ["body"; "Body"] is_body].
Definition is_early : toml -> Prop :=
  is_record [unread ["matchs"; "Matchs"] (is_list is_text);
             unread ["resp"; "Resp"; "response"; "Response"] is_response].
Definition is_rewrite : toml -> Prop := is_record [].
Definition is_rule : toml -> Prop :=
  is_record [unread ["match"; "Match"] is_text;
             unread ["reqrewrites"; "ReqRewrites"; "req_rewrites"] is_rewrite;
             unread ["resprewrites"; "RespRewrites"; "resp_rewrites"] is_rewrite].

(** the kinds of service *)
Definition early_setting {R} : setting R := unread ["early"; "Early"; "filter"; "Filter"] is_early.
Definition hello_settings : list (setting unit) := [early_setting].
Definition fs_settings : list (setting str) :=
  [early_setting; Setting ["root"; "Root"] says_text [] (fun r => r);
   unread ["rewrites"; "Rewrites"] (is_map is_rewrite)].
Definition forward_settings : list (setting unit) :=
  [early_setting; unread ["target_addr"; "target"; "Target"; "TargetAddress"] is_text;
   unread ["rules"; "Rules"] (is_map is_rule)].
Definition upstream_settings : list (setting unit) :=
  [early_setting;
   unread ["target_addrs"; "targets"; "target_addresses"; "Targets"; "TargetAddrs"; "TargetAddresses"]
     (is_list is_text);
   unread ["rules"; "Rules"] (is_list is_rule)].
Definition says_kind : toml -> service_kind -> Prop :=
  says_case first
    [(["HelloWorld"; "helloworld"], fun t k => says_only hello_settings t tt /\ k = HelloService);
     (["FileSystem"; "fs"], fun t k => exists root, says_only fs_settings t root /\ k = FileService root);
     (["Forward"; "forward"], fun t k => says_only forward_settings t tt /\ k = ForwardService);
     (["Upstream"; "upstream"], fun t k => says_only upstream_settings t tt /\ k = UpstreamService)].

Definition service_settings : list (setting service_config) :=
  [Setting ["name"; "Name"] says_text [] s_name;
   Setting ["host"; "Host"] says_text [] s_host;
   Setting ["service"; "Service"] says_kind HelloService s_kind;
   Setting ["logging"; "Logging"; "Log"; "log"] says_logging console_only s_logging;
   Setting ["tcp"; "Tcp"] (says_record tcp_settings) (TcpConfig [] (TlsConfig [] [] 0) 0 0 0) s_tcp;
   Setting ["http"; "Http"] (says_record http_settings) (HttpConfig None 0 0 0 0 0 None None) s_http].
Definition says_service (t : toml) (s : service_config) : Prop :=
  says_record service_settings t s /\ s_idx s = 0.

Definition config_settings : list (setting config) :=
  [Setting ["workdir"; "Workdir"] says_text [] c_workdir;
   Setting ["runtime"; "Runtime"] (says_record runtime_settings) (RuntimeConfig 0 None) c_runtime;
   Setting ["logging"; "Logging"; "Log"; "log"] says_logging console_only c_logging;
   Setting ["logpath"; "LogPath"; "log_path"] says_text [] c_logpath;
   Setting ["loglevel"; "LogLevel"; "log_level"] (says_some says_text) None c_loglevel;
   Setting ["tcp"; "Tcp"] (says_record tcp_settings) (TcpConfig [] (TlsConfig [] [] 0) 0 0 0) c_tcp;
   Setting ["http"; "Http"] (says_record http_settings) (HttpConfig None 0 0 0 0 0 None None) c_http;
   Setting ["include"; "Include"] says_text [] c_include;
   Setting ["includes"; "Includes"] (says_list says_text) [] c_includes;
   Setting ["services"; "Services"] (says_map says_service) [] c_services].
Definition says_config (t : toml) (c : config) : Prop :=
  says_record config_settings t c /\ c_slab c = [].
End Settings.

(** the release profile, and Unicode as far as it matters *)
Definition release (rd : reading) : Prop := rd_checked rd = false /\ unicode_ok (rd_unicode rd).

(** ** Texts that crash *)
Inductive holds_text : toml -> str -> Prop :=
| text_here s : holds_text (TStr s) s
| text_in_array l t s : In t l -> holds_text t s -> holds_text (TArr l) s
| text_in_table l e s : In e l -> holds_text (snd e) s -> holds_text (TTable l) s.
(** an amount that does not start with a number (C38) *)
Definition crashing (u : unicode) (s : str) : Prop :=
  exists c t, unspaced s = c :: t /\ is_numeric u c = false.

(** where the main file has amounts, by the names on the way (services and log outputs left out) *)
Definition amount_places : list (list (list string)) :=
  map (cons ["http"; "Http"])
    ([[["idle_timeout"; "IdleTimeout"]]; [["max_url_size"; "MaxUrlSize"]];
      [["max_header_line_size"; "MaxHeaderLineSize"]]; [["max_body_size"; "MaxBodySize"]]]
     ++ map (cons ["websocket"; "Websocket"; "ws"])
          [[["max_frame_body_size"; "MaxFrameBodySize"]]; [["max_message_body_size"; "MaxMessageBodySize"]];
           [["read_timeout"; "ReadTimeout"]]])
  ++ map (cons ["tcp"; "Tcp"])
       [[["read_stream_buf_size"; "ReadStreamBufSize"]]; [["write_stream_buf_size"; "WriteStreamBufSize"]];
        [["buf_size"; "BufSize"]]; [["tls"]; ["timeout"]]].
Definition nested (ks : list str) (t : toml) : toml := fold_right (fun k t => TTable [(k, t)]) t ks.

(** ** Settings nobody knows *)
Inductive section := SMain | SService | SHttp | SWebsocket | STcp | STls | SRuntime | SLogging.
Definition names_of {R} (ss : list (setting R)) : list string := concat (map st_names ss).
Definition known (first : bool) (sec : section) : list string :=
  match sec with
  | SMain => names_of (config_settings first)
  | SService => names_of (service_settings first)
  | SHttp => names_of http_settings
  | SWebsocket => names_of ws_settings
  | STcp => names_of tcp_settings
  | STls => names_of tls_settings
  | SRuntime => names_of runtime_settings
  | SLogging => names_of (logging_settings first)
  end.
(** the sections within a section *)
Definition within (sec : section) : list (list string * section) :=
  let common := [(["logging"; "Logging"; "Log"; "log"], SLogging); (["tcp"; "Tcp"], STcp); (["http"; "Http"], SHttp)] in
  match sec with
  | SMain => (["runtime"; "Runtime"], SRuntime) :: common
  | SService => common
  | SHttp => [(["websocket"; "Websocket"; "ws"], SWebsocket)]
  | STcp => [(["tls"], STls)]
  | _ => []
  end.
(** [t'] is [t] with a setting added under a name that is not known there *)
Inductive adds_unknown (first : bool) : section -> toml -> toml -> Prop :=
| adds_here sec l1 k v l2 : ~ one_of (known first sec) k ->
    adds_unknown first sec (TTable (l1 ++ l2)) (TTable (l1 ++ (k, v) :: l2))
| adds_within sec names sub l1 k t t' l2 : In (names, sub) (within sec) -> one_of names k -> adds_unknown first sub t t' ->
    adds_unknown first sec (TTable (l1 ++ (k, t) :: l2)) (TTable (l1 ++ (k, t') :: l2))
| adds_in_service l1 k e1 n t t' e2 l2 : one_of ["services"; "Services"] k -> adds_unknown first SService t t' ->
    adds_unknown first SMain (TTable (l1 ++ (k, TTable (e1 ++ (n, t) :: e2)) :: l2))
      (TTable (l1 ++ (k, TTable (e1 ++ (n, t') :: e2)) :: l2)).

(** ** Files *)
(** TOML does not allow a key twice *)
Inductive keys_once : toml -> Prop :=
| once_table l : NoDup (map fst l) -> (forall e, In e l -> keys_once (snd e)) -> keys_once (TTable l)
| once_array l : (forall t, In t l -> keys_once t) -> keys_once (TArr l)
| once_other t : match t with TTable _ | TArr _ => False | _ => True end -> keys_once t.
Definition files_ok (z : disk) : Prop :=
  (forall l, Permutation (z_order z l) l) /\ forall fp t, z_file z fp = Some t -> keys_once t.
(** the tree of a file that the program may read *)
Definition some_file (z : disk) (fp : str) (t : toml) : Prop :=
  z_file z fp = Some t
  \/ exists p es m, z_glob z p = Some es /\ In (Some m) es /\ d_is_file m = true /\ d_tree m = Some t.
(** a service file, which says [s] *)
Definition says_service_file (first : bool) (m : file_match) (k : str) (s : service_config) : Prop :=
  exists t, d_tree m = Some t /\ says_service first t s
  /\ service_file (Some (Matched (d_path m) (d_is_file m) (Some s))) k s.
