(** Model of the plain settings records and their fix-up:
    src/config/http.rs, src/config/tcp.rs, src/config/tls.rs (autofix), src/config/runtime.rs. *)
From Verif Require Export M_Base.

(** [BytesSize] (src/config/bytes_size.rs:5-6) is represented by its number of bytes,
    [DurationInMillis] (src/config/duration_in_millis.rs:4-11) by its number of milliseconds:
    every such value in the program is built by [from_millis]/[from_secs]. *)

(** src/config/http.rs:6-19 *)
Record ws_config := WsConfig {
  ws_max_frame_body_size : N;
  ws_max_message_body_size : N;
  ws_read_timeout : N;
  ws_compression : option Z
}.

(** src/config/http.rs:21-46 *)
Record http_config := HttpConfig {
  h_keep_alive : option bool;
  h_idle_timeout : N;
  h_max_url_size : N;
  h_max_header_line_size : N;
  h_max_headers_count : N;
  h_max_body_size : N;
  h_compression : option Z;
  h_websocket : option ws_config
}.

(** #[derive(Default)] *)
Definition http_default : http_config := HttpConfig None 0 0 0 0 0 None None.

Definition is_none {A} (o : option A) : bool := match o with None => true | Some _ => false end.

(** src/config/http.rs:49-69: inheriting from the root *)
Definition http_inherit (s root : http_config) : http_config :=
  HttpConfig
    (if is_none (h_keep_alive s) then h_keep_alive root else h_keep_alive s)
    (if (h_idle_timeout s =? 0)%N then h_idle_timeout root else h_idle_timeout s)
    (if (h_max_url_size s <? 1)%N then h_max_url_size root else h_max_url_size s)
    (if (h_max_header_line_size s <? 1)%N then h_max_header_line_size root
     else h_max_header_line_size s)
    (h_max_headers_count s)
    (h_max_body_size s)
    (if is_none (h_compression s) then h_compression root else h_compression s)
    (h_websocket s).

(** src/config/http.rs:73-88: defaults and lower bounds *)
Definition http_defaults (s : http_config) : http_config :=
  HttpConfig
    (h_keep_alive s)
    (if negb (h_idle_timeout s =? 0)%N && (h_idle_timeout s <? 10000)%N then 10000%N
     else h_idle_timeout s)
    (if (h_max_url_size s <? 1)%N then (8 * 1024)%N else h_max_url_size s)
    (if (h_max_header_line_size s <? 1)%N then (6 * 1024)%N else h_max_header_line_size s)
    (if (h_max_headers_count s <? 1)%N then 128%N else h_max_headers_count s)
    (if (h_max_body_size s <? 1)%N then (1024 * 1024 * 10)%N else h_max_body_size s)
    (h_compression s)
    (h_websocket s).

(** src/config/http.rs:49-91; never fails *)
Definition http_autofix (s : http_config) (root : option http_config) : http_config :=
  http_defaults (match root with Some r => http_inherit s r | None => s end).

(** src/config/tls.rs:6-16 *)
Record tls_config := TlsConfig {
  tls_cert : bytes;
  tls_key : bytes;
  tls_timeout : N
}.
Definition tls_default : tls_config := TlsConfig [] [] 0.

(** src/config/tls.rs:19-32; 15 s = 15000 ms *)
Definition tls_autofix (s : tls_config) (root : option tls_config) : tls_config :=
  let t1 := match root with
            | Some r => if (tls_timeout s =? 0)%N then tls_timeout r else tls_timeout s
            | None => tls_timeout s
            end in
  TlsConfig (tls_cert s) (tls_key s) (if (t1 <? 1)%N then 15000%N else t1).

(** src/config/tcp.rs:7-23 *)
Record tcp_config := TcpConfig {
  t_addr : bytes;
  t_tls : tls_config;
  t_read_buf : N;
  t_write_buf : N;
  t_buf : N
}.
Definition tcp_default : tcp_config := TcpConfig [] tls_default 0 0 0.

(** src/config/tcp.rs:26-58 *)
Definition tcp_autofix (s : tcp_config) (root : option tcp_config) : tcp_config :=
  let tls := tls_autofix (t_tls s) (match root with Some r => Some (t_tls r) | None => None end) in
  let inh (own : tcp_config -> N) :=
    match root with
    | Some r => if (own s <? 1)%N then own r else own s
    | None => own s
    end in
  let floor (n : N) := if (n <? 4096)%N then (8 * 1024)%N else n in
  TcpConfig (t_addr s) tls
    (floor (inh t_read_buf)) (floor (inh t_write_buf)) (floor (inh t_buf)).

(** src/config/runtime.rs:5-18: autofix does nothing *)
Record runtime_config := RuntimeConfig {
  rt_worker_threads : N;
  rt_per_core : option bool
}.
Definition runtime_autofix (r : runtime_config) : runtime_config := r.
