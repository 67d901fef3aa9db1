(** Properties C41-C44: fixing up HTTP, TCP and TLS settings.  A service's settings are fixed up
    against the root's, which were fixed up before. *)
From Verif Require Import F_Settings.

(** C41: the three buffer sizes are usable. *)
Theorem C41_buffers : forall root s,
  let r := tcp_autofix root None in let f := tcp_autofix s (Some r) in
  buffer_rule (t_read_buf s) (t_read_buf r) (t_read_buf f)
  /\ buffer_rule (t_write_buf s) (t_write_buf r) (t_write_buf f)
  /\ buffer_rule (t_buf s) (t_buf r) (t_buf f).
Proof. exact buffers. Qed.
Print Assumptions C41_buffers.
Theorem C41_root_buffers : forall root, let r := tcp_autofix root None in
  (4096 <= t_read_buf r /\ 4096 <= t_write_buf r /\ 4096 <= t_buf r)%N.
Proof. exact root_buffers. Qed.
Print Assumptions C41_root_buffers.
Example C41_nonvacuous :
  let r := tcp_autofix (TcpConfig [] tls_default 65536 0 100) None in
  let f := tcp_autofix (TcpConfig [] tls_default 0 5000 12) (Some r) in
  (t_read_buf f, t_write_buf f, t_buf f) = (65536, 5000, 8192)%N.
Proof. reflexivity. Qed.

(** C42: limits are positive, and positive limits are kept, for the root and for services. *)
Theorem C42_limits : forall s root, let f := http_autofix s root in
  (0 < h_max_url_size f /\ 0 < h_max_header_line_size f /\ 0 < h_max_headers_count f /\ 0 < h_max_body_size f)%N
  /\ ((0 < h_max_url_size s)%N -> h_max_url_size f = h_max_url_size s)
  /\ ((0 < h_max_header_line_size s)%N -> h_max_header_line_size f = h_max_header_line_size s)
  /\ ((0 < h_max_headers_count s)%N -> h_max_headers_count f = h_max_headers_count s)
  /\ ((0 < h_max_body_size s)%N -> h_max_body_size f = h_max_body_size s).
Proof. exact limits. Qed.
Print Assumptions C42_limits.
Example C42_nonvacuous :
  let f := http_autofix (HttpConfig None 0 17 0 3 0 None None) None in
  (h_max_url_size f, h_max_header_line_size f, h_max_headers_count f, h_max_body_size f) = (17, 6144, 3, 10485760)%N.
Proof. reflexivity. Qed.

(** C43, the part that holds: five of the eight options are inherited. *)
Theorem C43_inherited_partial : forall root s,
  let r := http_autofix root None in let f := http_autofix s (Some r) in
  (h_keep_alive s = None -> h_keep_alive f = h_keep_alive r)
  /\ (h_idle_timeout s = 0%N -> h_idle_timeout f = h_idle_timeout r)
  /\ (h_max_url_size s = 0%N -> h_max_url_size f = h_max_url_size r)
  /\ (h_max_header_line_size s = 0%N -> h_max_header_line_size f = h_max_header_line_size r)
  /\ (h_compression s = None -> h_compression f = h_compression r).
Proof. exact inherits. Qed.
Print Assumptions C43_inherited_partial.
(** C43 fails for the other three: whatever the root says, they get fixed values. *)
Theorem C43_not_inherited_refuted : forall root s,
  let r := http_autofix root None in let f := http_autofix s (Some r) in
  (h_max_headers_count s = 0%N -> h_max_headers_count f = 128%N)
  /\ (h_max_body_size s = 0%N -> h_max_body_size f = (10 * 1024 * 1024)%N)
  /\ (h_websocket s = None -> h_websocket f = None).
Proof. exact not_inherited. Qed.
Print Assumptions C43_not_inherited_refuted.
Example C43_nonvacuous :
  let ws := WsConfig 1 2 3 None in
  let r := http_autofix (HttpConfig (Some true) 20000 100 200 7 900 (Some 5%Z) (Some ws)) None in
  let f := http_autofix http_default (Some r) in
  f = HttpConfig (Some true) 20000 100 200 128 10485760 (Some 5%Z) None
  /\ h_max_headers_count r = 7%N /\ h_max_body_size r = 900%N /\ h_websocket r = Some ws.
Proof. cbv. auto. Qed.

(** C44: fixing up twice is fixing up once. *)
Theorem C44_twice : forall (http : http_config) (tcp : tcp_config) (tls : tls_config) hroot troot lroot,
  http_autofix (http_autofix http hroot) hroot = http_autofix http hroot
  /\ tcp_autofix (tcp_autofix tcp troot) troot = tcp_autofix tcp troot
  /\ tls_autofix (tls_autofix tls lroot) lroot = tls_autofix tls lroot.
Proof. intros. splits; [apply http_twice|apply tcp_twice|apply tls_twice]. Qed.
Print Assumptions C44_twice.
Example C44_nonvacuous :
  http_autofix http_default None <> http_default /\ tcp_autofix tcp_default None <> tcp_default
  /\ tls_autofix tls_default None <> tls_default.
Proof. splits; discriminate. Qed.
