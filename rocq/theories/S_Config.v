(** Settings, independently of how they are fixed up. *)
From Verif Require Export M_Settings.

(** a buffer size after the fix-up: kept if large enough, from the root if unset, else 8 KiB *)
Definition buffer_rule (own root fixed : N) : Prop :=
  (4096 <= fixed)%N
  /\ ((4096 <= own)%N -> fixed = own)
  /\ (own = 0%N -> fixed = root)
  /\ ((0 < own < 4096)%N -> fixed = 8192%N).

(** what given HTTP settings [h0] say is in the settings [h] *)
Definition http_kept (h0 h : http_config) : Prop :=
  (forall b, h_keep_alive h0 = Some b -> h_keep_alive h = Some b)
  /\ (forall z, h_compression h0 = Some z -> h_compression h = Some z)
  /\ (forall ws, h_websocket h0 = Some ws -> h_websocket h = Some ws)
  /\ ((10000 <= h_idle_timeout h0)%N -> h_idle_timeout h = h_idle_timeout h0)
  /\ ((0 < h_max_url_size h0)%N -> h_max_url_size h = h_max_url_size h0)
  /\ ((0 < h_max_header_line_size h0)%N -> h_max_header_line_size h = h_max_header_line_size h0)
  /\ ((0 < h_max_headers_count h0)%N -> h_max_headers_count h = h_max_headers_count h0)
  /\ ((0 < h_max_body_size h0)%N -> h_max_body_size h = h_max_body_size h0).
(** and the same for TCP settings *)
Definition tcp_kept (t0 t : tcp_config) : Prop :=
  t_addr t = t_addr t0 /\ tls_cert (t_tls t) = tls_cert (t_tls t0) /\ tls_key (t_tls t) = tls_key (t_tls t0)
  /\ ((0 < tls_timeout (t_tls t0))%N -> tls_timeout (t_tls t) = tls_timeout (t_tls t0))
  /\ ((4096 <= t_read_buf t0)%N -> t_read_buf t = t_read_buf t0)
  /\ ((4096 <= t_write_buf t0)%N -> t_write_buf t = t_write_buf t0)
  /\ ((4096 <= t_buf t0)%N -> t_buf t = t_buf t0).
(** what [h0] leaves off is off in [h] *)
Definition nothing_added (h0 h : http_config) : Prop :=
  (h_keep_alive h0 = None -> h_keep_alive h = None)
  /\ (h_compression h0 = None -> h_compression h = None)
  /\ (h_websocket h0 = None -> h_websocket h = None)
  /\ (h_idle_timeout h0 = 0%N -> h_idle_timeout h = 0%N).
(** values that are too small are replaced *)
Definition raised (h0 : http_config) (t0 : tcp_config) (h : http_config) (t : tcp_config) : Prop :=
  ((0 < h_idle_timeout h0 < 10000)%N -> h_idle_timeout h = 10000%N)
  /\ ((0 < t_read_buf t0 < 4096)%N -> t_read_buf t = 8192%N)
  /\ ((0 < t_write_buf t0 < 4096)%N -> t_write_buf t = 8192%N)
  /\ ((0 < t_buf t0 < 4096)%N -> t_buf t = 8192%N).
(** limits are positive, and positive ones are kept *)
Definition limits_rule (h0 h : http_config) : Prop :=
  (0 < h_max_url_size h /\ 0 < h_max_header_line_size h /\ 0 < h_max_headers_count h /\ 0 < h_max_body_size h)%N
  /\ ((0 < h_max_url_size h0)%N -> h_max_url_size h = h_max_url_size h0)
  /\ ((0 < h_max_header_line_size h0)%N -> h_max_header_line_size h = h_max_header_line_size h0)
  /\ ((0 < h_max_headers_count h0)%N -> h_max_headers_count h = h_max_headers_count h0)
  /\ ((0 < h_max_body_size h0)%N -> h_max_body_size h = h_max_body_size h0).
(** the limits in force where [h0] and [t0] set none *)
Definition defaults_rule (h0 : http_config) (t0 : tcp_config) (h : http_config) (t : tcp_config) : Prop :=
  (h_max_url_size h0 = 0 -> h_max_url_size h = 8192)%N
  /\ (h_max_header_line_size h0 = 0 -> h_max_header_line_size h = 6144)%N
  /\ (h_max_headers_count h0 = 0 -> h_max_headers_count h = 128)%N
  /\ (h_max_body_size h0 = 0 -> h_max_body_size h = 10485760)%N
  /\ (t_read_buf t0 = 0 -> t_read_buf t = 8192)%N
  /\ (t_write_buf t0 = 0 -> t_write_buf t = 8192)%N
  /\ (t_buf t0 = 0 -> t_buf t = 8192)%N
  /\ (tls_timeout (t_tls t0) = 0 -> tls_timeout (t_tls t) = 15000)%N.
