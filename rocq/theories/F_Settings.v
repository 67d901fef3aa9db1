(** Fixing up settings. *)
From Verif Require Export F_Base S_Config.

Ltac cases := repeat match goal with
  | |- context [if ?b then _ else _] => let E := fresh "E" in destruct b eqn:E
  | H : context [if ?b then _ else _] |- _ => let E := fresh "E" in destruct b eqn:E
  end.

Lemma buffers root s : let r := tcp_autofix root None in let f := tcp_autofix s (Some r) in
  buffer_rule (t_read_buf s) (t_read_buf r) (t_read_buf f)
  /\ buffer_rule (t_write_buf s) (t_write_buf r) (t_write_buf f)
  /\ buffer_rule (t_buf s) (t_buf r) (t_buf f).
Proof.
  cbv zeta. unfold tcp_autofix. cbn [t_read_buf t_write_buf t_buf]. unfold buffer_rule.
  splits; intros; cases; lia.
Qed.
Lemma root_buffers root : let r := tcp_autofix root None in
  (4096 <= t_read_buf r /\ 4096 <= t_write_buf r /\ 4096 <= t_buf r)%N.
Proof. cbv zeta. unfold tcp_autofix. cbn [t_read_buf t_write_buf t_buf]. splits; cases; lia. Qed.

Lemma limits s root : let f := http_autofix s root in
  (0 < h_max_url_size f /\ 0 < h_max_header_line_size f /\ 0 < h_max_headers_count f /\ 0 < h_max_body_size f)%N
  /\ ((0 < h_max_url_size s)%N -> h_max_url_size f = h_max_url_size s)
  /\ ((0 < h_max_header_line_size s)%N -> h_max_header_line_size f = h_max_header_line_size s)
  /\ ((0 < h_max_headers_count s)%N -> h_max_headers_count f = h_max_headers_count s)
  /\ ((0 < h_max_body_size s)%N -> h_max_body_size f = h_max_body_size s).
Proof.
  cbv zeta. destruct root as [r|]; unfold http_autofix, http_defaults, http_inherit;
  cbn [h_max_url_size h_max_header_line_size h_max_headers_count h_max_body_size]; splits; intros; cases; lia.
Qed.

Lemma inherits root s : let r := http_autofix root None in let f := http_autofix s (Some r) in
  (h_keep_alive s = None -> h_keep_alive f = h_keep_alive r)
  /\ (h_idle_timeout s = 0%N -> h_idle_timeout f = h_idle_timeout r)
  /\ (h_max_url_size s = 0%N -> h_max_url_size f = h_max_url_size r)
  /\ (h_max_header_line_size s = 0%N -> h_max_header_line_size f = h_max_header_line_size r)
  /\ (h_compression s = None -> h_compression f = h_compression r).
Proof.
  cbv zeta. unfold http_autofix, http_defaults, http_inherit.
  cbn [h_keep_alive h_idle_timeout h_max_url_size h_max_header_line_size h_compression].
  splits; intros H; rewrite H; cbn [is_none]; try reflexivity; cases; try lia; try discriminate.
Qed.
Lemma not_inherited root s : let r := http_autofix root None in let f := http_autofix s (Some r) in
  (h_max_headers_count s = 0%N -> h_max_headers_count f = 128%N)
  /\ (h_max_body_size s = 0%N -> h_max_body_size f = (10 * 1024 * 1024)%N)
  /\ (h_websocket s = None -> h_websocket f = None).
Proof.
  cbv zeta. unfold http_autofix, http_defaults, http_inherit.
  cbn [h_max_headers_count h_max_body_size h_websocket].
  splits; intros H; rewrite H; reflexivity.
Qed.

Lemma http_twice s root : http_autofix (http_autofix s root) root = http_autofix s root.
Proof.
  destruct root as [r|]; unfold http_autofix, http_defaults, http_inherit;
  cbn [h_keep_alive h_idle_timeout h_max_url_size h_max_header_line_size h_compression h_max_headers_count
       h_max_body_size h_websocket]; f_equal;
  try (destruct (h_keep_alive s); reflexivity); try (destruct (h_compression s); reflexivity);
  try (destruct (h_keep_alive s), (h_keep_alive r); reflexivity);
  try (destruct (h_compression s), (h_compression r); reflexivity);
  cases; try lia; try reflexivity.
Qed.
Lemma tcp_twice s root : tcp_autofix (tcp_autofix s root) root = tcp_autofix s root.
Proof.
  destruct root as [r|]; unfold tcp_autofix, tls_autofix;
  cbn [t_addr t_tls t_read_buf t_write_buf t_buf tls_cert tls_key tls_timeout];
  f_equal; try (f_equal); cases; try lia; reflexivity.
Qed.
Lemma tls_twice s root : tls_autofix (tls_autofix s root) root = tls_autofix s root.
Proof.
  destruct root as [r|]; unfold tls_autofix; cbn [tls_cert tls_key tls_timeout];
  f_equal; cases; try lia; reflexivity.
Qed.

Ltac fields := unfold http_autofix, http_defaults, http_inherit, tcp_autofix, tls_autofix;
  cbn [h_keep_alive h_idle_timeout h_max_url_size h_max_header_line_size h_compression h_max_headers_count
       h_max_body_size h_websocket t_addr t_tls t_read_buf t_write_buf t_buf tls_cert tls_key tls_timeout].
Lemma http_keeps s root : http_kept s (http_autofix s root).
Proof.
  unfold http_kept. destruct root as [r|]; fields; splits; intros;
  try match goal with H : _ = Some _ |- _ => rewrite H; reflexivity end; cases; try lia;
  repeat match goal with H : _ && _ = true |- _ => apply andb_prop in H as [? ?] end; lia.
Qed.
Lemma tcp_keeps s root : tcp_kept s (tcp_autofix s root).
Proof. unfold tcp_kept. destruct root as [r|]; fields; splits; intros; try reflexivity; cases; lia. Qed.
Lemma http_adds s : nothing_added s (http_autofix s None).
Proof. unfold nothing_added. fields. splits; auto. intros ->. reflexivity. Qed.
Lemma all_raised h0 t0 hroot troot : raised h0 t0 (http_autofix h0 hroot) (tcp_autofix t0 troot).
Proof.
  unfold raised. destruct hroot as [r|], troot as [r'|]; fields; splits; intros; cases; try lia;
  repeat match goal with
  | H : _ && _ = false |- _ => apply andb_false_iff in H as [? | ?]
  | H : negb _ = false |- _ => apply negb_false_iff in H
  end; lia.
Qed.
