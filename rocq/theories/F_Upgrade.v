(** Opening handshakes on a connection. *)
From Verif Require Export F_Served.
From Verif Require Export F_Ws S_Upgrade.

Section Upgrade.
Variable K : codec.

Lemma upgrade_get (m : message K) h n : has_head h m -> lower n = n ->
  mm_get (headers m) n = Ret (hd_error (values_of n (hd_fields h))).
Proof.
  intros (_ & _ & _ & H) E. unfold mm_get. rewrite <- E at 1. rewrite H. cbn [obind]. unfold lookup_of.
  now destruct (values_of n (hd_fields h)).
Qed.
Lemma upgrade_fresh ho (req : message K) key : mm_get (headers req) (B "sec-websocket-key") = Ret (Some key) -> key <> [] ->
  exists w w', ws_upgrade sha1 base64 req msg_default = Ret (true, w) /\ serialize ho w = Ret (Some (ws_answer key), w').
Proof.
  intros H Hk. unfold ws_upgrade. rewrite H. cbn [obind]. destruct key as [|c key]; [congruence|]. cbn [is_nil].
  change GUID with (B "258EAFA5-E914-47DA-95CA-C5AB0DC85B11"). unfold ws_answer. fold (accept_value (c :: key)).
  generalize (accept_length (c :: key)). generalize (accept_value (c :: key)). clear. intros a L.
  do 28 (destruct a as [|? a]; [discriminate L|]). destruct a; [|discriminate L].
  eexists. eexists. split; vm_compute; reflexivity.
Qed.

Lemma upgraded fuel cfg caps ho q key suffix r w :
  (1 <= h_max_headers_count cfg)%N -> (forall k, 0 < caps k)%N -> enough fuel r ->
  request_ok cfg q -> flat r = request_wire q ++ suffix -> w_budget w = None ->
  hd_error (values_of (B "sec-websocket-key") (hd_fields (rq_head q))) = Some key -> key <> [] ->
  let res := serve fuel cfg caps ho (@ws_service K) r w in
  w_out (cr_writer res) = w_out w ++ ws_answer key /\ cr_end res = EndClosed /\ length (cr_log res) = 1.
Proof.
  intros Hc Hcap Hf Hq Hr Hw Hk Hne res. unfold res, serve. rewrite serve_flat by easy. rewrite Hr.
  unfold enough in Hf. rewrite Hr in Hf. destruct fuel as [|f]; [lia|].
  destruct (fl_request K cfg q suffix (fin r) msg_default [] (fresh_default K) eq_refl Hq Hc) as (m1 & m2 & E1 & E2 & Hh & _).
  cbn [fl_serve]. rewrite E1, E2.
  destruct (upgrade_fresh ho m2 key) as (x & x' & E3 & E4); auto.
  { rewrite (upgrade_get m2 (rq_head q)); auto. now rewrite Hk. }
  unfold ws_service. rewrite E3. cbn [obind fst snd]. rewrite E4, w_write_open by easy.
  cbn [fst snd cr_writer cr_end cr_log w_out app length]. auto.
Qed.

Lemma base64_nil n : base64 n = [] -> n = [].
Proof. destruct n as [|a [|b [|c n]]]; cbn; intros H; congruence. Qed.
Lemma upgraded_proper fuel cfg caps ho q suffix r w :
  (1 <= h_max_headers_count cfg)%N -> (forall k, 0 < caps k)%N -> enough fuel r ->
  request_ok cfg q -> flat r = request_wire q ++ suffix -> w_budget w = None ->
  opening_handshake (rq_head q) ->
  let res := serve fuel cfg caps ho (@ws_service K) r w in
  exists key, values_of (B "sec-websocket-key") (hd_fields (rq_head q)) = [key]
  /\ w_out (cr_writer res) = w_out w ++ ws_answer key /\ cr_end res = EndClosed /\ length (cr_log res) = 1.
Proof.
  intros Hc Hcap Hf Hq Hr Hw (_ & _ & _ & _ & _ & _ & nonce & Hl & Hk) res. exists (base64 nonce). split; [exact Hk|].
  apply upgraded with q suffix; auto; [now rewrite Hk|]. intros E. apply base64_nil in E. subst nonce. discriminate.
Qed.
End Upgrade.
