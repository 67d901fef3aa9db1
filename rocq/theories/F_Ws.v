(** Facts about the WebSocket handshake. *)
From Coq Require Export Permutation.
From Verif Require Export F_MultiMapP S_Ws.

Lemma mm_run_app ho a : forall m b, mm_run ho m (a ++ b) = (m' <- mm_run ho m a ;; mm_run ho m' b).
Proof.
  induction a as [|o a IH]; intros m b; cbn [mm_run app]; [reflexivity|].
  destruct (mm_step ho m o); cbn [obind]; auto.
Qed.
Lemma be_bytes_length n : forall x, length (be_bytes n x) = n.
Proof. induction n as [|n IH]; intros x; cbn [be_bytes]; [easy|]. rewrite app_length, IH. simpl. lia. Qed.
Lemma sha1_length l : length (sha1 l) = 20.
Proof.
  unfold sha1. destruct (sha_blocks _ _ _) as [[[[h0 h1] h2] h3] h4]. rewrite !app_length, !be_bytes_length. reflexivity.
Qed.
Lemma digit_in n : In (digit n) alphabet.
Proof.
  unfold digit. apply nth_In. assert (H : (N.land n 63 < 64)%N).
  { change 63%N with (N.ones 6). rewrite N.land_ones. apply N.mod_lt. discriminate. }
  change (length alphabet) with 64. lia.
Qed.
Lemma base64_chars : forall n l, length l <= n -> Forall base64_char (base64 l).
Proof.
  assert (D : forall x, base64_char (digit x)) by (intros x; left; apply digit_in).
  assert (E : base64_char "="%char) by (now right).
  induction n as [|n IH]; intros [|a [|b [|c r]]] H; cbn [base64 length] in *; try lia; repeat (constructor; auto).
  apply IH. lia.
Qed.
Lemma accept_length key : length (accept_value key) = 28.
Proof.
  unfold accept_value. pose proof (sha1_length (key ++ B "258EAFA5-E914-47DA-95CA-C5AB0DC85B11")) as H.
  destruct (sha1 _) as [|b0 l]; [discriminate|]. do 19 (destruct l as [|? l]; [discriminate|]).
  destruct l; [reflexivity|discriminate].
Qed.

Lemma upgrade_no K ho rops (req resp : message K) : (forall l, Permutation (ho l) l) -> clean rops ->
  mm_run ho mm_new rops = Ret (headers req) ->
  client_key rops = [] ->
  ws_upgrade sha1 base64 req resp = Ret (false, resp).
Proof.
  intros Hho Hc Hr Hk. unfold client_key in Hk. destruct (table_refines_map ho rops Hho Hc) as (m & E & G). rewrite Hr in E. injection E as <-.
  destruct (G (B "sec-websocket-key")) as [_ Hg]. unfold ws_upgrade. rewrite Hg. cbn [obind].
  destruct (a_run rops a_empty (B "sec-websocket-key")) as [[|k vs]|]; cbn [hd_error]; auto. subst k. reflexivity.
Qed.
Lemma upgrade_yes K ho rops ops (req resp : message K) key : (forall l, Permutation (ho l) l) -> clean rops -> clean ops ->
  mm_run ho mm_new rops = Ret (headers req) -> mm_run ho mm_new ops = Ret (headers resp) ->
  client_key rops = key -> key <> [] ->
  exists w, ws_upgrade sha1 base64 req resp = Ret (true, w)
  /\ fl0 w = fl0 resp ++ B "HTTP/1.1" /\ fl1 w = fl1 resp ++ B "101" /\ fl2 w = fl2 resp ++ B "Switching Protocols"
  /\ mbody w = mbody resp
  /\ forall k, mm_getall (headers w) k
       = Ret (match a_run ops a_empty k, added key k with
              | old, [] => old
              | Some vs, new => Some (vs ++ new)
              | None, new => Some new
              end).
Proof.
  intros Hho Hc Hco Hr Hro Hk Hne. unfold client_key in Hk.
  destruct (table_refines_map ho rops Hho Hc) as (m & E & G). rewrite Hr in E. injection E as <-.
  destruct (G (B "sec-websocket-key")) as [_ Hg].
  set (more := [OAppend (B "sec-websocket-accept") (accept_value key); OAppend (B "sec-websocket-version") (B "13");
                OAppend (B "upgrade") (B "websocket"); OAppend (B "connection") (B "Upgrade")]).
  assert (Hcm : clean (ops ++ more)).
  { apply Forall_app. split; [exact Hco|]. unfold more. repeat constructor; discriminate. }
  destruct (table_refines_map ho (ops ++ more) Hho Hcm) as (m' & E' & G').
  rewrite mm_run_app, Hro in E'. cbn [obind] in E'. unfold more in E'. cbn [mm_run mm_step] in E'.
  assert (Hget : mm_get (headers req) (B "sec-websocket-key") = Ret (Some key)).
  { rewrite Hg. destruct (a_run rops a_empty (B "sec-websocket-key")) as [[|k vs]|]; cbn [hd_error]; congruence. }
  unfold ws_upgrade. rewrite Hget. cbn [obind]. destruct key as [|c0 key0]; [easy|]. cbn [is_nil]. set (key := c0 :: key0) in *.
  unfold rw_header. change (base64 (sha1 (key ++ GUID))) with (accept_value key).
  destruct (mm_append (headers resp) (B "sec-websocket-accept") (accept_value key)) as [m1| | | |]; cbn [obind] in *; try discriminate.
  cbn [rw_code rw_version with_headers headers fl0 fl1 fl2 mbody].
  destruct (mm_append m1 (B "sec-websocket-version") (B "13")) as [m2| | | |]; cbn [obind] in *; try discriminate. cbn [headers with_headers fl0 fl1 fl2 mbody].
  destruct (mm_append m2 (B "upgrade") (B "websocket")) as [m3| | | |]; cbn [obind] in *; try discriminate. cbn [headers with_headers fl0 fl1 fl2 mbody].
  destruct (mm_append m3 (B "connection") (B "Upgrade")) as [m4| | | |]; cbn [obind] in *; try discriminate. injection E' as ->.
  eexists. splits; [reflexivity|reflexivity|reflexivity|reflexivity|reflexivity|].
  intros k. cbn [headers with_headers]. destruct (G' k) as [-> _]. f_equal.
  unfold a_run. rewrite fold_left_app. fold (a_run ops a_empty). unfold more. cbn [fold_left a_step]. unfold a_update, added.
  repeat match goal with |- context [bytes_same ?a ?b] =>
    (assert_fails (is_var a)); let x := fresh in let e := fresh in
    destruct (bytes_same a b) as [e|e]; [exfalso; revert e; vm_compute; discriminate|clear e] end.
  repeat match goal with |- context [bytes_same k ?b] => destruct (bytes_same k b) as [->|]; try reflexivity end;
  try (match goal with |- context [a_run ops a_empty ?z] => destruct (a_run ops a_empty z) end; reflexivity).
Qed.
