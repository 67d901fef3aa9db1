(** Facts about requests with their fields in different orders. *)
From Verif Require Export F_Spelling S_FieldOrder.

Lemma a_run_other fs : forall a k, lower k <> k -> a_run (map field_op fs) a k = a k.
Proof.
  induction fs as [|f fs IH]; intros a k H; [reflexivity|]. unfold a_run in *. cbn [map fold_left]. rewrite IH by easy.
  cbn [a_step field_op]. unfold a_update. destruct (bytes_same k (lower (fst f))) as [->|_]; [|easy].
  now rewrite lower_idem in H.
Qed.
Lemma a_run_same fs fs' : (forall n, values_of n fs' = values_of n fs) ->
  forall k, a_run (map field_op fs') a_empty k = a_run (map field_op fs) a_empty k.
Proof.
  intros H k. destruct (bytes_same (lower k) k) as [E|E].
  - rewrite <- E, !a_run_fields, H. reflexivity.
  - now rewrite !a_run_other.
Qed.

Section Order.
Variable K : codec.
Notation message := (message K).

Lemma request_read cfg q q' s s' e (m m' : message) : fresh m -> fresh m' -> mbody m' = mbody m ->
  request_ok cfg q -> request_ok cfg q' -> same_request q q' -> (1 <= h_max_headers_count cfg)%N ->
  exists m1 m1',
    fl_headers (S (length (request_wire q ++ s))) cfg (request_wire q ++ s) e m = Ret (RcOk, m1, (rq_body q ++ s, e))
    /\ fl_headers (S (length (request_wire q' ++ s'))) cfg (request_wire q' ++ s') e m' = Ret (RcOk, m1', (rq_body q ++ s', e))
    /\ ((exists m2 m2', fl_const_body (rq_body q ++ s) e m1 = Ret (RcOk, m2, (s, e))
           /\ fl_const_body (rq_body q ++ s') e m1' = Ret (RcOk, m2', (s', e)) /\ same_lookups m2 m2')
        \/ fl_const_body (rq_body q ++ s) e m1 = Panic /\ fl_const_body (rq_body q ++ s') e m1' = Panic).
Proof.
  intros F F' Bm (H & Fr) (H' & Fr') (S1 & S2 & S3 & S4 & S5) C.
  assert (LL : forall h s, length (hd_fields h) < S (length (head_wire h ++ s))).
  { intros h1 s1. unfold head_wire. rewrite !app_length. pose proof (concat_fields_length (hd_fields h1)). lia. }
  unfold request_wire. rewrite <- !app_assoc, S5.
  destruct (fl_headers_wf K _ cfg m (rq_head q) (rq_body q ++ s) e F H C (LL _ (rq_body q ++ s))) as (hh & E & Hok & Hv & Hr).
  destruct (fl_headers_wf K _ cfg m' (rq_head q') (rq_body q ++ s') e F' H' C (LL _ (rq_body q ++ s'))) as (hh' & E' & Hok' & Hv' & Hr').
  eexists _, _. split; [exact E|]. split; [exact E'|]. rewrite S1, S2, S3, Bm.
  assert (V : forall n, mm_getall hh' n = mm_getall hh n).
  { intros n. rewrite !getall_view by (apply Hok || apply Hok'). rewrite Hr, Hr'. now rewrite (a_run_same _ _ S4). }
  assert (V' : forall n, view hh' (lower n) = lookup_of n (hd_fields (rq_head q))).
  { intros n. rewrite Hv'. unfold lookup_of. now rewrite S4. }
  assert (L : forall h s, ok false h -> (forall n, view h (lower n) = lookup_of n (hd_fields (rq_head q))) ->
    let m0 := Msg (hd_method (rq_head q)) (hd_target (rq_head q)) (hd_version (rq_head q)) h (mbody m) in
    fl_const_body (rq_body q ++ s) e m0 = fl_length_raw (rq_body q ++ s) e m0 (lenN (rq_body q))).
  { clear - Fr. intros h s Hok Hv. cbv zeta. unfold fl_const_body, get_content_length. cbn [headers].
    rewrite (get_lookup h (hd_fields (rq_head q)) Hok Hv). cbn [obind]. destruct Fr as (Hlt & Hfr).
    destruct (values_of (B "content-length") (hd_fields (rq_head q))) as [|v vs].
    - rewrite Hfr. reflexivity.
    - rewrite (numeral_parse v _ u64max Hfr) by (change u64max with (2 ^ 64 - 1)%N; lia). reflexivity. }
  pose proof (fun s => L hh s Hok Hv) as L1. pose proof (fun s => L hh' s Hok' V') as L2. cbv zeta in L1, L2.
  rewrite L1, L2. unfold fl_length_raw, fl_raw. cbn [mbody].
  destruct (rq_body q) as [|c b] eqn:Eb.
  - left. eexists _, _. split; [reflexivity|]. split; [reflexivity|]. unfold same_lookups. cbn. splits; auto.
  - assert (Z : (lenN (c :: b) <? 1)%N = false) by (unfold lenN; cbn [length]; apply N.ltb_ge; lia).
    rewrite Z. destruct (b_internal (mbody m)) as [buf|] eqn:Ei; [|right; split; reflexivity].
    assert (Y : forall s, (lenN (c :: b) <=? lenN ((c :: b) ++ s))%N = true).
    { intros s0. unfold lenN. rewrite app_length. apply N.leb_le. lia. }
    rewrite !Y, !F_Flat.splitN_app. left. eexists _, _. split; [reflexivity|]. split; [reflexivity|].
    unfold same_lookups. cbn. splits; auto.
Qed.

Lemma fl_serve_order cfg ho (svc : service K) e : (1 <= h_max_headers_count cfg)%N -> by_name svc ->
  forall qs qs', Forall2 same_request qs qs' -> Forall (request_ok cfg) qs -> Forall (request_ok cfg) qs' ->
  forall f f' w req req' resp log log', length (wires qs) < f -> length (wires qs') < f' ->
  fresh req -> fresh req' -> mbody req' = mbody req ->
  Forall2 (fun p p' => same_lookups (fst p) (fst p') /\ snd p' = snd p) log log' ->
  same_run (fl_serve f cfg ho svc (wires qs) e w req resp log) (fl_serve f' cfg ho svc (wires qs') e w req' resp log').
Proof.
  intros C By. induction 1 as [|q q' qs qs' S R IH]; intros Hq Hq' f f' w req req' resp log log' L L' F F' Bm G;
    (destruct f as [|f]; [lia|]); (destruct f' as [|f']; [lia|]); cbn [fl_serve].
  - change (wires []) with (@nil byte). cbn [length].
    destruct F as (F0 & _). destruct F' as (F0' & _).
    destruct e; cbn; unfold same_run; cbn; splits; auto.
  - inversion Hq as [|? ? Q Hq2]; subst. inversion Hq' as [|? ? Q' Hq2']; subst.
    change (wires (q :: qs)) with (request_wire q ++ wires qs) in *. change (wires (q' :: qs')) with (request_wire q' ++ wires qs') in *.
    destruct (request_read cfg q q' (wires qs) (wires qs') e req req' F F' Bm Q Q' S C) as (m1 & m1' & E1 & E1' & D).
    rewrite E1, E1'. destruct D as [(m2 & m2' & -> & -> & V)|[-> ->]]; [|unfold same_run; cbn; splits; auto].
    pose proof (By m2 m2' resp V) as Rp.
    assert (G2 : forall d, Forall2 (fun p p' => same_lookups (fst p) (fst p') /\ snd p' = snd p) (log ++ [(m2, d)]) (log' ++ [(m2', d)])).
    { intros d. apply Forall2_app; [easy|]. repeat constructor; apply V. }
    destruct (svc m2 resp) as [[[p req3] resp3]| | | |] eqn:Es; destruct (svc m2' resp) as [[[p' req3'] resp3']| | | |] eqn:Es';
      cbn [same_reply] in Rp; try contradiction; try discriminate Rp; try (unfold same_run; cbn; splits; auto; fail).
    destruct Rp as (-> & -> & Bq). destruct p as [p|]; [|unfold same_run; cbn; splits; auto].
    destruct (serialize ho resp3) as [[[data|] resp4]| | | |]; try (unfold same_run; cbn; splits; auto; fail).
    destruct (snd (w_write data w)); [|unfold same_run; cbn; splits; auto].
    destruct p as [ka| |]; try (unfold same_run; cbn; splits; auto; fail).
    destruct ka; cbn [negb]; [|unfold same_run; cbn; splits; auto].
    rewrite app_length in L, L'.
    assert (P : forall q, 1 <= length (request_wire q)).
    { intros q0. unfold request_wire, head_wire. rewrite !app_length. cbn. lia. }
    pose proof (P q). pose proof (P q'). apply IH; auto; try lia; try apply fresh_clear.
    unfold msg_clear. cbn [mbody]. now rewrite Bq.
Qed.

Lemma serve_order cfg caps caps' ho (svc : service K) qs qs' fuel fuel' r r' w : (1 <= h_max_headers_count cfg)%N ->
  (forall k, 0 < caps k)%N -> (forall k, 0 < caps' k)%N -> enough fuel r -> enough fuel' r' -> by_name svc ->
  Forall (request_ok cfg) qs -> Forall (request_ok cfg) qs' -> Forall2 same_request qs qs' ->
  flat r = wires qs -> flat r' = wires qs' -> fin r = fin r' ->
  same_run (serve fuel cfg caps ho svc r w) (serve fuel' cfg caps' ho svc r' w).
Proof.
  intros C Hc Hc' Hf Hf' By Q Q' S E E' He. unfold serve, enough in *. rewrite !serve_flat by auto. rewrite He. rewrite E, E' in *.
  apply fl_serve_order; auto; apply fresh_default.
Qed.
End Order.
