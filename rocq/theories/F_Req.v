(** Whole connections. *)
From Verif Require Export F_Chunk S_Conn.

Section Req.
Variable K : codec.
Notation message := (message K).
Notation body := (body K).

Definition live (m : message) : Prop := exists buf, mbody m = Body (Some buf) None.
Lemma live_default : live msg_default.
Proof. exists []. reflexivity. Qed.
Lemma clear_live m : usable (mbody m) -> live (msg_clear m).
Proof.
  intros H. unfold live. cbn [mbody msg_clear]. unfold body_clear, body_end.
  destruct (mbody m) as [i [c|]]; cbn [b_cw b_internal] in *.
  - destruct (c_expose K c); eauto.
  - unfold usable in H. cbn in H. destruct i as [buf|]; [eauto|]. destruct H; easy.
Qed.
Lemma fresh_blank m : fresh m -> live m -> blank m.
Proof.
  intros (H0 & H1 & H2 & Hok & Hv) Hl. splits; auto. unfold blank. splits; auto.
  intros k. rewrite getall_view by apply Hok. now rewrite Hv.
Qed.
Lemma serialize_usable ho (m : message) d m' : serialize ho m = Ret (Some d, m') ->
  usable (mbody m) -> usable (mbody m').
Proof.
  unfold serialize, body_end. destruct (mbody m) as [i [c|]]; cbn [b_cw].
  - destruct (c_expose K c) as [buf|]; [|easy]. unfold body_size, body_inner. cbn [b_internal].
    destruct (mm_set (headers m) (B "content-length") (dec (N.of_nat (length buf)))); try easy. cbn [obind].
    destruct (mm_each ho a header_visitor []); try easy. cbn [obind].
    destruct (Nat.ltb 0 (length buf)); cbn [obind]; intros [= <- <-] _; left; easy.
  - unfold body_size, body_inner. cbn [b_internal].
    destruct (mm_set (headers m) (B "content-length") _); try easy. cbn [obind].
    destruct (mm_each ho a header_visitor []); try easy. cbn [obind].
    destruct i as [buf|].
    + destruct (Nat.ltb 0 (length buf)); cbn [obind]; intros [= <- <-] H; exact H.
    + cbn. intros [= <- <-] H. exact H.
Qed.

Lemma get_lookup h fs : ok false h -> (forall n, view h (lower n) = lookup_of n fs) ->
  mm_get h (B "content-length")
  = Ret (match values_of (B "content-length") fs with [] => None | v :: _ => Some v end).
Proof.
  intros Hok Hv. rewrite get_view by apply Hok.
  change (B "content-length") with (lower (B "content-length")) at 1. rewrite Hv. unfold lookup_of.
  destruct (values_of (B "content-length") fs); reflexivity.
Qed.

(** one well-formed request at the front of the stream *)
Lemma fl_request cfg q s e (m : message) buf : fresh m -> mbody m = Body (Some buf) None ->
  request_ok cfg q -> (1 <= h_max_headers_count cfg)%N ->
  exists req1 req2,
    fl_headers (S (length (request_wire q ++ s))) cfg (request_wire q ++ s) e m
      = Ret (RcOk, req1, (rq_body q ++ s, e))
    /\ fl_const_body (rq_body q ++ s) e req1 = Ret (RcOk, req2, (s, e))
    /\ has_head (rq_head q) req2 /\ mbody req2 = Body (Some (buf ++ rq_body q)) None.
Proof.
  intros Hf Hb (Hh & Hlt & Hfr) Hc. unfold request_wire. rewrite <- app_assoc.
  destruct (fl_headers_wf K (S (length (head_wire (rq_head q) ++ rq_body q ++ s))) cfg m (rq_head q)
              (rq_body q ++ s) e Hf Hh Hc) as (h' & E & Hok & Hv & _).
  { unfold head_wire. rewrite !app_length. pose proof (concat_fields_length (hd_fields (rq_head q))). lia. }
  eexists _, (Msg (hd_method (rq_head q)) (hd_target (rq_head q)) (hd_version (rq_head q)) h'
                (Body (Some (buf ++ rq_body q)) None)).
  split; [exact E|]. split; [|split].
  - unfold fl_const_body, get_content_length. cbn [headers].
    rewrite (get_lookup h' (hd_fields (rq_head q)) Hok Hv). cbn [obind].
    destruct (values_of (B "content-length") (hd_fields (rq_head q))) as [|v vs].
    + rewrite Hfr. cbn [obind app]. unfold fl_length_raw, fl_raw. change (0 <? 1)%N with true.
      cbn [obind mbody with_body]. rewrite Hb, app_nil_r. reflexivity.
    + rewrite (numeral_parse v _ u64max Hfr) by (change u64max with (2 ^ 64 - 1)%N; lia). cbn [obind].
      unfold fl_length_raw, fl_raw. cbn [mbody]. rewrite Hb. cbn [b_internal b_cw].
      destruct (N.of_nat (length (rq_body q)) <? 1)%N eqn:E1.
      * assert (rq_body q = []) as -> by (apply length_zero_iff_nil; lia). cbn [obind app].
        unfold with_body. cbn [fl0 fl1 fl2 headers]. rewrite app_nil_r. reflexivity.
      * unfold lenN. rewrite app_length.
        destruct (N.of_nat (length (rq_body q)) <=? N.of_nat (length (rq_body q) + length s))%N eqn:E2; [|lia].
        pose proof (splitN_app (rq_body q) s) as Es. unfold lenN in Es. rewrite Es. reflexivity.
  - unfold has_head. cbn [fl0 fl1 fl2 headers]. splits; auto.
    intros n. rewrite getall_view by apply Hok. now rewrite Hv.
  - reflexivity.
Qed.

(** ** runs over a list of requests *)
Inductive ran (ho : hash_order) (svc : service K) : bytes -> list request -> list (message * option bytes) -> Prop :=
| ran_nil buf : ran ho svc buf [] []
| ran_cons buf q qs req resp req' resp' data resp'' buf' log :
    has_head (rq_head q) req -> mbody req = Body (Some (buf ++ rq_body q)) None ->
    blank resp -> svc req resp = Ret (Some (Current true), req', resp') ->
    serialize ho resp' = Ret (Some data, resp'') ->
    b_internal (body_clear (mbody req')) = Some buf' ->
    ran ho svc buf' qs log ->
    ran ho svc buf (q :: qs) ((req, Some data) :: log).

Lemma w_write_open d w : w_budget w = None -> w_write d w = (Wr (w_out w ++ d) None, true).
Proof. intros H. unfold w_write. now rewrite H. Qed.

Lemma fl_serve_requests cfg ho svc e tail : (1 <= h_max_headers_count cfg)%N ->
  forall qs fuel w req resp log buf,
  Forall (request_ok cfg) qs -> answers ho svc (versions qs) ->
  fresh req -> mbody req = Body (Some buf) None -> fresh resp -> live resp ->
  w_budget w = None -> length (wires qs ++ tail) < fuel ->
  exists fuel' req' resp' log',
    fl_serve fuel cfg ho svc (wires qs ++ tail) e w req resp log
    = fl_serve fuel' cfg ho svc tail e (Wr (w_out w ++ concat (map sent log')) None) req' resp' (log ++ log')
    /\ ran ho svc buf qs log' /\ length tail < fuel'
    /\ fresh req' /\ live req' /\ fresh resp' /\ live resp'.
Proof.
  intros Hc. induction qs as [|q qs IH]; intros fuel w req resp log buf Hq Ha Hf Hb Hfr Hlr Hw Hfuel.
  - exists fuel, req, resp, []. cbn [wires map concat app]. rewrite !app_nil_r.
    destruct w as [o b]. cbn [w_budget w_out] in *. subst b. splits; auto; try constructor. exists buf. auto.
  - inversion Hq as [|? ? Hq1 Hq2]; subst.
    destruct fuel as [|f]; [lia|].
    unfold wires in *. cbn [map concat] in *. fold (wires qs) in *. rewrite <- app_assoc in *.
    destruct (fl_request cfg q (wires qs ++ tail) e req buf Hf Hb Hq1 Hc) as (req1 & req2 & E1 & E2 & Hh & Hb2).
    cbn [fl_serve]. rewrite E1, E2.
    destruct (Ha req2 resp) as (req3 & resp3 & data & resp4 & E3 & U1 & U2 & E4).
    { cbn [versions map]. left. destruct Hh as (_ & _ & -> & _). reflexivity. }
    { eauto. }
    { now apply fresh_blank. }
    rewrite E3, E4, w_write_open by easy. cbn [fst snd negb].
    assert (Hl3 : live (msg_clear req3)) by now apply clear_live.
    destruct Hl3 as (buf' & Hb').
    edestruct (IH f (Wr (w_out w ++ data) None) (msg_clear req3) (msg_clear resp4) (log ++ [(req2, Some data)]) buf')
      as (fuel' & req' & resp' & log' & E & Hr & Hl & F1 & F2 & F3 & F4); auto.
    + intros r0 s0 Hi. apply Ha. now right.
    + apply fresh_clear.
    + apply fresh_clear.
    + apply clear_live. eapply serialize_usable; eauto.
    + rewrite app_length in Hfuel. assert (0 < length (request_wire q)); [|lia].
      unfold request_wire, head_wire, request_line. rewrite !app_length. simpl. lia.
    + exists fuel', req', resp', ((req2, Some data) :: log'). splits; auto.
      * rewrite E. cbn [w_out map concat sent snd]. rewrite <- !app_assoc. reflexivity.
      * econstructor; eauto.
        -- now apply fresh_blank.
        -- cbn [msg_clear mbody] in Hb'. now rewrite Hb'.
Qed.

Lemma ran_handled ho svc qs log : forall buf, ran ho svc buf qs log -> Forall2 (handled ho svc) qs log.
Proof.
  revert log. induction qs as [|q qs IH]; intros log buf H; inversion H; subst; constructor; eauto.
  unfold handled. cbn [fst snd]. splits; auto.
  - exists buf. now rewrite H3.
  - eauto 10.
Qed.

Lemma fl_serve_empty fuel cfg ho (svc : service K) e w req resp log : 0 < fuel ->
  fl_serve fuel cfg ho svc [] e w req resp log
  = CR_ log w (match e with Stall => EndBlocked | _ => EndClosed end).
Proof.
  intros H. destruct fuel as [|f]; [lia|]. cbn [fl_serve]. unfold fl_headers.
  change (@nil byte) with (@nil byte ++ []) at 1.
  destruct e; reflexivity.
Qed.

Definition stalls (e : ending) : conn_end := match e with Stall => EndBlocked | _ => EndClosed end.

Lemma pipelined : forall fuel cfg caps ho (svc : service K) qs r w,
  (1 <= h_max_headers_count cfg)%N -> (forall k, 0 < caps k)%N -> enough fuel r ->
  Forall (request_ok cfg) qs -> answers ho svc (versions qs) ->
  w_budget w = None -> flat r = wires qs ->
  let res := serve fuel cfg caps ho svc r w in
  Forall2 (handled ho svc) qs (cr_log res)
  /\ w_out (cr_writer res) = w_out w ++ concat (map sent (cr_log res))
  /\ cr_end res = match fin r with Stall => EndBlocked | _ => EndClosed end.
Proof.
  intros fuel cfg caps ho svc qs r w Hc Hcap Hf Hq Ha Hw Hr res.
  unfold res, serve. rewrite serve_flat by easy.
  rewrite Hr, <- (app_nil_r (wires qs)).
  edestruct (fl_serve_requests cfg ho svc (fin r) [] Hc qs fuel w msg_default msg_default [] [])
    as (fuel' & req' & resp' & log' & E & Hran & Hl & _); auto using fresh_default, live_default.
  { rewrite app_nil_r. unfold enough in Hf. now rewrite Hr in Hf. }
  rewrite E, fl_serve_empty by (simpl in Hl; lia). cbn [cr_log cr_writer cr_end w_out app].
  splits; auto. now apply ran_handled in Hran.
Qed.

(** a connection that goes wrong after some good requests *)
Lemma pipelined_then : forall fuel cfg caps ho (svc : service K) qs tail r w,
  (1 <= h_max_headers_count cfg)%N -> (forall k, 0 < caps k)%N -> enough fuel r ->
  Forall (request_ok cfg) qs -> answers ho svc (versions qs) ->
  w_budget w = None -> flat r = wires qs ++ tail ->
  exists fuel' req' resp' log',
    serve fuel cfg caps ho svc r w
    = fl_serve fuel' cfg ho svc tail (fin r) (Wr (w_out w ++ concat (map sent log')) None) req' resp' log'
    /\ ran ho svc [] qs log' /\ length tail < fuel' /\ fresh req' /\ live req' /\ fresh resp' /\ live resp'.
Proof.
  intros fuel cfg caps ho svc qs tail r w Hc Hcap Hf Hq Ha Hw Hr.
  unfold serve. rewrite serve_flat by easy. rewrite Hr.
  edestruct (fl_serve_requests cfg ho svc (fin r) tail Hc qs fuel w msg_default msg_default [] [])
    as (fuel' & req' & resp' & log' & E & H); auto using fresh_default, live_default.
  { unfold enough in Hf. now rewrite Hr in Hf. }
  exists fuel', req', resp', log'. auto.
Qed.

(** ** C16 *)
Lemma ran_bodies ho svc : leaves_request svc -> forall qs log buf, ran ho svc buf qs log ->
  forall k req d, nth_error log k = Some (req, d) ->
  b_internal (mbody req) = Some (buf ++ concat (map rq_body (firstn (S k) qs))).
Proof.
  intros Hl. induction qs as [|q qs IH]; intros log buf H k req d Hn; inversion H; subst.
  - destruct k; discriminate.
  - destruct k as [|k].
    + injection Hn as <- <-. rewrite H3. cbn [firstn map concat b_internal]. now rewrite app_nil_r.
    + cbn [nth_error] in Hn.
      match goal with Hs : svc _ _ = _ |- _ => apply Hl in Hs end. subst req'.
      match goal with Hc : b_internal (body_clear _) = _ |- _ => rewrite H3 in Hc; cbn in Hc; injection Hc as <- end.
      match goal with Hr : ran _ _ _ qs _ |- _ => apply (IH _ _ Hr k req d) in Hn end.
      rewrite Hn. cbn [firstn map concat]. now rewrite app_assoc.
Qed.

Lemma bodies_accumulate : forall fuel cfg caps ho (svc : service K) qs r w,
  (1 <= h_max_headers_count cfg)%N -> (forall k, 0 < caps k)%N -> enough fuel r ->
  Forall (request_ok cfg) qs -> answers ho svc (versions qs) -> leaves_request svc ->
  w_budget w = None -> flat r = wires qs ->
  length (cr_log (serve fuel cfg caps ho svc r w)) = length qs /\
  forall k req d, nth_error (cr_log (serve fuel cfg caps ho svc r w)) k = Some (req, d) ->
  b_internal (mbody req) = Some (concat (map rq_body (firstn (S k) qs))).
Proof.
  intros fuel cfg caps ho svc qs r w Hc Hcap Hf Hq Ha Hl Hw Hr.
  unfold serve. rewrite serve_flat by easy. rewrite Hr, <- (app_nil_r (wires qs)).
  edestruct (fl_serve_requests cfg ho svc (fin r) [] Hc qs fuel w msg_default msg_default [] [])
    as (fuel' & req' & resp' & log' & E & Hran & Hlf & _); auto using fresh_default, live_default.
  { rewrite app_nil_r. unfold enough in Hf. now rewrite Hr in Hf. }
  rewrite E, fl_serve_empty by (simpl in Hlf; lia). cbn [cr_log app].
  split.
  { pose proof (ran_handled ho svc qs log' [] Hran) as Hh. clear -Hh.
    induction Hh; cbn [length]; congruence. }
  intros k req d Hn. now apply (ran_bodies ho svc Hl qs log' [] Hran k req d Hn).
Qed.

(** ** the first request of a connection, any handler *)
Lemma first_request : forall fuel cfg caps ho (svc : service K) q suffix r w,
  (1 <= h_max_headers_count cfg)%N -> (forall k, 0 < caps k)%N -> enough fuel r ->
  request_ok cfg q -> flat r = request_wire q ++ suffix ->
  exists req d log, cr_log (serve fuel cfg caps ho svc r w) = (req, d) :: log
    /\ has_head (rq_head q) req /\ mbody req = Body (Some (rq_body q)) None.
Proof.
  intros fuel cfg caps ho svc q suffix r w Hc Hcap Hf Hq Hr.
  unfold serve. rewrite serve_flat by easy. rewrite Hr. unfold enough in Hf. rewrite Hr in Hf.
  destruct fuel as [|f]; [lia|].
  destruct (fl_request cfg q suffix (fin r) msg_default [] (fresh_default K) eq_refl Hq Hc)
    as (req1 & req2 & E1 & E2 & Hh & Hb).
  cbn [fl_serve]. rewrite E1, E2. cbn [app] in Hb.
  assert (Hext : forall f s w a b l, exists l', cr_log (fl_serve f cfg ho svc s (fin r) w a b l) = l ++ l').
  { clear. induction f as [|f IH]; intros s w a b l; [exists []; simpl; now rewrite app_nil_r|].
    cbn [fl_serve].
    destruct (fl_headers (S (length s)) cfg s (fin r) a) as [[[c a1] [s1 e1]]| | | |] eqn:Eh;
      try (exists []; simpl; now rewrite app_nil_r).
    destruct c; try (exists []; simpl; now rewrite app_nil_r).
    apply fl_headers_shrink in Eh as (-> & _).
    destruct (fl_const_body s1 (fin r) a1) as [[[c a2] [s2 e2]]| | | |] eqn:Eb;
      try (exists []; simpl; now rewrite app_nil_r).
    destruct c; try (exists []; simpl; now rewrite app_nil_r).
    apply fl_const_body_shrink in Eb as (-> & _).
    destruct (svc a2 b) as [[[[p|] a3] b3]| | | |]; cbn [cr_log]; eauto.
    destruct (serialize ho b3) as [[[data|] b4]| | | |]; cbn [cr_log]; eauto.
    destruct (snd (w_write data w)); cbn [cr_log]; eauto.
    destruct p as [ka| |]; cbn [cr_log]; eauto. destruct ka; cbn [negb cr_log]; eauto.
    destruct (IH s2 (fst (w_write data w)) (msg_clear a3) (msg_clear b4) (l ++ [(a2, Some data)])) as (l' & ->).
    rewrite <- app_assoc. eauto. }
  destruct (svc req2 msg_default) as [[[[p|] a3] b3]| | | |]; cbn [cr_log app]; eauto 8.
  destruct (serialize ho b3) as [[[data|] b4]| | | |]; cbn [cr_log app]; eauto 8.
  destruct (snd (w_write data w)); cbn [cr_log app]; eauto 8.
  destruct p as [ka| |]; cbn [cr_log app]; eauto 8. destruct ka; cbn [negb cr_log app]; eauto 8.
  destruct (Hext f suffix (fst (w_write data w)) (msg_clear a3) (msg_clear b4) [(req2, Some data)]) as (l' & ->).
  cbn [app]. eauto 8.
Qed.

End Req.
