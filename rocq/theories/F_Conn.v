(** What the connection loop writes, when it ends, and the built-in services. *)
From Verif Require Export F_Req.

Section Conn.
Variable K : codec.
Notation message := (message K).

(** ** C11: the peer closes in the middle of a body *)
Lemma hang fuel cfg caps ho (svc : service K) qs h v n part r w :
  (1 <= h_max_headers_count cfg)%N -> (forall k, 0 < caps k)%N -> enough fuel r ->
  Forall (request_ok cfg) qs -> answers ho svc (versions qs) -> w_budget w = None ->
  head_ok (h_max_url_size cfg) (h_max_header_line_size cfg) h ->
  hd_error (values_of (B "content-length") (hd_fields h)) = Some v -> numeral v n -> (n < 2 ^ 64)%N ->
  (N.of_nat (length part) < n)%N -> fin r = Eof ->
  flat r = wires qs ++ head_wire h ++ part ->
  cr_end (serve fuel cfg caps ho svc r w) = EndNoFuel
  /\ Forall2 (handled ho svc) qs (cr_log (serve fuel cfg caps ho svc r w)).
Proof.
  intros Hc Hcap Hf Hq Ha Hw Hh Hv Hn Hlt Hp He Hr.
  destruct (pipelined_then K fuel cfg caps ho svc qs _ r w Hc Hcap Hf Hq Ha Hw Hr)
    as (f & req' & resp' & log' & E & Hran & Hl & Fq & (buf & Lq) & _). rewrite E.
  destruct f as [|f]; [lia|]. cbn [fl_serve].
  destruct (fl_headers_wf K (S (length (head_wire h ++ part))) cfg req' h part (fin r) Fq Hh Hc) as (h' & Eh & Hok & Hview & _).
  { unfold head_wire. rewrite !app_length. pose proof (concat_fields_length (hd_fields h)). lia. }
  rewrite Eh. unfold fl_const_body, get_content_length. cbn [headers].
  rewrite (get_lookup h' (hd_fields h) Hok Hview). cbn [obind].
  destruct (values_of (B "content-length") (hd_fields h)) as [|v' vs]; [discriminate|].
  cbn in Hv. injection Hv as ->.
  rewrite (numeral_parse v n u64max Hn) by (change u64max with (2 ^ 64 - 1)%N; lia). cbn [obind].
  unfold fl_length_raw, fl_raw. cbn [mbody]. rewrite Lq. cbn [b_internal]. rewrite He.
  destruct (n <? 1)%N eqn:E1; [lia|]. unfold lenN. destruct (n <=? N.of_nat (length part))%N eqn:E2; [lia|].
  cbn [obind end_of cr_end cr_log]. split; [reflexivity|]. now apply ran_handled in Hran.
Qed.

(** ** C14: malformed content-length *)

Lemma malformed_parse v : malformed v -> parse_uint_b u64max v = None.
Proof.
  intros H. destruct (parse_uint_b u64max v) as [n|] eqn:E; [|reflexivity].
  apply parse_numeral in E as [Hle E]. change u64max with (2 ^ 64 - 1)%N in Hle.
  destruct (H n ltac:(lia)) as [H1 H2]. destruct E as [E|E]; contradiction.
Qed.

Lemma malformed_closes fuel cfg caps ho (svc : service K) qs h v rest r w :
  (1 <= h_max_headers_count cfg)%N -> (forall k, 0 < caps k)%N -> enough fuel r ->
  Forall (request_ok cfg) qs -> answers ho svc (versions qs) -> w_budget w = None ->
  head_ok (h_max_url_size cfg) (h_max_header_line_size cfg) h ->
  hd_error (values_of (B "content-length") (hd_fields h)) = Some v -> malformed v ->
  flat r = wires qs ++ head_wire h ++ rest ->
  let res := serve fuel cfg caps ho svc r w in
  cr_end res = EndClosed /\ Forall2 (handled ho svc) qs (cr_log res)
  /\ w_out (cr_writer res) = w_out w ++ concat (map sent (cr_log res)).
Proof.
  intros Hc Hcap Hf Hq Ha Hw Hh Hv Hm Hr res. unfold res.
  destruct (pipelined_then K fuel cfg caps ho svc qs _ r w Hc Hcap Hf Hq Ha Hw Hr)
    as (f & req' & resp' & log' & E & Hran & Hl & Fq & (buf & Lq) & _). rewrite E.
  destruct f as [|f]; [lia|]. cbn [fl_serve].
  destruct (fl_headers_wf K (S (length (head_wire h ++ rest))) cfg req' h rest (fin r) Fq Hh Hc) as (h' & Eh & Hok & Hview & _).
  { unfold head_wire. rewrite !app_length. pose proof (concat_fields_length (hd_fields h)). lia. }
  rewrite Eh. unfold fl_const_body, get_content_length. cbn [headers].
  rewrite (get_lookup h' (hd_fields h) Hok Hview). cbn [obind].
  destruct (values_of (B "content-length") (hd_fields h)) as [|v' vs]; [discriminate|].
  cbn in Hv. injection Hv as ->. rewrite malformed_parse by easy. cbn [obind end_of cr_end cr_log cr_writer w_out].
  splits; auto. now apply ran_handled in Hran.
Qed.

(** every request a handler ever sees *)
Lemma logged_length fuel cfg caps ho (svc : service K) r w req d :
  In (req, d) (cr_log (serve fuel cfg caps ho svc r w)) ->
  mm_get (headers req) (B "content-length") = Ret None \/
  exists v n, mm_get (headers req) (B "content-length") = Ret (Some v) /\ (n < 2 ^ 64)%N
    /\ (numeral v n \/ exists t, v = PLUS :: t /\ numeral t n).
Proof.
  intros Hi. unfold serve in Hi.
  apply serve_loop_log in Hi as [[]|(k & r0 & r1 & r2 & req0 & req1 & Hf & E1 & E2)]; [|apply fresh_default].
  cbn [fst] in E2. unfold read_const_length_body, get_content_length in E2.
  destruct (mm_get (headers req1) (B "content-length")) as [o| | | |] eqn:Eg; try discriminate. cbn [obind] in E2.
  assert (Hs : forall n, read_const_length_raw fuel (caps k) r1 req1 n = Ret (RcOk, req, r2) -> headers req = headers req1).
  { intros n E. unfold read_const_length_raw in E.
    destruct (const_body fuel write_raw (caps k) r1 (mbody req1) n) as [[[c b] r3]| | | |]; try discriminate.
    cbn [obind] in E. injection E as _ <- _. reflexivity. }
  destruct o as [v|].
  - destruct (parse_uint_b u64max v) as [n|] eqn:Ep; [|discriminate]. apply Hs in E2. rewrite E2, Eg. right.
    apply parse_numeral in Ep as [Hle Ep]. change u64max with (2 ^ 64 - 1)%N in Hle.
    exists v, n. splits; [reflexivity|lia|exact Ep].
  - apply Hs in E2. rewrite E2, Eg. auto.
Qed.

(** a plus sign is swallowed *)
Lemma plus_accepted fuel cfg caps ho (svc : service K) h t body suffix r w :
  (1 <= h_max_headers_count cfg)%N -> (forall k, 0 < caps k)%N -> enough fuel r ->
  head_ok (h_max_url_size cfg) (h_max_header_line_size cfg) h ->
  hd_error (values_of (B "content-length") (hd_fields h)) = Some (PLUS :: t) ->
  numeral t (N.of_nat (length body)) -> (N.of_nat (length body) < 2 ^ 64)%N ->
  flat r = head_wire h ++ body ++ suffix ->
  exists req d, hd_error (cr_log (serve fuel cfg caps ho svc r w)) = Some (req, d)
    /\ has_head h req /\ b_internal (mbody req) = Some body.
Proof.
  intros Hc Hcap Hf Hh Hv Hn Hlt Hr.
  unfold serve. rewrite serve_flat by easy. unfold enough in Hf. destruct fuel as [|f]; [lia|]. cbn [fl_serve].
  destruct (fl_headers_wf K (S (length (flat r))) cfg msg_default h (body ++ suffix) (fin r) (fresh_default K) Hh Hc)
    as (h' & Eh & Hok & Hview & _).
  { rewrite Hr. unfold head_wire. rewrite !app_length. pose proof (concat_fields_length (hd_fields h)). lia. }
  rewrite Hr in *. rewrite Eh.
  assert (Eb : exists req2, fl_const_body (body ++ suffix) (fin r)
              (Msg (hd_method h) (hd_target h) (hd_version h) h' (mbody (@msg_default K)))
     = Ret (RcOk, req2, (suffix, fin r)) /\ has_head h req2 /\ b_internal (mbody req2) = Some body).
  { unfold fl_const_body, get_content_length. cbn [headers].
    rewrite (get_lookup h' (hd_fields h) Hok Hview). cbn [obind].
    destruct (values_of (B "content-length") (hd_fields h)) as [|v' vs]; [discriminate|].
    cbn [hd_error] in Hv. injection Hv as ->.
    assert (parse_uint_b u64max (PLUS :: t) = Some (N.of_nat (length body))) as ->.
    { apply parse_uint_spec. exists (map code t). destruct Hn as (H1 & H2 & H3). splits.
      - now right.
      - destruct t; [congruence|discriminate].
      - now apply digits_bool.
      - now rewrite <- decimal_dvalue.
      - change u64max with (2 ^ 64 - 1)%N. lia. }
    cbn [obind]. unfold fl_length_raw, fl_raw. cbn [mbody msg_default b_internal body_default b_cw].
    assert (Hhead : forall b, has_head h (Msg (hd_method h) (hd_target h) (hd_version h) h' b : message)).
    { intros b. unfold has_head. cbn [fl0 fl1 fl2 headers]. splits; auto.
      intros n. rewrite getall_view by apply Hok. now rewrite Hview. }
    destruct (N.of_nat (length body) <? 1)%N eqn:E1.
    - assert (body = []) as -> by (apply length_zero_iff_nil; lia). cbn [obind app].
      eexists. splits; [reflexivity| |reflexivity]. apply Hhead.
    - unfold lenN. rewrite app_length.
      destruct (N.of_nat (length body) <=? N.of_nat (length body + length suffix))%N eqn:E2; [|lia].
      pose proof (splitN_app body suffix) as Es. unfold lenN in Es. rewrite Es. cbn [obind fst snd].
      eexists. splits; [reflexivity| |reflexivity]. apply Hhead. }
  destruct Eb as (req2 & -> & Hhd & Hb).
  assert (Hext : forall f s e w a b p l, exists d, hd_error (cr_log (fl_serve f cfg ho svc s e w a b (p :: l))) = Some d /\ d = p).
  { clear. induction f as [|f IH]; intros s e w a b p l; [simpl; eauto|]. cbn [fl_serve].
    destruct (fl_headers (S (length s)) cfg s e a) as [[[c a1] [s1 e1]]| | | |]; simpl; eauto.
    destruct c; simpl; eauto.
    destruct (fl_const_body s1 e1 a1) as [[[c a2] [s2 e2]]| | | |]; simpl; eauto.
    destruct c; simpl; eauto.
    destruct (svc a2 b) as [[[[q|] a3] b3]| | | |]; cbn [cr_log app hd_error]; eauto.
    destruct (serialize ho b3) as [[[data|] b4]| | | |]; cbn [cr_log app hd_error]; eauto.
    destruct (snd (w_write data w)); cbn [cr_log app hd_error]; eauto.
    destruct q as [ka| |]; cbn [cr_log app hd_error]; eauto. destruct ka; cbn [negb cr_log app hd_error]; eauto. }
  destruct (svc req2 msg_default) as [[[[p|] a3] b3]| | | |]; cbn [cr_log app hd_error]; eauto 8.
  destruct (serialize ho b3) as [[[data|] b4]| | | |]; cbn [cr_log app hd_error]; eauto 8.
  destruct (snd (w_write data w)); cbn [cr_log app hd_error]; eauto 8.
  destruct p as [ka| |]; cbn [cr_log app hd_error]; eauto 8. destruct ka; cbn [negb cr_log app hd_error]; eauto 8.
  edestruct Hext as (d & -> & ->). eauto 8.
Qed.

(** ** C24: what has been written *)
Lemma splitN_firstn s : forall n, fst (splitN n s) = firstn (N.to_nat n) s.
Proof.
  induction s as [|c s IH]; intros n; cbn [splitN].
  - destruct (n =? 0)%N; cbn [fst]; now rewrite firstn_nil.
  - destruct (n =? 0)%N eqn:E.
    + apply N.eqb_eq in E. subst n. reflexivity.
    + replace (N.to_nat n) with (S (N.to_nat (n - 1))) by lia. cbn [firstn].
      specialize (IH (n - 1)%N). destruct (splitN (n - 1) s) as [x y]. cbn [fst] in *. now rewrite IH.
Qed.
Definition passed (budget : option N) (s : bytes) : bytes :=
  match budget with None => s | Some k => firstn (N.to_nat k) s end.

Lemma serve_loop_written cfg caps ho (svc : service K) inner : forall fuel k r w req resp log,
  let res := serve_loop fuel inner cfg caps ho svc k r w req resp log in
  exists log', cr_log res = log ++ log'
    /\ w_out (cr_writer res) = w_out w ++ passed (w_budget w) (concat (map sent log')).
Proof.
  induction fuel as [|f IH]; intros k r w req resp log; cbn [serve_loop].
  { exists []. cbn. rewrite app_nil_r. unfold passed. destruct (w_budget w); rewrite ?firstn_nil, app_nil_r; auto. }
  assert (Hnil : forall res : conn_result K, cr_log res = log -> cr_writer res = w ->
    exists log', cr_log res = log ++ log' /\ w_out (cr_writer res) = w_out w ++ passed (w_budget w) (concat (map sent log'))).
  { intros res H1 H2. exists []. rewrite H1, H2, app_nil_r. cbn. unfold passed.
    destruct (w_budget w); rewrite ?firstn_nil, app_nil_r; auto. }
  destruct (read_headers inner cfg r req) as [[[c req1] r1]| | | |]; try (apply Hnil; reflexivity).
  destruct c; try (apply Hnil; reflexivity).
  destruct (read_const_length_body inner (caps k) r1 req1) as [[[c req2] r2]| | | |]; try (apply Hnil; reflexivity).
  destruct c; try (apply Hnil; reflexivity).
  assert (Hnone : forall e, exists log', cr_log (CR_ (log ++ [(req2, None)]) w e) = log ++ log'
      /\ w_out (cr_writer (CR_ (log ++ [(req2, None)]) w e)) = w_out w ++ passed (w_budget w) (concat (map sent log'))).
  { intros e. exists [(req2, None)]. cbn. split; [reflexivity|]. unfold passed.
    destruct (w_budget w); rewrite ?firstn_nil, app_nil_r; auto. }
  destruct (svc req2 resp) as [[[[p|] req3] resp3]| | | |]; try apply Hnone.
  destruct (serialize ho resp3) as [[[data|] resp4]| | | |]; try apply Hnone.
  destruct (w_write data w) as [w' okw] eqn:Ew.
  assert (Hsome : forall e, exists log', cr_log (CR_ (log ++ [(req2, Some data)]) w' e) = log ++ log'
      /\ w_out (cr_writer (CR_ (log ++ [(req2, Some data)]) w' e)) = w_out w ++ passed (w_budget w) (concat (map sent log'))).
  { intros e. exists [(req2, Some data)]. cbn. split; [reflexivity|]. rewrite app_nil_r. revert Ew.
    unfold w_write, passed. destruct (w_budget w) as [b|].
    - destruct (lenN data <=? b)%N eqn:El; intros [= <- <-]; cbn [w_out]; f_equal.
      + symmetry. apply firstn_all2. unfold lenN in El. lia.
      + apply splitN_firstn.
    - intros [= <- <-]. reflexivity. }
  destruct okw; [|apply Hsome]. destruct p as [ka| |]; try apply Hsome. destruct ka; cbn [negb]; [|apply Hsome].
  destruct (IH (S k) r2 w' (msg_clear req3) (msg_clear resp4) (log ++ [(req2, Some data)])) as (log' & H1 & H2).
  exists ((req2, Some data) :: log'). rewrite H1, H2, <- app_assoc. split; [reflexivity|].
  cbn [map concat sent snd]. revert Ew. unfold w_write, passed. destruct (w_budget w) as [b|].
  - destruct (lenN data <=? b)%N eqn:El; [|easy]. intros [= <-]. cbn [w_out w_budget].
    rewrite firstn_app. rewrite (firstn_all2 data) by (unfold lenN in El; lia).
    rewrite <- app_assoc. do 2 f_equal. f_equal. unfold lenN. lia.
  - intros [= <-]. cbn [w_out w_budget]. now rewrite app_assoc.
Qed.

Lemma written fuel cfg caps ho (svc : service K) r w :
  let res := serve fuel cfg caps ho svc r w in
  w_out (cr_writer res) = w_out w ++ match w_budget w with
                                     | None => concat (map sent (cr_log res))
                                     | Some k => firstn (N.to_nat k) (concat (map sent (cr_log res)))
                                     end.
Proof.
  intros res. unfold res, serve.
  destruct (serve_loop_written cfg caps ho svc fuel fuel 0 r w msg_default msg_default []) as (log' & H1 & H2).
  cbn [app] in H1. rewrite H1, H2. reflexivity.
Qed.

End Conn.
