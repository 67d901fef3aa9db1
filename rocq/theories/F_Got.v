(** Whole connections on arbitrary streams (C94). *)
From Verif Require Export F_HeadA F_Served S_Got.

Section Got.
Variable K : codec.
Notation message := (message K).

(** a request or response that starts empty *)
Definition empty_head (m : message) : Prop :=
  fl0 m = [] /\ fl1 m = [] /\ fl2 m = [] /\ wf (headers m) /\ same (headers m) mm_new.
Lemma empty_head_default : empty_head msg_default.
Proof. unfold empty_head. cbn. splits; auto using new_wf. now left. Qed.
Lemma empty_head_clear (m : message) : empty_head (msg_clear m).
Proof.
  unfold empty_head, msg_clear. cbn [fl0 fl1 fl2 headers]. destruct (clear_ok (headers m)) as [[Hw _] _].
  splits; auto. right. cbn. splits; auto.
Qed.

Lemma same_run_table m0 h ls : same m0 mm_new ->
  mm_run (fun l => l) m0 (fields_added (all_fields ls)) = Ret h ->
  exists h', table_of ls h' /\ same h h'.
Proof.
  intros Hs E. pose proof (run_same (fun l => l) (fields_added (all_fields ls)) _ _ Hs) as H. rewrite E in H.
  unfold table_of. destruct (mm_run _ mm_new _) as [h'| | | |]; try easy. eauto.
Qed.
Lemma table_same_run m0 h' ls : same m0 mm_new -> table_of ls h' ->
  exists h, mm_run (fun l => l) m0 (fields_added (all_fields ls)) = Ret h /\ same h h'.
Proof.
  intros Hs E. pose proof (run_same (fun l => l) (fields_added (all_fields ls)) _ _ Hs) as H. unfold table_of in E.
  rewrite E in H. destruct (mm_run _ m0 _) as [h| | | |]; try easy. eauto.
Qed.
(** the request, with its table *)
Definition sgot (q : got) (m : message) : Prop :=
  is_got q m /\ exists h, table_of (g_lines q) h /\ same (headers m) h.
Lemma sgot_got qs l : Forall2 sgot qs l -> Forall2 is_got qs l.
Proof. induction 1 as [|q m qs l [H _] _ IH]; constructor; auto. Qed.
Lemma same_get m n k : same m n -> mm_get m k = mm_get n k.
Proof. intros H. unfold mm_get. now rewrite (same_getall m n k H). Qed.

Lemma parse_content v n : parse_uint_b u64max v = Some n <->
  (n < 2 ^ 64)%N /\ (numeral v n \/ exists t, v = PLUS :: t /\ numeral t n).
Proof.
  split.
  - intros H. apply parse_numeral in H as [Hle H]. change u64max with (2 ^ 64 - 1)%N in Hle. split; [lia|exact H].
  - intros [Hlt [H|(t & -> & H)]].
    + apply numeral_parse; [exact H|]. change u64max with (2 ^ 64 - 1)%N. lia.
    + apply parse_uint_spec. exists (map code t). destruct H as (H1 & H2 & H3). splits.
      * now right.
      * destruct t; [congruence|discriminate].
      * now apply digits_bool.
      * now rewrite <- decimal_dvalue.
      * change u64max with (2 ^ 64 - 1)%N. lia.
Qed.

(** one request *)
Lemma got_one cfg s e (m0 m1 m2 : message) s1 s2 e1 e2 f : empty_head m0 ->
  fl_headers f cfg s e m0 = Ret (RcOk, m1, (s1, e1)) -> fl_const_body s1 e1 m1 = Ret (RcOk, m2, (s2, e2)) ->
  e1 = e /\ e2 = e /\ exists q, sgot q m2 /\ announces (g_lines q) (N.of_nat (length (g_body q)))
  /\ head_at e (h_max_url_size cfg) (h_max_header_line_size cfg) (h_max_headers_count cfg) s
       (g_method q) (g_target q) (g_version q) (g_lines q) (g_body q ++ s2).
Proof.
  intros (M0 & M1 & M2 & Hw & Hs) E1 E2.
  apply fl_accepted in E1 as (-> & Hb & ls & Hh & Hr); auto.
  destruct (same_run_table _ _ _ Hs Hr) as (h & Ht & Hsh).
  unfold fl_const_body, get_content_length in E2. rewrite (same_get _ _ _ Hsh) in E2.
  destruct (mm_get h (B "content-length")) as [o| | | |] eqn:Eg; try easy. cbn [obind] in E2.
  assert (Hn : exists n, announces ls n /\ fl_length_raw s1 e m1 n = Ret (RcOk, m2, (s2, e2))).
  { destruct o as [v|].
    - destruct (parse_uint_b u64max v) as [n|] eqn:Ep; [|easy]. apply parse_content in Ep as [Hlt Ep].
      exists n. split; [|exact E2]. exists h. split; [exact Ht|]. right. exists v. auto.
    - exists 0%N. split; [|exact E2]. exists h. split; [exact Ht|]. left. auto. }
  destruct Hn as (n & Hn & E3). clear E2. unfold fl_length_raw in E3.
  destruct (fl_raw s1 e (mbody m1) n) as [[[c b] [s3 e3]]| | | |] eqn:Ef; try easy.
  cbn [obind] in E3. injection E3 as -> <- -> ->.
  split; [reflexivity|].
  assert (Hq : exists body, s1 = body ++ s2 /\ e2 = e /\ N.of_nat (length body) = n
    /\ (body <> [] -> exists before, b_internal b = Some (before ++ body))).
  { unfold fl_raw in Ef. destruct (n <? 1)%N eqn:E1.
    - injection Ef as <- <- <-. exists []. splits; auto; try easy. simpl. lia.
    - destruct (b_internal (mbody m1)) as [buf|].
      + destruct (n <=? lenN s1)%N eqn:E2.
        * destruct (splitN n s1) as [x y] eqn:Es. apply splitN_spec in Es as (-> & Hl).
          cbn [fst snd] in Ef. injection Ef as <- <- <-. exists x. unfold lenN in *. rewrite app_length in E2.
          rewrite app_length in Hl.
          splits; auto; [|intros _; exists buf; reflexivity]. lia.
        * destruct e; easy.
      + destruct s1; [|easy]. destruct e; easy. }
  destruct Hq as (body & -> & -> & Hlen & Hint). split; [reflexivity|].
  exists (Got (fl0 m1) (fl1 m1) (fl2 m1) ls body). cbn [g_method g_target g_version g_lines g_body].
  rewrite Hlen. splits; auto. split; [|exists h; split; [exact Ht|exact Hsh]]. unfold is_got, with_body. cbn [fl0 fl1 fl2 headers mbody g_method g_target g_version g_lines g_body].
  splits; auto. exists h. split; [exact Ht|]. intros k. now apply same_getall.
Qed.

(** every request given to a handler is in the stream, in order *)
Lemma fl_serve_got cfg ho svc e : forall fuel s w req resp log,
  empty_head req ->
  exists log' qs rest, cr_log (fl_serve fuel cfg ho svc s e w req resp log) = log ++ log'
    /\ requests_at e cfg s qs rest /\ Forall2 sgot qs (map fst log').
Proof.
  induction fuel as [|f IH]; intros s w req resp log He.
  { exists [], [], s. cbn. rewrite app_nil_r. splits; auto; constructor. }
  assert (Hnil : forall res : conn_result K, cr_log res = log ->
    exists log' qs rest, cr_log res = log ++ log' /\ requests_at e cfg s qs rest /\ Forall2 sgot qs (map fst log')).
  { intros res H. exists [], [], s. rewrite app_nil_r. splits; auto; constructor. }
  cbn [fl_serve].
  destruct (fl_headers (S (length s)) cfg s e req) as [[[c req1] [s1 e1]]| | | |] eqn:E1; try (apply Hnil; reflexivity).
  destruct c; try (apply Hnil; reflexivity).
  destruct (fl_const_body s1 e1 req1) as [[[c req2] [s2 e2]]| | | |] eqn:E2; try (apply Hnil; reflexivity).
  destruct c; try (apply Hnil; reflexivity).
  destruct (got_one cfg s e req req1 req2 s1 s2 e1 e2 _ He E1 E2) as (-> & -> & q & Hq & Ha & Hh).
  assert (Hone : forall (res : conn_result K) d, cr_log res = log ++ [(req2, d)] ->
    exists log' qs rest, cr_log res = log ++ log' /\ requests_at e cfg s qs rest /\ Forall2 sgot qs (map fst log')).
  { intros res d H. exists [(req2, d)], [q], s2. splits; auto.
    - econstructor; eauto. constructor.
    - cbn. constructor; [exact Hq|constructor]. }
  destruct (svc req2 resp) as [[[[p|] req3] resp3]| | | |]; try (eapply Hone; reflexivity).
  destruct (serialize ho resp3) as [[[data|] resp4]| | | |]; try (eapply Hone; reflexivity).
  destruct (snd (w_write data w)); [|eapply Hone; reflexivity].
  destruct p as [ka| |]; try (eapply Hone; reflexivity). destruct ka; cbn [negb]; [|eapply Hone; reflexivity].
  destruct (IH s2 (fst (w_write data w)) (msg_clear req3) (msg_clear resp4) (log ++ [(req2, Some data)]) (empty_head_clear req3))
    as (log' & qs & rest & H1 & H2 & H3).
  exists ((req2, Some data) :: log'), (q :: qs), rest. rewrite H1, <- app_assoc. splits; auto.
  - econstructor; eauto.
  - cbn [map fst]. now constructor.
Qed.

Lemma only_from_stream : forall fuel cfg caps ho (svc : service K) r w,
  (forall k, 0 < caps k)%N -> enough fuel r ->
  exists qs rest, requests_at (fin r) cfg (flat r) qs rest
    /\ Forall2 is_got qs (map fst (cr_log (serve fuel cfg caps ho svc r w))).
Proof.
  intros fuel cfg caps ho svc r w Hcap Hf. unfold serve. rewrite serve_flat by easy.
  destruct (fl_serve_got cfg ho svc (fin r) fuel (flat r) w msg_default msg_default [] empty_head_default)
    as (log' & qs & rest & H1 & H2 & H3). exists qs, rest. rewrite H1. split; [exact H2|]. now apply sgot_got.
Qed.
Lemma tables_from_stream : forall fuel cfg caps ho (svc : service K) r w,
  (forall k, 0 < caps k)%N -> enough fuel r ->
  exists qs rest, requests_at (fin r) cfg (flat r) qs rest
    /\ Forall2 sgot qs (map fst (cr_log (serve fuel cfg caps ho svc r w))).
Proof.
  intros fuel cfg caps ho svc r w Hcap Hf. unfold serve. rewrite serve_flat by easy.
  destruct (fl_serve_got cfg ho svc (fin r) fuel (flat r) w msg_default msg_default [] empty_head_default)
    as (log' & qs & rest & H1 & H2 & H3). exists qs, rest. rewrite H1. auto.
Qed.

(** and all of them are given to it, as long as it answers *)
Lemma one_got cfg s e (m0 : message) q s' buf : empty_head m0 -> mbody m0 = Body (Some buf) None ->
  head_at e (h_max_url_size cfg) (h_max_header_line_size cfg) (h_max_headers_count cfg) s
       (g_method q) (g_target q) (g_version q) (g_lines q) (g_body q ++ s') ->
  announces (g_lines q) (N.of_nat (length (g_body q))) ->
  exists m1 m2, fl_headers (S (length s)) cfg s e m0 = Ret (RcOk, m1, (g_body q ++ s', e))
    /\ fl_const_body (g_body q ++ s') e m1 = Ret (RcOk, m2, (s', e))
    /\ is_got q m2 /\ mbody m2 = Body (Some (buf ++ g_body q)) None.
Proof.
  intros (M0 & M1 & M2 & Hw & Hs) Hb Hh (h & Ht & Hn).
  destruct (fl_accepts K (S (length s)) cfg s e m0 _ _ _ _ _ (Nat.lt_succ_diag_r _) M0 M1 M2 Hw Hh) as (h1 & E & Hr).
  destruct (same_run_table _ _ _ Hs Hr) as (h' & Ht' & Hsh).
  assert (h' = h) as -> by (unfold table_of in *; congruence).
  eexists _, (Msg (g_method q) (g_target q) (g_version q) h1 (Body (Some (buf ++ g_body q)) None)).
  split; [exact E|]. split; [|split].
  - unfold fl_const_body, get_content_length. cbn [headers]. rewrite (same_get _ _ _ Hsh).
    assert (Hg : exists o, mm_get h (B "content-length") = Ret o
      /\ (match o with Some v => parse_uint_b u64max v | None => Some 0%N end) = Some (N.of_nat (length (g_body q)))).
    { destruct Hn as [[-> Hz]|(v & -> & Hlt & Hv)].
      - exists None. split; [reflexivity|]. now rewrite Hz.
      - exists (Some v). split; [reflexivity|]. now apply parse_content. }
    destruct Hg as (o & -> & Hg). cbn [obind]. rewrite Hg. cbn [obind].
    unfold fl_length_raw, fl_raw. cbn [mbody]. rewrite Hb. cbn [b_internal b_cw].
    destruct (N.of_nat (length (g_body q)) <? 1)%N eqn:E1.
    + assert (g_body q = []) as -> by (apply length_zero_iff_nil; lia). cbn [obind app].
      unfold with_body. cbn [fl0 fl1 fl2 headers]. rewrite app_nil_r. reflexivity.
    + unfold lenN. rewrite app_length.
      destruct (N.of_nat (length (g_body q)) <=? N.of_nat (length (g_body q) + length s'))%N eqn:E2; [|lia].
      pose proof (splitN_app (g_body q) s') as Es. unfold lenN in Es. rewrite Es. reflexivity.
  - unfold is_got. cbn [fl0 fl1 fl2 headers mbody b_internal]. splits; auto; [|intros _; now exists buf].
    exists h. split; [exact Ht|]. intros k. now apply same_getall.
  - reflexivity.
Qed.

Definition answered (p : message * option bytes) : Prop := snd p <> None.
Lemma fl_serve_all cfg ho svc e rest : forall qs s fuel w req resp log,
  requests_at e cfg s qs rest -> answers ho svc (map g_version qs) ->
  empty_head req -> live K req -> fresh resp -> live K resp ->
  w_budget w = None -> length s < fuel ->
  exists fuel' w' req' resp' log',
    fl_serve fuel cfg ho svc s e w req resp log = fl_serve fuel' cfg ho svc rest e w' req' resp' (log ++ log')
    /\ Forall2 is_got qs (map fst log') /\ Forall answered log'
    /\ empty_head req' /\ live K req' /\ fresh resp' /\ live K resp' /\ length rest < fuel'.
Proof.
  induction qs as [|q qs IH]; intros s fuel w req resp log Hr Ha He Hl Hfr Hlr Hw Hfuel;
    inversion Hr as [|s0 q0 s' qs0 rest0 Hh Hn Hrest]; subst.
  - exists fuel, w, req, resp, []. rewrite app_nil_r. cbn [map]. splits; auto; constructor.
  - destruct fuel as [|f]; [lia|]. destruct Hl as (buf & Hb).
    destruct (one_got cfg s e req q s' buf He Hb Hh Hn) as (req1 & req2 & E1 & E2 & Hq & Hb2).
    cbn [fl_serve]. rewrite E1, E2.
    pose proof (fl_headers_shrink _ _ _ _ _ _ _ _ _ E1) as (_ & Hs1). rewrite app_length in Hs1.
    destruct (Ha req2 resp) as (req3 & resp3 & data & resp4 & E3 & U1 & U2 & E4).
    { cbn [map]. left. now destruct Hq as (_ & _ & -> & _). }
    { eauto. }
    { now apply fresh_blank. }
    rewrite E3, E4, w_write_open by easy. cbn [fst snd negb].
    destruct (IH s' f (Wr (w_out w ++ data) None) (msg_clear req3) (msg_clear resp4) (log ++ [(req2, Some data)]))
      as (fuel' & w' & req' & resp' & log' & E & G1 & G2 & G3); auto.
    + intros r0 s0 Hi. apply Ha. now right.
    + apply empty_head_clear.
    + now apply clear_live.
    + apply fresh_clear.
    + apply clear_live. eapply serialize_usable; eauto.
    + lia.
    + exists fuel', w', req', resp', ((req2, Some data) :: log'). rewrite E, <- app_assoc. splits; auto; try apply G3.
      * cbn [map fst]. now constructor.
      * constructor; [easy|exact G2].
Qed.

Lemma all_from_stream : forall fuel cfg caps ho (svc : service K) qs rest r w,
  (forall k, 0 < caps k)%N -> enough fuel r -> w_budget w = None ->
  requests_at (fin r) cfg (flat r) qs rest -> answers ho svc (map g_version qs) ->
  exists log1 log2, cr_log (serve fuel cfg caps ho svc r w) = log1 ++ log2
    /\ Forall2 is_got qs (map fst log1) /\ Forall (fun p => snd p <> None) log1
    /\ ((forall q rest', ~ requests_at (fin r) cfg rest [q] rest') -> log2 = []).
Proof.
  intros fuel cfg caps ho svc qs rest r w Hcap Hf Hw Hr Ha. unfold serve. rewrite serve_flat by easy.
  destruct (fl_serve_all cfg ho svc (fin r) rest qs (flat r) fuel w msg_default msg_default [] Hr Ha
    empty_head_default (live_default K) (fresh_default K) (live_default K) Hw Hf)
    as (fuel' & w' & req' & resp' & log' & E & G1 & G2 & G3 & _).
  rewrite E. cbn [app].
  destruct (fl_serve_got cfg ho svc (fin r) fuel' rest w' req' resp' log' G3) as (log2 & qs2 & rest2 & H1 & H2 & H3).
  exists log', log2. splits; auto. intros Hno.
  destruct qs2 as [|q2 qs2]; [inversion H3; now destruct log2|].
  exfalso. inversion H2; subst. eapply Hno. econstructor; eauto. constructor.
Qed.
End Got.
