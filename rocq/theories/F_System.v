(** From the program's start to what clients are sent. *)
From Verif Require Import F_Load F_LogStart F_Main F_Ends F_Net F_Served S_System P_Net P_Conn P_Resp P_Ends P_Main.

(** every service the program starts has been fixed up *)
Lemma started_fixed u no w fp kc st s : world_ok w -> program u no w fp = Ret (Some (kc, st)) -> In s (starts st) ->
  exists c0 c s0, loads w fp c0 c /\ becomes c s0 s.
Proof.
  intros Hw Hp Hin. unfold program in Hp. destruct (load_config w fp) as [c|] eqn:El; [|discriminate].
  destruct (config_logging u no w c) as [[[lv k]|]| | | |]; try discriminate. cbn [obind] in Hp.
  assert (Hs : In s (map snd (c_services c))).
  { destruct (map snd (c_services c)) as [|y l] eqn:E.
    - injection Hp as _ <-. exact Hin.
    - destruct (rt_per_core (c_runtime c)) as [[]|]; injection Hp as _ <-; exact Hin. }
  apply in_map_iff in Hs as ([k' s'] & <- & Hs). cbn [snd].
  destruct (trim_str fp) as [|y t] eqn:Et.
  - exfalso. unfold load_config in El. rewrite Et in El. apply (autofix_becomes w config_default c Hw) in El.
    destruct El as (_ & _ & _ & _ & _ & _ & El & _). apply El in Hs as (s0 & [] & _).
  - destruct (e_file w fp) as [c0|] eqn:Ef.
    + assert (H : loads w fp c0 c).
      { unfold loads. splits; auto. intros B. apply trim_blank in B. congruence. }
      destruct (load_parts w fp c0 c H) as (_ & _ & _ & _ & _ & _ & Hb & _).
      destruct (Hb k' s' Hs) as (s0 & Hb' & _). now exists c0, c, s0.
    + unfold load_config in El. rewrite Et in El. unfold config_load in El. rewrite Ef in El. discriminate.
Qed.
Lemma started_sound u no w fp kc st s : world_ok w -> program u no w fp = Ret (Some (kc, st)) -> In s (starts st) ->
  (4096 <= t_buf (s_tcp s) /\ 1 <= h_max_headers_count (s_http s))%N.
Proof.
  intros Hw Hp Hin. destruct (started_fixed u no w fp kc st s Hw Hp Hin) as (c0 & c & s0 & H & (_ & _ & Ht & Hh & _)).
  destruct (load_parts w fp c0 c H) as (Hc & _). rewrite Ht, Hh, Hc. split.
  - apply (buffers (c_tcp c0) (s_tcp s0)).
  - destruct (limits (s_http s0) (Some (c_http c))) as ((_ & _ & L & _) & _). lia.
Qed.

(** the entry of a connection *)
Lemma life_entry K fuel x s clients evs l c n svc : service_life (K := K) fuel x s clients evs = Ret (Some l) ->
  handler_of K (s_kind s) = Some svc -> In (c, n) l -> n = connection fuel s svc (clients c).
Proof.
  unfold service_life. intros H Hs Hin. destruct (run x s) as [[|tls]| | | |]; try discriminate. cbn [obind] in H.
  rewrite Hs in H. destruct (loop_run tls loop_start evs) as [st|]; [|discriminate]. injection H as <-.
  apply in_map_iff in Hin as ([c' f] & E & _). cbn [fst] in E. congruence.
Qed.
Lemma life_handler K fuel x s clients evs l : service_life (K := K) fuel x s clients evs = Ret (Some l) ->
  exists svc, handler_of K (s_kind s) = Some svc /\ (svc = hello_http \/ svc = fs_http).
Proof.
  unfold service_life. intros H. destruct (run x s) as [[|tls]| | | |]; try discriminate. cbn [obind] in H.
  destruct (s_kind s); try discriminate; eexists; split; try reflexivity; auto.
Qed.

(** the greetings are determined *)
Lemma greets_det k vs d d' : greets k vs d -> greets k vs d' -> d = d'.
Proof.
  intros H. revert d'. induction H as [k|k v vs line more Hl H IH body]; intros d' H'; inversion H' as [|? ? ? line' more' Hl' H2]; subst; [reflexivity|].
  rewrite (IH more' H2). replace line' with line; [reflexivity|].
  destruct Hl as [(a & A1 & ->)|(A1 & ->)], Hl' as [(b & B1 & ->)|(B1 & ->)].
  - apply asks_exact in A1. apply asks_exact in B1. congruence.
  - now apply B1 in A1.
  - now apply A1 in B1.
  - reflexivity.
Qed.
Lemma greets_total vs : forall k, exists d, greets k vs d.
Proof.
  induction vs as [|v vs IH]; intros k; [eexists; constructor|].
  destruct (IH (S k)) as [d H]. eexists. econstructor; [apply hello_greeting|exact H].
Qed.
Lemma greets_log {K} : forall (log : list (message K * option bytes)) k qs,
  (forall i req d, nth_error log i = Some (req, d) ->
    let body := concat (repeat (B "Hello world!") (S (k + i))) in
    exists line, greeting_line (fl2 req) line /\ one_line line /\
      d = Some (response line [(B "server", B "httpd.rs");
                               (B "content-length", dec (N.of_nat (length body)))] body)) ->
  Forall2 (fun q p => has_head (rq_head q) (fst p)) qs log ->
  greets k (versions qs) (concat (map sent log)).
Proof.
  induction log as [|[req d] log IH]; intros k qs H F; inversion F as [|q ? qs' ? Hq F']; subst; [constructor|].
  cbn [map concat versions]. destruct (H 0 req d eq_refl) as (line & L1 & _ & ->). unfold sent at 1. cbn [snd].
  replace (k + 0)%nat with k by lia. destruct Hq as (_ & _ & Hv & _). cbn [fst] in Hv. rewrite Hv in L1. apply greets_next; [exact L1|].
  apply IH; [|exact F']. intros i req' d' E. specialize (H (S i) req' d' E). now replace (S k + i)%nat with (k + S i)%nat by lia.
Qed.

Lemma f2_length {A B} (R : A -> B -> Prop) l l' : Forall2 R l l' -> length l = length l'.
Proof. intros H. induction H; cbn; congruence. Qed.

(** an answered client *)
Lemma answered K fuel s (svc : service K) qs d c : (4096 <= t_buf (s_tcp s) /\ 1 <= h_max_headers_count (s_http s))%N ->
  answers (cl_order c) svc (versions qs) -> asks fuel s qs (length d) c ->
  (forall log, cr_log (serve fuel (s_http s) (cl_caps c) (cl_order c) svc (cl_reader c) (Wr [] None)) = log ->
     Forall2 (handled (cl_order c) svc) qs log -> concat (map sent log) = d) ->
  has_got c d (connection fuel s svc c).
Proof.
  intros [Hb Hh] Ha (A1 & A2 & A3 & A4 & A5 & A6 & A7) Hd.
  assert (Hc : forall k, (0 < cl_caps c k)%N) by (intros k; specialize (A1 k); lia).
  destruct (C15_pipelined K fuel (s_http s) (cl_caps c) (cl_order c) svc qs (cl_reader c) (Wr [] None) Hh Hc A2 A3 Ha eq_refl A4)
    as (P1 & P2 & P3). specialize (Hd _ eq_refl P1).
  assert (Hlen : length qs = length (cr_log (serve fuel (s_http s) (cl_caps c) (cl_order c) svc (cl_reader c) (Wr [] None))))
    by (now apply f2_length in P1).
  unfold connection, has_got.
  pose proof (C107_reading_client K fuel (s_tcp s) (s_http s) (cl_caps c) (cl_order c) svc (cl_reader c) (cl_socket c) A5 A6) as R.
  pose proof (C107_delivered K fuel (s_tcp s) (s_http s) (cl_caps c) (cl_order c) svc (cl_reader c) (cl_socket c) A5) as D.
  cbv zeta in R, D. destruct R as [e R].
  { change (fun e : message K * option bytes => match snd e with Some d => d | None => [] end) with (@sent K). rewrite Hd. lia. }
  rewrite R in *. destruct D as (D1 & D2 & _ & D4). split; [|congruence].
  rewrite D4, <- Hd, D2. unfold responses, exchanges. rewrite map_map. f_equal. apply map_ext. intros [q [[a b]|]]; reflexivity.
Qed.
Lemma Forall2_impl {A B} (R S : A -> B -> Prop) l l' : (forall a b, R a b -> S a b) -> Forall2 R l l' -> Forall2 S l l'.
Proof. intros H F. induction F; constructor; auto. Qed.
Lemma answered_hello K fuel s qs d c : (4096 <= t_buf (s_tcp s) /\ 1 <= h_max_headers_count (s_http s))%N ->
  (forall v, In v (versions qs) -> ~ zero_major v) -> greets 0 (versions qs) d -> asks fuel s qs (length d) c ->
  has_got c d (connection fuel s (@hello_http K) c).
Proof.
  intros Hs Hv Hg Ha. apply (answered K fuel s hello_http qs d c Hs); [|exact Ha|].
  - now apply (proj2 (C15_builtin_answer K (cl_order c) (versions qs))).
  - intros log E F. apply (greets_det 0 (versions qs)); [|exact Hg]. apply greets_log.
    + intros i req d' En. subst log. exact (hello_bodies K fuel _ _ _ _ _ i req d' En).
    + apply (Forall2_impl (handled (cl_order c) hello_http)); [|exact F]. intros q p H. apply H.
Qed.
Lemma answered_files K fuel s qs c : (4096 <= t_buf (s_tcp s) /\ 1 <= h_max_headers_count (s_http s))%N ->
  asks fuel s qs (length (shrugs (length qs))) c ->
  has_got c (shrugs (length qs)) (connection fuel s (@fs_http K) c).
Proof.
  intros Hs Ha. apply (answered K fuel s fs_http qs _ c Hs); [|exact Ha|].
  - apply (proj1 (C15_builtin_answer K (cl_order c) (versions qs))).
  - intros log E F. pose proof (fs_serves K fuel (s_http s) (cl_caps c) (cl_order c) (cl_reader c) (Wr [] None)) as G.
    rewrite E in G. apply f2_length in F. rewrite F. clear - G. unfold shrugs.
    induction G as [|[q e] log H G IH]; [reflexivity|]. cbn [map concat length repeat]. rewrite IH. f_equal.
    cbn [snd] in H. unfold sent. cbn [snd]. now rewrite H.
Qed.
