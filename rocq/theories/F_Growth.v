(** How what is sent and kept grows with the number of requests of a connection. *)
From Verif Require Export F_Served.

Section Growth.
Variable K : codec.

Lemma wires_repeat q n : length (wires (repeat q n)) = n * length (request_wire q).
Proof. unfold wires. induction n; cbn [repeat map concat]; [reflexivity|]. rewrite app_length. lia. Qed.
Lemma versions_repeat q n v : In v (versions (repeat q n)) -> v = hd_version (rq_head q).
Proof.
  unfold versions. intros H. apply in_map_iff in H as (x & <- & H). apply repeat_spec in H. now subst.
Qed.
Lemma Forall_repeat {A} (P : A -> Prop) x n : P x -> Forall P (repeat x n).
Proof. intros H. induction n; constructor; auto. Qed.
Lemma bodies_repeat q n : length (concat (map rq_body (repeat q n))) = n * length (rq_body q).
Proof. induction n; cbn [repeat map concat]; [reflexivity|]. rewrite app_length. lia. Qed.

Lemma greetings_length k : length (concat (repeat (B "Hello world!") k)) = 12 * k.
Proof.
  induction k; cbn [repeat concat]; [reflexivity|]. rewrite app_length, IHk.
  change (length (B "Hello world!")) with 12. lia.
Qed.

(** entries with numbers from [k] on whose lengths are at least 12 times their numbers *)
Lemma sum_at_least : forall (l : list bytes) k,
  (forall i d, nth_error l i = Some d -> 12 * S (k + i) <= length d) ->
  12 * (k * length l) + 6 * (length l * S (length l)) <= length (concat l).
Proof.
  induction l as [|d l IH]; intros k H; [cbn; lia|]. cbn [concat length]. rewrite app_length.
  specialize (IH (S k) ltac:(intros i x Hx; specialize (H (S i) x Hx); lia)).
  pose proof (H 0 d eq_refl). nia.
Qed.

Lemma growth_sent cfg caps ho q c :
  (1 <= h_max_headers_count cfg)%N -> (forall k, 0 < caps k)%N -> request_ok cfg q ->
  ~ zero_major (hd_version (rq_head q)) ->
  exists n, forall fuel r w, enough fuel r -> w_budget w = None -> flat r = wires (repeat q n) ->
  w_out w = [] ->
  c * length (flat r) < length (w_out (cr_writer (serve fuel cfg caps ho (@hello_http K) r w))).
Proof.
  intros Hc Hcap Hq Hz. exists (S (c * length (request_wire q))). set (n := S _).
  intros fuel r w Hf Hw Hr Ho.
  assert (Hqs : Forall (request_ok cfg) (repeat q n)) by now apply Forall_repeat.
  assert (Ha : answers ho (@hello_http K) (versions (repeat q n))).
  { apply hello_answers_major. intros v Hv. apply versions_repeat in Hv. now subst. }
  destruct (pipelined K fuel cfg caps ho hello_http _ r w Hc Hcap Hf Hqs Ha Hw Hr) as (H1 & H2 & _).
  rewrite H2, Ho, Hr, wires_repeat. cbn [app].
  assert (Hl : length (cr_log (serve fuel cfg caps ho (@hello_http K) r w)) = n).
  { rewrite <- (repeat_length q n). clear - H1. induction H1; cbn; congruence. }
  pose proof (sum_at_least (map sent (cr_log (serve fuel cfg caps ho (@hello_http K) r w))) 0) as Hs.
  rewrite map_length, Hl in Hs.
  enough (12 * (0 * n) + 6 * (n * S n) <= length (concat (map sent (cr_log (serve fuel cfg caps ho (@hello_http K) r w))))) as HH.
  { unfold n in *. nia. }
  apply Hs. intros i d Hd. rewrite nth_error_map in Hd.
  destruct (nth_error (cr_log (serve fuel cfg caps ho (@hello_http K) r w)) i) as [[req o]|] eqn:E; [|discriminate].
  cbn [option_map] in Hd. injection Hd as <-.
  destruct (hello_bodies K fuel cfg caps ho r w i req o E) as (line & _ & _ & ->).
  cbn [sent snd]. unfold response. rewrite !app_length, greetings_length. lia.
Qed.

Lemma growth_kept cfg caps ho (svc : service K) q m :
  (1 <= h_max_headers_count cfg)%N -> (forall k, 0 < caps k)%N -> request_ok cfg q ->
  answers ho svc [hd_version (rq_head q)] -> leaves_request svc -> rq_body q <> [] ->
  exists n, forall fuel r w, enough fuel r -> w_budget w = None -> flat r = wires (repeat q n) ->
  exists req d buf, In (req, d) (cr_log (serve fuel cfg caps ho svc r w))
    /\ b_internal (mbody req) = Some buf /\ m < length buf.
Proof.
  intros Hc Hcap Hq Ha Hl Hb. exists (S m). intros fuel r w Hf Hw Hr.
  assert (Hqs : Forall (request_ok cfg) (repeat q (S m))) by now apply Forall_repeat.
  assert (Ha' : answers ho svc (versions (repeat q (S m)))).
  { intros req resp Hv. apply Ha. apply versions_repeat in Hv. left. now symmetry. }
  destruct (bodies_accumulate K fuel cfg caps ho svc _ r w Hc Hcap Hf Hqs Ha' Hl Hw Hr) as [Hn H].
  rewrite repeat_length in Hn.
  destruct (nth_error (cr_log (serve fuel cfg caps ho svc r w)) m) as [[req d]|] eqn:E.
  2: { apply nth_error_None in E. lia. }
  exists req, d, (concat (map rq_body (repeat q (S m)))). splits.
  - now apply nth_error_In in E.
  - rewrite (H m req d E). rewrite firstn_all2; [reflexivity|]. rewrite repeat_length. lia.
  - rewrite bodies_repeat. destruct (rq_body q); [congruence|]. cbn [length]. nia.
Qed.

Lemma growth_file fuel cfg caps ho qs r w :
  (1 <= h_max_headers_count cfg)%N -> (forall k, 0 < caps k)%N -> enough fuel r ->
  Forall (request_ok cfg) qs -> w_budget w = None -> flat r = wires qs ->
  length (w_out (cr_writer (serve fuel cfg caps ho (@fs_http K) r w))) = length (w_out w) + 25 * length qs.
Proof.
  intros Hc Hk He Hq Hw Hr.
  destruct (pipelined K fuel cfg caps ho (@fs_http K) qs r w Hc Hk He Hq (fs_answers K ho (versions qs)) Hw Hr) as (H1 & H2 & _).
  rewrite H2, app_length. f_equal.
  assert (HL : length qs = length (cr_log (serve fuel cfg caps ho (@fs_http K) r w))) by (clear - H1; induction H1; cbn; congruence).
  rewrite HL.
  pose proof (fs_serves K fuel cfg caps ho r w) as F. unfold fs_log in F. clear - F.
  induction F as [|p l Hp _ IH]; [reflexivity|]. cbn [map length concat]. rewrite app_length, IH.
  unfold sent. rewrite Hp.
  match goal with |- length ?d + _ = _ => assert (E : length d = 25) by (vm_compute; reflexivity); rewrite E end. lia.
Qed.

Lemma growth_none fuel cfg caps ho (svc : service K) qs r w req d :
  (1 <= h_max_headers_count cfg)%N -> (forall k, 0 < caps k)%N -> enough fuel r ->
  Forall (request_ok cfg) qs -> answers ho svc (versions qs) -> leaves_request svc ->
  w_budget w = None -> flat r = wires qs -> (forall q, In q qs -> rq_body q = []) ->
  In (req, d) (cr_log (serve fuel cfg caps ho svc r w)) -> b_internal (mbody req) = Some [].
Proof.
  intros Hc Hcap Hf Hq Ha Hl Hw Hr Hb Hin.
  destruct (bodies_accumulate K fuel cfg caps ho svc _ r w Hc Hcap Hf Hq Ha Hl Hw Hr) as [_ H].
  apply In_nth_error in Hin as (k & E). rewrite (H k req d E). f_equal.
  assert (G : forall l, (forall q, In q l -> rq_body q = []) -> concat (map rq_body l) = []).
  { induction l as [|q l IH]; intros Hx; [reflexivity|]. cbn [map concat]. rewrite (Hx q), IH; auto.
    - intros; apply Hx; now right.
    - now left. }
  apply G. intros q Hin. apply Hb. revert Hin. generalize (S k). clear. induction qs as [|x l IH]; intros [|n] H; cbn in H; try easy.
  destruct H as [->|H]; [now left|right; eauto].
Qed.
End Growth.
