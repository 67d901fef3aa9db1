(** The two built-in services on whole connections, stated without the model's helpers. *)
From Verif Require Export F_Round F_HeadEx.

(** what request_ok decides *)
Definition numeralb (v : bytes) (n : N) : bool :=
  negb (is_nil v) && forallb (fun c => in_range 48 57 (code c)) v
  && (decimal v =? n)%N.
Definition request_okb (cfg : http_config) (q : request) : bool :=
  head_okb (h_max_url_size cfg) (h_max_header_line_size cfg) (rq_head q)
  && (N.of_nat (length (rq_body q)) <? 2 ^ 64)%N
  && match values_of (B "content-length") (hd_fields (rq_head q)) with
     | [] => is_nil (rq_body q)
     | v :: _ => numeralb v (N.of_nat (length (rq_body q)))
     end.
Lemma numeralb_ok v n : numeralb v n = true -> numeral v n.
Proof.
  unfold numeralb, numeral. intros H. bsplit. splits.
  - intros ->. discriminate.
  - eapply forallb_Forall; [|eassumption]. intros c. unfold in_range, digit, code. lia.
  - lia.
Qed.
Lemma request_okb_ok cfg q : request_okb cfg q = true -> request_ok cfg q.
Proof.
  unfold request_okb, request_ok, framed. intros H. bsplit. split; [now apply head_okb_ok|]. split; [lia|].
  destruct (values_of _ _) as [|v vs]; [|now apply numeralb_ok]. destruct (rq_body q); [reflexivity|discriminate].
Qed.
Lemma requests_okb_ok cfg qs : forallb (request_okb cfg) qs = true -> Forall (request_ok cfg) qs.
Proof. apply forallb_Forall, request_okb_ok. Qed.
Lemma hello_answers_b K ho vs : forallb keeps vs = true -> answers ho (@hello_http K) vs.
Proof. intros H. apply hello_answers. now apply forallb_forall. Qed.

Section Served.
Variable K : codec.

(** C17 *)
Lemma asks_exact v a : asks_version v a <-> version_of v = Some (a, a).
Proof.
  rewrite version_of_exact. unfold asks_version. split.
  - intros (n & ma & mi & H1 & H2 & H3 & H4). split; [reflexivity|]. exists n, ma, mi. auto.
  - intros (_ & n & ma & mi & H1 & H2 & H3 & H4). exists n, ma, mi. auto.
Qed.
Lemma hello_greeting v : greeting_line v (hello_status v).
Proof.
  unfold greeting_line, hello_status. destruct (version_of v) as [[a b]|] eqn:E.
  - assert (b = a) as -> by (now apply version_of_exact in E as [-> _]).
    left. exists a. split; [now apply asks_exact|].
    change (B "HTTP/1.1HTTP/") with (B "HTTP/1.1" ++ B "HTTP/"). now rewrite <- !app_assoc.
  - right. split; [|reflexivity]. intros a H. apply asks_exact in H. congruence.
Qed.
Lemma hello_bodies fuel cfg caps ho r w k req d :
  nth_error (cr_log (serve fuel cfg caps ho (@hello_http K) r w)) k = Some (req, d) ->
  let body := concat (repeat (B "Hello world!") (S k)) in
  exists line, greeting_line (fl2 req) line /\ one_line line /\
    d = Some (response line [(B "server", B "httpd.rs");
                             (B "content-length", dec (N.of_nat (length body)))] body).
Proof.
  intros H body. apply hello_serves in H. exists (hello_status (fl2 req)). splits; auto using hello_greeting.
  apply printable_one_line, hello_status_printable.
Qed.
(** C18 *)
Lemma builtin_truthful fuel cfg caps ho (svc : service K) r w req d :
  svc = hello_http \/ svc = fs_http ->
  In (req, d) (cr_log (serve fuel cfg caps ho svc r w)) -> exists data, d = Some data /\ truthful data.
Proof.
  intros [->| ->] H.
  - apply In_nth_error in H as [k H]. apply hello_serves in H. eexists. split; [exact H|]. apply hello_truthful.
  - pose proof (fs_serves K fuel cfg caps ho r w) as F. unfold fs_log in F. rewrite Forall_forall in F.
    apply F in H. simpl in H. eexists. split; [exact H|]. apply fs_truthful.
Qed.
(** C20 *)
Lemma hello_line fuel cfg caps ho r w req d :
  In (req, d) (cr_log (serve fuel cfg caps ho (@hello_http K) r w)) ->
  exists line rest, d = Some (line ++ CRLF ++ rest) /\ one_line line
    /\ (status_line line <-> version_of (fl2 req) = None).
Proof.
  intros H. apply In_nth_error in H as [k H]. apply hello_serves in H.
  exists (hello_status (fl2 req)). eexists. split; [rewrite H; reflexivity|].
  split; [apply printable_one_line, hello_status_printable|].
  split; [|apply hello_status_good]. intros Hs. destruct (version_of (fl2 req)) as [[a b]|] eqn:E; [|reflexivity].
  now apply hello_status_bad in E.
Qed.
Lemma one_line_cut line rest line' rest' : one_line line -> one_line line' ->
  line ++ CRLF ++ rest = line' ++ CRLF ++ rest' -> line = line'.
Proof. intros [H _] [H' _] E. unfold CRLF in E. cbn [app] in E. now apply cut_cr in E as [? _]. Qed.
Lemma hello_line_bad fuel cfg caps ho r w req d a :
  In (req, d) (cr_log (serve fuel cfg caps ho (@hello_http K) r w)) -> asks_version (fl2 req) a ->
  exists data, d = Some data /\
  forall line rest, data = line ++ CRLF ++ rest -> one_line line -> ~ status_line line.
Proof.
  intros H Ha. apply hello_line in H as (line & rest & -> & H1 & H2). eexists. split; [reflexivity|].
  intros line' rest' E H3 Hs.
  assert (line' = line) as -> by (symmetry; eapply one_line_cut; eauto).
  apply H2 in Hs. apply asks_exact in Ha. congruence.
Qed.
Lemma hello_line_good fuel cfg caps ho r w req d :
  In (req, d) (cr_log (serve fuel cfg caps ho (@hello_http K) r w)) ->
  (forall a, ~ asks_version (fl2 req) a) ->
  exists rest, d = Some (B "HTTP/1.1 200 OK" ++ CRLF ++ rest) /\ status_line (B "HTTP/1.1 200 OK").
Proof.
  intros H Hv. apply In_nth_error in H as [k H]. apply hello_serves in H.
  destruct (hello_greeting (fl2 req)) as [(a & Ha & _)|[_ E]]; [now apply Hv in Ha|].
  unfold hello_response, response in H. rewrite E in H. eexists. split; [exact H|].
  exists "1"%char, "1"%char, "2"%char, "0"%char, "0"%char, (B "OK"). split; [reflexivity|].
  unfold digit. cbn. splits; lia.
Qed.
Lemma fs_line_bad fuel cfg caps ho r w req d :
  In (req, d) (cr_log (serve fuel cfg caps ho (@fs_http K) r w)) ->
  exists data, d = Some data /\
  forall line rest, data = line ++ CRLF ++ rest -> one_line line -> ~ status_line line.
Proof.
  intros H. pose proof (fs_serves K fuel cfg caps ho r w) as F. unfold fs_log in F. rewrite Forall_forall in F.
  apply F in H. simpl in H. eexists. split; [exact H|]. intros line rest E Hl Hs.
  unfold fs_response, response in E. apply one_line_cut in E; auto using spaces_one_line.
  subst line. exact (fs_status_bad Hs).
Qed.
(** C23 *)
Lemma hello_answers_major ho vs : (forall v, In v vs -> ~ zero_major v) -> answers ho (@hello_http K) vs.
Proof.
  intros H. apply hello_answers. intros v Hv. apply H in Hv.
  destruct (keeps v) eqn:E; [reflexivity|]. destruct Hv. now apply keeps_exact.
Qed.
Lemma hello_closes fuel cfg caps ho qs q suffix r w :
  (1 <= h_max_headers_count cfg)%N -> (forall k, 0 < caps k)%N -> enough fuel r ->
  Forall (request_ok cfg) qs -> (forall v, In v (versions qs) -> ~ zero_major v) ->
  request_ok cfg q -> zero_major (hd_version (rq_head q)) ->
  w_budget w = None -> flat r = wires qs ++ request_wire q ++ suffix ->
  let res := serve fuel cfg caps ho (@hello_http K) r w in
  length (cr_log res) = S (length qs) /\ cr_end res = EndClosed.
Proof.
  intros H1 H2 H3 H4 H5 H6 H7. eapply hello_last; auto.
  - intros v Hv. apply H5 in Hv. destruct (keeps v) eqn:E; [reflexivity|]. destruct Hv. now apply keeps_exact.
  - now apply keeps_exact.
Qed.
Lemma hello_open fuel cfg caps ho qs r w :
  (1 <= h_max_headers_count cfg)%N -> (forall k, 0 < caps k)%N -> enough fuel r ->
  Forall (request_ok cfg) qs -> (forall v, In v (versions qs) -> ~ zero_major v) ->
  w_budget w = None -> flat r = wires qs ->
  let res := serve fuel cfg caps ho (@hello_http K) r w in
  length (cr_log res) = length qs
  /\ cr_end res = match fin r with Stall => EndBlocked | _ => EndClosed end.
Proof.
  intros H1 H2 H3 H4 H5. apply hello_keeps; auto.
  intros v Hv. apply H5 in Hv. destruct (keeps v) eqn:E; [reflexivity|]. destruct Hv. now apply keeps_exact.
Qed.
End Served.

Lemma own_suffix {A} (a b : list A) : a ++ b = b <-> a = [].
Proof.
  split; [|now intros ->]. intros E. apply (f_equal (@length A)) in E. rewrite app_length in E.
  destruct a; [easy|simpl in E; lia].
Qed.
Lemma concat_nil_all {A} (l : list (list A)) : concat l = [] <-> Forall (fun x => x = []) l.
Proof.
  induction l as [|x l IH]; simpl; [easy|]. rewrite Forall_cons_iff, <- IH. split.
  - intros E. apply app_eq_nil in E. easy.
  - intros [-> ->]. easy.
Qed.

(** C16 *)
Lemma own_body (K : codec) : forall fuel cfg caps ho (svc : service K) qs r w,
  (1 <= h_max_headers_count cfg)%N -> (forall k, 0 < caps k)%N -> enough fuel r ->
  Forall (request_ok cfg) qs -> answers ho svc (versions qs) -> leaves_request svc ->
  w_budget w = None -> flat r = wires qs ->
  forall k q req d, nth_error qs k = Some q ->
  nth_error (cr_log (serve fuel cfg caps ho svc r w)) k = Some (req, d) ->
  (b_internal (mbody req) = Some (rq_body q) <-> Forall (fun q => rq_body q = []) (firstn k qs)).
Proof.
  intros fuel cfg caps ho svc qs r w H1 H2 H3 H4 H5 H6 H7 H8 k q req d Hq Hl.
  destruct (bodies_accumulate K fuel cfg caps ho svc qs r w H1 H2 H3 H4 H5 H6 H7 H8) as [_ H].
  rewrite (H _ _ _ Hl).
  assert (E : firstn (S k) qs = firstn k qs ++ [q]).
  { clear -Hq. revert qs Hq. induction k as [|k IH]; intros [|x qs] Hq; try easy.
    - simpl in *. now injection Hq as ->.
    - simpl in Hq. apply IH in Hq. cbn [firstn app]. f_equal. exact Hq. }
  rewrite E, map_app, concat_app. simpl. rewrite app_nil_r.
  rewrite <- (Forall_map rq_body (fun x => x = [])), <- concat_nil_all, <- (own_suffix _ (rq_body q)).
  split; [now intros [= ?]|now intros ->].
Qed.
