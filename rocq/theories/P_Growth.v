(** Property C135: a request costs the same however many came before it. *)
From Verif Require Import F_Growth.

(** C135 fails for what is sent: hello world answers any request, sent often enough on one
    connection, with more than any given multiple of what the client sends. *)
Theorem C135_sent_refuted : forall (K : codec) cfg caps ho q c,
  (1 <= h_max_headers_count cfg)%N -> (forall k, 0 < caps k)%N -> request_ok cfg q ->
  ~ zero_major (hd_version (rq_head q)) ->
  exists n, forall fuel r w, enough fuel r -> w_budget w = None -> flat r = wires (repeat q n) ->
  w_out w = [] ->
  c * length (flat r) < length (w_out (cr_writer (serve fuel cfg caps ho (@hello_http K) r w))).
Proof. exact growth_sent. Qed.
Print Assumptions C135_sent_refuted.
(** C135 fails for what is kept in memory: any request with a body, however short, sent often enough
    makes the server hold a body longer than any given bound. *)
Theorem C135_kept_refuted : forall (K : codec) cfg caps ho (svc : service K) q m,
  (1 <= h_max_headers_count cfg)%N -> (forall k, 0 < caps k)%N -> request_ok cfg q ->
  answers ho svc [hd_version (rq_head q)] -> leaves_request svc -> rq_body q <> [] ->
  exists n, forall fuel r w, enough fuel r -> w_budget w = None -> flat r = wires (repeat q n) ->
  exists req d buf, In (req, d) (cr_log (serve fuel cfg caps ho svc r w))
    /\ b_internal (mbody req) = Some buf /\ m < length buf.
Proof. exact growth_kept. Qed.
Print Assumptions C135_kept_refuted.
(** C135, what holds: the answers of the file service are all of one length; *)
Theorem C135_file_partial : forall (K : codec) fuel cfg caps ho qs r w,
  (1 <= h_max_headers_count cfg)%N -> (forall k, 0 < caps k)%N -> enough fuel r ->
  Forall (request_ok cfg) qs -> w_budget w = None -> flat r = wires qs ->
  length (w_out (cr_writer (serve fuel cfg caps ho (@fs_http K) r w))) = length (w_out w) + 25 * length qs.
Proof. exact growth_file. Qed.
Print Assumptions C135_file_partial.
(** ... and while no request has a body, none is kept. *)
Theorem C135_kept_partial : forall (K : codec) fuel cfg caps ho (svc : service K) qs r w req d,
  (1 <= h_max_headers_count cfg)%N -> (forall k, 0 < caps k)%N -> enough fuel r ->
  Forall (request_ok cfg) qs -> answers ho svc (versions qs) -> leaves_request svc ->
  w_budget w = None -> flat r = wires qs -> (forall q, In q qs -> rq_body q = []) ->
  In (req, d) (cr_log (serve fuel cfg caps ho svc r w)) -> b_internal (mbody req) = Some [].
Proof. exact growth_none. Qed.
Print Assumptions C135_kept_partial.

Definition tiny_put : request := Request (Head (B "PUT") (B "/") (B "HTTP/1.1") [(B "content-length", B "1")]) (B "x").
(** forty requests of 37 bytes: more than four times as much in answers, the last handler is given 40 bytes *)
Example C135_nonvacuous :
  request_ok cfg0 tiny_put /\ ~ zero_major (hd_version (rq_head tiny_put)) /\ rq_body tiny_put <> []
  /\ answers (fun l => l) (@hello_http copy_codec) [hd_version (rq_head tiny_put)]
  /\ leaves_request (@hello_http copy_codec)
  /\ (let res := serve (K := copy_codec) 2000 cfg0 (fun _ => 9%N) (fun l => l) hello_http
                   (Rd [wires (repeat tiny_put 40)] Stall) open_writer in
      4 * length (wires (repeat tiny_put 40)) < length (w_out (cr_writer res))
      /\ option_map (fun p => b_internal (mbody (fst p))) (nth_error (cr_log res) 39) = Some (Some (repeat "x"%char 40))).
Proof.
  split; [apply Forall_inv with (l := []); apply requests_okb_ok; vm_compute; reflexivity|].
  split; [intros H; apply keeps_exact in H; vm_compute in H; discriminate|].
  split; [discriminate|].
  split; [apply hello_answers_b; vm_compute; reflexivity|]. split; [apply hello_leaves|].
  split; [apply Nat.ltb_lt; vm_compute; reflexivity|vm_compute; reflexivity].
Qed.
