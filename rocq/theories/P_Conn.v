(** Properties C14-C16, C24, C25, C74 and C75: the connection loop. *)
From Verif Require Import F_Served.

(** C14, the part that holds: a head whose first content-length is not a number (see [malformed])
    closes the connection, without calling the handler and without writing anything more. *)
Theorem C14_malformed_closes_partial : forall (K : codec) fuel cfg caps ho (svc : service K) qs h v rest r w,
  (1 <= h_max_headers_count cfg)%N -> (forall k, 0 < caps k)%N -> enough fuel r ->
  Forall (request_ok cfg) qs -> answers ho svc (versions qs) -> w_budget w = None ->
  head_ok (h_max_url_size cfg) (h_max_header_line_size cfg) h ->
  hd_error (values_of (B "content-length") (hd_fields h)) = Some v -> malformed v ->
  flat r = wires qs ++ head_wire h ++ rest ->
  let res := serve fuel cfg caps ho svc r w in
  cr_end res = EndClosed /\ Forall2 (handled ho svc) qs (cr_log res)
  /\ w_out (cr_writer res) = w_out w ++ concat (map sent (cr_log res)).
Proof. exact malformed_closes. Qed.
Print Assumptions C14_malformed_closes_partial.
(** On any stream at all, every request given to the handler has no content-length or a number. *)
Theorem C14_handler_sees_number_partial : forall (K : codec) fuel cfg caps ho (svc : service K) r w req d,
  In (req, d) (cr_log (serve fuel cfg caps ho svc r w)) ->
  mm_get (headers req) (B "content-length") = Ret None \/
  exists v n, mm_get (headers req) (B "content-length") = Ret (Some v) /\ (n < 2 ^ 64)%N
    /\ (numeral v n \/ exists t, v = PLUS :: t /\ numeral t n).
Proof. exact logged_length. Qed.
Print Assumptions C14_handler_sees_number_partial.
(** C14 fails for "+5": it is accepted as 5. *)
Theorem C14_plus_accepted_refuted : forall (K : codec) fuel cfg caps ho (svc : service K) h t body suffix r w,
  (1 <= h_max_headers_count cfg)%N -> (forall k, 0 < caps k)%N -> enough fuel r ->
  head_ok (h_max_url_size cfg) (h_max_header_line_size cfg) h ->
  hd_error (values_of (B "content-length") (hd_fields h)) = Some (PLUS :: t) ->
  numeral t (N.of_nat (length body)) -> (N.of_nat (length body) < 2 ^ 64)%N ->
  flat r = head_wire h ++ body ++ suffix ->
  exists req d, hd_error (cr_log (serve fuel cfg caps ho svc r w)) = Some (req, d)
    /\ has_head h req /\ b_internal (mbody req) = Some body.
Proof. exact plus_accepted. Qed.
Print Assumptions C14_plus_accepted_refuted.
Example C14_nonvacuous :
  let s (v : string) := B ("POST / HTTP/1.1" ++ nl ++ "Content-Length: " ++ v ++ nl ++ nl ++ "abcde") in
  let run (v : string) := serve (K := copy_codec) 200 cfg0 (fun _ => 9%N) (fun l => l) hello_http (one_piece (s v) Stall) open_writer in
  malformed (B "5a") /\ (cr_end (run "5a"%string), cr_log (run "5a"%string), w_out (cr_writer (run "5a"%string))) = (EndClosed, [], [])
  /\ map (fun p => b_internal (mbody (fst p))) (cr_log (run "+5"%string)) = [Some (B "abcde")].
Proof.
  split; [|vm_compute; auto]. intros n _. split.
  - intros (_ & H & _). inversion H as [|? ? _ H2]. inversion H2 as [|? ? H3 _]. unfold digit in H3. cbn in H3. lia.
  - intros (t & E & _). discriminate.
Qed.

(** C15: any number of requests sent back to back are given to the handler once each, in order,
    each with its own head; the responses are written in the same order; then the connection
    waits or ends with the stream.  The body a request is given ends with the one it carried (what
    comes before it is C16). *)
Theorem C15_pipelined : forall (K : codec) fuel cfg caps ho (svc : service K) qs r w,
  (1 <= h_max_headers_count cfg)%N -> (forall k, 0 < caps k)%N -> enough fuel r ->
  Forall (request_ok cfg) qs -> answers ho svc (versions qs) ->
  w_budget w = None -> flat r = wires qs ->
  let res := serve fuel cfg caps ho svc r w in
  Forall2 (handled ho svc) qs (cr_log res)
  /\ w_out (cr_writer res) = w_out w ++ concat (map sent (cr_log res))
  /\ cr_end res = match fin r with Stall => EndBlocked | _ => EndClosed end.
Proof. exact pipelined. Qed.
Print Assumptions C15_pipelined.
(** the two built-in services meet the hypothesis about the handler (hello world: when no version
    has the major number 0, see C23) *)
Theorem C15_builtin_answer : forall (K : codec) ho vs,
  answers ho (@fs_http K) vs
  /\ ((forall v, In v vs -> ~ zero_major v) -> answers ho (@hello_http K) vs).
Proof. intros K ho vs. split; [apply fs_answers|apply hello_answers_major]. Qed.
Print Assumptions C15_builtin_answer.
Definition three : list request :=
  [Request (Head (B "GET") (B "/a") (B "HTTP/1.1") []) [];
   Request (Head (B "POST") (B "/b") (B "HTTP/1.1") [(B "Content-LENGTH", B " 05")]) (B "GET /");
   Request (Head (B "POST") (B "/c") (B "?") [(B "content-length", B "2 "); (B "Host", B "h")]) (B "xy")].
Example C15_nonvacuous :
  Forall (request_ok cfg0) three /\ answers (fun l => l) (@hello_http copy_codec) (versions three)
  /\ map (fun p => fl1 (fst p))
       (cr_log (serve (K := copy_codec) 300 cfg0 (fun _ => 3%N) (fun l => l) hello_http (byte_wise (wires three) Eof) open_writer))
     = [B "/a"; B "/b"; B "/c"].
Proof.
  split; [|split; [|vm_compute; reflexivity]].
  - apply requests_okb_ok. vm_compute. reflexivity.
  - apply hello_answers_b. vm_compute. reflexivity.
Qed.

(** C16 fails: the k-th handler sees the bodies of requests 0 to k one after the other. *)
Theorem C16_bodies_accumulate_refuted : forall (K : codec) fuel cfg caps ho (svc : service K) qs r w,
  (1 <= h_max_headers_count cfg)%N -> (forall k, 0 < caps k)%N -> enough fuel r ->
  Forall (request_ok cfg) qs -> answers ho svc (versions qs) -> leaves_request svc ->
  w_budget w = None -> flat r = wires qs ->
  length (cr_log (serve fuel cfg caps ho svc r w)) = length qs /\
  forall k req d, nth_error (cr_log (serve fuel cfg caps ho svc r w)) k = Some (req, d) ->
  b_internal (mbody req) = Some (concat (map rq_body (firstn (S k) qs))).
Proof. exact bodies_accumulate. Qed.
Print Assumptions C16_bodies_accumulate_refuted.
(** C16, the part that holds: the first request of a connection, for every handler and whatever
    follows. *)
Theorem C16_first_request_partial : forall (K : codec) fuel cfg caps ho (svc : service K) q suffix r w,
  (1 <= h_max_headers_count cfg)%N -> (forall k, 0 < caps k)%N -> enough fuel r ->
  request_ok cfg q -> flat r = request_wire q ++ suffix ->
  exists req d log, cr_log (serve fuel cfg caps ho svc r w) = (req, d) :: log
    /\ has_head (rq_head q) req /\ mbody req = Body (Some (rq_body q)) None.
Proof. exact first_request. Qed.
Print Assumptions C16_first_request_partial.
(** ... and, for handlers that leave the request as it is, exactly the requests before which no
    body was sent *)
Theorem C16_own_body_partial : forall (K : codec) fuel cfg caps ho (svc : service K) qs r w,
  (1 <= h_max_headers_count cfg)%N -> (forall k, 0 < caps k)%N -> enough fuel r ->
  Forall (request_ok cfg) qs -> answers ho svc (versions qs) -> leaves_request svc ->
  w_budget w = None -> flat r = wires qs ->
  forall k q req d, nth_error qs k = Some q ->
  nth_error (cr_log (serve fuel cfg caps ho svc r w)) k = Some (req, d) ->
  (b_internal (mbody req) = Some (rq_body q) <-> Forall (fun q => rq_body q = []) (firstn k qs)).
Proof. exact own_body. Qed.
Print Assumptions C16_own_body_partial.
Example C16_nonvacuous :
  map (fun p => b_internal (mbody (fst p)))
       (cr_log (serve (K := copy_codec) 300 cfg0 (fun _ => 3%N) (fun l => l) hello_http (byte_wise (wires three) Eof) open_writer))
     = [Some (B ""); Some (B "GET /"); Some (B "GET /xy")].
Proof. vm_compute. reflexivity. Qed.

(** C24: on any stream, for any handler and wherever the peer stops accepting, what was written
    is the responses of the log one after the other, or the first bytes of that. *)
Theorem C24_only_responses_written : forall (K : codec) fuel cfg caps ho (svc : service K) r w,
  let res := serve fuel cfg caps ho svc r w in
  w_out (cr_writer res) = w_out w ++ match w_budget w with
                                     | None => concat (map sent (cr_log res))
                                     | Some k => firstn (N.to_nat k) (concat (map sent (cr_log res)))
                                     end.
Proof. exact written. Qed.
Print Assumptions C24_only_responses_written.
Example C24_nonvacuous :
  let res := serve (K := copy_codec) 300 cfg0 (fun _ => 3%N) (fun l => l) fs_http
               (byte_wise (wires three) Eof) (Wr (B "earlier ") (Some 30%N)) in
  w_out (cr_writer res) = B ("earlier   " ++ nl ++ "content-length: 0" ++ nl ++ nl ++ "  " ++ nl ++ "c")
  /\ length (cr_log res) = 2 /\ cr_end res = EndClosed.
Proof. vm_compute. auto. Qed.

(** C25 fails: a client that stops inside a head is waited for, whatever idle_timeout says ... *)
Theorem C25_stalled_waits_refuted : forall (K : codec) fuel cfg caps ho (svc : service K) qs h part rest r w,
  (1 <= h_max_headers_count cfg)%N -> (forall k, 0 < caps k)%N -> enough fuel r ->
  Forall (request_ok cfg) qs -> answers ho svc (versions qs) -> w_budget w = None ->
  head_ok (h_max_url_size cfg) (h_max_header_line_size cfg) h -> head_wire h = part ++ rest -> rest <> [] ->
  flat r = wires qs ++ part -> fin r = Stall ->
  cr_end (serve fuel cfg caps ho svc r w) = EndBlocked
  /\ Forall2 (handled ho svc) qs (cr_log (serve fuel cfg caps ho svc r w)).
Proof. exact silent. Qed.
Print Assumptions C25_stalled_waits_refuted.
(** ... because only three settings reach the loop at all (C75: max_body_size, idle_timeout,
    compression and the body limit of the service change nothing). *)
Theorem C75_settings_ignored_refuted : forall (K : codec) fuel cfg cfg' caps ho (svc : service K) r w,
  h_max_url_size cfg' = h_max_url_size cfg -> h_max_header_line_size cfg' = h_max_header_line_size cfg ->
  h_max_headers_count cfg' = h_max_headers_count cfg ->
  serve fuel cfg' caps ho svc r w = serve fuel cfg caps ho svc r w.
Proof. exact settings_ignored. Qed.
Print Assumptions C75_settings_ignored_refuted.
Example C25_nonvacuous :
  cr_end (serve (K := copy_codec) 300 cfg0 (fun _ => 3%N) (fun l => l) hello_http
            (byte_wise (wires three ++ B "GET / HT") Stall) open_writer) = EndBlocked.
Proof. vm_compute. reflexivity. Qed.

(** C74: the server does not look ahead.  If it waits for more after some bytes, then on any longer
    stream - cut into any pieces, read with any buffers - it first does the same: same requests
    handled, same bytes written; if it does not wait, then what follows changes nothing. *)
Theorem C74_causal : forall (K : codec) fuel1 fuel2 cfg caps1 caps2 ho (svc : service K) r1 r2 t w,
  (forall k, 0 < caps1 k)%N -> (forall k, 0 < caps2 k)%N -> enough fuel1 r1 -> enough fuel2 r2 ->
  fin r1 = Stall -> flat r2 = flat r1 ++ t ->
  let a := serve fuel1 cfg caps1 ho svc r1 w in
  let b := serve fuel2 cfg caps2 ho svc r2 w in
  (cr_end a = EndBlocked
   /\ exists log out, cr_log b = cr_log a ++ log /\ w_out (cr_writer b) = w_out (cr_writer a) ++ out)
  \/ b = a.
Proof. exact causal. Qed.
Print Assumptions C74_causal.
Example C74_nonvacuous :
  let run s e := serve (K := copy_codec) 300 cfg0 (fun _ => 3%N) (fun l => l) hello_http (byte_wise s e) open_writer in
  length (cr_log (run (firstn 60 (wires three)) Stall)) = 1
  /\ cr_end (run (firstn 60 (wires three)) Stall) = EndBlocked
  /\ length (cr_log (run (wires three) Eof)) = 3.
Proof. vm_compute. auto. Qed.
