(** Property C134: closing a connection loses no answers. *)
From Verif Require Import F_Linger.

(** C134 fails: requests that were read, handled and answered, followed by one that is refused for
    its content-length and by more data (its body, say).  The server closes the connection without
    reading that, and the client may lose any part of the answers to all the requests before. *)
Theorem C134_lost_refuted : forall (K : codec) fuel cfg caps ho (svc : service K) qs h v pre more e w,
  (1 <= h_max_headers_count cfg)%N -> (forall k, 0 < caps k)%N -> enough fuel (Rd (pre ++ more) e) ->
  Forall (request_ok cfg) qs -> answers ho svc (versions qs) -> w_budget w = None ->
  head_ok (h_max_url_size cfg) (h_max_header_line_size cfg) h ->
  hd_error (values_of (B "content-length") (hd_fields h)) = Some v -> malformed v ->
  concat pre = wires qs ++ head_wire h -> concat more <> [] ->
  let r := Rd (pre ++ more) e in
  let res := serve fuel cfg caps ho svc r w in
  Forall2 (handled ho svc) qs (cr_log res)
  /\ w_out (cr_writer res) = w_out w ++ concat (map sent (cr_log res))
  /\ forall d lost, w_out (cr_writer res) = d ++ lost -> client_gets fuel cfg caps ho svc r w d.
Proof. exact linger_lost. Qed.
Print Assumptions C134_lost_refuted.
(** C134 fails with hello world for clients of HTTP/0.x too, which are answered and then
    disconnected (C23), if anything follows their request. *)
Theorem C134_old_refuted : forall (K : codec) fuel cfg caps ho qs q pre more e w d lost,
  (1 <= h_max_headers_count cfg)%N -> (forall k, 0 < caps k)%N -> enough fuel (Rd (pre ++ more) e) ->
  Forall (request_ok cfg) qs -> (forall v, In v (versions qs) -> ~ zero_major v) ->
  request_ok cfg q -> zero_major (hd_version (rq_head q)) -> w_budget w = None ->
  concat pre = wires qs ++ request_wire q -> concat more <> [] ->
  let r := Rd (pre ++ more) e in
  w_out (cr_writer (serve fuel cfg caps ho (@hello_http K) r w)) = d ++ lost ->
  client_gets fuel cfg caps ho (@hello_http K) r w d.
Proof. exact linger_old. Qed.
Print Assumptions C134_old_refuted.
(** C134, the part that holds: nothing is lost of a connection on which the server would have gone
    on reading after everything the client sends; *)
Theorem C134_waiting_partial : forall (K : codec) fuel cfg caps ho (svc : service K) r w d,
  (forall k, 0 < caps k)%N -> enough fuel r ->
  cr_end (serve fuel cfg caps ho svc (Rd (segs r) Stall) w) = EndBlocked ->
  client_gets fuel cfg caps ho svc r w d ->
  d = w_out (cr_writer (serve fuel cfg caps ho svc r w)).
Proof. exact linger_waiting. Qed.
Print Assumptions C134_waiting_partial.
(** ... so a client that sends well-formed requests only, and ends the connection itself, gets all
    the answers, if the handler does not ask to close. *)
Theorem C134_complete_partial : forall (K : codec) fuel cfg caps ho (svc : service K) qs r w d,
  (1 <= h_max_headers_count cfg)%N -> (forall k, 0 < caps k)%N -> enough fuel r ->
  Forall (request_ok cfg) qs -> answers ho svc (versions qs) ->
  w_budget w = None -> flat r = wires qs ->
  client_gets fuel cfg caps ho svc r w d ->
  let res := serve fuel cfg caps ho svc r w in
  Forall2 (handled ho svc) qs (cr_log res) /\ d = w_out w ++ concat (map sent (cr_log res)).
Proof. exact linger_complete. Qed.
Print Assumptions C134_complete_partial.
(** Whatever the handler does: if it was given all the requests the client sends, and these are all
    the client sends, nothing is lost, even if the last one made it close the connection; *)
Theorem C134_all_read_partial : forall (K : codec) fuel cfg caps ho (svc : service K) qs r w d,
  (forall k, 0 < caps k)%N -> enough fuel r ->
  requests_at Stall cfg (flat r) qs [] -> length (cr_log (serve fuel cfg caps ho svc r w)) = length qs ->
  client_gets fuel cfg caps ho svc r w d ->
  d = w_out (cr_writer (serve fuel cfg caps ho svc r w)).
Proof. exact linger_all_read. Qed.
Print Assumptions C134_all_read_partial.
(** ... so in particular if they are well formed. *)
Theorem C134_well_formed_partial : forall (K : codec) fuel cfg caps ho (svc : service K) qs r w d,
  (1 <= h_max_headers_count cfg)%N -> (forall k, 0 < caps k)%N -> enough fuel r ->
  Forall (request_ok cfg) qs -> flat r = wires qs ->
  length (cr_log (serve fuel cfg caps ho svc r w)) = length qs ->
  client_gets fuel cfg caps ho svc r w d ->
  d = w_out (cr_writer (serve fuel cfg caps ho svc r w)).
Proof. exact linger_read. Qed.
Print Assumptions C134_well_formed_partial.

Definition two_good : list request :=
  [Request (Head (B "GET") (B "/a") (B "HTTP/1.1") []) [];
   Request (Head (B "POST") (B "/b") (B "HTTP/1.1") [(B "Content-Length", B " 2")]) (B "xy")].
Definition refused_head := Head (B "POST") (B "/c") (B "HTTP/1.1") [(B "Content-Length", B "5a")].
Definition old_client (path : string) : bytes := B ("GET " ++ path ++ " HTTP/0.9" ++ nl ++ nl).
(** the hypotheses are met; and the client of C134_old_refuted may lose everything *)
Example C134_nonvacuous :
  Forall (request_ok cfg0) two_good /\ answers (fun l => l) (@hello_http copy_codec) (versions two_good)
  /\ head_ok (h_max_url_size cfg0) (h_max_header_line_size cfg0) refused_head
  /\ malformed (B "5a")
  /\ cr_end (serve (K := copy_codec) 300 cfg0 (fun _ => 9%N) (fun l => l) hello_http
               (Rd [wires two_good ++ head_wire refused_head] Stall) open_writer) = EndClosed
  /\ length (w_out (cr_writer (serve (K := copy_codec) 300 cfg0 (fun _ => 9%N) (fun l => l) hello_http
               (Rd [wires two_good ++ head_wire refused_head; B "abcde"] Eof) open_writer))) > 100
  /\ cr_end (serve (K := copy_codec) 300 cfg0 (fun _ => 9%N) (fun l => l) hello_http
               (Rd [wires two_good] Stall) open_writer) = EndBlocked
  /\ client_gets (K := copy_codec) 300 cfg0 (fun _ => 9%N) (fun l => l) hello_http
       (Rd [old_client "/a"; old_client "/b"] Eof) open_writer []
  /\ (let q := Request (Head (B "GET") (B "/a") (B "HTTP/0.9") []) [] in
      Forall (request_ok cfg0) [q]
      /\ let res := serve (K := copy_codec) 300 cfg0 (fun _ => 9%N) (fun l => l) hello_http
                      (byte_wise (wires [q]) Stall) open_writer in
         (length (cr_log res), cr_end res) = (1, EndClosed)).
Proof.
  split; [apply requests_okb_ok; vm_compute; reflexivity|].
  split; [apply hello_answers_b; vm_compute; reflexivity|].
  split; [apply head_okb_ok; vm_compute; reflexivity|].
  split.
  { intros n _. split.
    - intros (_ & H & _). inversion H as [|? ? _ H2]. inversion H2 as [|? ? H3 _]. unfold digit in H3. cbn in H3. lia.
    - intros (t & E & _). discriminate. }
  split; [vm_compute; reflexivity|].
  split; [vm_compute; lia|].
  split; [vm_compute; reflexivity|].
  split.
  { eapply gets_part; [|reflexivity].
    exists [old_client "/a"], [old_client "/b"]. split; [reflexivity|]. split; [discriminate|].
    vm_compute. reflexivity. }
  split; [apply requests_okb_ok; vm_compute; reflexivity|vm_compute; reflexivity].
Qed.
