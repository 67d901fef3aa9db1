(** Property C136: opening handshakes and nothing else start a WebSocket connection. *)
From Verif Require Import F_Upgrade.

(** C136 fails: every request with some text for a key is answered as if it were an opening
    handshake, whatever its method, its version and its other headers are (see [opening_handshake]). *)
Theorem C136_any_refuted : forall (K : codec) fuel cfg caps ho q key suffix r w,
  (1 <= h_max_headers_count cfg)%N -> (forall k, 0 < caps k)%N -> enough fuel r ->
  request_ok cfg q -> flat r = request_wire q ++ suffix -> w_budget w = None ->
  hd_error (values_of (B "sec-websocket-key") (hd_fields (rq_head q))) = Some key -> key <> [] ->
  let res := serve fuel cfg caps ho (@ws_service K) r w in
  w_out (cr_writer res) = w_out w ++ ws_answer key /\ cr_end res = EndClosed /\ length (cr_log res) = 1.
Proof. exact upgraded. Qed.
Print Assumptions C136_any_refuted.
(** C136 fails for the answer: it has a content-length, which answers of the class 1xx must not have
    (RFC 9110, 8.6). *)
Theorem C136_length_refuted : forall (K : codec) fuel cfg caps ho q suffix r w,
  (1 <= h_max_headers_count cfg)%N -> (forall k, 0 < caps k)%N -> enough fuel r ->
  request_ok cfg q -> flat r = request_wire q ++ suffix -> w_budget w = None ->
  opening_handshake (rq_head q) ->
  exists fs, In (B "content-length", B "0") fs
  /\ w_out (cr_writer (serve fuel cfg caps ho (@ws_service K) r w))
     = w_out w ++ response (B "HTTP/1.1 101 Switching Protocols") fs [].
Proof.
  intros K fuel cfg caps ho q suffix r w Hc Hcap Hf Hq Hr Hw Hh.
  destruct (upgraded_proper K fuel cfg caps ho q suffix r w Hc Hcap Hf Hq Hr Hw Hh) as (key & _ & E & _).
  unfold ws_answer in E. eexists. split; [|exact E]. cbn [In]. tauto.
Qed.
Print Assumptions C136_length_refuted.
(** C136, what holds: an opening handshake at the start of a connection is answered with 101, the
    answer to its key and the other headers of RFC 6455 (and the content-length), and the connection
    then leaves HTTP: no later byte is taken for a request (what becomes of it is C95). *)
Theorem C136_answer_partial : forall (K : codec) fuel cfg caps ho q suffix r w,
  (1 <= h_max_headers_count cfg)%N -> (forall k, 0 < caps k)%N -> enough fuel r ->
  request_ok cfg q -> flat r = request_wire q ++ suffix -> w_budget w = None ->
  opening_handshake (rq_head q) ->
  let res := serve fuel cfg caps ho (@ws_service K) r w in
  exists key, values_of (B "sec-websocket-key") (hd_fields (rq_head q)) = [key]
  /\ w_out (cr_writer res) = w_out w ++ ws_answer key /\ cr_end res = EndClosed /\ length (cr_log res) = 1.
Proof. exact upgraded_proper. Qed.
Print Assumptions C136_answer_partial.

Definition rfc_request : request := Request (Head (B "GET") (B "/chat") (B "HTTP/1.1")
  [(B "Host", B "server.example.com"); (B "Upgrade", B "websocket"); (B "Connection", B "keep-alive, Upgrade");
   (B "Sec-WebSocket-Key", B "dGhlIHNhbXBsZSBub25jZQ=="); (B "Sec-WebSocket-Version", B "13")]) [].
Definition no_handshake : request := Request (Head (B "POST") (B "/") (B "HTTP/1.0") [(B "sec-websocket-key", B "x")]) [].
(** the request of RFC 6455 (with one more connection option), and one that is nothing of the kind *)
Example C136_nonvacuous :
  Forall (request_ok cfg0) [rfc_request; no_handshake]
  /\ opening_handshake (rq_head rfc_request) /\ ~ opening_handshake (rq_head no_handshake)
  /\ map (fun q => w_out (cr_writer (serve (K := copy_codec) 600 cfg0 (fun _ => 9%N) (fun l => l) ws_service
                     (byte_wise (request_wire q) Stall) open_writer))) [rfc_request; no_handshake]
     = [B ("HTTP/1.1 101 Switching Protocols" ++ nl ++ "sec-websocket-accept: s3pPLMBiTxaQ9kYGzzhZRbK+xOo=" ++ nl
           ++ "sec-websocket-version: 13" ++ nl ++ "upgrade: websocket" ++ nl ++ "connection: Upgrade" ++ nl
           ++ "content-length: 0" ++ nl ++ nl); ws_answer (B "x")].
Proof.
  split; [apply requests_okb_ok; vm_compute; reflexivity|].
  split; [|split; [intros (H & _); discriminate H|vm_compute; reflexivity]].
  unfold opening_handshake, rfc_request. cbn [rq_head hd_method hd_version hd_fields].
  split; [reflexivity|]. split; [reflexivity|].
  split; [eexists; vm_compute; reflexivity|].
  split.
  { exists (B "websocket"). split; [vm_compute; left; reflexivity|].
    exists [], (B "websocket"), []. split; [reflexivity|]. split; [now left|]. split; [now left|].
    split; [|vm_compute; reflexivity]. cbn. intuition discriminate. }
  split.
  { exists (B "keep-alive, Upgrade"). split; [vm_compute; left; reflexivity|].
    exists (B "keep-alive,"), (B " Upgrade"), []. split; [reflexivity|].
    split; [right; exists (B "keep-alive"); reflexivity|]. split; [now left|].
    split; [|vm_compute; reflexivity]. cbn. intuition discriminate. }
  split; [vm_compute; reflexivity|].
  exists (B "the sample nonce"). split; vm_compute; reflexivity.
Qed.
