(** Model of how responses reach the network: tokio's BufWriter as created in src/serve.rs:29, the
    two write_all calls and the flush of src/message.rs:543-547, and the connection loop of
    src/serve.rs on top of them.  (M_Serve abstracts all this by [w_write].) *)
From Verif Require Export M_Serve M_Settings.

(** Result of polling until ready: [Waits] means that the task is never woken again. *)
Inductive io (A : Type) := Did (a : A) | Broke | Waits.
Arguments Did {A} _.
Arguments Broke {A}.
Arguments Waits {A}.

(** What the other side does at the next call: takes at most [n] bytes (0 is reported as a write
    of no bytes), or the call fails.  When nothing is left the call waits for ever: the client has
    stopped reading. *)
Inductive answer := Takes (n : N) | Fails.

(** The socket below the buffer: the answers to come, the bytes taken so far, those of them that
    are certainly on their way to the client, and the slices it was offered.  A plain TCP stream
    sends at once and its flush does nothing; a TLS stream may hold back what it took until it is
    flushed (src/main.rs:124-161). *)
Record socket := Sock {
  so_plain : bool;
  so_next : list answer;
  so_out : bytes;
  so_sent : bytes;
  so_offers : list bytes
}.
(** AsyncWrite::poll_write of the stream (tokio TcpStream, tokio_rustls TlsStream) *)
Definition sock_write (data : bytes) (s : socket) : socket * io N :=
  match so_next s with
  | [] => (s, Waits)
  | Fails :: next => (Sock (so_plain s) next (so_out s) (so_sent s) (so_offers s ++ [data]), Broke)
  | Takes n :: next =>
      let k := N.min n (lenN data) in
      let out := so_out s ++ fst (splitN k data) in
      (Sock (so_plain s) next out (if so_plain s then out else so_sent s) (so_offers s ++ [data]), Did k)
  end.
(** AsyncWrite::poll_flush of the stream *)
Definition sock_flush (s : socket) : socket * io unit :=
  if so_plain s then (s, Did tt)
  else match so_next s with
       | [] => (s, Waits)
       | Fails :: next => (Sock (so_plain s) next (so_out s) (so_sent s) (so_offers s), Broke)
       | Takes _ :: next => (Sock (so_plain s) next (so_out s) (so_out s) (so_offers s), Did tt)
       end.

(** ** tokio::io::BufWriter (tokio 1, src/io/util/buf_writer.rs) *)
Record bufw := BufW { bw_cap : N; bw_buf : bytes; bw_sock : socket }.

(** BufWriter::flush_buf: what is left of the buffer, and the socket.  Every round takes at least
    one byte, so [fuel = length pending] is enough. *)
Fixpoint drain_buf (fuel : nat) (pending : bytes) (s : socket) : bytes * socket * io unit :=
  match pending, fuel with
  | [], _ => ([], s, Did tt)
  | _, O => (pending, s, Waits)
  | _, S f =>
      let '(s', x) := sock_write pending s in
      match x with
      | Did n => if (n =? 0)%N then (pending, s', Broke) else drain_buf f (snd (splitN n pending)) s'
      | Broke => (pending, s', Broke)
      | Waits => (pending, s', Waits)
      end
  end.
Definition net_flush_buf (w : bufw) : bufw * io unit :=
  let '(rest, s, x) := drain_buf (length (bw_buf w)) (bw_buf w) (bw_sock w) in
  (BufW (bw_cap w) rest s, x).

(** BufWriter::poll_write *)
Definition net_buf_write (data : bytes) (w : bufw) : bufw * io N :=
  let '(w, x) := if (bw_cap w <? lenN (bw_buf w) + lenN data)%N then net_flush_buf w else (w, Did tt) in
  match x with
  | Broke => (w, Broke)
  | Waits => (w, Waits)
  | Did _ =>
      if (bw_cap w <=? lenN data)%N then
        let '(s, y) := sock_write data (bw_sock w) in (BufW (bw_cap w) (bw_buf w) s, y)
      else (BufW (bw_cap w) (bw_buf w ++ data) (bw_sock w), Did (lenN data))
  end.

(** tokio's write_all; every round takes at least one byte, so [fuel = length data] is enough *)
Fixpoint net_write_all (fuel : nat) (data : bytes) (w : bufw) : bufw * io unit :=
  match data, fuel with
  | [], _ => (w, Did tt)
  | _, O => (w, Waits)
  | _, S f =>
      let '(w', x) := net_buf_write data w in
      match x with
      | Did n => if (n =? 0)%N then (w', Broke) else net_write_all f (snd (splitN n data)) w'
      | Broke => (w', Broke)
      | Waits => (w', Waits)
      end
  end.

(** BufWriter::poll_flush *)
Definition buf_flush (w : bufw) : bufw * io unit :=
  let '(w', x) := net_flush_buf w in
  match x with
  | Did _ => let '(s, y) := sock_flush (bw_sock w') in (BufW (bw_cap w') (bw_buf w') s, y)
  | _ => (w', x)
  end.

(** src/message.rs:543-547 *)
Definition send_response (head body : bytes) (w : bufw) : bufw * io unit :=
  let '(w, x) := net_write_all (length head) head w in
  match x with
  | Did _ =>
      let '(w, x) := if Nat.ltb 0 (length body) then net_write_all (length body) body w else (w, Did tt) in
      match x with
      | Did _ => buf_flush w
      | _ => (w, x)
      end
  | _ => (w, x)
  end.

Section Net.
Variable K : codec.
Notation message := (message K).
Notation service := (service K).

(** src/message.rs:517-546: the two slices handed to the writer (the second is empty when the body
    is); otherwise as M_Message.serialize *)
Definition msg_parts (ho : hash_order) (m : message) : outcome (option (bytes * bytes) * message) :=
  let first := fl0 m ++ [SP] ++ fl1 m ++ [SP] ++ fl2 m ++ CRLF in
  let '(b, ok) := body_end (mbody m) in
  if ok then
    let bodysize := body_size b in
    h <- mm_set (headers m) (B "content-length") (dec (N.of_nat bodysize)) ;;
    hs <- mm_each ho h header_visitor [] ;;
    let head := first ++ hs ++ CRLF in
    let m' := Msg (fl0 m) (fl1 m) (fl2 m) h b in
    if Nat.ltb 0 bodysize then
      inner <- body_inner b ;; Ret (Some (head, inner), m')
    else Ret (Some (head, []), m')
  else Ret (None, with_body m b).

(** How the connection task ends: as before, or because a response could not be sent
    (src/serve.rs:57-60), or never because the client does not take the response. *)
Inductive net_end := Ended (e : conn_end) | SendFailed | SendWaits.
Record net_result := NR {
  nr_log : list (message * option (bytes * bytes));
  nr_writer : bufw;
  nr_end : net_end
}.

(** src/serve.rs:35-90 *)
Fixpoint net_loop (fuel inner : nat) (cfg : http_config) (caps : nat -> N) (ho : hash_order)
    (svc : service) (k : nat) (r : reader) (w : bufw) (req resp : message)
    (log : list (message * option (bytes * bytes))) : net_result :=
  match fuel with
  | O => NR log w (Ended EndNoFuel)
  | S f =>
      match read_headers inner cfg r req with
      | Ret (RcOk, req1, r1) =>
          match read_const_length_body inner (caps k) r1 req1 with
          | Ret (RcOk, req2, r2) =>
              match svc req2 resp with
              | Ret (Some p, req3, resp3) =>
                  match msg_parts ho resp3 with
                  | Ret (Some (head, body), resp4) =>
                      let log' := log ++ [(req2, Some (head, body))] in
                      let '(w', x) := send_response head body w in
                      match x with
                      | Broke => NR log' w' SendFailed
                      | Waits => NR log' w' SendWaits
                      | Did _ =>
                          match p with
                          | Current keep_alive =>
                              if negb keep_alive then NR log' w' (Ended EndClosed)
                              else net_loop f inner cfg caps ho svc (S k) r2 w'
                                     (msg_clear req3) (msg_clear resp4) log'
                          | WebSocket => NR log' w' (Ended EndClosed)
                          | Http2 => NR log' w' (Ended EndPanic)
                          end
                      end
                  | Ret (None, _) => NR (log ++ [(req2, None)]) w (Ended EndClosed)
                  | o => NR (log ++ [(req2, None)]) w (Ended (end_of o))
                  end
              | Ret (None, _, _) => NR (log ++ [(req2, None)]) w (Ended EndClosed)
              | o => NR (log ++ [(req2, None)]) w (Ended (end_of o))
              end
          | o => NR log w (Ended (end_of o))
          end
      | o => NR log w (Ended (end_of o))
      end
  end.

(** src/serve.rs:12-34: line 29 gives the writer the size meant for the reader *)
Definition net_serve (fuel : nat) (tcp : tcp_config) (cfg : http_config) (caps : nat -> N)
    (ho : hash_order) (svc : service) (r : reader) (s : socket) : net_result :=
  net_loop fuel fuel cfg caps ho svc 0 r (BufW (t_read_buf tcp) [] s) msg_default msg_default [].
End Net.
Arguments msg_parts {K} _ _.
Arguments NR {K} _ _ _.
Arguments nr_log {K} _.
Arguments nr_writer {K} _.
Arguments nr_end {K} _.
Arguments net_loop {K} _ _ _ _ _ _ _ _ _ _ _ _.
Arguments net_serve {K} _ _ _ _ _ _ _ _.
