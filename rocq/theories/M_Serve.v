(** Model of src/reqr.rs, src/respw.rs, src/protocols.rs, src/services/{common,helloworld,fs}.rs,
    src/ws_impl.rs, src/ws.rs, src/http2.rs and the connection loop src/serve.rs. *)
From Verif Require Export M_Message.

(** src/protocols.rs:1-5 *)
Inductive protocol := Current (keep_alive : bool) | WebSocket | Http2.

Section Serve.
Variable K : codec.
Notation message := (message K).

(** ** RequestReader (src/reqr.rs) *)

(** src/reqr.rs:17-25 *)
Definition req_method (m : message) : bytes := fl0 m.
Definition req_rawuri (m : message) : bytes := fl1 m.

(** src/reqr.rs:27-65; [None] = Err(()).  Line 52 parses the minor version from the same slice
    as the major one. *)
Definition SLASH : byte := ascii_of_N 47.
Definition DOT : byte := ascii_of_N 46.
Definition version_of (s : bytes) : option (N * N) :=
  match position (Ascii.eqb SLASH) s with
  | None => None
  | Some idx =>
      if negb (eq_ignore_case (firstn idx s) (B "http")) then None
      else
        let versions := skipn (idx + 1) s in
        match position (Ascii.eqb DOT) versions with
        | None => None
        | Some idx =>
            match parse_uint_b u8max (firstn idx versions) with
            | None => None
            | Some major =>
                match parse_uint_b u8max (firstn idx versions) with
                | None => None
                | Some minor => Some (major, minor)
                end
            end
        end
  end.
Definition req_version (m : message) : option (N * N) := version_of (fl2 m).

(** ** ResponseWriter (src/respw.rs) *)

(** src/respw.rs:14-21: appends to the first field *)
Definition rw_version (m : message) (major minor : N) : message :=
  Msg (fl0 m ++ B "HTTP/" ++ dec major ++ B "." ++ dec minor) (fl1 m) (fl2 m)
      (headers m) (mbody m).
(** src/respw.rs:23-28: appends to the second and third fields *)
Definition rw_code (m : message) (c : N) (reason : bytes) : message :=
  Msg (fl0 m) (fl1 m ++ dec c) (fl2 m ++ reason) (headers m) (mbody m).
(** src/respw.rs:30-34 *)
Definition with_headers (m : message) (h : mmap) : message :=
  Msg (fl0 m) (fl1 m) (fl2 m) h (mbody m).
Definition rw_header (m : message) (k v : bytes) : outcome message :=
  h <- mm_append (headers m) k v ;; Ret (with_headers m h).
(** src/respw.rs:36-40 *)
Definition rw_setheader (m : message) (k v : bytes) : outcome message :=
  h <- mm_set (headers m) k v ;; Ret (with_headers m h).
(** src/respw.rs:42-46 *)
Definition rw_delheader (m : message) (k : bytes) : outcome message :=
  h <- mm_delete (headers m) k ;; Ret (with_headers m h).

(** ** Services *)

(** src/services/common.rs:14-22: [http] gets the request and response messages by [&mut] and
    returns anyhow::Result<Protocol> ([None] = Err).  The connection context is passed by shared
    reference and used by the built-in services only for a log line; it is left out. *)
Definition service := message -> message -> outcome (option protocol * message * message).

(** src/services/helloworld.rs:27-86, without the log calls of lines 38-63, which
    have no effect on the connection: M_Trace.hello_calls *)
Definition hello_http : service := fun req resp =>
  let reqversion := req_version req in
  let w := rw_version resp 1 1 in
  let w := rw_code w 200 (B "OK") in
  w <- rw_header w (B "server") (B "httpd.rs") ;;
  let '(w, keep_alive) :=
    match reqversion with
    | Some (major, minor) =>
        (rw_version w major minor, (1 <=? major)%N && (1 <=? minor)%N)
    | None => (w, true)
    end in
  b <- body_write_all_to_internal (mbody w) (B "Hello world!") ;;
  Ret (Some (Current keep_alive), req, with_body w b).

(** src/services/fs.rs:26-36 *)
Definition fs_http : service := fun req resp => Ret (Some (Current true), req, resp).

(** ** WebSocket handshake: src/ws_impl.rs:17-49.  [sha1] and [b64] stand for the sha1 and base64
    crates (specified in S_Ws). *)
Definition GUID : bytes := B "258EAFA5-E914-47DA-95CA-C5AB0DC85B11".
Definition ws_upgrade (sha1 b64 : bytes -> bytes) (req resp : message)
  : outcome (bool * message) :=
  o <- mm_get (headers req) (B "sec-websocket-key") ;;
  match o with
  | None => Ret (false, resp)
  | Some key =>
      if is_nil key then Ret (false, resp)
      else
        w <- rw_header resp (B "sec-websocket-accept") (b64 (sha1 (key ++ GUID))) ;;
        let w := rw_code (rw_version w 1 1) 101 (B "Switching Protocols") in
        w <- rw_header w (B "sec-websocket-version") (B "13") ;;
        w <- rw_header w (B "upgrade") (B "websocket") ;;
        w <- rw_header w (B "connection") (B "Upgrade") ;;
        Ret (true, w)
  end.

(** ** The connection loop (src/serve.rs:12-96) *)

(** How the connection task ends. [EndClosed]: returned, socket dropped. *)
Inductive conn_end := EndClosed | EndBlocked | EndPanic | EndUB | EndNoFuel.

(** What can be observed of a connection: the requests given to the handler, each with the
    response bytes serialised for it (if it got that far), the writer, and the ending. *)
Record conn_result := CR_ {
  cr_log : list (message * option bytes);
  cr_writer : writer;
  cr_end : conn_end
}.

Definition end_of {A} (o : outcome A) : conn_end :=
  match o with
  | Ret _ => EndClosed
  | Panic => EndPanic
  | UB => EndUB
  | Blocked => EndBlocked
  | NoFuel => EndNoFuel
  end.

(** [inner] is the fuel of the head and body loops, [caps k] the capacity the scratch vector
    happens to have when the k-th body is read (allocator dependent, src/ctx.rs:28). *)
Fixpoint serve_loop (fuel inner : nat) (cfg : http_config) (caps : nat -> N) (ho : hash_order)
    (svc : service) (k : nat) (r : reader) (w : writer) (req resp : message)
    (log : list (message * option bytes)) : conn_result :=
  match fuel with
  | O => CR_ log w EndNoFuel
  | S f =>
      match read_headers inner cfg r req with
      | Ret (RcOk, req1, r1) =>
          match read_const_length_body inner (caps k) r1 req1 with
          | Ret (RcOk, req2, r2) =>
              match svc req2 resp with
              | Ret (Some p, req3, resp3) =>
                  match serialize ho resp3 with
                  | Ret (Some data, resp4) =>
                      let log' := log ++ [(req2, Some data)] in
                      let '(w', ok) := w_write data w in
                      if ok then
                        match p with
                        | Current keep_alive =>
                            if negb keep_alive then CR_ log' w' EndClosed
                            else serve_loop f inner cfg caps ho svc (S k) r2 w'
                                   (msg_clear req3) (msg_clear resp4) log'
                        | WebSocket => CR_ log' w' EndClosed  (* src/ws.rs:3-10 returns at once *)
                        | Http2 => CR_ log' w' EndPanic       (* src/http2.rs:10 todo! *)
                        end
                      else CR_ log' w' EndClosed
                  | Ret (None, _) => CR_ (log ++ [(req2, None)]) w EndClosed
                  | o => CR_ (log ++ [(req2, None)]) w (end_of o)
                  end
              | Ret (None, _, _) => CR_ (log ++ [(req2, None)]) w EndClosed
              | o => CR_ (log ++ [(req2, None)]) w (end_of o)
              end
          | o => CR_ log w (end_of o)
          end
      | o => CR_ log w (end_of o)
      end
  end.

Definition serve (fuel : nat) (cfg : http_config) (caps : nat -> N) (ho : hash_order)
    (svc : service) (r : reader) (w : writer) : conn_result :=
  serve_loop fuel fuel cfg caps ho svc 0 r w msg_default msg_default [].

End Serve.
Arguments req_method {K} _.
Arguments req_rawuri {K} _.
Arguments req_version {K} _.
Arguments rw_version {K} _ _ _.
Arguments rw_code {K} _ _ _.
Arguments with_headers {K} _ _.
Arguments rw_header {K} _ _ _.
Arguments rw_setheader {K} _ _ _.
Arguments rw_delheader {K} _ _.
Arguments hello_http {K} _ _.
Arguments fs_http {K} _ _.
Arguments ws_upgrade {K} _ _ _ _.
Arguments CR_ {K} _ _ _.
Arguments cr_log {K} _.
Arguments cr_writer {K} _.
Arguments cr_end {K} _.
Arguments serve_loop {K} _ _ _ _ _ _ _ _ _ _ _ _.
Arguments serve {K} _ _ _ _ _ _ _.
