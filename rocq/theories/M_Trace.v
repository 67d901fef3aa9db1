(** Model of the log calls made while requests are served: src/services/helloworld.rs:38-63,
    src/serve.rs:24, 58, 63 and 94 (24 and 94 only in builds with debug assertions), src/main.rs:212,
    216 and 242. *)
From Verif Require Export M_Consumer M_Serve.

(** One call of a macro of crate log: where it stands, its level, message and attributes.  The
    macro makes a record if the level is within the maximum (src/logging/dispatcher.rs:128-131 sets
    it); the time of the record is read when it is made (src/logging/item.rs:78). *)
Record log_call := LogCall {
  call_file : bytes;
  call_line : N;
  call_level : level;
  call_msg : bytes;
  call_kvs : list (bytes * kv_value)
}.
Definition record_of (time : N) (c : log_call) : log_record :=
  LogRecord time (call_level c) (Some (call_file c)) (Some (call_line c)) (call_msg c) (call_kvs c).
(** crate log, macro log!: lvl <= max_level() *)
Definition enabled_calls (max : level) (l : list log_call) : list log_call :=
  filter (fun c => level_leb (call_level c) max) l.

(** the value of a usize attribute, and of a text attribute (to_u64 gives None; what to_writer makes
    of it is not used, as the attribute is called "service") *)
Definition index_value (i : nat) : kv_value := Value (Some (N.of_nat i)) (dec (N.of_nat i)).
Definition text_value (s : bytes) : kv_value := Value None (quoted s).

(** {:?} of Result<(u8, u8), ()> *)
Definition version_debug (v : option (N * N)) : bytes :=
  match v with
  | Some (major, minor) => B "Ok((" ++ dec major ++ B ", " ++ dec minor ++ B "))"
  | None => B "Err(())"
  end.

Definition hello_file : bytes := B "src/services/helloworld.rs".
Definition hello_call (line : N) (msg : bytes) (kvs : list (bytes * kv_value)) : log_call :=
  LogCall hello_file line Trace msg kvs.

(** src/services/helloworld.rs:42-47: one call for each value of each name *)
Definition header_calls (idx : nat) (l : list log_call) (k : bytes) (vs : list bytes)
    : list log_call * bool :=
  (l ++ map (fun v => hello_call 44 (k ++ B ": " ++ v) [(B "service", index_value idx)]) vs, true).

Section Trace.
Variable K : codec.

(** src/services/helloworld.rs:51-62 *)
Definition body_call (idx : nat) (b : body K) : outcome log_call :=
  if body_is_empty b then Ret (hello_call 52 (B "EmptyBody") [])
  else
    inner <- body_inner b ;;
    Ret (match utf8_decode inner with
         | Some _ =>
             hello_call 56 (B "PrintableBody:" ++ CRLF ++ B "---------------------" ++ CRLF ++ inner
                            ++ CRLF ++ B "---------------------") [(B "service", index_value idx)]
         | None =>
             hello_call 59 (B "BinaryBody: " ++ dec (N.of_nat (body_size b)))
               [(B "service", index_value idx)]
         end).

(** src/services/helloworld.rs:38-63: the calls for a request, in order.  [addr] is the peer's
    address as text, [idx] the service's index. *)
Definition hello_calls (addr : bytes) (idx : nat) (ho : hash_order) (req : message K)
    : outcome (list log_call) :=
  hs <- mm_each ho (headers req) (header_calls idx) [] ;;
  b <- body_call idx (mbody req) ;;
  Ret (hello_call 39 (B "Request From " ++ addr) [(B "service", index_value idx)]
       :: hello_call 41 (req_method req ++ [SP] ++ req_rawuri req ++ [SP]
                         ++ version_debug (req_version req)) []
       :: hs ++ [b]).
End Trace.
Arguments body_call {K} _ _.
Arguments hello_calls {K} _ _ _ _.

(** src/serve.rs:58: [err] is the text of the error *)
Definition send_failed_call (err : bytes) : log_call :=
  LogCall (B "src/serve.rs") 58 Debug (B "send response failed, " ++ err) [].
(** src/serve.rs:63: [name] is the service's name *)
Definition handle_failed_call (name err : bytes) : log_call :=
  LogCall (B "src/serve.rs") 63 Error (B "handle failed, " ++ err) [(B "service", text_value name)].
(** src/main.rs:212 *)
Definition join_failed_call (err : bytes) : log_call :=
  LogCall (B "src/main.rs") 212 Error (B "join error, " ++ err) [].
(** src/main.rs:216 and 242 *)
Definition service_failed_call (line : N) (err : bytes) : log_call :=
  LogCall (B "src/main.rs") line Error (B "service serve error, " ++ err) [].
(** src/serve.rs:24 and 94, with debug assertions *)
Definition connection_call (line : N) (what name addr : bytes) : log_call :=
  LogCall (B "src/serve.rs") line Trace (B "connection " ++ what ++ B ", " ++ addr)
    [(B "service", text_value name)].
