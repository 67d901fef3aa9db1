(** Properties C17-C23, C33, C90, C92 and C97: responses. *)
From Verif Require Import F_Written.

(** C17 fails: the k-th response (from 0) on a connection carries k+1 greetings. *)
Theorem C17_greetings_pile_up_refuted : forall (K : codec) fuel cfg caps ho r w k req d,
  nth_error (cr_log (serve fuel cfg caps ho (@hello_http K) r w)) k = Some (req, d) ->
  let body := concat (repeat (B "Hello world!") (S k)) in
  exists line, greeting_line (fl2 req) line /\ one_line line /\
    d = Some (response line [(B "server", B "httpd.rs");
                             (B "content-length", dec (N.of_nat (length body)))] body).
Proof. exact hello_bodies. Qed.
Print Assumptions C17_greetings_pile_up_refuted.
(** C17, the part that holds: the first response of a connection. *)
Theorem C17_first_greeting_partial : forall (K : codec) fuel cfg caps ho r w req d log,
  cr_log (serve fuel cfg caps ho (@hello_http K) r w) = (req, d) :: log ->
  exists line, greeting_line (fl2 req) line /\ one_line line /\
    d = Some (response line [(B "server", B "httpd.rs"); (B "content-length", B "12")] (B "Hello world!")).
Proof.
  intros K fuel cfg caps ho r w req d log E.
  apply (hello_bodies K fuel cfg caps ho r w 0 req d). now rewrite E.
Qed.
Print Assumptions C17_first_greeting_partial.
Definition two (v : string) : bytes := B ("GET /a " ++ v ++ nl ++ nl ++ "GET /b " ++ v ++ nl ++ nl).
Definition hello (s : bytes) : conn_result copy_codec :=
  serve (K := copy_codec) 300 cfg0 (fun _ => 3%N) (fun l => l) hello_http (one_piece s Eof) open_writer.
Example C17_nonvacuous :
  w_out (cr_writer (hello (two "x"))) =
  B ("HTTP/1.1 200 OK" ++ nl ++ "server: httpd.rs" ++ nl ++ "content-length: 12" ++ nl ++ nl ++ "Hello world!"
     ++ "HTTP/1.1 200 OK" ++ nl ++ "server: httpd.rs" ++ nl ++ "content-length: 24" ++ nl ++ nl ++ "Hello world!Hello world!").
Proof. vm_compute. reflexivity. Qed.

(** C18: every response of the two built-in services carries exactly one content-length header,
    the number of bytes after the blank line.  Nothing is assumed about the stream. *)
Theorem C18_builtin_truthful : forall (K : codec) fuel cfg caps ho (svc : service K) r w req d,
  svc = hello_http \/ svc = fs_http ->
  In (req, d) (cr_log (serve fuel cfg caps ho svc r w)) -> exists data, d = Some data /\ truthful data.
Proof. exact builtin_truthful. Qed.
Print Assumptions C18_builtin_truthful.
Example C18_nonvacuous : length (cr_log (hello (two "HTTP/1.1"))) = 2.
Proof. vm_compute. reflexivity. Qed.

(** C19, the part that holds: a handler that writes the response by any list of version, code,
    header, setheader, delheader and body calls - chosen after looking at the request - whose names
    are not empty, without colon and line break and no other spelling of content-length, whose
    values are one line, and whose header calls and the content-length set in the end all keep clear
    of the gaps left by deletions (see C27), gets truthful responses, on any connection. *)
Theorem C19_scripts_truthful_partial : forall (K : codec) fuel cfg caps ho f r w req d, order_ok ho ->
  (forall req, Forall rop_fine (fst (f req)) /\ headers_sound (fst (f req))) ->
  In (req, Some d) (cr_log (serve fuel cfg caps ho (@scripted K f) r w)) -> truthful d.
Proof. exact scripts_truthful. Qed.
Print Assumptions C19_scripts_truthful_partial.
(** in particular when nothing is deleted *)
Theorem C19_no_deletions_partial : forall l, Forall deletes_none l -> headers_sound l.
Proof. exact none_deleted. Qed.
Print Assumptions C19_no_deletions_partial.
(** C19 fails otherwise: if a gap is left in front of the place for content-length, no response of
    the connection is truthful ... *)
Theorem C19_gap_refuted : forall (K : codec) fuel cfg caps ho f r w req d,
  (forall req, Forall rop_fine (fst (f req)) /\ all_sound (Row []) (all_of says_header (fst (f req)))
    /\ ~ headers_sound (fst (f req))
    /\ a_run (all_of says_header (fst (f req))) a_empty (B "content-length") = None) ->
  In (req, Some d) (cr_log (serve fuel cfg caps ho (@scripted K f) r w)) -> ~ truthful d.
Proof. exact gap_spoils. Qed.
Print Assumptions C19_gap_refuted.
(** ... as after deleting the only header ... *)
Theorem C19_delete_refuted : forall (K : codec) fuel cfg caps ho k v p r w req d, k <> [] ->
  In (req, Some d) (cr_log (serve fuel cfg caps ho
       (@scripted K (fun _ => ([RHeader k v; RDelHeader k], p))) r w)) ->
  ~ truthful d.
Proof. exact delete_spoils. Qed.
Print Assumptions C19_delete_refuted.
(** ... nor with a content-length header spelled with a capital ... *)
Theorem C19_capital_refuted : forall (K : codec) fuel cfg caps ho k v p r w req d,
  same_name (B "content-length") k = true -> k <> B "content-length" -> one_line v ->
  In (req, Some d) (cr_log (serve fuel cfg caps ho (@scripted K (fun _ => ([RHeader k v], p))) r w)) ->
  ~ truthful d.
Proof. exact case_spoils. Qed.
Print Assumptions C19_capital_refuted.
(** ... nor with a line break in a value. *)
Theorem C19_line_break_refuted : forall (K : codec) fuel cfg caps ho k v1 n v2 p r w req d,
  name_fine k -> k <> B "content-length" -> one_line v1 ->
  same_name (B "content-length") n = true -> one_line v2 ->
  In (req, Some d) (cr_log (serve fuel cfg caps ho
       (@scripted K (fun _ => ([RHeader k (v1 ++ CRLF ++ n ++ B ": " ++ v2)], p))) r w)) ->
  ~ truthful d.
Proof. exact break_spoils. Qed.
Print Assumptions C19_line_break_refuted.
Example C19_nonvacuous :
  let run ops := map snd (cr_log (serve (K := copy_codec) 300 cfg0 (fun _ => 3%N) (fun l => l)
                   (scripted (fun _ => (ops, Current true))) (one_piece (two "HTTP/1.1") Eof) open_writer)) in
  run [RHeader (B "a") (B "1"); RDelHeader (B "a")] =
    repeat (Some (B ("  " ++ nl ++ ": 0" ++ nl ++ nl))) 2
  /\ run [RVersion 1 1; RCode 200 (B "OK"); RHeader (B "a") (B "1"); RSetHeader (B "a") (B "2"); RBody (BWrite (B "hi"))]
     = map (fun x => Some (B ("HTTP/1.1 200 OK" ++ nl ++ "a: 2" ++ nl ++ "content-length: " ++ x)))
         ["2" ++ nl ++ nl ++ "hi"; "4" ++ nl ++ nl ++ "hihi"]%string.
Proof. vm_compute. auto. Qed.

(** a deletion that leaves no gap, one that leaves a gap behind the content-length, and one that
    leaves it before *)
Example C19_deletions_nonvacuous :
  let run ops := map snd (cr_log (serve (K := copy_codec) 300 cfg0 (fun _ => 3%N) (fun l => l)
                   (scripted (fun _ => (ops, Current true))) (one_piece (two "HTTP/1.1") Eof) open_writer)) in
  let fill := [RHeader (B "a") (B "1"); RDelHeader (B "a"); RHeader (B "b") (B "2")] in
  let after := [RHeader (B "content-length") (B "9"); RHeader (B "a") (B "1"); RDelHeader (B "a")] in
  let before := [RHeader (B "b") (B "2"); RHeader (B "a") (B "1"); RDelHeader (B "b")] in
  headers_sound fill /\ headers_sound after /\ ~ headers_sound before
  /\ all_sound (Row []) (all_of says_header before)
  /\ a_run (all_of says_header before) a_empty (B "content-length") = None
  /\ run fill = repeat (Some (B ("  " ++ nl ++ "b: 2" ++ nl ++ "content-length: 0" ++ nl ++ nl))) 2
  /\ run after = repeat (Some (B ("  " ++ nl ++ "content-length: 0" ++ nl ++ nl))) 2
  /\ run before = repeat (Some (B ("  " ++ nl ++ ": 0" ++ nl ++ "a: 1" ++ nl ++ nl))) 2.
Proof.
  cbv zeta. splits; try (vm_compute; reflexivity); cbv; intuition (try discriminate; try lia).
Qed.

(** C20 fails: to a request with a version HTTP/M.m the hello-world service answers with
    something else than a status line, the file service always. *)
Theorem C20_hello_line_refuted : forall (K : codec) fuel cfg caps ho r w req d a,
  In (req, d) (cr_log (serve fuel cfg caps ho (@hello_http K) r w)) -> asks_version (fl2 req) a ->
  exists data, d = Some data /\
  forall line rest, data = line ++ CRLF ++ rest -> one_line line -> ~ status_line line.
Proof. exact hello_line_bad. Qed.
Print Assumptions C20_hello_line_refuted.
Theorem C20_fs_line_refuted : forall (K : codec) fuel cfg caps ho r w req d,
  In (req, d) (cr_log (serve fuel cfg caps ho (@fs_http K) r w)) ->
  exists data, d = Some data /\
  forall line rest, data = line ++ CRLF ++ rest -> one_line line -> ~ status_line line.
Proof. exact fs_line_bad. Qed.
Print Assumptions C20_fs_line_refuted.
(** C20, the part that holds: requests whose version is not read as a number get a proper
    status line. *)
Theorem C20_hello_line_partial : forall (K : codec) fuel cfg caps ho r w req d,
  In (req, d) (cr_log (serve fuel cfg caps ho (@hello_http K) r w)) ->
  (forall a, ~ asks_version (fl2 req) a) ->
  exists rest, d = Some (B "HTTP/1.1 200 OK" ++ CRLF ++ rest) /\ status_line (B "HTTP/1.1 200 OK").
Proof. exact hello_line_good. Qed.
Print Assumptions C20_hello_line_partial.
Example C20_nonvacuous :
  asks_version (B "HTTP/1.0") 1
  /\ firstn 25 (w_out (cr_writer (hello (two "HTTP/1.0")))) = B ("HTTP/1.1HTTP/1.1 200 OK" ++ nl).
Proof.
  split; [|vm_compute; reflexivity]. exists (B "HTTP"), (B "1"), (B "0").
  splits; try reflexivity. left. apply numeralb_ok. reflexivity.
Qed.

(** C21: a serialised message followed by anything is read back by the server's own reader: first
    line, headers (those with values, plus content-length) and body, leaving what follows. *)
Theorem C21_round_trip : forall (K : codec) fuel cfg cap ho ops (m : message K) body data m' suffix r,
  order_ok ho -> (0 < cap)%N -> (1 <= h_max_headers_count cfg)%N ->
  Forall token_char (fl0 m) -> length (fl0 m) <= 127 ->
  Forall token_char (fl1 m) -> (N.of_nat (length (fl1 m)) < h_max_url_size cfg)%N ->
  Forall vchar (fl2 m) -> 1 <= length (fl2 m) <= 126 ->
  clean ops -> mm_run ho mm_new ops = Ret (headers m) ->
  (forall k vs, mm_getall (headers m) k = Ret (Some vs) -> entry_ok (h_max_header_line_size cfg) k vs) ->
  (N.of_nat (length (B "content-length: " ++ dec (N.of_nat (length body)) ++ CRLF)) <= h_max_header_line_size cfg)%N ->
  (N.of_nat (length body) < 2 ^ 64)%N ->
  body_end (mbody m) = (Body (Some body) None, true) ->
  serialize ho m = Ret (Some data, m') ->
  flat r = data ++ suffix -> enough fuel r ->
  exists m1 r1 m2 r2, read_headers fuel cfg r (@msg_default K) = Ret (RcOk, m1, r1)
    /\ read_const_length_body fuel cap r1 m1 = Ret (RcOk, m2, r2)
    /\ fl0 m2 = fl0 m /\ fl1 m2 = fl1 m /\ fl2 m2 = fl2 m
    /\ (forall n, mm_getall (headers m2) (lower n)
          = if bytes_same (lower n) (B "content-length")
            then Ret (Some [dec (N.of_nat (length body))])
            else match mm_getall (headers m) (lower n) with
                 | Ret (Some []) => Ret None
                 | x => x
                 end)
    /\ b_internal (mbody m2) = Some body /\ flat r2 = suffix /\ fin r2 = fin r.
Proof. exact round_trip. Qed.
Print Assumptions C21_round_trip.
Example C21_nonvacuous :
  let ops := map (fun i => OAppend (B "x-" ++ dec (N.of_nat (i mod 40))) (dec (N.of_nat i))) (seq 0 60) in
  match mm_run (fun l => l) mm_new ops with
  | Ret h =>
      let m := Msg (B "HTTP/1.1") (B "200") (B "OK") h (@Body copy_codec (Some (B "body")) None) in
      clean ops /\ mm_ismap h = true
      /\ match serialize (fun l => l) m with
         | Ret (Some data, _) =>
             match read_headers 3000 cfg0 (one_piece data Eof) (@msg_default copy_codec) with
             | Ret (RcOk, m1, _) => mm_getall (headers m1) (B "x-7") = Ret (Some [B "7"; B "47"])
             | _ => False
             end
         | _ => False
         end
  | _ => False
  end.
Proof.
  intros ops. destruct (mm_run _ _ _) as [h| | | |] eqn:E; vm_compute in E; try discriminate E.
  injection E as <-. intros m. split; [|split; [reflexivity|vm_compute; reflexivity]].
  apply Forall_forall. intros o Ho. apply in_map_iff in Ho as (i & <- & _).
  split; [discriminate|exact I].
Qed.

(** C22 fails: the second number of a version is lost ... *)
Theorem C22_minor_lost_refuted : forall name major minor a b, lower name = B "http" ->
  numeral major a -> (a < 256)%N -> numeral minor b -> (b < 256)%N -> a <> b ->
  version_of (version_text name major minor) = Some (a, a)
  /\ version_of (version_text name major minor) <> Some (a, b).
Proof. exact minor_lost. Qed.
Print Assumptions C22_minor_lost_refuted.
(** C22, what holds exactly: the first number twice, for http/M.anything with M below 256 (a plus
    sign allowed), and an error for every other string. *)
Theorem C22_version_exact_partial : forall s a b, version_of s = Some (a, b) <->
  b = a /\ exists name major minor, s = version_text name major minor
    /\ lower name = B "http"
    /\ (a < 256)%N /\ (numeral major a \/ exists t, major = PLUS :: t /\ numeral t a).
Proof. exact version_of_exact. Qed.
Print Assumptions C22_version_exact_partial.
Example C22_nonvacuous :
  version_of (B "HTTP/1.0") = Some (1, 1)%N /\ version_of (B "hTTp/+2.garbage") = Some (2, 2)%N
  /\ version_of (B "HTTP/256.0") = None /\ version_of (B "HTTP/1") = None.
Proof. vm_compute. auto. Qed.

(** C23 fails: HTTP/1.0 connections are kept; every request whose version does not say HTTP/0
    is answered and followed by the next. *)
Theorem C23_kept_refuted : forall (K : codec) fuel cfg caps ho qs r w,
  (1 <= h_max_headers_count cfg)%N -> (forall k, 0 < caps k)%N -> enough fuel r ->
  Forall (request_ok cfg) qs -> (forall v, In v (versions qs) -> ~ zero_major v) ->
  w_budget w = None -> flat r = wires qs ->
  let res := serve fuel cfg caps ho (@hello_http K) r w in
  length (cr_log res) = length qs
  /\ cr_end res = match fin r with Stall => EndBlocked | _ => EndClosed end.
Proof. exact hello_open. Qed.
Print Assumptions C23_kept_refuted.
(** C23, the part that holds: versions from 1.1 on are kept (above), HTTP/0.x closes the
    connection after the answer. *)
Theorem C23_closed_partial : forall (K : codec) fuel cfg caps ho qs q suffix r w,
  (1 <= h_max_headers_count cfg)%N -> (forall k, 0 < caps k)%N -> enough fuel r ->
  Forall (request_ok cfg) qs -> (forall v, In v (versions qs) -> ~ zero_major v) ->
  request_ok cfg q -> zero_major (hd_version (rq_head q)) ->
  w_budget w = None -> flat r = wires qs ++ request_wire q ++ suffix ->
  let res := serve fuel cfg caps ho (@hello_http K) r w in
  length (cr_log res) = S (length qs) /\ cr_end res = EndClosed.
Proof. exact hello_closes. Qed.
Print Assumptions C23_closed_partial.
Example C23_nonvacuous :
  zero_major (B "HTTP/0.9")
  /\ map (fun v => length (cr_log (hello (two v)))) ["HTTP/0.9"; "HTTP/1.0"; "HTTP/1.1"]%string = [1; 2; 2].
Proof.
  split; [|vm_compute; reflexivity]. exists (B "HTTP"), (B "0"), (B "9").
  splits; try reflexivity. left. apply numeralb_ok. reflexivity.
Qed.

(** C33, what holds: with an encoder that streams, after any history of writes, compressions,
    ends and clears, the body sent is the bytes that history leaves ([body_after], S_Body.v: what
    was written while no compression was on, in the clear, and one encoding for each stretch
    under compression), and content-length is its length.  The history panics only when
    compression is switched on twice without an end. *)
Theorem C33_encoded_partial : forall (K : codec) enc, streams K enc ->
  forall ho ops (m : message K) pre l,
  order_ok ho -> clean ops -> mm_run ho mm_new ops = Ret (headers m) -> mbody m = Body (Some pre) None ->
  Forall encodes_only l ->
  match body_after enc l pre None with
  | None => b_run (mbody m) l = Panic
  | Some body => exists b fs m', b_run (mbody m) l = Ret b
      /\ serialize ho (with_body m b)
         = Ret (Some (response (fl0 m ++ [SP] ++ fl1 m ++ [SP] ++ fl2 m) fs body), m')
      /\ In (B "content-length", dec (N.of_nat (length body))) fs
  end.
Proof. exact history_response. Qed.
Print Assumptions C33_encoded_partial.
(** C33 fails: what was written before is sent in the clear, so that for a format with a magic
    first byte the body sent is no encoding of anything ... *)
Theorem C33_mixed_refuted : forall (enc : ctype -> Z -> bytes -> bytes) magic pre ct l x,
  (forall ct l x, hd_error (enc ct l x) = Some magic) -> pre <> [] -> hd_error pre <> Some magic ->
  forall y, pre ++ enc ct l x <> enc ct l y.
Proof. exact mixed_body. Qed.
Print Assumptions C33_mixed_refuted.
(** ... and the k-th compressed response of a connection carries k+1 encodings. *)
Theorem C33_accumulates_refuted : forall (K : codec) enc, streams K enc ->
  forall fuel cfg caps ho ct level d r w k req o, order_ok ho ->
  nth_error (cr_log (serve fuel cfg caps ho (@zipper K ct level d) r w)) k = Some (req, o) ->
  let body := concat (repeat (enc ct (level_used ct level) d) (S k)) in
  o = Some (response [SP; SP] [(B "content-length", dec (N.of_nat (length body)))] body).
Proof. exact accumulates. Qed.
Print Assumptions C33_accumulates_refuted.
Definition angle : codec :=
  Codec (bytes * ctype * Z * bytes) (fun ct l b => (b, ct, l, [])) (fun ct b => (b, ct, 0%Z, []))
    (fun '(b, ct, l, fed) d => ((b, ct, l, fed ++ d), Some (length d)))
    (fun '(b, ct, l, fed) => Some (b ++ B "<" ++ fed ++ B ">")).
Example C33_nonvacuous :
  streams angle (fun _ _ x => B "<" ++ x ++ B ">")
  /\ body_after (fun _ _ x => B "<" ++ x ++ B ">")
       [BWrite (B "a"); BCompress Gzip 6; BWrite (B "b"); BWrite (B "c"); BEnd; BWrite (B "d"); BCompress Gzip 6; BClear]
       (B "x") None = Some (B "xa<bc>d<>")
  /\ map snd (cr_log (serve (K := angle) 300 cfg0 (fun _ => 3%N) (fun l => l) (@zipper angle Gzip 6 (B "hi"))
       (one_piece (two "HTTP/1.1") Eof) open_writer))
     = map (fun x => Some (B ("  " ++ nl ++ "content-length: " ++ x)))
         ["4" ++ nl ++ nl ++ "<hi>"; "8" ++ nl ++ nl ++ "<hi><hi>"]%string.
Proof.
  split; [|split; vm_compute; reflexivity]. exists (fun s => s). splits.
  - reflexivity.
  - intros [[[sink ct] l] fed] d ? ? ? ? E. injection E as <- <- <- <-. split; reflexivity.
  - intros [[[sink ct] l] fed] ? ? ? ? E. injection E as <- <- <- <-. reflexivity.
Qed.

(** C90 fails: whatever is requested, and whatever files there are, a file service sends the same
    bytes for each request, and no file. *)
Theorem C90_no_file_refuted : forall (K : codec) fuel cfg caps ho qs r w,
  (1 <= h_max_headers_count cfg)%N -> (forall k, 0 < caps k)%N -> enough fuel r ->
  Forall (request_ok cfg) qs -> w_budget w = None -> flat r = wires qs ->
  w_out (cr_writer (serve fuel cfg caps ho (@fs_http K) r w))
  = w_out w ++ concat (repeat (B "  " ++ CRLF ++ B "content-length: 0" ++ CRLF ++ CRLF) (length qs)).
Proof.
  intros K fuel cfg caps ho qs r w Hc Hk He Hq Hw Hr.
  destruct (pipelined K fuel cfg caps ho (@fs_http K) qs r w Hc Hk He Hq (fs_answers K ho (versions qs)) Hw Hr) as (H1 & H2 & _).
  rewrite H2. f_equal. assert (HL : length qs = length (cr_log (serve fuel cfg caps ho (@fs_http K) r w))) by (clear - H1; induction H1; cbn; congruence).
  rewrite HL.
  pose proof (fs_serves K fuel cfg caps ho r w) as F. unfold fs_log in F. clear - F.
  induction F as [|p l Hp _ IH]; [reflexivity|]. cbn [map length repeat concat]. rewrite IH. f_equal.
  unfold sent. rewrite Hp. reflexivity.
Qed.
Print Assumptions C90_no_file_refuted.
Example C90_nonvacuous :
  let q path := Request (Head (B "GET") (B path) (B "HTTP/1.1") []) [] in
  Forall (request_ok cfg0) [q "/index.html"%string; q "/../etc/passwd"%string]
  /\ w_out (cr_writer (serve (K := copy_codec) 300 cfg0 (fun _ => 3%N) (fun l => l) fs_http
       (byte_wise (wires [q "/index.html"%string; q "/../etc/passwd"%string]) Eof) open_writer))
     = B ("  " ++ nl ++ "content-length: 0" ++ nl ++ nl ++ "  " ++ nl ++ "content-length: 0" ++ nl ++ nl).
Proof.
  cbv zeta. split; [|vm_compute; reflexivity].
  apply requests_okb_ok. vm_compute. reflexivity.
Qed.

(** C92, the part that holds: when the handler of a request leaves a compressed response that the
    encoder fails to finish, nothing is sent for it and the connection is closed; the requests
    before it are answered.  Missing: a failure in the handler's own [end] (false, below). *)
Theorem C92_failure_not_sent_partial : forall (K : codec) fuel cfg caps ho (svc : service K) qs q suffix r w,
  (1 <= h_max_headers_count cfg)%N -> (forall k, 0 < caps k)%N -> enough fuel r ->
  Forall (request_ok cfg) qs -> answers ho svc (versions qs) -> w_budget w = None ->
  request_ok cfg q -> leaves_failed svc q ->
  flat r = wires qs ++ request_wire q ++ suffix ->
  let res := serve fuel cfg caps ho svc r w in
  exists log req, cr_log res = log ++ [(req, None)] /\ Forall2 (handled ho svc) qs log
    /\ has_head (rq_head q) req
    /\ w_out (cr_writer res) = w_out w ++ concat (map sent log) /\ cr_end res = EndClosed.
Proof. exact failed_not_sent. Qed.
Print Assumptions C92_failure_not_sent_partial.
(** C92 fails: a handler that ends the compressed body itself sends a complete response with an
    empty body, whatever it wrote. *)
Theorem C92_failure_sent_empty_refuted : forall (K : codec), never_finishes K ->
  forall fuel cfg caps ho ct level d q suffix r w,
  order_ok ho -> (1 <= h_max_headers_count cfg)%N -> (forall k, 0 < caps k)%N -> enough fuel r ->
  request_ok cfg q -> w_budget w = None -> flat r = request_wire q ++ suffix ->
  let svc := @scripted K (fun _ => ([RBody (BCompress ct level); RBody (BWrite d); RBody BEnd], Current false)) in
  let res := serve fuel cfg caps ho svc r w in
  w_out (cr_writer res) = w_out w ++ response [SP; SP] [(B "content-length", B "0")] []
  /\ cr_end res = EndClosed.
Proof. exact failed_sent_empty. Qed.
Print Assumptions C92_failure_sent_empty_refuted.
(** an encoder that fails exactly when it has been given a zero byte *)
Definition picky : codec :=
  Codec bytes (fun _ _ b => b) (fun _ b => b) (fun s d => (s ++ d, Some (length d)))
    (fun s => if in_dec ascii_dec zero s then None else Some s).
Definition broken : codec :=
  Codec unit (fun _ _ _ => tt) (fun _ _ => tt) (fun s d => (s, Some (length d))) (fun _ => None).
(** compresses a zero byte for clients that do not speak HTTP/1.1 *)
Definition zip_old (K : codec) : service K :=
  scripted (fun req => (if bytes_same (fl2 req) (B "HTTP/1.1")
    then [] else [RBody (BCompress Gzip 6); RBody (BWrite [zero])], Current true)).
Example C92_nonvacuous :
  let q v := Request (Head (B "GET") (B "/") (B v) []) [] in
  answers (fun l => l) (zip_old picky) (versions [q "HTTP/1.1"%string])
  /\ leaves_failed (zip_old picky) (q "HTTP/1.0"%string) /\ never_finishes broken
  /\ let res := serve (K := picky) 300 cfg0 (fun _ => 3%N) (fun l => l) (zip_old picky)
         (one_piece (wires [q "HTTP/1.1"; q "HTTP/1.0"; q "HTTP/1.1"]%string) Eof) open_writer in
     map snd (cr_log res) = [Some (B ("  " ++ nl ++ "content-length: 0" ++ nl ++ nl)); None]
     /\ cr_end res = EndClosed.
Proof.
  cbv zeta. split; [|split; [|split; [intros c; reflexivity|vm_compute; split; reflexivity]]].
  - intros req resp [Hv|[]] Hr Hb.
    destruct (fs_answers picky (fun l => l) [fl2 req] req resp (or_introl eq_refl) Hr Hb) as (q & p & d & p' & E & H).
    exists q, p, d, p'. split; [|exact H]. rewrite <- E. unfold zip_old, scripted. rewrite <- Hv. reflexivity.
  - intros req resp (_ & _ & Hv & _) (_ & _ & _ & _ & buf & Hb). unfold zip_old, scripted. rewrite Hv.
    destruct (bytes_same _ _) as [E|_]; [discriminate E|].
    cbn [fst snd rw_run rw_step b_step obind]. rewrite Hb. unfold body_compression. cbn [b_internal obind mbody with_body].
    unfold body_write. cbn [b_internal b_cw fst snd obind mbody with_body c_append picky c_enc].
    eexists _, _, _, _. split; [reflexivity|]. split; [reflexivity|]. cbn.
    destruct (in_dec ascii_dec zero _) as [_|N]; [reflexivity|]. destruct N. apply in_or_app. right. now left.
Qed.

(** C97, the part that holds: what every exchange of a connection sends, for a handler that makes
    any list of calls to the response writer and the body after looking at the request, keeping
    clear of the gaps left by deletions as for C19: in the status line the versions, codes and reasons given, one after
    the other; every header with the values its calls leave, and the true content-length; the body
    after the calls of this and of all earlier exchanges.  Nothing is sent when a body is
    compressed twice.  Missing: the last version and code alone (false, below), a body of its
    own (false, C16), other deletions (false, C27). *)
Theorem C97_written_partial : forall (K : codec) enc, streams K enc ->
  forall fuel cfg caps ho f r w before req o after, order_ok ho ->
  (forall req, Forall writes (fst (f req)) /\ headers_sound (fst (f req))) ->
  cr_log (serve fuel cfg caps ho (@scripted K f) r w) = before ++ (req, o) :: after ->
  let ops := fst (f req) in
  match body_after enc (body_so_far f before ++ all_of says_body ops) [] None with
  | None => o = None
  | Some body => exists fs,
      o = Some (response (all_of says_version ops ++ [SP] ++ all_of says_code ops ++ [SP] ++ all_of says_reason ops) fs body)
      /\ lists fs (a_update (a_run (all_of says_header ops) a_empty)
                            (B "content-length") (Some [dec (N.of_nat (length body))]))
  end.
Proof. exact written. Qed.
Print Assumptions C97_written_partial.
(** C97 fails: a version or a code given again does not replace the one before, both are sent. *)
Theorem C97_said_twice_refuted : forall (K : codec) enc, streams K enc ->
  forall fuel cfg caps ho a1 b1 a2 b2 c1 r1 c2 r2 p r w req o, order_ok ho ->
  In (req, o) (cr_log (serve fuel cfg caps ho
       (@scripted K (fun _ => ([RVersion a1 b1; RVersion a2 b2; RCode c1 r1; RCode c2 r2], p))) r w)) ->
  exists fs, o = Some (response (B "HTTP/" ++ dec a1 ++ B "." ++ dec b1 ++ B "HTTP/" ++ dec a2 ++ B "." ++ dec b2
                                 ++ [SP] ++ dec c1 ++ dec c2 ++ [SP] ++ r1 ++ r2) fs []).
Proof. exact said_twice. Qed.
Print Assumptions C97_said_twice_refuted.
Example C97_nonvacuous :
  let ops := [RVersion 1 1; RHeader (B "a") (B "1"); RCode 200 (B "OK"); RHeader (B "b") (B "2"); RHeader (B "a") (B "3");
              RSetHeader (B "b") (B "4"); RBody (BWrite (B "x")); RBody (BCompress Gzip 6); RBody (BWrite (B "y"))] in
  Forall writes ops /\ headers_sound ops
  /\ map snd (cr_log (serve (K := angle) 300 cfg0 (fun _ => 3%N) (fun l => l) (scripted (fun _ => (ops, Current true)))
       (one_piece (two "HTTP/1.1") Eof) open_writer))
     = map (fun x => Some (B ("HTTP/1.1 200 OK" ++ nl ++ "a: 1" ++ nl ++ "a: 3" ++ nl ++ "b: 4" ++ nl ++ "content-length: " ++ x)))
         ["4" ++ nl ++ nl ++ "x<y>"; "8" ++ nl ++ nl ++ "x<y>x<y>"]%string
  /\ map snd (cr_log (serve (K := angle) 300 cfg0 (fun _ => 3%N) (fun l => l)
       (scripted (fun _ => ([RVersion 1 1; RVersion 1 0; RCode 200 (B "OK"); RCode 404 (B "Not Found")], Current false)))
       (one_piece (two "HTTP/1.1") Eof) open_writer))
     = [Some (B ("HTTP/1.1HTTP/1.0 200404 OKNot Found" ++ nl ++ "content-length: 0" ++ nl ++ nl))].
Proof.
  cbv zeta. split; [repeat constructor|]. split; [apply none_deleted; repeat constructor; discriminate|].
  split; vm_compute; reflexivity.
Qed.
