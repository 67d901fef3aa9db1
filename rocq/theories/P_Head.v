(** Properties C01-C09, C73 and C91: request heads.
    In all statements [flat r] is what the client still sends, [fin r] how the stream ends, and
    [enough fuel r] says the loop bound exceeds the number of bytes to come. *)
From Verif Require Import F_HeadA F_HeadEx S_Examples.

(** C01: two connections carrying the same bytes and ending alike behave identically - same
    requests given to the handler, same responses, same bytes written, same ending - whatever
    the segmentation, the scratch capacities and the (sufficient) loop bounds. *)
Theorem C01_segmentation_invisible : forall (K : codec) fuel1 fuel2 cfg caps1 caps2 ho
    (svc : service K) r1 r2 w,
  concat (segs r1) = concat (segs r2) -> fin r1 = fin r2 ->
  (forall k, 0 < caps1 k)%N -> (forall k, 0 < caps2 k)%N ->
  length (concat (segs r1)) < fuel1 -> length (concat (segs r1)) < fuel2 ->
  serve fuel1 cfg caps1 ho svc r1 w = serve fuel2 cfg caps2 ho svc r2 w.
Proof. exact segmentation_invisible. Qed.
Print Assumptions C01_segmentation_invisible.
Example C01_nonvacuous :
  let s := B ("POST /a HTTP/1.1" ++ nl ++ "Content-Length: 3" ++ nl ++ nl ++ "abcGET /b HTTP/1.1" ++ nl ++ nl) in
  let x := serve (K := copy_codec) 200 cfg0 (fun _ => 2%N) (fun l => l) hello_http (byte_wise s Eof) open_writer in
  let y := serve (K := copy_codec) 300 cfg0 (fun _ => 4096%N) (fun l => l) hello_http (one_piece s Eof) open_writer in
  x = y /\ map (fun p => fl1 (fst p)) (cr_log x) = [B "/a"; B "/b"] /\ cr_end x = EndClosed.
Proof. vm_compute. auto. Qed.

(** C02: a well-formed head within the limits is accepted and parsed exactly. *)
Theorem C02_head_parsed : forall (K : codec) fuel cfg r h suffix,
  head_ok (h_max_url_size cfg) (h_max_header_line_size cfg) h ->
  (1 <= h_max_headers_count cfg)%N ->
  flat r = head_wire h ++ suffix -> enough fuel r ->
  exists m r', read_headers fuel cfg r (@msg_default K) = Ret (RcOk, m, r')
    /\ flat r' = suffix /\ fin r' = fin r
    /\ req_method m = hd_method h /\ req_rawuri m = hd_target h /\ fl2 m = hd_version h
    /\ (forall n, mm_getall (headers m) (lower n) = Ret (lookup_of n (hd_fields h)))
    /\ mbody m = body_default.
Proof. exact head_parsed. Qed.
Print Assumptions C02_head_parsed.
(** 60 header lines, hence beyond the switch of the table's representation *)
Example C02_nonvacuous :
  let fs := map (fun i => (B "X-" ++ dec (N.of_nat i), B " v" ++ dec (N.of_nat i))) (seq 0 59)
            ++ [(B "x-7", B "again ")] in
  head_ok (h_max_url_size cfg0) (h_max_header_line_size cfg0) (Head (B "GET") (B "/x?y") (B "HTTP/1.1") fs)
  /\ lookup_of (B "X-7") fs = Some [B "v7"; B "again"].
Proof. exact C02_ex. Qed.

(** C03: every request given to any handler, on any stream, is printable ASCII throughout. *)
Theorem C03_only_printable : forall (K : codec) fuel cfg caps ho (svc : service K) r w req d,
  In (req, d) (cr_log (serve fuel cfg caps ho svc r w)) ->
  Forall vchar (req_method req) /\ Forall vchar (req_rawuri req) /\ Forall vchar (fl2 req)
  /\ forall k vs, mm_getall (headers req) k = Ret (Some vs) ->
       Forall vchar k /\ Forall (Forall vchar) vs.
Proof. exact only_printable. Qed.
Print Assumptions C03_only_printable.

(** C04: every request given to any handler respects the size limits. *)
Theorem C04_limits_respected : forall (K : codec) fuel cfg caps ho (svc : service K) r w req d,
  In (req, d) (cr_log (serve fuel cfg caps ho svc r w)) ->
  length (req_method req) <= 127
  /\ (N.of_nat (length (req_rawuri req)) < h_max_url_size cfg)%N
  /\ length (fl2 req) <= 126
  /\ forall k vs, mm_getall (headers req) k = Ret (Some vs) ->
       length k <= 256 /\ (N.of_nat (length k) < h_max_header_line_size cfg)%N
       /\ Forall (fun v => N.of_nat (length v) < h_max_header_line_size cfg)%N vs.
Proof. exact limits_respected. Qed.
Print Assumptions C04_limits_respected.
(** a connection whose second request reaches the handler with headers *)
Example C03_C04_nonvacuous :
  let s := B ("GET /a HTTP/1.1" ++ nl ++ nl ++ "GET /b HTTP/1.1" ++ nl ++ "Host: h" ++ nl ++ nl) in
  exists req d, nth_error (cr_log (serve (K := copy_codec) 100 cfg0 (fun _ => 9%N) (fun l => l)
                                     hello_http (one_piece s Stall) open_writer)) 1 = Some (req, d)
    /\ req_rawuri req = B "/b" /\ mm_getall (headers req) (B "host") = Ret (Some [B "h"]).
Proof. exact C03_ex. Qed.

(** C05 fails: every over-long method whose remainder is short enough is accepted with its 128th
    byte lost, the rest of it reported as the target and the real target pushed into the
    version ... *)
Theorem C05_long_method_refuted : forall (K : codec) fuel cfg r method target version fields suffix,
  Forall token_char method -> 127 < length method ->
  (N.of_nat (length method - 128) < h_max_url_size cfg)%N ->
  Forall token_char target -> Forall vchar version -> length (target ++ [SP] ++ version) <= 126 ->
  Forall (field_ok (h_max_header_line_size cfg)) fields -> (2 <= h_max_header_line_size cfg)%N ->
  (1 <= h_max_headers_count cfg)%N ->
  flat r = head_wire (Head method target version fields) ++ suffix -> enough fuel r ->
  exists m r', read_headers fuel cfg r (@msg_default K) = Ret (RcOk, m, r')
    /\ req_method m = firstn 127 method /\ req_rawuri m = skipn 128 method /\ fl2 m = target ++ [SP] ++ version.
Proof. exact long_method. Qed.
Print Assumptions C05_long_method_refuted.
(** ... and likewise for over-long targets ([S u] is max_url_size). *)
Theorem C05_long_target_refuted : forall (K : codec) fuel cfg r method target version fields suffix u,
  Forall token_char method -> length method <= 127 ->
  h_max_url_size cfg = N.of_nat (S u) -> u < length target ->
  Forall token_char target -> Forall vchar version ->
  length (skipn (S u) target ++ [SP] ++ version) <= 126 ->
  Forall (field_ok (h_max_header_line_size cfg)) fields -> (2 <= h_max_header_line_size cfg)%N ->
  (1 <= h_max_headers_count cfg)%N ->
  flat r = head_wire (Head method target version fields) ++ suffix -> enough fuel r ->
  exists m r', read_headers fuel cfg r (@msg_default K) = Ret (RcOk, m, r')
    /\ req_method m = method /\ req_rawuri m = firstn u target /\ fl2 m = skipn (S u) target ++ [SP] ++ version.
Proof. exact long_target. Qed.
Print Assumptions C05_long_target_refuted.
(** C05, the part that holds: within the limits nothing is altered, whatever follows the request
    line. Missing: refusal of over-long tokens (false, see above). *)
Theorem C05_not_altered_partial : forall (K : codec) fuel cfg r h rest m r',
  Forall token_char (hd_method h) -> length (hd_method h) <= 127 ->
  Forall token_char (hd_target h) -> (N.of_nat (length (hd_target h)) < h_max_url_size cfg)%N ->
  Forall vchar (hd_version h) -> 1 <= length (hd_version h) <= 126 ->
  flat r = request_line h ++ rest ->
  read_headers fuel cfg r (@msg_default K) = Ret (RcOk, m, r') ->
  req_method m = hd_method h /\ req_rawuri m = hd_target h /\ fl2 m = hd_version h.
Proof. exact not_altered. Qed.
Print Assumptions C05_not_altered_partial.
Example C05_nonvacuous :
  let method := repeat (ascii_of_N 65) 130 in
  match read_headers 300 cfg0 (one_piece (method ++ B (" /x HTTP/1.1" ++ nl ++ nl)) Eof)
          (@msg_default copy_codec) with
  | Ret (RcOk, m, _) => length (req_method m) = 127 /\ req_rawuri m = B "AA" /\ fl2 m = B "/x HTTP/1.1"
  | _ => False
  end.
Proof. vm_compute. auto. Qed.

(** C06 fails: for every positive limit, every well-formed head with more headers than the limit
    is accepted with all of them. *)
Theorem C06_count_ignored_refuted : forall (K : codec) fuel cfg r h suffix,
  head_ok (h_max_url_size cfg) (h_max_header_line_size cfg) h ->
  (1 <= h_max_headers_count cfg)%N ->
  (h_max_headers_count cfg < N.of_nat (length (hd_fields h)))%N ->
  flat r = head_wire h ++ suffix -> enough fuel r ->
  exists m r', read_headers fuel cfg r (@msg_default K) = Ret (RcOk, m, r')
    /\ forall n, mm_getall (headers m) (lower n) = Ret (lookup_of n (hd_fields h)).
Proof. exact count_ignored. Qed.
Print Assumptions C06_count_ignored_refuted.
(** C06, the part that holds: a limit of zero refuses every head with headers. *)
Theorem C06_zero_limit_partial : forall (K : codec) fuel cfg r h suffix,
  head_ok (h_max_url_size cfg) (h_max_header_line_size cfg) h ->
  h_max_headers_count cfg = 0%N -> hd_fields h <> [] ->
  flat r = head_wire h ++ suffix -> enough fuel r ->
  exists m r', read_headers fuel cfg r (@msg_default K) = Ret (RcReachMaxHeadersCount, m, r').
Proof. exact count_zero. Qed.
Print Assumptions C06_zero_limit_partial.
Example C06_nonvacuous :
  let cfg := HttpConfig None 0 100 100 2 0 None None in
  let h := Head (B "GET") (B "/") (B "HTTP/1.1") [(B "a", B "1"); (B "b", B "2"); (B "c", B "3")] in
  head_ok (h_max_url_size cfg) (h_max_header_line_size cfg) h
  /\ (1 <= h_max_headers_count cfg < N.of_nat (length (hd_fields h)))%N.
Proof. exact C06_ex. Qed.

(** C07 fails: the value of a line with an empty name turns up under the name of the next line. *)
Theorem C07_empty_name_refuted : forall (K : codec) fuel cfg r method target version v n w suffix,
  head_ok (h_max_url_size cfg) (h_max_header_line_size cfg) (Head method target version [(n, w)]) ->
  v <> [] -> Forall vchar v -> (N.of_nat (length (field_line ([], v))) <= h_max_header_line_size cfg)%N ->
  (1 <= h_max_headers_count cfg)%N ->
  flat r = head_wire (Head method target version [([], v); (n, w)]) ++ suffix -> enough fuel r ->
  exists m r', read_headers fuel cfg r (@msg_default K) = Ret (RcOk, m, r')
    /\ mm_getall (headers m) (lower n) = Ret (Some [strip v; strip w])
    /\ lookup_of n [([], v); (n, w)] = Some [strip w].
Proof. exact empty_name. Qed.
Print Assumptions C07_empty_name_refuted.
(** C07, the part that holds: any accepted sequence of raw lines whose names are not blank. *)
Theorem C07_lines_lookup_partial : forall (K : codec) fuel cfg r method target version ls suffix m r',
  head_ok (h_max_url_size cfg) (h_max_header_line_size cfg) (Head method target version []) ->
  Forall (line_ok (h_max_header_line_size cfg)) ls -> Forall named_line ls ->
  flat r = request_line (Head method target version [])
           ++ concat (map line_wire ls) ++ CRLF ++ suffix ->
  read_headers fuel cfg r (@msg_default K) = Ret (RcOk, m, r') ->
  flat r' = suffix
  /\ forall n, mm_getall (headers m) (lower n) = Ret (lookup_of n (all_fields ls)).
Proof. exact lines_lookup. Qed.
Print Assumptions C07_lines_lookup_partial.
(** smuggling a content-length of 100 past the 5 the client declared *)
Example C07_nonvacuous :
  match read_headers 300 cfg0 (one_piece (B ("POST / HTTP/1.1" ++ nl ++ ":100" ++ nl ++ "Content-Length: 5"
                                             ++ nl ++ nl)) Eof) (@msg_default copy_codec) with
  | Ret (RcOk, m, _) => get_content_length m = Ret (Some 100%N)
  | _ => False
  end
  /\ Forall named_line [B "no colon"; B " Host : x"; B "host:y:z"]
  /\ match read_headers 300 cfg0 (one_piece (head_lines (Head (B "GET") (B "/") (B "HTTP/1.1") [])
               [B "no colon"; B " Host : x"; B "host:y:z"]) Eof) (@msg_default copy_codec) with
     | Ret (RcOk, m, _) => mm_getall (headers m) (B "host") = Ret (Some [B "x"; B "y:z"])
     | _ => False
     end.
Proof. exact C07_ex. Qed.

(** C08 fails: inserting a printable line without a colon (up to 256 bytes) anywhere among the
    header lines of an accepted head changes nothing at all. *)
Theorem C08_colonless_ignored_refuted : forall (K : codec) fuel cfg r1 r2 h ls1 junk ls2 suffix m rest e,
  head_ok (h_max_url_size cfg) (h_max_header_line_size cfg) h ->
  Forall (line_ok (h_max_header_line_size cfg)) ls1 ->
  line_ok (h_max_header_line_size cfg) junk ->
  Forall vchar junk -> ~ In COLON junk -> length junk <= 256 ->
  flat r1 = head_lines h (ls1 ++ junk :: ls2) ++ suffix ->
  flat r2 = head_lines h (ls1 ++ ls2) ++ suffix ->
  fin r1 = fin r2 -> enough fuel r1 ->
  oflat (read_headers fuel cfg r2 (@msg_default K)) = Ret (RcOk, m, (rest, e)) ->
  oflat (read_headers fuel cfg r1 (@msg_default K)) = Ret (RcOk, m, (rest, e)).
Proof. exact colonless_ignored. Qed.
Print Assumptions C08_colonless_ignored_refuted.
(** C08, the part that holds: a line without a colon that is longer than 256 bytes or not
    printable is refused. *)
Theorem C08_bad_colonless_refused_partial : forall (K : codec) fuel cfg r h ls junk rest,
  head_ok (h_max_url_size cfg) (h_max_header_line_size cfg) h ->
  Forall (line_ok (h_max_header_line_size cfg)) ls ->
  line_ok (h_max_header_line_size cfg) junk ->
  ~ In COLON junk -> ~ Forall vchar junk \/ 256 < length junk ->
  flat r = request_line h ++ concat (map line_wire ls) ++ line_wire junk ++ rest ->
  forall m r', read_headers fuel cfg r (@msg_default K) <> Ret (RcOk, m, r').
Proof. exact bad_colonless_refused. Qed.
Print Assumptions C08_bad_colonless_refused_partial.
Example C08_nonvacuous :
  let h := Head (B "GET") (B "/") (B "HTTP/1.1") [] in
  line_ok (h_max_header_line_size cfg0) (B "garbage") /\ ~ In COLON (B "garbage")
  /\ match read_headers 300 cfg0 (one_piece (head_lines h [B "a: 1"; B "garbage"; B "b: 2"]) Eof)
             (@msg_default copy_codec) with
     | Ret (RcOk, m, _) => mm_getall (headers m) (B "b") = Ret (Some [B "2"])
     | _ => False
     end.
Proof. exact C08_ex. Qed.

(** C09 fails: any byte other than LF followed by LF ends the head just as CR LF does ... *)
Theorem C09_any_byte_ends_refuted : forall (K : codec) fuel cfg r1 r2 h ls c suffix m rest e,
  head_ok (h_max_url_size cfg) (h_max_header_line_size cfg) h ->
  Forall (line_ok (h_max_header_line_size cfg)) ls -> c <> LF ->
  flat r1 = request_line h ++ concat (map line_wire ls) ++ [c; LF] ++ suffix ->
  flat r2 = request_line h ++ concat (map line_wire ls) ++ CRLF ++ suffix ->
  fin r1 = fin r2 -> enough fuel r1 ->
  oflat (read_headers fuel cfg r2 (@msg_default K)) = Ret (RcOk, m, (rest, e)) ->
  oflat (read_headers fuel cfg r1 (@msg_default K)) = Ret (RcOk, m, (rest, e)).
Proof. exact any_two_bytes_end. Qed.
Print Assumptions C09_any_byte_ends_refuted.
(** ... and so do two arbitrary bytes followed by the end of the stream. *)
Theorem C09_truncated_head_refuted : forall (K : codec) fuel cfg r h a b,
  head_ok (h_max_url_size cfg) (h_max_header_line_size cfg) h ->
  (3 <= h_max_header_line_size cfg)%N ->
  a <> LF -> b <> LF -> fin r = Eof ->
  flat r = request_line h ++ [a; b] -> enough fuel r ->
  exists m r', read_headers fuel cfg r (@msg_default K) = Ret (RcOk, m, r') /\ flat r' = [].
Proof. exact truncated_head. Qed.
Print Assumptions C09_truncated_head_refuted.
(** C09, the part that holds: an accepted head, unless the peer closed, ends with two bytes that
    are a line of their own, or what is left of a line cut at the limit. *)
Theorem C09_head_ends_partial : forall (K : codec) fuel cfg r m r',
  (2 < h_max_header_line_size cfg)%N -> fin r <> Eof ->
  read_headers fuel cfg r (@msg_default K) = Ret (RcOk, m, r') ->
  exists pre c, flat r = pre ++ [c; LF] ++ flat r' /\ c <> LF
    /\ ((exists a, pre = a ++ [LF])
        \/ exists a t, pre = a ++ t /\ ~ In LF t
           /\ (N.min 128 (h_max_header_line_size cfg) <= N.of_nat (length t))%N).
Proof. exact head_ends_line. Qed.
Print Assumptions C09_head_ends_partial.
Example C09_nonvacuous :
  match read_headers 300 cfg0 (one_piece (B ("GET / HTTP/1.1" ++ nl ++ "a: 1" ++ nl ++ "x" ++ String LF "rest")) Stall)
          (@msg_default copy_codec) with
  | Ret (RcOk, m, r') => flat r' = B "rest" /\ mm_getall (headers m) (B "a") = Ret (Some [B "1"])
  | _ => False
  end.
Proof. vm_compute. auto. Qed.

(** C73 fails: in a header line longer than max_header_line_size, the two bytes just before the
    limit act as a line break - whatever they are - so the rest is parsed as lines of its own. *)
Theorem C73_long_line_cut_refuted : forall (K : codec) fuel cfg r1 r2 h a d rest,
  head_ok (h_max_url_size cfg) (h_max_header_line_size cfg) h ->
  a <> [] -> ~ In LF a -> ~ In LF d -> length d = 2 ->
  N.of_nat (length (a ++ d)) = h_max_header_line_size cfg ->
  flat r1 = request_line h ++ a ++ d ++ rest ->
  flat r2 = request_line h ++ a ++ CRLF ++ rest ->
  fin r1 = fin r2 ->
  oflat (read_headers fuel cfg r1 (@msg_default K)) = oflat (read_headers fuel cfg r2 (@msg_default K)).
Proof. exact long_line_cut. Qed.
Print Assumptions C73_long_line_cut_refuted.
(** one long header becomes two: the second was never sent as a line *)
Example C73_nonvacuous :
  let cfg := HttpConfig None 0 100 20 10 0 None None in
  match read_headers 300 cfg (one_piece (B ("GET / HTTP/1.1" ++ nl ++ "X-Long: aaaaaaaaaa..Admin: yes" ++ nl ++ nl)) Stall)
          (@msg_default copy_codec) with
  | Ret (RcOk, m, _) => mm_getall (headers m) (B "admin") = Ret (Some [B "yes"])
  | _ => False
  end.
Proof. vm_compute. auto. Qed.

(** C91 fails: the version may be followed by any ASCII byte and a line feed. *)
Theorem C91_bad_terminator_refuted : forall (K : codec) fuel cfg r h c suffix,
  head_ok (h_max_url_size cfg) (h_max_header_line_size cfg) h -> hd_fields h = [] ->
  c <> LF -> (N_of_ascii c < 128)%N ->
  flat r = hd_method h ++ [SP] ++ hd_target h ++ [SP] ++ hd_version h ++ [c; LF] ++ CRLF ++ suffix -> enough fuel r ->
  exists m r', read_headers fuel cfg r (@msg_default K) = Ret (RcOk, m, r')
    /\ req_method m = hd_method h /\ req_rawuri m = hd_target h /\ fl2 m = hd_version h /\ flat r' = suffix.
Proof. exact bad_terminator. Qed.
Print Assumptions C91_bad_terminator_refuted.
(** C91, what holds: the heads accepted are exactly those of the grammar [head_at] (S_Accept.v),
    which also determines what is read and where the head ends.  One direction: *)
Theorem C91_grammar_accepted_partial : forall (K : codec) fuel cfg r me ta ve ls rest, enough fuel r ->
  head_at (fin r) (h_max_url_size cfg) (h_max_header_line_size cfg) (h_max_headers_count cfg) (flat r) me ta ve ls rest ->
  exists m r', read_headers fuel cfg r (@msg_default K) = Ret (RcOk, m, r')
    /\ flat r' = rest /\ fin r' = fin r
    /\ req_method m = me /\ req_rawuri m = ta /\ fl2 m = ve /\ mbody m = body_default
    /\ mm_run (fun l => l) mm_new (fields_added (all_fields ls)) = Ret (headers m)
    /\ (Forall named_line ls -> forall n, mm_getall (headers m) (lower n) = Ret (lookup_of n (all_fields ls))).
Proof. exact head_at_accepted. Qed.
Print Assumptions C91_grammar_accepted_partial.
(** ... and the other. *)
Theorem C91_accepted_grammar_partial : forall (K : codec) fuel cfg r m r',
  read_headers fuel cfg r (@msg_default K) = Ret (RcOk, m, r') ->
  fin r' = fin r /\ exists ls,
  head_at (fin r) (h_max_url_size cfg) (h_max_header_line_size cfg) (h_max_headers_count cfg) (flat r)
    (req_method m) (req_rawuri m) (fl2 m) ls (flat r')
  /\ mm_run (fun l => l) mm_new (fields_added (all_fields ls)) = Ret (headers m).
Proof. exact accepted_head_at. Qed.
Print Assumptions C91_accepted_grammar_partial.
Example C91_nonvacuous :
  match read_headers 300 cfg0 (one_piece (B ("GET / HTTP/1.1?" ++ String LF ("a b: 1" ++ nl ++ "what" ++ nl ++ ":x" ++ nl ++ nl ++ "rest"))) Stall)
          (@msg_default copy_codec) with
  | Ret (RcOk, m, r') => fl2 m = B "HTTP/1.1" /\ flat r' = B "rest" /\ mm_getall (headers m) (B "a b") = Ret (Some [B "1"])
  | _ => False
  end.
Proof. vm_compute. auto. Qed.
