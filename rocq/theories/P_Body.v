(** Properties C10-C13, C32, C34 and C113: message bodies. *)
From Verif Require Import F_Decoded F_HeadEx S_Examples.

(** C10: with content-length n and n bytes to come, exactly these are appended to the body,
    whatever the segmentation of the stream and the buffer capacity. *)
Theorem C10_body_exact : forall (K : codec) fuel cap r (m : message K) v data rest buf,
  (0 < cap)%N -> enough fuel r ->
  mm_get (headers m) (B "content-length") = Ret (Some v) ->
  numeral v (N.of_nat (length data)) -> (N.of_nat (length data) < 2 ^ 64)%N ->
  flat r = data ++ rest -> b_internal (mbody m) = Some buf ->
  exists m' r', read_const_length_body fuel cap r m = Ret (RcOk, m', r')
    /\ same_but_body m m' /\ b_internal (mbody m') = Some (buf ++ data)
    /\ flat r' = rest /\ fin r' = fin r.
Proof. exact body_exact. Qed.
Print Assumptions C10_body_exact.
(** Without content-length nothing is read. *)
Theorem C10_no_length_no_body : forall (K : codec) fuel cap r (m : message K),
  mm_get (headers m) (B "content-length") = Ret None ->
  read_const_length_body fuel cap r m = Ret (RcOk, m, r).
Proof. exact no_length_no_body. Qed.
Print Assumptions C10_no_length_no_body.
(** The same when the body is read through a decoder: it is offered these bytes, in order and in
    some pieces. *)
Theorem C10_decoder_exact : forall (K : codec) fuel cap r (m : message K) c data rest,
  (0 < cap)%N -> enough fuel r ->
  flat r = data ++ rest -> mbody m = Body None (Some c) ->
  exists m' r' ps,
    read_const_length_body_decompression fuel cap r m (N.of_nat (length data)) = Ret (RcOk, m', r')
    /\ concat ps = data /\ same_but_body m m'
    /\ mbody m' = Body None (Some (fold_left (fun c p => fst (c_append K c p)) ps c))
    /\ flat r' = rest /\ fin r' = fin r.
Proof. exact decompressing_exact. Qed.
Print Assumptions C10_decoder_exact.
Example C10_nonvacuous :
  let m := Msg [] [] [] (MM false [(B "content-length", [B "0005"; B "9"])] None) (@Body copy_codec (Some (B "x")) None) in
  mm_get (headers m) (B "content-length") = Ret (Some (B "0005")) /\ numeral (B "0005") 5
  /\ match read_const_length_body 20 2 (byte_wise (B "helloGET") Eof) m with
     | Ret (RcOk, m', r') => b_internal (mbody m') = Some (B "xhello") /\ flat r' = B "GET"
     | _ => False
     end.
Proof.
  split; [reflexivity|]. split; [|vm_compute; auto].
  unfold numeral. splits; [discriminate| |reflexivity]. repeat constructor; unfold digit; cbn; lia.
Qed.

(** C11 fails: if the peer closes the connection before the announced body is complete, reading
    the body never finishes: no number of iterations is enough. *)
Theorem C11_truncated_body_refuted : forall (K : codec) fuel cap r (m : message K) v n buf,
  (0 < cap)%N -> mm_get (headers m) (B "content-length") = Ret (Some v) -> numeral v n -> (n < 2 ^ 64)%N ->
  (N.of_nat (length (flat r)) < n)%N -> fin r = Eof -> b_internal (mbody m) = Some buf ->
  read_const_length_body fuel cap r m = NoFuel.
Proof. exact truncated_body. Qed.
Print Assumptions C11_truncated_body_refuted.
(** ... so the connection task is lost, after any number of good requests, for every handler. *)
Theorem C11_connection_lost_refuted : forall (K : codec) fuel cfg caps ho (svc : service K) qs h v n part r w,
  (1 <= h_max_headers_count cfg)%N -> (forall k, 0 < caps k)%N -> enough fuel r ->
  Forall (request_ok cfg) qs -> answers ho svc (versions qs) -> w_budget w = None ->
  head_ok (h_max_url_size cfg) (h_max_header_line_size cfg) h ->
  hd_error (values_of (B "content-length") (hd_fields h)) = Some v -> numeral v n -> (n < 2 ^ 64)%N ->
  (N.of_nat (length part) < n)%N -> fin r = Eof ->
  flat r = wires qs ++ head_wire h ++ part ->
  cr_end (serve fuel cfg caps ho svc r w) = EndNoFuel
  /\ Forall2 (handled ho svc) qs (cr_log (serve fuel cfg caps ho svc r w)).
Proof. exact hang. Qed.
Print Assumptions C11_connection_lost_refuted.
(** C11, the part that holds: a stream that fails (rather than ends) finishes the reading with an
    error, and one that stalls leaves it waiting.  Missing: the end of the stream (false, above). *)
Theorem C11_broken_body_partial : forall (K : codec) fuel cap r (m : message K) v n buf,
  (0 < cap)%N -> enough fuel r ->
  mm_get (headers m) (B "content-length") = Ret (Some v) -> numeral v n -> (n < 2 ^ 64)%N ->
  (N.of_nat (length (flat r)) < n)%N -> b_internal (mbody m) = Some buf ->
  match fin r with
  | Eof => True
  | IoErr => exists m' r', read_const_length_body fuel cap r m = Ret (RcConnReadError, m', r')
  | Stall => read_const_length_body fuel cap r m = Blocked
  end.
Proof. exact broken_body. Qed.
Print Assumptions C11_broken_body_partial.
Example C11_nonvacuous :
  let s := B ("POST / HTTP/1.1" ++ nl ++ "Content-Length: 5" ++ nl ++ nl ++ "abc") in
  map (fun e => cr_end (serve (K := copy_codec) 200 cfg0 (fun _ => 9%N) (fun l => l) hello_http (one_piece s e) open_writer))
      [Eof; IoErr; Stall] = [EndNoFuel; EndClosed; EndBlocked].
Proof. vm_compute. reflexivity. Qed.

(** C12 fails: the connection loop stores bodies of any length, whatever max_body_size is. *)
Theorem C12_unbounded_refuted : forall (K : codec) fuel cfg caps ho (svc : service K) q suffix r w,
  (1 <= h_max_headers_count cfg)%N -> (forall k, 0 < caps k)%N -> enough fuel r ->
  request_ok cfg q -> flat r = request_wire q ++ suffix ->
  (h_max_body_size cfg < N.of_nat (length (rq_body q)))%N ->
  exists req d log, cr_log (serve fuel cfg caps ho svc r w) = (req, d) :: log
    /\ has_head (rq_head q) req /\ mbody req = Body (Some (rq_body q)) None.
Proof. intros. eapply first_request; eauto. Qed.
Print Assumptions C12_unbounded_refuted.
(** C12, the part that holds: read_body_normal (which the connection loop does not use) respects
    the limit, on every stream and for chunked bodies too ... *)
Theorem C12_normal_bound_partial : forall (K : codec) fuel cap r (m : message K) cfg c m' r' buf,
  b_internal (mbody m) = Some buf ->
  read_body_normal fuel cap r m cfg = Ret (c, m', r') ->
  same_but_body m m' /\
  exists d, b_internal (mbody m') = Some (buf ++ d) /\ (N.of_nat (length d) <= h_max_body_size cfg)%N.
Proof. exact normal_bound. Qed.
Print Assumptions C12_normal_bound_partial.
(** ... and refuses longer announcements without reading anything. *)
Theorem C12_normal_refuses_partial : forall (K : codec) fuel cap r (m : message K) cfg v n,
  mm_getall (headers m) (B "transfer-encoding") = Ret None ->
  mm_get (headers m) (B "content-length") = Ret (Some v) -> numeral v n -> (n < 2 ^ 64)%N ->
  (h_max_body_size cfg < n)%N ->
  read_body_normal fuel cap r m cfg = Ret (RcReachMaxBodySize, m, r).
Proof. exact normal_too_long. Qed.
Print Assumptions C12_normal_refuses_partial.
(** ... and so does reading a chunk through a decoder: it gets no more than that, whatever comes. *)
Theorem C12_decoder_bound_partial : forall (K : codec) fuel cap r (m : message K) max c m' r' d,
  mbody m = Body None (Some d) ->
  read_chunked_body_decompression fuel cap r m max = Ret (c, m', r') ->
  same_but_body m m' /\
  exists ps, mbody m' = Body None (Some (fold_left (fun c p => fst (c_append K c p)) ps d))
    /\ (N.of_nat (length (concat ps)) <= max)%N.
Proof. exact (fun K => decoder_bound K (fun _ _ x => x) (fun _ _ => None)). Qed.
Print Assumptions C12_decoder_bound_partial.
Example C12_nonvacuous :
  let cfg := HttpConfig None 2 100 100 9 2 None None in
  let s := B ("POST / HTTP/1.1" ++ nl ++ "Content-Length: 5" ++ nl ++ nl ++ "abcde") in
  map (fun p => b_internal (mbody (fst p)))
    (cr_log (serve (K := copy_codec) 200 cfg (fun _ => 9%N) (fun l => l) hello_http (one_piece s Eof) open_writer))
  = [Some (B "abcde")] /\ h_max_body_size cfg = 2%N.
Proof. vm_compute. auto. Qed.

(** C13 fails three times.  Only the first chunk is read, although everything is there ... *)
Theorem C13_first_chunk_only_refuted : forall (K : codec) fuel cap r (m : message K) cfg vs d ds rest buf,
  (0 < cap)%N -> enough fuel r ->
  mm_getall (headers m) (B "transfer-encoding") = Ret (Some vs) -> In (B "chunked") vs ->
  (N.of_nat (length d) < 2 ^ 64)%N -> (N.of_nat (length d) <= h_max_body_size cfg)%N ->
  flat r = chunk (dec (N.of_nat (length d))) d ++ rest -> b_internal (mbody m) = Some buf ->
  rest = chunks ds ++ chunk (B "0") [] ->
  exists m' r', read_body_normal fuel cap r m cfg = Ret (RcOk, m', r')
    /\ b_internal (mbody m') = Some (buf ++ d) /\ flat r' = rest.
Proof. exact first_chunk_only. Qed.
Print Assumptions C13_first_chunk_only_refuted.
(** ... a size with a hexadecimal letter is refused ... *)
Theorem C13_hexadecimal_refuted : forall (K : codec) fuel cap r (m : message K) cfg vs size rest c,
  mm_getall (headers m) (B "transfer-encoding") = Ret (Some vs) -> In (B "chunked") vs ->
  Forall hex_digit size -> length size <= 126 -> In c size -> ~ digit c ->
  flat r = size ++ CRLF ++ rest ->
  exists r', read_body_normal fuel cap r m cfg = Ret (RcBadChunkSize, m, r').
Proof. exact hex_refused. Qed.
Print Assumptions C13_hexadecimal_refuted.
(** ... and the connection loop does not look at transfer-encoding at all: without
    content-length the handler gets an empty body, the chunks being read as the next request. *)
Theorem C13_not_decoded_refuted : forall (K : codec) fuel cfg caps ho (svc : service K) h rest r w,
  (1 <= h_max_headers_count cfg)%N -> (forall k, 0 < caps k)%N -> enough fuel r ->
  head_ok (h_max_url_size cfg) (h_max_header_line_size cfg) h ->
  values_of (B "content-length") (hd_fields h) = [] ->
  In (B "chunked") (values_of (B "transfer-encoding") (hd_fields h)) ->
  flat r = head_wire h ++ rest ->
  exists req d log, cr_log (serve fuel cfg caps ho svc r w) = (req, d) :: log
    /\ has_head h req /\ mbody req = Body (Some []) None.
Proof.
  intros K fuel cfg caps ho svc h rest r w Hc Hcap Hf Hh Hv _ Hr.
  destruct (first_request K fuel cfg caps ho svc (Request h []) rest r w Hc Hcap Hf) as (req & d & log & H1 & H2 & H3); auto.
  - split; [exact Hh|]. unfold framed. cbn [rq_body rq_head]. rewrite Hv. cbn. split; [lia|reflexivity].
  - unfold request_wire. cbn [rq_head rq_body]. rewrite app_nil_r. exact Hr.
  - eauto 8.
Qed.
Print Assumptions C13_not_decoded_refuted.
(** C13, the part that holds: read_body_normal decodes one chunk whose size is decimal. *)
Theorem C13_one_decimal_chunk_partial : forall (K : codec) fuel cap r (m : message K) cfg vs size data rest buf,
  (0 < cap)%N -> enough fuel r ->
  mm_getall (headers m) (B "transfer-encoding") = Ret (Some vs) -> In (B "chunked") vs ->
  numeral size (N.of_nat (length data)) -> length size <= 126 ->
  (N.of_nat (length data) < 2 ^ 64)%N -> (N.of_nat (length data) <= h_max_body_size cfg)%N ->
  flat r = chunk size data ++ rest -> b_internal (mbody m) = Some buf ->
  exists m' r', read_body_normal fuel cap r m cfg = Ret (RcOk, m', r')
    /\ same_but_body m m' /\ b_internal (mbody m') = Some (buf ++ data)
    /\ flat r' = rest /\ fin r' = fin r.
Proof. exact normal_chunk. Qed.
Print Assumptions C13_one_decimal_chunk_partial.
Example C13_nonvacuous :
  let m := Msg [] [] [] (MM false [(B "transfer-encoding", [B "chunked"])] None) (@Body copy_codec (Some []) None) in
  match read_body_normal 50 9 (one_piece (B ("3" ++ nl ++ "abc" ++ nl ++ "2" ++ nl ++ "de" ++ nl ++ "0" ++ nl ++ nl)) Eof) m cfg0,
        read_body_normal 50 9 (one_piece (B ("a" ++ nl ++ "0123456789" ++ nl ++ "0" ++ nl ++ nl)) Eof) m cfg0 with
  | Ret (RcOk, m', _), Ret (RcBadChunkSize, _, _) => b_internal (mbody m') = Some (B "abc")
  | _, _ => False
  end.
Proof. vm_compute. auto. Qed.

(** C32 fails: clearing a body leaves everything in it ... *)
Theorem C32_clear_keeps_refuted : forall (K : codec) ds (b : body K),
  b_run body_default (map BWrite ds) = Ret b -> b_internal (body_clear b) = Some (concat ds).
Proof. exact writes_survive. Qed.
Print Assumptions C32_clear_keeps_refuted.
(** ... and after a failed [end] it leaves a body that panics when written to. *)
Theorem C32_clear_panics_refuted : forall (K : codec) (b : body K) c d,
  b_internal b = None -> b_cw b = Some c -> c_expose K c = None ->
  b_run b [BEnd; BClear; BWrite d] = Panic.
Proof. exact clear_after_failed_end. Qed.
Print Assumptions C32_clear_panics_refuted.
(** C32, the part that holds: when no encoder fails, a cleared body accepts writes (appending
    them to what it held).  Missing: being empty (false, above). *)
Theorem C32_clear_writable_partial : forall (K : codec), no_failure K -> forall l (b : body K) d,
  b_run body_default l = Ret b ->
  exists buf, b_internal (body_clear b) = Some buf
    /\ body_write (body_clear b) d = Ret (Body (Some (buf ++ d)) None, Some (length d)).
Proof. exact clear_accepts_writes. Qed.
Print Assumptions C32_clear_writable_partial.
(** ... and when the encoder of the body fails as it is cleared, the body ends up empty and
    accepts writes. *)
Theorem C32_clear_failing_partial : forall (K : codec) (b : body K) c d,
  b_cw b = Some c -> c_expose K c = None ->
  b_internal (body_clear b) = Some []
  /\ body_write (body_clear b) d = Ret (Body (Some d) None, Some (length d)).
Proof. exact clear_after_failure. Qed.
Print Assumptions C32_clear_failing_partial.
Example C32_nonvacuous :
  no_failure copy_codec
  /\ exists b, b_run (@body_default copy_codec)
       [BWrite (B "a"); BCompress Gzip 6; BWrite (B "b"); BEnd; BClear; BDecompress Gzip; BWrite (B "c")] = Ret b
     /\ b_internal (body_clear b) = Some (B "abc").
Proof. split; [intros c; discriminate|]. eexists. split; vm_compute; reflexivity. Qed.

(** C34 fails: a decoder that takes one byte of each offer never sees the others, and nobody
    notices. *)
Theorem C34_decoder_loses_refuted : takes sipping (fun s => s) /\
  forall fuel cap s data (m : message sipping) (c : bytes) rest,
  (N.of_nat (length data) <= cap)%N -> 2 <= length data -> length data < fuel ->
  mbody m = @Body sipping None (Some c) -> s = data ++ rest ->
  exists m' r', read_const_length_body_decompression fuel cap (Rd [s] Stall) m (N.of_nat (length data))
                = Ret (RcOk, m', r')
    /\ mbody m' = @Body sipping None (Some (c ++ firstn 1 data)).
Proof. exact (conj sipping_takes decoder_loses). Qed.
Print Assumptions C34_decoder_loses_refuted.
(** C34, the part that holds: a decoder that always accepts everything it is offered gets all. *)
Theorem C34_decoder_gets_all_partial : forall (K : codec) got, takes K got -> takes_all K ->
  forall fuel cap r (m : message K) c data rest, (0 < cap)%N -> enough fuel r ->
  flat r = data ++ rest -> mbody m = Body None (Some c) ->
  exists m' r' c',
    read_const_length_body_decompression fuel cap r m (N.of_nat (length data)) = Ret (RcOk, m', r')
    /\ mbody m' = Body None (Some c') /\ got c' = got c ++ data.
Proof. exact decoder_gets_all. Qed.
Print Assumptions C34_decoder_gets_all_partial.
Example C34_nonvacuous : takes copy_codec (fun s => s) /\ takes_all copy_codec.
Proof.
  split; [|intros c d; reflexivity]. intros c d. exists (length d). cbn. now rewrite firstn_all.
Qed.

(** ... and with decoders that take everything, what the message ends up with is the decoding, by
    the decoder of the requested type, of exactly the announced bytes, after what the body held;
    or, when these cannot be decoded, nothing and an error.  For a length ... *)
Theorem C34_decoded_partial : forall (K : codec) enc dcd, codes K enc dcd ->
  forall fuel cap r (m : message K) ct data rest buf b,
  (0 < cap)%N -> enough fuel r -> flat r = data ++ rest ->
  mbody m = Body (Some buf) None -> body_decompression (mbody m) ct = Ret b ->
  exists m' r', read_const_length_body_decompression fuel cap r (with_body m b) (N.of_nat (length data))
      = Ret (RcOk, m', r')
    /\ same_but_body m m' /\ body_end (mbody m') = put_after buf (dcd ct data)
    /\ flat r' = rest /\ fin r' = fin r.
Proof. exact decoded_length. Qed.
Print Assumptions C34_decoded_partial.
(** ... and for a chunk. *)
Theorem C34_decoded_chunk_partial : forall (K : codec) enc dcd, codes K enc dcd ->
  forall fuel cap r (m : message K) max ct size data rest buf b,
  (0 < cap)%N -> enough fuel r ->
  numeral size (N.of_nat (length data)) -> length size <= 126 ->
  (N.of_nat (length data) < 2 ^ 64)%N -> (N.of_nat (length data) <= max)%N ->
  flat r = chunk size data ++ rest ->
  mbody m = Body (Some buf) None -> body_decompression (mbody m) ct = Ret b ->
  exists m' r', read_chunked_body_decompression fuel cap r (with_body m b) max = Ret (RcOk, m', r')
    /\ same_but_body m m' /\ body_end (mbody m') = put_after buf (dcd ct data)
    /\ flat r' = rest /\ fin r' = fin r.
Proof. exact decoded_chunk. Qed.
Print Assumptions C34_decoded_chunk_partial.
Lemma tags_codes : codes tags_codec with_tag sans_tag.
Proof.
  exists (fun c => c). splits; try easy.
  - intros c d sink ct l fed H. cbn in *. subst c. now split.
  - intros c sink ct l fed H. cbn in *. subst c. destruct l; [reflexivity|]. cbn. now destruct (sans_tag ct fed).
Qed.
Example C34_decoded_nonvacuous :
  codes tags_codec with_tag sans_tag
  /\ let m := Msg [] [] [] mm_new (@Body tags_codec (Some (B "x")) None) in
     match body_decompression (mbody m) Gzip with
     | Ret b =>
         match read_chunked_body_decompression 20 2 (byte_wise (chunk (B "5") (B "g:abc") ++ B "GET") Eof) (with_body m b) 9,
               read_const_length_body_decompression 20 2 (byte_wise (B "d:abcGET") Eof) (with_body m b) 5 with
         | Ret (RcOk, m', _), Ret (RcOk, m2, r2) =>
             body_end (mbody m') = (Body (Some (B "xabc")) None, true)
             /\ body_end (mbody m2) = (Body None None, false) /\ flat r2 = B "GET"
         | _, _ => False
         end
     | _ => False
     end.
Proof. split; [exact tags_codes|vm_compute; auto]. Qed.

(** C113, the part that holds: after any history of writes, compressions, decompressions, ends and
    clears, a body that is not in the middle of a coding shows what the history says ([held_after],
    S_Body.v), all of it, with its length; the history panics exactly when it writes to a body
    lost to a failed decoding or starts a coding inside another or in a lost body.  Missing: the
    length of what is being coded (false, below). *)
Theorem C113_history_partial : forall (K : codec) enc dcd, codes K enc dcd -> forall l,
  match held_after enc dcd l (Holds []) with
  | Some s => exists b : body K, b_run body_default l = Ret b /\ body_says b s
  | None => b_run (body_default : body K) l = Panic
  end.
Proof. exact coded_history. Qed.
Print Assumptions C113_history_partial.
(** C113 fails: in the middle of a coding a body says it is empty, whatever was written. *)
Theorem C113_coding_size_refuted : forall (K : codec) ct level ds (b : body K),
  b_run body_default (BCompress ct level :: map BWrite ds) = Ret b ->
  body_size b = 0 /\ body_is_empty b = true.
Proof. exact coding_size. Qed.
Print Assumptions C113_coding_size_refuted.
Example C113_nonvacuous :
  codes tags_codec with_tag sans_tag
  /\ held_after with_tag sans_tag
       [BWrite (B "a"); BCompress Gzip 6; BWrite (B "b"); BEnd; BDecompress Deflate; BWrite (B "d:"); BWrite (B "c"); BEnd] (Holds [])
     = Some (Holds (B "ag:bc"))
  /\ held_after with_tag sans_tag [BWrite (B "a"); BDecompress Gzip; BWrite (B "zz"); BEnd] (Holds []) = Some Lost
  /\ held_after with_tag sans_tag [BWrite (B "a"); BDecompress Gzip; BWrite (B "zz"); BClear] (Holds []) = Some (Holds [])
  /\ held_after with_tag sans_tag [BDecompress Gzip; BWrite (B "zz"); BEnd; BWrite []] (Holds []) = None
  /\ exists b : body tags_codec, b_run body_default [BWrite (B "a"); BCompress Gzip 6; BWrite (B "b")] = Ret b
       /\ body_size b = 0.
Proof.
  split; [exact tags_codes|]. splits; try (vm_compute; reflexivity). eexists. split; vm_compute; reflexivity.
Qed.
