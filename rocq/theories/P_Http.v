(** Properties C115-C119: what HTTP asks of a server beyond reading requests and writing responses. *)
From Verif Require Import S_Http F_Http S_Examples F_Served F_Ends F_Got F_Req F_Hello F_Unamb F_End F_Deletes.

(** C115 fails: a request that states its length in two ways is not refused, wherever it stands;
    the first number counts. *)
Theorem C115_not_refused_refuted : forall (K : codec) fuel cfg caps ho (svc : service K) qs q r w,
  (1 <= h_max_headers_count cfg)%N -> (forall k, 0 < caps k)%N -> enough fuel r ->
  Forall (request_ok cfg) (qs ++ [q]) -> conflicting (rq_head q) -> answers ho svc (versions (qs ++ [q])) ->
  w_budget w = None -> flat r = wires (qs ++ [q]) ->
  exists log p, cr_log (serve fuel cfg caps ho svc r w) = log ++ [p]
    /\ Forall2 (handled ho svc) qs log /\ handled ho svc q p.
Proof.
  intros K fuel cfg caps ho svc qs q r w Hc Hcap Hf Hq _ Ha Hw Hr.
  destruct (pipelined K fuel cfg caps ho svc _ r w Hc Hcap Hf Hq Ha Hw Hr) as (H & _).
  apply Forall2_app_inv_l in H as (log & l2 & H1 & H2 & E). inversion H2 as [|? p ? ? H3 H4]; subst. inversion H4; subst.
  eauto.
Qed.
Print Assumptions C115_not_refused_refuted.
(** ... so that what one reading of a request takes for its body, the server takes for requests:
    the handler is given [qs] although the second number says that they are the body of the first. *)
Theorem C115_smuggled_refuted : forall (K : codec) fuel cfg caps ho (svc : service K) h v v' qs r w,
  (1 <= h_max_headers_count cfg)%N -> (forall k, 0 < caps k)%N -> enough fuel r ->
  head_ok (h_max_url_size cfg) (h_max_header_line_size cfg) h ->
  lengths h = [v; v'] -> numeral v 0 -> numeral v' (N.of_nat (length (wires qs))) ->
  Forall (request_ok cfg) qs -> answers ho svc (hd_version h :: versions qs) -> w_budget w = None ->
  flat r = head_wire h ++ wires qs ->
  Forall2 (handled ho svc) (Request h [] :: qs) (cr_log (serve fuel cfg caps ho svc r w)).
Proof.
  intros K fuel cfg caps ho svc h v v' qs r w Hc Hcap Hf Hh Hl Hn _ Hq Ha Hw Hr.
  apply (smuggled K fuel cfg caps ho svc h v qs r w); auto. now rewrite Hl.
Qed.
Print Assumptions C115_smuggled_refuted.
(** C115, the part that holds: on any stream, a request given to the handler whose numbers agree has
    a body of that length. *)
Theorem C115_agreed_partial : forall (K : codec) fuel cfg caps ho (svc : service K) r w,
  (forall k, 0 < caps k)%N -> enough fuel r ->
  exists qs rest, requests_at (fin r) cfg (flat r) qs rest
    /\ Forall2 is_got qs (map fst (cr_log (serve fuel cfg caps ho svc r w)))
    /\ forall q h vs n, In q qs -> table_of (g_lines q) h ->
       mm_getall h (B "content-length") = Ret (Some vs) -> vs <> [] -> (forall v, In v vs -> numeral v n) ->
       N.of_nat (length (g_body q)) = n.
Proof. exact agreed. Qed.
Print Assumptions C115_agreed_partial.
Definition ex_twice : S_Wire.head :=
  Head (B "POST") (B "/") (B "HTTP/1.1") [(B "Content-Length", B " 0"); (B "content-length", B "19")].
Definition ex_inner : list request := [Request (Head (B "GET") (B "/x") (B "HTTP/1.1") []) []].
Example C115_nonvacuous :
  conflicting ex_twice /\ lengths ex_twice = [B "0"; B "19"] /\ Forall (request_ok cfg0) ex_inner
  /\ request_ok cfg0 (Request ex_twice []) /\ numeral (B "19") (N.of_nat (length (wires ex_inner)))
  /\ map (fun p => fl1 (fst p)) (cr_log (serve (K := copy_codec) 300 cfg0 (fun _ => 3%N) (fun l => l) hello_http
       (byte_wise (head_wire ex_twice ++ wires ex_inner) Eof) open_writer)) = [B "/"; B "/x"].
Proof.
  assert (N0 : numeral (B "0") 0) by (now apply numeralb_ok). assert (N19 : numeral (B "19") 19) by (now apply numeralb_ok).
  split; [left; exists (B "0"), (B "19"), 0%N, 19%N; repeat split; try (now apply N0 || now apply N19); [now left|now right; left|discriminate]|].
  split; [reflexivity|]. split; [apply requests_okb_ok; vm_compute; reflexivity|].
  split; [apply request_okb_ok; vm_compute; reflexivity|]. split; [exact N19|vm_compute; reflexivity].
Qed.

(** C116 fails: the greeting sent in answer to a HEAD request has a body ... *)
Theorem C116_greeting_refuted : forall (K : codec) fuel cfg caps ho r w k req d,
  nth_error (cr_log (serve fuel cfg caps ho (@hello_http K) r w)) k = Some (req, d) -> req_method req = B "HEAD" ->
  exists data body, d = Some data /\ carries_body data body /\ length body = 12 * S k /\ ~ carries_body data [].
Proof.
  intros K fuel cfg caps ho r w k req d H _. destruct (hello_carries K _ _ _ _ _ _ _ _ _ H) as (data & E & C).
  exists data. eexists. split; [exact E|]. split; [exact C|].
  assert (L : forall n, length (concat (repeat (B "Hello world!") n)) = 12 * n).
  { induction n as [|n IH]; [reflexivity|]. cbn [repeat concat]. rewrite app_length, IH. change (length (B "Hello world!")) with 12. lia. }
  split; [apply L|]. intros C'. pose proof (carries_one _ _ _ C C') as X. apply (f_equal (@length _)) in X. rewrite L in X.
  cbn [length] in X. lia.
Qed.
Print Assumptions C116_greeting_refuted.
(** ... and a handler that writes no body when asked for the head only, still sends the bodies
    of all earlier responses of the connection. *)
Theorem C116_leftovers_refuted : forall (K : codec) enc, streams K enc ->
  forall fuel cfg caps ho f texts r w before req o after, order_ok ho -> puts f texts ->
  (forall req, req_method req = B "HEAD" -> texts req = []) ->
  cr_log (serve fuel cfg caps ho (@scripted K f) r w) = before ++ (req, o) :: after -> req_method req = B "HEAD" ->
  exists d, o = Some d /\ carries_body d (concat (map (fun x => concat (texts (fst x))) before)).
Proof.
  intros K enc He fuel cfg caps ho f texts r w before req o after Hho Hp Hh E Hm.
  destruct (put_bodies K enc He _ _ _ _ _ _ _ _ _ _ _ _ Hho Hp E) as (d & -> & C).
  rewrite (Hh req Hm) in C. cbn [concat] in C. rewrite app_nil_r in C. eauto.
Qed.
Print Assumptions C116_leftovers_refuted.
(** C116, the part that holds: such a handler answers a HEAD request without a body if it has
    written no body on this connection before; *)
Theorem C116_no_body_partial : forall (K : codec) enc, streams K enc ->
  forall fuel cfg caps ho f texts r w before req o after, order_ok ho -> puts f texts ->
  (forall req, req_method req = B "HEAD" -> texts req = []) ->
  cr_log (serve fuel cfg caps ho (@scripted K f) r w) = before ++ (req, o) :: after -> req_method req = B "HEAD" ->
  (forall x, In x before -> concat (texts (fst x)) = []) ->
  exists d, o = Some d /\ carries_body d [].
Proof.
  intros K enc He fuel cfg caps ho f texts r w before req o after Hho Hp Hh E Hm Hb.
  destruct (C116_leftovers_refuted K enc He _ _ _ _ _ _ _ _ _ _ _ _ Hho Hp Hh E Hm) as (d & -> & C).
  exists d. split; [reflexivity|]. replace (@nil byte) with (concat (map (fun x => concat (texts (fst x))) before)); [exact C|].
  clear -Hb. induction before as [|x before IH]; [reflexivity|]. cbn [map concat]. rewrite (Hb x (or_introl eq_refl)). apply IH.
  intros y Hy. apply Hb. now right.
Qed.
Print Assumptions C116_no_body_partial.
(** ... and the file service never sends a body. *)
Theorem C116_files_partial : forall (K : codec) fuel cfg caps ho r w req d,
  In (req, d) (cr_log (serve fuel cfg caps ho (@fs_http K) r w)) ->
  exists data, d = Some data /\ carries_body data [].
Proof. exact fs_carries. Qed.
Print Assumptions C116_files_partial.
(** (that a response carries a body says what its body is) *)
Theorem C116_determined : forall d b b', carries_body d b -> carries_body d b' -> b = b'.
Proof. exact carries_one. Qed.
Print Assumptions C116_determined.
Definition marks : codec :=
  Codec (bytes * ctype * Z * bytes) (fun ct l b => (b, ct, l, [])) (fun ct b => (b, ct, 0%Z, []))
    (fun '(b, ct, l, fed) d => ((b, ct, l, fed ++ d), Some (length d)))
    (fun '(b, ct, l, fed) => Some (b ++ B "<" ++ fed ++ B ">")).
Definition ex_heads : bytes := B ("GET / HTTP/1.1" ++ nl ++ nl ++ "HEAD / HTTP/1.1" ++ nl ++ nl).
Definition ex_texts (req : message marks) : list bytes :=
  if bytes_eqb (req_method req) (B "HEAD") then [] else [B "text"].
Definition ex_puts (req : message marks) : list rop * protocol :=
  ([RVersion 1 1; RCode 200 (B "OK")] ++ map (fun d => RBody (BWrite d)) (ex_texts req), Current true).
Example C116_nonvacuous :
  puts ex_puts ex_texts /\ (forall req, req_method req = B "HEAD" -> ex_texts req = [])
  /\ streams marks (fun _ _ x => B "<" ++ x ++ B ">")
  /\ map (fun p => (fl0 (fst p), snd p)) (cr_log (serve (K := marks) 300 cfg0 (fun _ => 3%N) (fun l => l) (scripted ex_puts)
       (one_piece ex_heads Eof) open_writer))
     = let answer := Some (B ("HTTP/1.1 200 OK" ++ nl ++ "content-length: 4" ++ nl ++ nl ++ "text")) in
       [(B "GET", answer); (B "HEAD", answer)].
Proof.
  split.
  { intros req. unfold ex_puts. cbn [fst]. split; [|split].
    - apply Forall_app. split; [repeat constructor; intros X; vm_compute in X; repeat (destruct X as [X|X]; [discriminate X|]); exact X|].
      apply Forall_forall. intros o Ho. apply in_map_iff in Ho as (d & <- & _). exact I.
    - apply F_Deletes.none_deleted. apply Forall_app. split; [repeat constructor|].
      apply Forall_forall. intros o Ho. apply in_map_iff in Ho as (d & <- & _). exact I.
    - unfold all_of. cbn [app map concat says_body]. induction (ex_texts req) as [|d l IH]; [reflexivity|].
      cbn [map concat says_body app]. now rewrite IH. }
  split; [intros req H; unfold ex_texts; now rewrite H|]. split; [|vm_compute; reflexivity].
  exists (fun s => s). repeat split.
  - intros. destruct c as [[[? ?] ?] ?]. reflexivity.
  - destruct c as [[[? ?] ?] ?]. injection H as -> -> -> ->. reflexivity.
  - intros [[[sink0 ct0] l0] fed0] ? ? ? ? E. injection E as <- <- <- <-. reflexivity.
Qed.

(** C117 fails: to a client that has sent a head with "Expect: 100-continue" and at most part of the
    body it announces, and now waits, nothing is sent. *)
Theorem C117_waits_refuted : forall (K : codec) fuel cfg caps ho (svc : service K) qs h v n part r w,
  (1 <= h_max_headers_count cfg)%N -> (forall k, 0 < caps k)%N -> enough fuel r ->
  Forall (request_ok cfg) qs -> answers ho svc (versions qs) -> w_budget w = None ->
  head_ok (h_max_url_size cfg) (h_max_header_line_size cfg) h -> waits_to_continue h ->
  hd_error (lengths h) = Some v -> numeral v n -> (n < 2 ^ 64)%N ->
  (N.of_nat (length part) < n)%N -> fin r = Stall ->
  flat r = wires qs ++ head_wire h ++ part ->
  let res := serve fuel cfg caps ho svc r w in
  cr_end res = EndBlocked /\ Forall2 (handled ho svc) qs (cr_log res)
  /\ w_out (cr_writer res) = w_out w ++ concat (map sent (cr_log res)).
Proof.
  intros K fuel cfg caps ho svc qs h v n part r w Hc Hcap Hf Hq Ha Hw Hh _.
  now apply expectant.
Qed.
Print Assumptions C117_waits_refuted.
(** C117, the part that holds: a client that sends the body without waiting is answered. *)
Theorem C117_unasked_partial : forall (K : codec) fuel cfg caps ho (svc : service K) qs q r w,
  (1 <= h_max_headers_count cfg)%N -> (forall k, 0 < caps k)%N -> enough fuel r ->
  Forall (request_ok cfg) (qs ++ [q]) -> waits_to_continue (rq_head q) -> answers ho svc (versions (qs ++ [q])) ->
  w_budget w = None -> flat r = wires (qs ++ [q]) ->
  let res := serve fuel cfg caps ho svc r w in
  exists log p, cr_log res = log ++ [p] /\ Forall2 (handled ho svc) qs log /\ handled ho svc q p
    /\ w_out (cr_writer res) = w_out w ++ concat (map sent log) ++ sent p.
Proof.
  intros K fuel cfg caps ho svc qs q r w Hc Hcap Hf Hq _ Ha Hw Hr res.
  destruct (pipelined K fuel cfg caps ho svc _ r w Hc Hcap Hf Hq Ha Hw Hr) as (H & Ho & _). fold res in H, Ho.
  apply Forall2_app_inv_l in H as (log & l2 & H1 & H2 & E). inversion H2 as [|? p ? ? H3 H4]; subst. inversion H4; subst.
  exists log, p. repeat split; auto; try apply H3. rewrite Ho, E, map_app, concat_app. cbn [map concat]. now rewrite app_nil_r.
Qed.
Print Assumptions C117_unasked_partial.
Definition ex_expect : S_Wire.head :=
  Head (B "PUT") (B "/") (B "HTTP/1.1") [(B "Expect", B " 100-Continue"); (B "Content-Length", B " 3")].
Example C117_nonvacuous :
  waits_to_continue ex_expect /\ lengths ex_expect = [B "3"] /\ request_ok cfg0 (Request ex_expect (B "abc"))
  /\ w_out (cr_writer (serve (K := copy_codec) 300 cfg0 (fun _ => 3%N) (fun l => l) hello_http
       (one_piece (head_wire ex_expect) Stall) open_writer)) = []
  /\ length (cr_log (serve (K := copy_codec) 300 cfg0 (fun _ => 3%N) (fun l => l) hello_http
       (one_piece (head_wire ex_expect ++ B "abc") Stall) open_writer)) = 1.
Proof.
  split; [exists (B "100-Continue"); split; [vm_compute; now left|reflexivity]|]. split; [reflexivity|].
  split; [apply request_okb_ok; vm_compute; reflexivity|]. vm_compute. auto.
Qed.

(** C118 fails: to a client whose request is refused nothing is sent; what is written are the
    answers to the requests before it, whatever it was. *)
Theorem C118_silence_refuted : forall (K : codec) fuel cfg caps ho (svc : service K) qs rest r w,
  (forall k, 0 < caps k)%N -> enough fuel r -> w_budget w = None ->
  requests_at (fin r) cfg (flat r) qs rest -> no_request (fin r) cfg rest ->
  answers ho svc (map g_version qs) ->
  let res := serve fuel cfg caps ho svc r w in
  Forall2 is_got qs (map fst (cr_log res))
  /\ w_out (cr_writer res) = w_out w ++ concat (map sent (cr_log res)).
Proof. exact refused_silently. Qed.
Print Assumptions C118_silence_refuted.
(** C118, the part that holds: no handler is given it (above), and unless the client is still
    expected to send something the connection is closed. *)
Theorem C118_closed_partial : forall (K : codec) fuel cfg caps ho (svc : service K) qs rest r w,
  (forall k, 0 < caps k)%N -> enough fuel r -> w_budget w = None ->
  requests_at (fin r) cfg (flat r) qs rest -> no_request (fin r) cfg rest ->
  answers ho svc (map g_version qs) -> sturdy ho svc ->
  fin r <> Stall -> ~ unfinished (fin r) cfg rest ->
  cr_end (serve fuel cfg caps ho svc r w) = EndClosed.
Proof.
  intros K fuel cfg caps ho svc qs rest r w Hcap Hf Hw Hr Hno Ha Hs He Hu.
  destruct (refused_silently K fuel cfg caps ho svc qs rest r w Hcap Hf Hw Hr Hno Ha) as [Hg _].
  destruct (crash_free K fuel cfg caps ho svc r w Hcap Hf Hs) as (qs' & rest' & Hr' & Hg' & Hn).
  assert (L : length qs = length qs').
  { apply F_Http.same_length in Hg. apply F_Http.same_length in Hg'. congruence. }
  destruct (F_Unamb.unambiguous _ _ _ _ _ _ _ Hr Hr' ltac:(lia)) as [_ E]. specialize (E L). subst rest'.
  destruct (cr_end (serve fuel cfg caps ho svc r w)); cbn [no_crash] in Hn; tauto.
Qed.
Print Assumptions C118_closed_partial.
Example C118_nonvacuous :
  let res := serve (K := copy_codec) 300 cfg0 (fun _ => 3%N) (fun l => l) hello_http
               (one_piece (B ("GET /" ++ nl ++ nl)) Eof) open_writer in
  w_out (cr_writer res) = [] /\ cr_log res = [] /\ cr_end res = EndClosed
  /\ no_request Eof cfg0 (B ("GET /" ++ nl ++ nl)).
Proof.
  split; [vm_compute; reflexivity|]. split; [vm_compute; reflexivity|]. split; [vm_compute; reflexivity|].
  intros q rest H.
  destruct (all_from_stream copy_codec 300 cfg0 (fun _ => 3%N) (fun l => l) fs_http [q] rest (one_piece (B ("GET /" ++ nl ++ nl)) Eof) open_writer)
    as (l1 & l2 & E & F & _).
  - reflexivity. - unfold enough. vm_compute. lia. - reflexivity. - exact H. - apply fs_answers.
  - vm_compute in E. symmetry in E. apply app_eq_nil in E as [-> _]. inversion F.
Qed.

(** C119 fails: hello world goes on after a request that asks for the connection to be closed,
    wherever such requests stand. *)
Theorem C119_kept_refuted : forall (K : codec) fuel cfg caps ho qs q qs' r w,
  (1 <= h_max_headers_count cfg)%N -> (forall k, 0 < caps k)%N -> enough fuel r ->
  Forall (request_ok cfg) (qs ++ q :: qs') -> (forall v, In v (versions (qs ++ q :: qs')) -> ~ zero_major v) ->
  asks_close (rq_head q) -> w_budget w = None -> flat r = wires (qs ++ q :: qs') ->
  let res := serve fuel cfg caps ho (@hello_http K) r w in
  length (cr_log res) = length qs + 1 + length qs'
  /\ cr_end res = match fin r with Stall => EndBlocked | _ => EndClosed end.
Proof.
  intros K fuel cfg caps ho qs q qs' r w Hc Hcap Hf Hq Hv _ Hw Hr res.
  destruct (hello_open K fuel cfg caps ho _ r w Hc Hcap Hf Hq Hv Hw Hr) as [H1 H2]. split; [|exact H2].
  unfold res. rewrite H1, app_length. cbn [length]. lia.
Qed.
Print Assumptions C119_kept_refuted.
(** C119, the part that holds: a handler that looks at the header and asks for the connection to
    be closed has it closed after its answer, which is sent if the client takes it. *)
Theorem C119_handler_partial : forall (K : codec) fuel cfg caps ho (svc : service K) r w req d vs v,
  let res := serve fuel cfg caps ho svc r w in
  (forall req resp vs v, mm_getall (headers req) (B "connection") = Ret (Some vs) -> In v vs -> lower v = B "close" -> bare resp ->
     exists req' resp' data resp'', svc req resp = Ret (Some (Current false), req', resp')
       /\ serialize ho resp' = Ret (Some data, resp'')) ->
  In (req, d) (cr_log res) ->
  mm_getall (headers req) (B "connection") = Ret (Some vs) -> In v vs -> lower v = B "close" ->
  exists before data, d = Some data /\ cr_log res = before ++ [(req, d)] /\ cr_end res = EndClosed
    /\ (w_budget w = None -> w_out (cr_writer res) = w_out w ++ concat (map sent before) ++ data).
Proof.
  intros K fuel cfg caps ho svc r w req d vs v res Hs Hi Hg Hv Hc.
  assert (Hsw : switches ho svc (Current false) req).
  { intros resp Hb. destruct (Hs req resp vs v Hg Hv Hc Hb) as (req' & resp' & data & resp'' & E1 & E2).
    exists req', resp', data, resp''. auto. }
  assert (N : Current false <> Current true) by discriminate.
  destruct (F_End.protocol_switch _ _ _ _ _ _ _ _ _ req d N Hi Hsw) as (before & data & E & Ed & _).
  exists before, data. split; [exact Ed|]. split; [exact E|]. split.
  - refine (proj2 (F_End.last_exchange _ _ _ _ _ _ _ _ req d Hi _)).
    intros resp Hb. right. destruct (Hs req resp vs v Hg Hv Hc Hb) as (req' & resp' & data' & resp'' & E1 & E2).
    exists (Current false), req', resp', (Some data'), resp''. auto.
  - intros Hw. pose proof (F_Conn.written K fuel cfg caps ho svc r w) as W. cbv zeta in W. rewrite Hw in W.
    unfold res in E. rewrite E, map_app, concat_app, Ed in W. cbn [map concat sent snd] in W. rewrite app_nil_r in W. exact W.
Qed.
Print Assumptions C119_handler_partial.
Definition ex_asking : list request :=
  [Request (Head (B "GET") (B "/a") (B "HTTP/1.1") [(B "Connection", B " Close")]) [];
   Request (Head (B "GET") (B "/b") (B "HTTP/1.1") []) []].
Definition ex_looks : service copy_codec := scripted (fun req =>
  ([RVersion 1 1; RCode 200 (B "OK")],
   Current (match mm_getall (headers req) (B "connection") with
            | Ret (Some vs) => negb (existsb (fun v => bytes_eqb (lower v) (B "close")) vs)
            | _ => true
            end))).
Example C119_nonvacuous :
  Forall (request_ok cfg0) ex_asking /\ asks_close (rq_head (nth 0 ex_asking (Request ex_expect [])))
  /\ (forall v, In v (versions ex_asking) -> ~ zero_major v)
  /\ map (fun svc => length (cr_log (serve (K := copy_codec) 300 cfg0 (fun _ => 3%N) (fun l => l) svc
       (one_piece (wires ex_asking) Eof) open_writer))) [hello_http; ex_looks] = [2; 1].
Proof.
  split; [apply requests_okb_ok; vm_compute; reflexivity|].
  split; [exists (B "Close"); split; [vm_compute; now left|reflexivity]|]. split; [|vm_compute; reflexivity].
  intros v [<-|[<-|[]]] H; apply F_Hello.keeps_exact in H; vm_compute in H; discriminate.
Qed.
