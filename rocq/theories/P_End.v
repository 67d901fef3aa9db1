(** Properties C93-C95: how connections end, and what they hand over before. *)
From Verif Require Import F_End F_Got F_Unamb S_Resp S_Examples.

(** C93: if another request is given to a handler, then the one before was answered in full, the
    handler asked to keep the connection, and the client took all of the response. *)
Theorem C93_continues : forall (K : codec) fuel cfg caps ho (svc : service K) r w before req d next after,
  cr_log (serve fuel cfg caps ho svc r w) = before ++ (req, d) :: next :: after ->
  exists resp req' resp' data resp'', bare resp /\ svc req resp = Ret (Some (Current true), req', resp')
    /\ serialize ho resp' = Ret (Some data, resp'') /\ d = Some data
    /\ room_for w (length (concat (map sent (before ++ [(req, d)])))).
Proof. intros. now eapply only_continues; eauto. Qed.
Print Assumptions C93_continues.
(** ... so a handler that fails, asks to close, or whose response cannot be completed ends the
    connection; *)
Theorem C93_closed : forall (K : codec) fuel cfg caps ho (svc : service K) r w req d,
  let res := serve fuel cfg caps ho svc r w in
  In (req, d) (cr_log res) -> gives_up ho svc req ->
  (exists before, cr_log res = before ++ [(req, d)]) /\ cr_end res = EndClosed.
Proof. intros K fuel cfg caps ho svc r w req d. exact (last_exchange K ho svc fuel cfg caps r w req d). Qed.
Print Assumptions C93_closed.
(** ... as does a client that goes away before it has taken everything; *)
Theorem C93_client_gone : forall (K : codec) fuel cfg caps ho (svc : service K) r w,
  let res := serve fuel cfg caps ho svc r w in
  ~ room_for w (length (concat (map sent (cr_log res)))) -> cr_end res = EndClosed.
Proof. intros K fuel cfg caps ho svc r w. exact (client_gone K ho svc fuel cfg caps r w). Qed.
Print Assumptions C93_client_gone.
(** ... and a handler that panics takes the connection with it, without a response. *)
Theorem C93_panic : forall (K : codec) fuel cfg caps ho (svc : service K) r w req d,
  let res := serve fuel cfg caps ho svc r w in
  In (req, d) (cr_log res) -> (forall resp, bare resp -> svc req resp = Panic) ->
  (exists before, cr_log res = before ++ [(req, d)]) /\ d = None /\ cr_end res = EndPanic.
Proof. intros K fuel cfg caps ho svc r w req d. exact (handler_panics K ho svc fuel cfg caps r w req d). Qed.
Print Assumptions C93_panic.
(** three requests to a handler that fails at /b and panics at /p *)
Definition ex_paths (l : list string) : bytes :=
  concat (map (fun p => B ("GET " ++ p ++ " HTTP/1.1" ++ nl ++ nl)) l).
Definition ex_picky : service copy_codec := fun req resp =>
  if bytes_same (fl1 req) (B "/b") then Ret (None, req, resp)
  else if bytes_same (fl1 req) (B "/p") then Panic
  else if bytes_same (fl1 req) (B "/ws") then Ret (Some WebSocket, req, resp)
  else if bytes_same (fl1 req) (B "/h2") then Ret (Some Http2, req, resp)
  else hello_http req resp.
Definition ex_run (l : list string) (w : writer) : list bytes * conn_end :=
  let res := serve (K := copy_codec) 300 cfg0 (fun _ => 3%N) (fun l => l) ex_picky (one_piece (ex_paths l) Eof) w in
  (map (fun p => fl1 (fst p)) (cr_log res), cr_end res).
Example C93_nonvacuous :
  ex_run ["/a"; "/b"; "/c"]%string open_writer = ([B "/a"; B "/b"], EndClosed)
  /\ ex_run ["/a"; "/p"; "/c"]%string open_writer = ([B "/a"; B "/p"], EndPanic)
  /\ ex_run ["/a"; "/a"; "/c"]%string (Wr [] (Some 100%N)) = ([B "/a"; B "/a"], EndClosed)
  /\ ex_run ["/a"; "/a"; "/c"]%string open_writer = ([B "/a"; B "/a"; B "/c"], EndClosed)
  /\ (forall req : message copy_codec, fl1 req = B "/b" -> gives_up (fun l => l) ex_picky req).
Proof.
  splits; try (vm_compute; reflexivity).
  intros req E resp _. left. exists req, resp. unfold ex_picky. rewrite E. reflexivity.
Qed.

(** C94: whatever a client sends, the requests given to the handler stand in the stream one after
    the other, from its first byte on ([requests_at], S_Got.v), and nothing else is given to it; *)
Theorem C94_from_stream : forall (K : codec) fuel cfg caps ho (svc : service K) r w,
  (forall k, 0 < caps k)%N -> enough fuel r ->
  exists qs rest, requests_at (fin r) cfg (flat r) qs rest
    /\ Forall2 is_got qs (map fst (cr_log (serve fuel cfg caps ho svc r w))).
Proof. exact only_from_stream. Qed.
Print Assumptions C94_from_stream.
(** ... and a handler that answers gets all of them, as long as the client reads. *)
Theorem C94_all : forall (K : codec) fuel cfg caps ho (svc : service K) qs rest r w,
  (forall k, 0 < caps k)%N -> enough fuel r -> w_budget w = None ->
  requests_at (fin r) cfg (flat r) qs rest -> answers ho svc (map g_version qs) ->
  exists log1 log2, cr_log (serve fuel cfg caps ho svc r w) = log1 ++ log2
    /\ Forall2 is_got qs (map fst log1) /\ Forall (fun p => snd p <> None) log1
    /\ ((forall q rest', ~ requests_at (fin r) cfg rest [q] rest') -> log2 = []).
Proof. exact all_from_stream. Qed.
Print Assumptions C94_all.
(** ... and there is only one way to read a stream as requests. *)
Theorem C94_unambiguous : forall e cfg s qs rest qs' rest',
  requests_at e cfg s qs rest -> requests_at e cfg s qs' rest' -> length qs <= length qs' ->
  qs = firstn (length qs) qs' /\ (length qs = length qs' -> rest = rest').
Proof. exact unambiguous. Qed.
Print Assumptions C94_unambiguous.
(** an odd stream: a wrong line end, a line without colon, a signed length, junk at the end *)
Definition ex_odd : bytes :=
  B ("PUT /x HTTP/1.1?" ++ String LF ("what" ++ nl ++ "Content-LENGTH: +3" ++ nl ++ nl ++ "abcGET /y ?!" ++ nl ++ nl ++ "junk")).
Example C94_nonvacuous :
  map (fun p => (fl1 (fst p), fl2 (fst p), b_internal (mbody (fst p))))
    (cr_log (serve (K := copy_codec) 300 cfg0 (fun _ => 3%N) (fun l => l) fs_http (byte_wise ex_odd Eof) open_writer))
  = [(B "/x", B "HTTP/1.1", Some (B "abc")); (B "/y", B "?!", Some (B "abc"))]
  /\ exists qs rest, requests_at Eof cfg0 ex_odd qs rest /\ length qs = 2.
Proof.
  split; [vm_compute; reflexivity|].
  destruct (C94_from_stream copy_codec 300 cfg0 (fun _ => 3%N) (fun l => l) fs_http (one_piece ex_odd Eof) open_writer)
    as (qs & rest & H1 & H2).
  - reflexivity.
  - unfold enough. vm_compute. lia.
  - exists qs, rest. split.
    + replace ex_odd with (flat (one_piece ex_odd Eof)) by (unfold flat; cbn [segs one_piece concat]; apply app_nil_r). exact H1.
    + assert (E : length qs = length (map fst (cr_log (serve (K := copy_codec) 300 cfg0 (fun _ => 3%N) (fun l => l) fs_http
        (one_piece ex_odd Eof) open_writer)))) by (clear H1; induction H2; cbn; auto).
      rewrite E. vm_compute. reflexivity.
Qed.

(** C95 fails: when the handler has answered and asks for WebSocket the connection is closed; when
    it asks for HTTP/2, its task panics. *)
Theorem C95_not_spoken_refuted : forall (K : codec) fuel cfg caps ho (svc : service K) p r w req d,
  let res := serve fuel cfg caps ho svc r w in
  p = WebSocket \/ p = Http2 -> In (req, d) (cr_log res) -> switches ho svc p req ->
  room_for w (length (concat (map sent (cr_log res)))) ->
  (exists before, cr_log res = before ++ [(req, d)])
  /\ cr_end res = match p with Http2 => EndPanic | _ => EndClosed end.
Proof.
  intros K fuel cfg caps ho svc p r w req d res Hp Hin Hs Hroom.
  destruct (protocol_switch K ho svc fuel cfg caps r w p req d) as (before & data & H1 & _ & H2); auto.
  { destruct Hp as [-> | ->]; discriminate. }
  split; [|now apply H2]. exists before. exact H1.
Qed.
Print Assumptions C95_not_spoken_refuted.
(** C95, what holds: the answer to the switching request has been sent, it is the last thing sent,
    and no later byte of the client is taken for an HTTP request. *)
Theorem C95_answered_partial : forall (K : codec) fuel cfg caps ho (svc : service K) p r w req d,
  let res := serve fuel cfg caps ho svc r w in
  p = WebSocket \/ p = Http2 -> In (req, d) (cr_log res) -> switches ho svc p req ->
  room_for w (length (concat (map sent (cr_log res)))) ->
  exists before data, cr_log res = before ++ [(req, d)] /\ d = Some data
    /\ w_out (cr_writer res) = w_out w ++ concat (map sent before) ++ data.
Proof.
  intros K fuel cfg caps ho svc p r w req d res Hp Hin Hs Hroom.
  destruct (protocol_switch K ho svc fuel cfg caps r w p req d) as (before & data & H1 & H2 & _); auto.
  { destruct Hp as [-> | ->]; discriminate. }
  exists before, data. splits; auto.
  unfold res. rewrite written. fold res. f_equal.
  assert (E : concat (map sent (cr_log res)) = concat (map sent before) ++ data).
  { unfold res. rewrite H1, map_app, concat_app, H2. cbn. now rewrite app_nil_r. }
  rewrite E. unfold room_for in Hroom. destruct (w_budget w) as [b|]; [|reflexivity].
  apply firstn_all2. rewrite <- E. lia.
Qed.
Print Assumptions C95_answered_partial.
Example C95_nonvacuous :
  ex_run ["/a"; "/ws"; "/c"]%string open_writer = ([B "/a"; B "/ws"], EndClosed)
  /\ ex_run ["/a"; "/h2"; "/c"]%string open_writer = ([B "/a"; B "/h2"], EndPanic).
Proof. vm_compute. auto. Qed.
