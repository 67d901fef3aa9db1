(** Responses on their way through the write buffer and the socket (C107, C108), and clients that
    do not read (C25). *)
From Verif Require Import S_Net S_Examples F_Base F_Net.
From Coq Require Import Lia.

(** C107: whatever the size of the write buffer and however the network takes the bytes, a
    connection does what it does for an ideal client (M_Serve with a writer that never fails).
    While it goes on - and also when it waits for the next request, or closes - every response has
    left completely and in order, nothing stays in a buffer.  If a response cannot be sent, or the
    client does not take it, all earlier responses have left and a part of this one; the handler is
    given no further request. *)
Theorem C107_delivered : forall (K : codec) fuel tcp cfg caps ho (svc : service K) r s, fresh s ->
  let n := net_serve fuel tcp cfg caps ho svc r s in
  let s' := bw_sock (nr_writer n) in
  let ideal := serve fuel cfg caps ho svc r (Wr [] None) in
  match nr_end n with
  | Ended e =>
      cr_end ideal = e /\ cr_log ideal = exchanges (nr_log n)
      /\ so_out s' = responses (nr_log n) /\ so_sent s' = responses (nr_log n)
  | _ => exists before req head body part rest more sent,
      nr_log n = before ++ [(req, Some (head, body))] /\ cr_log ideal = exchanges (nr_log n) ++ more
      /\ head ++ body = part ++ rest /\ so_out s' = responses before ++ part
      /\ so_sent s' = responses before ++ sent
  end.
Proof.
  intros K fuel tcp cfg caps ho svc r s (F1 & F2 & F3). cbv zeta.
  assert (R : ready (BufW (t_read_buf tcp) [] s)).
  { split; [reflexivity|]. cbn. split; [exists []; now rewrite F1, F2|congruence]. }
  pose proof (net_sim K fuel fuel cfg caps ho svc 0 r (BufW (t_read_buf tcp) [] s) msg_default msg_default [] R) as X.
  cbn [bw_sock] in X. rewrite F1 in X. unfold net_serve, serve. change (exchanges []) with (@nil (message K * option bytes)) in X.
  set (n := net_loop _ _ _ _ _ _ _ _ _ _ _ _) in *. set (a := serve_loop _ _ _ _ _ _ _ _ _ _ _ _) in *.
  destruct X as (new & t & L & M & _ & _ & more & L2 & X). cbn [app] in L, L2.
  assert (O : so_out (bw_sock (nr_writer n)) = t) by (destruct M as (_ & M & _); cbn in M; now rewrite M, F1).
  destruct (nr_end n).
  - destruct X as (X1 & X2 & X3 & X4). split; [exact X1|]. split; [rewrite L2, X2, app_nil_r, L; reflexivity|].
    destruct X4 as (_ & _ & X4). split; congruence.
  - destruct X as (before & req & h & b & part & rest & u & X1 & X2 & X3 & X4).
    exists before, req, h, b, part, rest, more, u. split; [congruence|]. split; [congruence|]. split; [exact X2|]. split; [congruence|].
    rewrite X4. cbn. now rewrite F2.
  - destruct X as (before & req & h & b & part & rest & u & X1 & X2 & X3 & X4).
    exists before, req, h, b, part, rest, more, u. split; [congruence|]. split; [congruence|]. split; [exact X2|]. split; [congruence|].
    rewrite X4. cbn. now rewrite F2.
Qed.
Print Assumptions C107_delivered.
(** For a client that keeps reading the first case applies: it is enough that it takes a byte at a
    time. *)
Theorem C107_reading_client : forall (K : codec) fuel tcp cfg caps ho (svc : service K) r s, fresh s ->
  let ideal := serve fuel cfg caps ho svc r (Wr [] None) in
  Forall reads (so_next s) ->
  (length (concat (map (fun e => match snd e with Some d => d | None => [] end) (cr_log ideal))) + length (cr_log ideal)
   < length (so_next s))%nat ->
  exists e, nr_end (net_serve fuel tcp cfg caps ho svc r s) = Ended e.
Proof.
  intros K fuel tcp cfg caps ho svc r s (F1 & F2 & F3) ideal Hr Hl.
  assert (R : ready (BufW (t_read_buf tcp) [] s)).
  { split; [reflexivity|]. cbn. split; [exists []; now rewrite F1, F2|congruence]. }
  pose proof (net_sim K fuel fuel cfg caps ho svc 0 r (BufW (t_read_buf tcp) [] s) msg_default msg_default [] R) as X.
  cbn [bw_sock] in X. rewrite F1 in X.
  destruct X as (new & t & L & M & E1 & E2 & more & L2 & X). fold ideal in L2, X. cbn [app] in L, L2. unfold net_serve.
  destruct (nr_end _) eqn:Ee; [eauto|now elim (E1 eq_refl)|]. exfalso.
  destruct X as (before & req & h & b & part & rest & u & X1 & X2 & X3 & X4).
  destruct M as (_ & _ & _ & _ & M). destruct (M Hr) as [_ M']. rewrite (E2 eq_refl) in M'. cbn [length bw_sock] in M'.
  assert (C : forall l : list (message K * option (bytes * bytes)), concat (map (fun e => match snd e with Some d => d | None => [] end) (exchanges l)) = responses l).
  { intros l. unfold responses, exchanges. rewrite map_map. f_equal. apply map_ext. intros [q [[a c]|]]; reflexivity. }
  change (cr_log ideal = exchanges new ++ more) in L2.
  rewrite L2, map_app, concat_app, C, !app_length in Hl. unfold exchanges in Hl. rewrite map_length in Hl.
  assert (Y : (length t <= length (responses new))%nat).
  { rewrite X3, X1, responses_app. unfold responses at 3. cbn [map concat snd]. rewrite X2, !app_length. lia. }
  lia.
Qed.
Print Assumptions C107_reading_client.
Definition ex_two : bytes := B ("GET / HTTP/1.1" ++ nl ++ nl ++ "GET / HTTP/1.1" ++ nl ++ nl).
Definition ex_net (tcp : tcp_config) (plain : bool) (next : list answer) : net_result copy_codec :=
  net_serve 300 tcp cfg0 (fun _ => 3%N) (fun l => l) hello_http (one_piece ex_two Stall) (Sock plain next [] [] []).
Definition ex_tcp (n m : N) : tcp_config := TcpConfig [] tls_default n m 0.
Example C107_nonvacuous :
  nr_end (ex_net (ex_tcp 40 7) false (repeat (Takes 3) 200)) = Ended EndBlocked
  /\ so_sent (bw_sock (nr_writer (ex_net (ex_tcp 40 7) false (repeat (Takes 3) 200))))
     = B ("HTTP/1.1HTTP/1.1 200 OK" ++ nl) ++ skipn 25 (so_sent (bw_sock (nr_writer (ex_net (ex_tcp 9999 7) true (repeat (Takes 1000) 2)))))
  /\ nr_end (ex_net (ex_tcp 40 7) false [Takes 3; Takes 50; Takes 50; Takes 2; Fails]) = SendFailed
  /\ nr_end (ex_net (ex_tcp 40 7) true [Takes 3; Takes 50]) = SendWaits.
Proof. splits; vm_compute; reflexivity. Qed.

(** C108: the write buffer has the configured size.  Refuted: the setting reaches nothing; *)
Theorem C108_ignored_refuted : forall (K : codec) fuel tcp n cfg caps ho (svc : service K) r s,
  net_serve fuel (TcpConfig (t_addr tcp) (t_tls tcp) (t_read_buf tcp) n (t_buf tcp)) cfg caps ho svc r s
  = net_serve fuel tcp cfg caps ho svc r s.
Proof. reflexivity. Qed.
Print Assumptions C108_ignored_refuted.
(** ... what decides is the size configured for reading: a response that fits is written at once,
    any other as head and body. *)
Theorem C108_read_size_partial : forall (K : codec) fuel tcp cfg caps ho (svc : service K) r s m, fresh s ->
  let n := net_serve fuel tcp cfg caps ho svc r s in
  let ideal := serve fuel cfg caps ho svc r (Wr [] None) in
  Forall (fun e => match snd e with Some d => (lenN d <= m)%N | None => True end) (cr_log ideal) ->
  Forall (takes_all m) (so_next s) -> (4 * length (cr_log ideal) <= length (so_next s))%nat ->
  (exists e, nr_end n = Ended e) /\ so_offers (bw_sock (nr_writer n)) = all_slices (t_read_buf tcp) (nr_log n).
Proof.
  intros K fuel tcp cfg caps ho svc r s m (F1 & F2 & F3) n ideal H1 H2 H3.
  assert (R : ready (BufW (t_read_buf tcp) [] s)).
  { split; [reflexivity|]. cbn. split; [exists []; now rewrite F1, F2|congruence]. }
  pose proof (net_sim K fuel fuel cfg caps ho svc 0 r (BufW (t_read_buf tcp) [] s) msg_default msg_default [] R) as X.
  cbn [bw_sock] in X. rewrite F1 in X. destruct X as (new & t & L & _ & _ & _ & more & L2 & _). fold ideal in L2. cbn [app] in L, L2.
  change (cr_log ideal = exchanges new ++ more) in L2. rewrite L2 in H1, H3. apply Forall_app in H1 as [H1 _]. rewrite app_length in H3. unfold exchanges in H3. rewrite map_length in H3.
  pose proof (net_slices K m fuel fuel cfg caps ho svc 0 r (BufW (t_read_buf tcp) [] s) msg_default msg_default [] R) as S. cbv zeta in S.
  rewrite L in S. cbn [length] in S. rewrite Nat.sub_0_r in S.
  destruct (S H1) as [E (new' & L' & O)].
  { split; [exact H2|]. cbn [bw_sock]. lia. }
  cbn [app] in L'. subst new'. split; [exact E|]. unfold n, net_serve. rewrite O, L. cbn [bw_sock]. now rewrite F3.
Qed.
Print Assumptions C108_read_size_partial.
Example C108_nonvacuous :
  length (so_offers (bw_sock (nr_writer (ex_net (ex_tcp 4096 100) true (repeat (Takes 4096) 20))))) = 2
  /\ length (so_offers (bw_sock (nr_writer (ex_net (ex_tcp 60 4096) true (repeat (Takes 4096) 20))))) = 4.
Proof. split; vm_compute; reflexivity. Qed.

(** C25 fails also when sending: a client that stops reading within a response is waited for,
    whatever idle_timeout says. *)
Theorem C25_unread_refuted : forall (K : codec) fuel tcp cfg caps ho (svc : service K) r s req d later, fresh s ->
  cr_log (serve fuel cfg caps ho svc r (Wr [] None)) = (req, Some d) :: later ->
  Forall reads (so_next s) -> (will_take (so_next s) < lenN d)%N ->
  nr_end (net_serve fuel tcp cfg caps ho svc r s) = SendWaits.
Proof.
  intros K fuel tcp cfg caps ho svc r s req d later (F1 & F2 & F3) Hd Hr Hw.
  assert (R : ready (BufW (t_read_buf tcp) [] s)).
  { split; [reflexivity|]. cbn. split; [exists []; now rewrite F1, F2|congruence]. }
  pose proof (net_sim K fuel fuel cfg caps ho svc 0 r (BufW (t_read_buf tcp) [] s) msg_default msg_default [] R) as X.
  cbn [bw_sock] in X. rewrite F1 in X.
  destruct X as (new & t & L & M & E1 & E2 & more & L2 & X). cbn [app] in L, L2. change (exchanges []) with (@nil (message K * option bytes)) in L2. unfold serve in Hd. rewrite Hd in L2. unfold net_serve.
  destruct (nr_end _) eqn:Ee; [|now elim (E1 eq_refl)|reflexivity]. exfalso.
  destruct X as (X1 & -> & X3 & _). rewrite app_nil_r in L2. destruct new as [|[q o] new]; [discriminate L2|].
  cbn in L2. injection L2 as _ Ho _. destruct o as [[h b]|]; [|discriminate Ho]. injection Ho as ->.
  destruct M as (_ & _ & _ & M & _). cbn [bw_sock] in M. rewrite X3 in M. unfold responses in M. cbn [map concat snd] in M.
  rewrite lenN_app in M. cbn [fst snd] in Hw. lia.
Qed.
Print Assumptions C25_unread_refuted.
Example C25_unread_nonvacuous : nr_end (ex_net (ex_tcp 8192 8192) true [Takes 10; Takes 20]) = SendWaits.
Proof. vm_compute. reflexivity. Qed.
