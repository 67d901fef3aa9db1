(** C127 and C128: what stands around header lines; the host a request is addressed to. *)
From Verif Require Import S_Lines S_Http F_Lines F_HeadEx S_Examples F_Served F_Req F_Got F_End F_Hello P_End.

(** C127 fails: spaces between a name and its colon, or before a name, are dropped and the head is
    accepted; HTTP asks for it to be refused, since other programs on the way may see no header, or
    another one. *)
Theorem C127_spaces_refuted : forall (K : codec) fuel cfg r r' h ls ls' suffix,
  enough fuel r -> enough fuel r' -> (1 <= h_max_headers_count cfg)%N ->
  head_ok (h_max_url_size cfg) (h_max_header_line_size cfg) h ->
  Forall (line_fits (h_max_header_line_size cfg)) ls -> Forall (line_fits (h_max_header_line_size cfg)) ls' ->
  Forall2 space_around ls ls' ->
  flat r = head_ended h (map (fun l => (l, CR)) ls) ++ suffix ->
  flat r' = head_ended h (map (fun l => (l, CR)) ls') ++ suffix ->
  exists m q q', read_headers fuel cfg r (@msg_default K) = Ret (RcOk, m, q)
    /\ read_headers fuel cfg r' (@msg_default K) = Ret (RcOk, m, q')
    /\ flat q = suffix /\ flat q' = suffix.
Proof.
  intros K fuel cfg r r' h ls ls' suffix Hf Hf' Hc Hh Hl Hl' Hs Hr Hr'.
  assert (Hm : forall l : list bytes, Forall (line_fits (h_max_header_line_size cfg)) l ->
    Forall (fun p => line_fits (h_max_header_line_size cfg) (fst p) /\ snd p <> LF) (map (fun x => (x, CR)) l)).
  { intros l H. apply Forall_map. cbn [fst snd]. eapply Forall_impl; [|exact H]. intros x Hx. split; [easy|discriminate]. }
  destruct (ended_accepted K fuel cfg r h _ suffix Hf Hh Hc (Hm ls Hl) Hr) as (m & q & E & F1 & _ & F2 & F3 & F4 & F5 & F6 & _).
  destruct (ended_accepted K fuel cfg r' h _ suffix Hf' Hh Hc (Hm ls' Hl') Hr') as (m' & q' & E' & G1 & _ & G2 & G3 & G4 & G5 & G6 & _).
  assert (Hid : forall l : list bytes, map fst (map (fun x => (x, CR)) l) = l).
  { intros l. rewrite map_map. cbn. apply map_id. }
  rewrite Hid in *. rewrite (spaced_all ls ls' Hs), F6 in G6. injection G6 as G6.
  exists m, q, q'. splits; auto. rewrite E'. f_equal. f_equal. f_equal. destruct m, m'. cbn in *. now subst.
Qed.
Print Assumptions C127_spaces_refuted.

(** ... a header line may end with a line feed alone, but then its last character is dropped: the
    headers are those of the lines without the byte before the line feed, whatever that byte is. *)
Theorem C127_last_byte_refuted : forall (K : codec) fuel cfg r h ls suffix,
  enough fuel r -> (1 <= h_max_headers_count cfg)%N ->
  head_ok (h_max_url_size cfg) (h_max_header_line_size cfg) h ->
  Forall (fun p => line_fits (h_max_header_line_size cfg) (fst p) /\ exact_line (fst p) /\ snd p <> LF) ls ->
  flat r = head_ended h ls ++ suffix ->
  exists m q, read_headers fuel cfg r (@msg_default K) = Ret (RcOk, m, q) /\ flat q = suffix
    /\ req_method m = hd_method h /\ req_rawuri m = hd_target h /\ fl2 m = hd_version h
    /\ forall n, mm_getall (headers m) (lower n) = Ret (lookup_of n (exact_fields (map fst ls))).
Proof.
  intros K fuel cfg r h ls suffix Hf Hc Hh Hl Hr.
  assert (Hl' : Forall (fun p => line_fits (h_max_header_line_size cfg) (fst p) /\ snd p <> LF) ls).
  { eapply Forall_impl; [|exact Hl]. cbn. tauto. }
  destruct (ended_accepted K fuel cfg r h _ suffix Hf Hh Hc Hl' Hr) as (m & q & E & F1 & _ & F2 & F3 & F4 & _ & _ & F7).
  assert (Hx : Forall exact_line (map fst ls)).
  { apply Forall_map. eapply Forall_impl; [|exact Hl]. cbn. tauto. }
  destruct (exact_all _ Hx) as (E1 & E2). exists m, q. splits; auto. intros n. now rewrite F7, E1.
Qed.
Print Assumptions C127_last_byte_refuted.

(** ... so that the end of what the client calls the body is taken for requests: its length is
    [v] with the digit [x] at the end, the handler gets a body of length [v] and then the requests
    [qs] that stand in the rest of the body. *)
Theorem C127_cut_length_refuted : forall (K : codec) fuel cfg caps ho (svc : service K) h v x body more qs r w,
  (1 <= h_max_headers_count cfg)%N -> (forall k, 0 < caps k)%N -> enough fuel r -> w_budget w = None ->
  head_ok (h_max_url_size cfg) (h_max_header_line_size cfg) h ->
  (N.of_nat (length v) + 18 <= h_max_header_line_size cfg)%N ->
  numeral v (N.of_nat (length body)) -> numeral (v ++ [x]) (N.of_nat (length (body ++ more))) ->
  (N.of_nat (length (body ++ more)) < 2 ^ 64)%N ->
  flat r = request_line h ++ length_line (v ++ [x]) ++ [LF] ++ CRLF ++ body ++ more ->
  requests_at (fin r) cfg more qs [] ->
  answers ho svc (hd_version h :: map g_version qs) ->
  exists log1 log2, cr_log (serve fuel cfg caps ho svc r w) = log1 ++ log2
    /\ Forall2 is_got (Got (hd_method h) (hd_target h) (hd_version h) [length_line v] body :: qs) (map fst log1).
Proof.
  intros K fuel cfg caps ho svc h v x body more qs r w Hc Hcap Hf Hw Hh Hl Hv Hv' Hn Hr Hq Ha.
  assert (Hx : x <> LF).
  { destruct Hv' as (_ & Hd & _). apply Forall_app in Hd as (_ & Hd). inversion Hd; subst. now apply digit_vchar. }
  edestruct (C94_all K fuel cfg caps ho svc (Got (hd_method h) (hd_target h) (hd_version h) [length_line v] body :: qs) [] r w)
    as (log1 & log2 & H1 & H2 & _); auto; [|now exists log1, log2].
  econstructor; [| |exact Hq]; cbn [g_method g_target g_version g_lines g_body].
  - replace (flat r) with (head_ended h [(length_line v, x)] ++ body ++ more).
    + apply (head_ended_at (fin r) cfg h [(length_line v, x)] (body ++ more)); auto. constructor; [|constructor]. cbn [fst snd].
      split; [|easy]. apply length_good; auto. destruct Hv as (V1 & V2 & _). split; [|split]; auto.
    + rewrite Hr. unfold head_ended, ended_lines, length_line. cbn [map concat fst snd]. rewrite <- !app_assoc. reflexivity.
  - apply length_announces; [easy|]. rewrite app_length in Hn. lia.
Qed.
Print Assumptions C127_cut_length_refuted.

(** C127, the part that holds: lines ended by CRLF, with names that have no space at their ends, are
    read exactly: the name is what stands before the colon, the value what stands after it, without
    spaces at its ends. *)
Theorem C127_exact_partial : forall (K : codec) fuel cfg r h ls suffix,
  enough fuel r -> (1 <= h_max_headers_count cfg)%N ->
  head_ok (h_max_url_size cfg) (h_max_header_line_size cfg) h ->
  Forall (fun l => line_fits (h_max_header_line_size cfg) l /\ exact_line l) ls ->
  flat r = head_lines h ls ++ suffix ->
  exists m q, read_headers fuel cfg r (@msg_default K) = Ret (RcOk, m, q) /\ flat q = suffix
    /\ req_method m = hd_method h /\ req_rawuri m = hd_target h /\ fl2 m = hd_version h
    /\ forall n, mm_getall (headers m) (lower n) = Ret (lookup_of n (exact_fields ls)).
Proof.
  intros K fuel cfg r h ls suffix Hf Hc Hh Hl Hr.
  assert (Hid : map fst (map (fun x : bytes => (x, CR)) ls) = ls).
  { rewrite map_map. cbn. apply map_id. }
  rewrite <- Hid. apply C127_last_byte_refuted with (r := r); auto.
  - apply Forall_map. eapply Forall_impl; [|exact Hl]. cbn [fst snd]. intros l (H1 & H2). splits; auto. discriminate.
  - rewrite Hr. unfold head_lines, head_ended, ended_lines. rewrite map_map. reflexivity.
Qed.
Print Assumptions C127_exact_partial.
(** ... and a head with a line that is not such text - a tab or any other byte that is not printable,
    a colon at the end of the line, more than 256 bytes before the colon - is refused. *)
Theorem C127_refused_partial : forall (K : codec) fuel cfg r h ls1 l ls2 suffix,
  head_ok (h_max_url_size cfg) (h_max_header_line_size cfg) h ->
  Forall (line_fits (h_max_header_line_size cfg)) ls1 ->
  l <> [] -> ~ good_line l -> ~ In LF l -> (N.of_nat (length l) + 2 <= h_max_header_line_size cfg)%N ->
  flat r = head_lines h (ls1 ++ l :: ls2) ++ suffix ->
  forall m q, read_headers fuel cfg r (@msg_default K) <> Ret (RcOk, m, q).
Proof. exact bad_line_refused. Qed.
Print Assumptions C127_refused_partial.

Definition ex_get : S_Wire.head := Head (B "POST") (B "/") (B "HTTP/1.1") [].
Definition ex_more : bytes := B ("GET /x HTTP/1.1" ++ nl ++ nl).
Example C127_nonvacuous :
  head_ok (h_max_url_size cfg0) (h_max_header_line_size cfg0) ex_get
  /\ space_around (B "Host: a") (B "  Host : a") /\ line_fits (h_max_header_line_size cfg0) (B "  Host : a")
  /\ exact_line (B "Host: a") /\ exact_fields [B "Host: a"] = [(B "Host", B " a")]
  /\ ~ good_line (B "Host:" ++ [ascii_of_nat 9])
  (* a body of 021 bytes, as the client says, is read as one of 02 bytes and a request *)
  /\ map (fun p => (fl1 (fst p), b_internal (mbody (fst p))))
       (cr_log (serve (K := copy_codec) 300 cfg0 (fun _ => 3%N) (fun l => l) hello_http
         (byte_wise (request_line ex_get ++ length_line (B "021") ++ [LF] ++ CRLF ++ B "ab" ++ ex_more) Eof) open_writer))
     = [(B "/", Some (B "ab")); (B "/x", Some (B "ab"))]
  /\ numeral (B "02") (N.of_nat (length (B "ab"))) /\ numeral (B "02" ++ B "1") (N.of_nat (length (B "ab" ++ ex_more))).
Proof.
  splits; try (vm_compute; reflexivity).
  - apply head_okb_ok. vm_compute. reflexivity.
  - exists 2, 1, (B "Host"), (B " a"). split; reflexivity.
  - split; [|vm_compute; discriminate]. split; [discriminate|]. split; [|vm_compute; split; [lia|discriminate]].
    apply Forall_forall. intros c Hc. cbn in Hc. unfold vchar. repeat (destruct Hc as [<-|Hc]; [vm_compute; split; discriminate|]). easy.
  - exists (B "Host"), (B " a"). splits; vm_compute; try reflexivity; discriminate.
  - intros (_ & H & _). rewrite Forall_forall in H. specialize (H (ascii_of_nat 9)). unfold vchar in H.
    destruct H as (H & _); [now apply in_app_iff; right; left|]. vm_compute in H. now apply H.
  - apply numeralb_ok. vm_compute. reflexivity.
  - apply numeralb_ok. vm_compute. reflexivity.
Qed.

(** C128 fails: a request that names no host, or several, is not refused, wherever it stands and
    whatever version of HTTP it asks for. *)
Theorem C128_not_refused_refuted : forall (K : codec) fuel cfg caps ho (svc : service K) qs q r w,
  (1 <= h_max_headers_count cfg)%N -> (forall k, 0 < caps k)%N -> enough fuel r ->
  Forall (request_ok cfg) (qs ++ [q]) -> length (hosts (rq_head q)) <> 1 -> answers ho svc (versions (qs ++ [q])) ->
  w_budget w = None -> flat r = wires (qs ++ [q]) ->
  exists log p, cr_log (serve fuel cfg caps ho svc r w) = log ++ [p]
    /\ Forall2 (handled ho svc) qs log /\ handled ho svc q p.
Proof.
  intros K fuel cfg caps ho svc qs q r w Hc Hcap Hf Hq _ Ha Hw Hr.
  destruct (pipelined K fuel cfg caps ho svc _ r w Hc Hcap Hf Hq Ha Hw Hr) as (H & _).
  apply Forall2_app_inv_l in H as (log & l2 & H1 & H2 & E). inversion H2 as [|? p ? ? H3 H4]; subst. inversion H4; subst.
  eauto.
Qed.
Print Assumptions C128_not_refused_refuted.
(** C128, the part that holds: the handler can tell; it finds exactly the hosts the request names,
    in the order sent, and the rest of the request is as sent. *)
Theorem C128_seen_partial : forall (K : codec) fuel cfg caps ho (svc : service K) qs r w k q,
  (1 <= h_max_headers_count cfg)%N -> (forall k, 0 < caps k)%N -> enough fuel r ->
  Forall (request_ok cfg) qs -> answers ho svc (versions qs) ->
  w_budget w = None -> flat r = wires qs -> nth_error qs k = Some q ->
  exists req d, nth_error (cr_log (serve fuel cfg caps ho svc r w)) k = Some (req, d)
    /\ req_rawuri req = hd_target (rq_head q)
    /\ mm_getall (headers req) (B "host") = Ret (match hosts (rq_head q) with [] => None | vs => Some vs end).
Proof.
  intros K fuel cfg caps ho svc qs r w k q Hc Hcap Hf Hq Ha Hw Hr Hk.
  destruct (pipelined K fuel cfg caps ho svc _ r w Hc Hcap Hf Hq Ha Hw Hr) as (H & _).
  revert H k Hk. generalize (cr_log (serve fuel cfg caps ho svc r w)). clear. intros log H.
  induction H as [|q1 p qs1 log H1 _ IH]; intros [|k] Hk; try discriminate.
  - injection Hk as ->. destruct p as [req d]. exists req, d. destruct H1 as ((_ & H1 & _ & H2) & _). cbn [fst] in *.
    splits; auto. change (B "host") with (lower (B "host")). now rewrite H2.
  - cbn [nth_error] in *. auto.
Qed.
Print Assumptions C128_seen_partial.
Example C128_nonvacuous :
  let q0 := Request (Head (B "GET") (B "/a") (B "HTTP/1.1") []) [] in
  let q2 := Request (Head (B "GET") (B "/b") (B "HTTP/1.1") [(B "Host", B " x"); (B "HOST", B "y")]) [] in
  hosts (rq_head q0) = [] /\ hosts (rq_head q2) = [B "x"; B "y"] /\ Forall (request_ok cfg0) [q0; q2]
  /\ map (fun p => fl1 (fst p)) (cr_log (serve (K := copy_codec) 300 cfg0 (fun _ => 3%N) (fun l => l) hello_http
       (byte_wise (wires [q0; q2]) Eof) open_writer)) = [B "/a"; B "/b"].
Proof.
  intros q0 q2. split; [vm_compute; reflexivity|]. split; [vm_compute; reflexivity|].
  split; [apply requests_okb_ok; vm_compute; reflexivity|vm_compute; reflexivity].
Qed.
