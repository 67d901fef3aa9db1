(** Connections closed while input is unread. *)
From Verif Require Export F_Served F_Got S_Linger.
From Verif Require Import F_Unamb.

Section Linger.
Variable K : codec.

(** ** what stands in a stream stands in it when more is sent *)
Lemma piece_more d lim s t rest u : piece Stall d lim s t rest -> piece Stall d lim (s ++ u) t (rest ++ u).
Proof.
  intros (-> & H & H'). split; [now rewrite app_assoc|]. split; [exact H|].
  destruct H' as [H'|[H1 [H2|[_ H2]]]]; [now left|right; auto|discriminate].
Qed.
Lemma lines_more_after lim s ls rest u : lines_at Stall lim s ls rest -> lines_at Stall lim (s ++ u) ls (rest ++ u).
Proof.
  induction 1 as [s x y rest H|s l x y s' ls rest H G _ IH].
  - apply lines_end with x y. now apply piece_more.
  - apply lines_more with x y (s' ++ u); auto. now apply piece_more.
Qed.
Lemma head_more url line count s me ta ve ls rest u : head_at Stall url line count s me ta ve ls rest ->
  head_at Stall url line count (s ++ u) me ta ve ls (rest ++ u).
Proof.
  intros (x & y & z & w & s1 & s2 & s3 & A & A' & B & B' & C & C1 & C2 & C3 & D & D').
  exists x, y, z, w, (s1 ++ u), (s2 ++ u), (s3 ++ u). splits; auto using piece_more, lines_more_after.
Qed.
Lemma requests_more_after cfg s qs rest u : requests_at Stall cfg s qs rest -> requests_at Stall cfg (s ++ u) qs (rest ++ u).
Proof.
  induction 1 as [s|s q s' qs rest H A _ IH]; [constructor|].
  apply requests_more with (s' ++ u); auto. rewrite app_assoc. now apply head_more.
Qed.
Lemma wires_stand e cfg qs : (1 <= h_max_headers_count cfg)%N -> Forall (request_ok cfg) qs ->
  exists gs, requests_at e cfg (wires qs) gs [] /\ length gs = length qs.
Proof.
  intros Hc. induction 1 as [|q qs Hq _ (gs & IH & L)]; [exists []; split; [constructor|reflexivity]|].
  destruct (fl_request K cfg q (wires qs) e msg_default [] (fresh_default K) eq_refl Hq Hc) as (m1 & m2 & E1 & E2 & _).
  destruct (got_one K cfg _ e msg_default m1 m2 _ _ _ _ _ (empty_head_default K) E1 E2) as (_ & _ & g & _ & A & H).
  exists (g :: gs). split; [|cbn; congruence]. apply requests_more with (wires qs); auto.
Qed.

Lemma linger_lost fuel cfg caps ho (svc : service K) qs h v pre more e w :
  (1 <= h_max_headers_count cfg)%N -> (forall k, 0 < caps k)%N -> enough fuel (Rd (pre ++ more) e) ->
  Forall (request_ok cfg) qs -> answers ho svc (versions qs) -> w_budget w = None ->
  head_ok (h_max_url_size cfg) (h_max_header_line_size cfg) h ->
  hd_error (values_of (B "content-length") (hd_fields h)) = Some v -> malformed v ->
  concat pre = wires qs ++ head_wire h -> concat more <> [] ->
  let r := Rd (pre ++ more) e in
  let res := serve fuel cfg caps ho svc r w in
  Forall2 (handled ho svc) qs (cr_log res)
  /\ w_out (cr_writer res) = w_out w ++ concat (map sent (cr_log res))
  /\ forall d lost, w_out (cr_writer res) = d ++ lost -> client_gets fuel cfg caps ho svc r w d.
Proof.
  intros Hc Hcap Hf Hq Ha Hw Hh Hv Hm Hp Hmore r res.
  destruct (malformed_closes K fuel cfg caps ho svc qs h v (concat more) r w Hc Hcap Hf Hq Ha Hw Hh Hv Hm)
    as (_ & H1 & H2).
  { unfold flat, r. cbn [segs]. rewrite concat_app, Hp. now rewrite app_assoc. }
  splits; auto. intros d lost E. apply (gets_part K) with (lost := lost); [|exact E].
  exists pre, more. splits; auto. unfold closes_after.
  apply (malformed_closes K fuel cfg caps ho svc qs h v [] (Rd pre Stall) w Hc Hcap); auto.
  - unfold enough, flat in *. cbn [segs] in *. rewrite concat_app, app_length in Hf. lia.
  - unfold flat. cbn [segs]. now rewrite app_nil_r.
Qed.

Lemma linger_waiting fuel cfg caps ho (svc : service K) r w d :
  (forall k, 0 < caps k)%N -> enough fuel r ->
  cr_end (serve fuel cfg caps ho svc (Rd (segs r) Stall) w) = EndBlocked ->
  client_gets fuel cfg caps ho svc r w d ->
  d = w_out (cr_writer (serve fuel cfg caps ho svc r w)).
Proof.
  intros Hcap Hf Hb H. destruct H as [|d lost (pre & more & E & _ & Hcl) _]; [reflexivity|].
  exfalso. unfold closes_after in Hcl.
  destruct (causal K fuel fuel cfg caps caps ho svc (Rd pre Stall) (Rd (segs r) Stall) (concat more) w) as [(H & _)|H]; auto.
  - unfold enough, flat in *. cbn [segs]. rewrite E, concat_app, app_length in Hf. lia.
  - unfold flat. cbn [segs]. now rewrite E, concat_app.
  - congruence.
  - rewrite H in Hb. congruence.
Qed.

Lemma linger_complete fuel cfg caps ho (svc : service K) qs r w d :
  (1 <= h_max_headers_count cfg)%N -> (forall k, 0 < caps k)%N -> enough fuel r ->
  Forall (request_ok cfg) qs -> answers ho svc (versions qs) ->
  w_budget w = None -> flat r = wires qs ->
  client_gets fuel cfg caps ho svc r w d ->
  let res := serve fuel cfg caps ho svc r w in
  Forall2 (handled ho svc) qs (cr_log res) /\ d = w_out w ++ concat (map sent (cr_log res)).
Proof.
  intros Hc Hcap Hf Hq Ha Hw Hr H res.
  destruct (pipelined K fuel cfg caps ho svc qs r w Hc Hcap Hf Hq Ha Hw Hr) as (H1 & H2 & _).
  split; [exact H1|]. unfold res. rewrite <- H2. apply linger_waiting; auto.
  now destruct (pipelined K fuel cfg caps ho svc qs (Rd (segs r) Stall) w Hc Hcap Hf Hq Ha Hw Hr) as (_ & _ & H3).
Qed.

Lemma linger_old fuel cfg caps ho qs q pre more e w d lost :
  (1 <= h_max_headers_count cfg)%N -> (forall k, 0 < caps k)%N -> enough fuel (Rd (pre ++ more) e) ->
  Forall (request_ok cfg) qs -> (forall v, In v (versions qs) -> ~ zero_major v) ->
  request_ok cfg q -> zero_major (hd_version (rq_head q)) -> w_budget w = None ->
  concat pre = wires qs ++ request_wire q -> concat more <> [] ->
  let r := Rd (pre ++ more) e in
  w_out (cr_writer (serve fuel cfg caps ho (@hello_http K) r w)) = d ++ lost ->
  client_gets fuel cfg caps ho (@hello_http K) r w d.
Proof.
  intros Hc Hcap Hf Hq Hz Hk Hzk Hw Hp Hmore r E.
  apply (gets_part K) with (lost := lost); [|exact E]. exists pre, more. splits; auto. unfold closes_after.
  apply (hello_closes K fuel cfg caps ho qs q [] (Rd pre Stall) w); auto.
  - unfold enough, flat in *. cbn [segs] in *. rewrite concat_app, app_length in Hf. lia.
  - unfold flat. cbn [segs]. now rewrite app_nil_r.
Qed.

Lemma linger_all_read fuel cfg caps ho (svc : service K) qs r w d :
  (forall k, 0 < caps k)%N -> enough fuel r ->
  requests_at Stall cfg (flat r) qs [] -> length (cr_log (serve fuel cfg caps ho svc r w)) = length qs ->
  client_gets fuel cfg caps ho svc r w d ->
  d = w_out (cr_writer (serve fuel cfg caps ho svc r w)).
Proof.
  intros Hcap Hf Hq Hl H. destruct H as [|d lost (pre & more & E & Hm & Hcl) _]; [reflexivity|].
  exfalso. unfold closes_after in Hcl.
  assert (Hfp : enough fuel (Rd pre Stall)).
  { unfold enough, flat in *. cbn [segs]. rewrite E, concat_app, app_length in Hf. lia. }
  assert (Efl : flat r = flat (Rd pre Stall) ++ concat more).
  { unfold flat. cbn [segs]. now rewrite E, concat_app. }
  destruct (causal K fuel fuel cfg caps caps ho svc (Rd pre Stall) r (concat more) w) as [(H & _)|H]; auto; [congruence|].
  rewrite H in Hl.
  destruct (only_from_stream K fuel cfg caps ho svc (Rd pre Stall) w Hcap Hfp) as (gs & rest & Hg & Hgl).
  cbn [fin] in Hg. apply requests_more_after with (u := concat more) in Hg. rewrite <- Efl in Hg.
  assert (Lg : length gs = length qs).
  { rewrite <- Hl, <- (map_length fst). clear - Hgl. induction Hgl; cbn; congruence. }
  destruct (requests_once _ _ _ _ _ Hq _ _ Hg Lg) as [_ Er].
  destruct rest; [|discriminate Er]. now apply Hm.
Qed.
Lemma linger_read fuel cfg caps ho (svc : service K) qs r w d :
  (1 <= h_max_headers_count cfg)%N -> (forall k, 0 < caps k)%N -> enough fuel r ->
  Forall (request_ok cfg) qs -> flat r = wires qs ->
  length (cr_log (serve fuel cfg caps ho svc r w)) = length qs ->
  client_gets fuel cfg caps ho svc r w d ->
  d = w_out (cr_writer (serve fuel cfg caps ho svc r w)).
Proof.
  intros Hc Hcap Hf Hq Hr Hl. destruct (wires_stand Stall cfg qs Hc Hq) as (gs & Hg & Lg). rewrite <- Hr in Hg.
  apply linger_all_read with gs; auto. congruence.
Qed.
End Linger.
