(** What has been done after part of the input is a prefix of what is done with all of it. *)
From Verif Require Export F_Conn.
From Coq Require Permutation.

Lemma fu_extend d lim s t e o rest e' : fu d lim s Stall = Ret (o, (rest, e')) ->
  fu d lim (s ++ t) e = Ret (o, (rest ++ t, e)).
Proof.
  intros H. apply fu_inv in H as (-> & H). destruct o as [a|]; [|easy].
  destruct H as (-> & Hl & H). rewrite <- app_assoc. destruct H as [(a' & -> & Hn)|(Hn & [He|[_ He]])]; [| |easy].
  - rewrite <- app_assoc. cbn [app]. rewrite lenN_app in Hl.
    apply fu_found; auto. change (lenN [d]) with 1%N in Hl. lia.
  - now apply fu_limit.
Qed.
Lemma fl_line_extend lim s t e o rest e' : fl_line lim s Stall = Ret (o, (rest, e')) ->
  fl_line lim (s ++ t) e = Ret (o, (rest ++ t, e)).
Proof.
  unfold fl_line. destruct (fu LF lim s Stall) as [[a [r e1]]| | | |] eqn:E; try easy.
  apply (fu_extend _ _ _ t e) in E. rewrite E. cbn [obind fst snd].
  destruct a as [a|]; [destruct (utf8_decode a)|]; now intros [= <- <- <-].
Qed.

(** [y] is what [x] becomes when the silent client sends [t] after all *)
Definition carries {A} (t : bytes) (e : ending) (x y : outcome (A * (bytes * ending))) : Prop :=
  match x with
  | Ret (a, (rest, _)) => y = Ret (a, (rest ++ t, e))
  | Blocked => True
  | Panic => y = Panic
  | UB => y = UB
  | NoFuel => y = NoFuel
  end.

Section Extend.
Variable K : codec.
Notation message := (message K).

Lemma fl_lines_extend cfg t e : forall f s h,
  carries t e (fl_lines f cfg s Stall h) (fl_lines f cfg (s ++ t) e h).
Proof.
  induction f as [|f IH]; intros s h; [reflexivity|]. cbn [fl_lines].
  destruct (fu_outcomes LF (h_max_header_line_size cfg) s Stall) as [(o & r1 & E)|E]; rewrite E; [|exact I].
  apply (fu_extend _ _ _ t e) in E. rewrite E. cbn [obind fst snd].
  destruct o as [buf|]; [|reflexivity].
  destruct (Nat.ltb (length buf) 2); [reflexivity|].
  destruct (Nat.eqb (length buf) 2); [reflexivity|].
  destruct (scan_line [] 0 (firstn (length buf - 2) buf)) as [| |k v]; [reflexivity|apply IH|].
  destruct (mm_append h k v) as [h1| | | |]; try reflexivity; try exact I. cbn [obind].
  destruct (h_max_headers_count cfg <? 0 + 1)%N; [reflexivity|apply IH].
Qed.

Lemma fl_headers_extend fuel cfg t e s (m : message) :
  carries t e (fl_headers fuel cfg s Stall m) (fl_headers fuel cfg (s ++ t) e m).
Proof.
  unfold fl_headers.
  destruct (fu_outcomes SP 128 s Stall) as [(o0 & s0 & E0)|E0]; rewrite E0; [|exact I].
  apply (fu_extend _ _ _ t e) in E0. rewrite E0. cbn [obind fst snd].
  destruct o0 as [t0|]; [|reflexivity].
  destruct (Nat.ltb (length t0) 1); [reflexivity|].
  destruct (negb (forallb is_printable (firstn (length t0 - 1) (fl0 m ++ t0)))); [reflexivity|].
  destruct (fu_outcomes SP (h_max_url_size cfg) s0 Stall) as [(o1 & s1 & E1)|E1]; rewrite E1; [|exact I].
  apply (fu_extend _ _ _ t e) in E1. rewrite E1. cbn [obind fst snd].
  destruct o1 as [t1|]; [|reflexivity].
  destruct (Nat.ltb (length t1) 1); [reflexivity|].
  destruct (negb (forallb is_printable (firstn (length t1 - 1) (fl1 m ++ t1)))); [reflexivity|].
  destruct (fl_line_outcomes 128 s1 Stall) as [(o2 & s2 & E2)|E2]; rewrite E2; [|exact I].
  apply (fl_line_extend _ _ t e) in E2. rewrite E2. cbn [obind fst snd].
  destruct o2 as [t2|]; [|reflexivity].
  destruct (Nat.ltb (length t2) 3); [reflexivity|].
  destruct (negb (forallb is_printable (firstn (length t2 - 2) (fl2 m ++ t2)))); [reflexivity|].
  pose proof (fl_lines_extend cfg t e fuel s2 (headers m)) as E3.
  destruct (fl_lines fuel cfg s2 Stall (headers m)) as [[[c3 h3] [s3 e3]]| | | |]; cbn [carries] in E3;
    [rewrite E3; reflexivity|now rewrite E3|now rewrite E3|exact I|now rewrite E3].
Qed.

Lemma fl_const_body_extend t e s (m : message) :
  carries t e (fl_const_body s Stall m) (fl_const_body (s ++ t) e m).
Proof.
  unfold fl_const_body. destruct (get_content_length m) as [[n|]| | | |]; try reflexivity; try exact I; cbn [obind].
  unfold fl_length_raw, fl_raw. destruct (n <? 1)%N; [reflexivity|].
  destruct (b_internal (mbody m)).
  - destruct (n <=? lenN s)%N eqn:E; [|exact I]. rewrite lenN_app.
    destruct (n <=? lenN s + lenN t)%N eqn:E2; [|lia]. cbn [obind].
    assert (Hs : splitN n (s ++ t) = (fst (splitN n s), snd (splitN n s) ++ t)).
    { clear -E. revert n E. induction s as [|x s IH]; intros n E.
      - unfold lenN in E. simpl in E. assert (n = 0)%N as -> by lia. destruct t; reflexivity.
      - cbn [app splitN]. destruct (n =? 0)%N eqn:En; [reflexivity|].
        rewrite IH by (unfold lenN in *; simpl length in E; lia).
        destruct (splitN (n - 1) s). reflexivity. }
    rewrite Hs. reflexivity.
  - destruct s; [exact I|reflexivity].
Qed.

(** results only ever grow *)
Lemma fl_serve_grows cfg ho (svc : service K) : forall f s e w req resp log,
  exists log' out', cr_log (fl_serve f cfg ho svc s e w req resp log) = log ++ log'
    /\ w_out (cr_writer (fl_serve f cfg ho svc s e w req resp log)) = w_out w ++ out'.
Proof.
  induction f as [|f IH]; intros s e w req resp log; cbn [fl_serve].
  { exists [], []. cbn. now rewrite !app_nil_r. }
  assert (Hnil : forall en, exists log' out', cr_log (CR_ log w en) = log ++ log'
      /\ w_out (cr_writer (CR_ log w en)) = w_out w ++ out').
  { intros en. exists [], []. cbn. now rewrite !app_nil_r. }
  destruct (fl_headers (S (length s)) cfg s e req) as [[[c req1] [s1 e1]]| | | |]; try apply Hnil.
  destruct c; try apply Hnil.
  destruct (fl_const_body s1 e1 req1) as [[[c req2] [s2 e2]]| | | |]; try apply Hnil.
  destruct c; try apply Hnil.
  assert (Hone : forall d en, exists log' out', cr_log (CR_ (log ++ [(req2, d)]) w en) = log ++ log'
      /\ w_out (cr_writer (CR_ (log ++ [(req2, d)]) w en)) = w_out w ++ out').
  { intros d en. exists [(req2, d)], []. cbn. now rewrite !app_nil_r. }
  destruct (svc req2 resp) as [[[[p|] req3] resp3]| | | |]; try apply Hone.
  destruct (serialize ho resp3) as [[[data|] resp4]| | | |]; try apply Hone.
  assert (Hw : exists o1, w_out (fst (w_write data w)) = w_out w ++ o1).
  { unfold w_write. destruct (w_budget w) as [b|]; [destruct (lenN data <=? b)%N|]; cbn; eauto. }
  destruct Hw as (o1 & Hw).
  assert (Htwo : forall en, exists log' out', cr_log (CR_ (log ++ [(req2, Some data)]) (fst (w_write data w)) en) = log ++ log'
      /\ w_out (cr_writer (CR_ (log ++ [(req2, Some data)]) (fst (w_write data w)) en)) = w_out w ++ out').
  { intros en. cbn. eauto. }
  destruct (snd (w_write data w)); [|apply Htwo].
  destruct p as [ka| |]; try apply Htwo. destruct ka; cbn [negb]; [|apply Htwo].
  destruct (IH s2 e2 (fst (w_write data w)) (msg_clear req3) (msg_clear resp4) (log ++ [(req2, Some data)]))
    as (l & o & H1 & H2). rewrite H1, H2, Hw, <- !app_assoc. eauto.
Qed.

Lemma fl_serve_extend cfg ho (svc : service K) t e : forall f1 f2 s w req resp log,
  length s < f1 -> length (s ++ t) < f2 ->
  let a := fl_serve f1 cfg ho svc s Stall w req resp log in
  let b := fl_serve f2 cfg ho svc (s ++ t) e w req resp log in
  (cr_end a = EndBlocked /\ exists log' out', cr_log b = cr_log a ++ log'
     /\ w_out (cr_writer b) = w_out (cr_writer a) ++ out')
  \/ b = a.
Proof.
  induction f1 as [|f1 IH]; intros f2 s w req resp log H1 H2; [lia|]. destruct f2 as [|f2]; [lia|].
  assert (Hblock : forall x : conn_result K, (exists log' out', cr_log x = log ++ log' /\ w_out (cr_writer x) = w_out w ++ out') ->
    (cr_end (CR_ log w EndBlocked : conn_result K) = EndBlocked /\ exists log' out', cr_log x = cr_log (CR_ log w EndBlocked) ++ log'
     /\ w_out (cr_writer x) = w_out (cr_writer (CR_ log w EndBlocked : conn_result K)) ++ out')
    \/ x = CR_ log w EndBlocked).
  { intros x Hx. left. auto. }
  assert (Hg := fl_serve_grows cfg ho svc (S f2) (s ++ t) e w req resp log).
  cbn [fl_serve] in *.
  pose proof (fl_headers_extend (S (length (s ++ t))) cfg t e s req) as Eh.
  rewrite (fl_headers_fuel K cfg (S (length (s ++ t))) (S (length s)) s Stall req) in Eh
    by (rewrite ?app_length; lia).
  destruct (fl_headers (S (length s)) cfg s Stall req) as [[[c req1] [s1 e1]]| | | |] eqn:Eh1; cbn [carries] in Eh.
  2,3,5: rewrite Eh; right; reflexivity.
  2: cbn [end_of]; apply Hblock; exact Hg.
  rewrite Eh in *. destruct c; try (right; reflexivity).
  apply fl_headers_shrink in Eh1 as (-> & Hs1).
  pose proof (fl_const_body_extend t e s1 req1) as Eb.
  destruct (fl_const_body s1 Stall req1) as [[[c req2] [s2 e2]]| | | |] eqn:Eb1; cbn [carries] in Eb.
  2,3,5: rewrite Eb; right; reflexivity.
  2: cbn [end_of]; apply Hblock; exact Hg.
  rewrite Eb in *. destruct c; try (right; reflexivity).
  apply fl_const_body_shrink in Eb1 as (-> & Hs2).
  destruct (svc req2 resp) as [[[[p|] req3] resp3]| | | |]; try (right; reflexivity).
  destruct (serialize ho resp3) as [[[data|] resp4]| | | |]; try (right; reflexivity).
  destruct (snd (w_write data w)); [|right; reflexivity].
  destruct p as [ka| |]; try (right; reflexivity). destruct ka; cbn [negb]; [|right; reflexivity].
  apply IH; [lia|]. rewrite app_length in *. lia.
Qed.

(** C74 *)
Lemma causal : forall fuel1 fuel2 cfg caps1 caps2 ho (svc : service K) r1 r2 t w,
  (forall k, 0 < caps1 k)%N -> (forall k, 0 < caps2 k)%N -> enough fuel1 r1 -> enough fuel2 r2 ->
  fin r1 = Stall -> flat r2 = flat r1 ++ t ->
  let a := serve fuel1 cfg caps1 ho svc r1 w in
  let b := serve fuel2 cfg caps2 ho svc r2 w in
  (cr_end a = EndBlocked
   /\ exists log out, cr_log b = cr_log a ++ log /\ w_out (cr_writer b) = w_out (cr_writer a) ++ out)
  \/ b = a.
Proof.
  intros fuel1 fuel2 cfg caps1 caps2 ho svc r1 r2 t w Hc1 Hc2 Hf1 Hf2 He Hr a b. unfold a, b, serve.
  rewrite !serve_flat by easy. rewrite He, Hr. apply fl_serve_extend; [exact Hf1|].
  unfold enough in Hf2. now rewrite Hr in Hf2.
Qed.

(** ** C25: a silent client *)
Lemma fl_headers_outcomes cfg f s (m : message) : length s < f -> fresh m ->
  (exists x, fl_headers f cfg s Stall m = Ret x) \/ fl_headers f cfg s Stall m = Blocked.
Proof.
  intros Hf (_ & _ & _ & [Hw _] & _). unfold fl_headers.
  destruct (fu_outcomes SP 128 s Stall) as [(o0 & s0 & E0)|E0]; rewrite E0; [|auto].
  apply fu_inv in E0 as [_ E0]. cbn [obind fst snd]. destruct o0 as [t0|]; [|eauto]. destruct E0 as (-> & _).
  destruct (Nat.ltb (length t0) 1); [eauto|].
  destruct (negb (forallb is_printable (firstn (length t0 - 1) (fl0 m ++ t0)))); [eauto|].
  destruct (fu_outcomes SP (h_max_url_size cfg) s0 Stall) as [(o1 & s1 & E1)|E1]; rewrite E1; [|auto].
  apply fu_inv in E1 as [_ E1]. cbn [obind fst snd]. destruct o1 as [t1|]; [|eauto]. destruct E1 as (-> & _).
  destruct (Nat.ltb (length t1) 1); [eauto|].
  destruct (negb (forallb is_printable (firstn (length t1 - 1) (fl1 m ++ t1)))); [eauto|].
  destruct (fl_line_outcomes 128 s1 Stall) as [(o2 & s2 & E2)|E2]; rewrite E2; [|auto].
  apply fl_line_inv in E2 as [_ E2]. cbn [obind fst snd]. destruct o2 as [t2|]; [|eauto]. destruct E2 as (-> & _).
  destruct (Nat.ltb (length t2) 3); [eauto|].
  destruct (negb (forallb is_printable (firstn (length t2 - 2) (fl2 m ++ t2)))); [eauto|].
  rewrite !app_length in Hf.
  assert (Hl : forall f s h, wf h -> length s < f ->
    (exists x, fl_lines f cfg s Stall h = Ret x) \/ fl_lines f cfg s Stall h = Blocked).
  { clear. induction f as [|f IH]; intros s h Hw Hf; [lia|]. cbn [fl_lines].
    destruct (fu_outcomes LF (h_max_header_line_size cfg) s Stall) as [(o & r & E)|E]; rewrite E; [|auto].
    apply fu_inv in E as [_ E]. cbn [obind fst snd]. destruct o as [b|]; [|eauto]. destruct E as (-> & _).
    destruct (Nat.ltb (length b) 2) eqn:E2; [eauto|]. apply Nat.ltb_ge in E2. rewrite app_length in Hf.
    destruct (Nat.eqb (length b) 2); [eauto|].
    destruct (scan_line [] 0 (firstn (length b - 2) b)) as [| |k v]; [eauto|apply IH; auto; lia|].
    destruct (step_wf (fun l => l) h (OAppend k v) (fun l => Permutation.Permutation_refl l) Hw) as (h' & Ha & Hw').
    cbn [mm_step] in Ha. rewrite Ha. cbn [obind].
    destruct (h_max_headers_count cfg <? 0 + 1)%N; [eauto|apply IH; auto; lia]. }
  destruct (Hl f s2 (headers m) Hw ltac:(lia)) as [([[c h] r'] & ->)| ->]; [|auto]. cbn [obind]. eauto.
Qed.

Lemma silent : forall fuel cfg caps ho (svc : service K) qs h part rest r w,
  (1 <= h_max_headers_count cfg)%N -> (forall k, 0 < caps k)%N -> enough fuel r ->
  Forall (request_ok cfg) qs -> answers ho svc (versions qs) -> w_budget w = None ->
  head_ok (h_max_url_size cfg) (h_max_header_line_size cfg) h -> head_wire h = part ++ rest -> rest <> [] ->
  flat r = wires qs ++ part -> fin r = Stall ->
  cr_end (serve fuel cfg caps ho svc r w) = EndBlocked
  /\ Forall2 (handled ho svc) qs (cr_log (serve fuel cfg caps ho svc r w)).
Proof.
  intros fuel cfg caps ho svc qs h part rest r w Hc Hcap Hf Hq Ha Hw Hh Hp Hne Hr He.
  destruct (pipelined_then K fuel cfg caps ho svc qs _ r w Hc Hcap Hf Hq Ha Hw Hr)
    as (f & req' & resp' & log' & E & Hran & Hl & Fq & (buf & Lq) & _). rewrite E, He.
  destruct f as [|f]; [lia|]. cbn [fl_serve].
  assert (fl_headers (S (length part)) cfg part Stall req' = Blocked) as ->.
  { destruct (fl_headers_outcomes cfg (S (length part)) part req' ltac:(lia) Fq) as [([[c m'] [s' e']] & Ex)|Ex]; [exfalso|exact Ex].
    pose proof (fl_headers_extend (S (length (head_wire h))) cfg rest Stall part req') as He2.
    rewrite (fl_headers_fuel K cfg (S (length (head_wire h))) (S (length part))) in He2
      by (rewrite ?Hp, ?app_length; lia).
    rewrite Ex in He2. cbn [carries] in He2. rewrite <- Hp in He2.
    destruct (fl_headers_wf K (S (length (head_wire h))) cfg req' h [] Stall Fq Hh Hc) as (h' & Eh & _).
    { unfold head_wire. rewrite !app_length. pose proof (concat_fields_length (hd_fields h)). lia. }
    rewrite app_nil_r in Eh. rewrite Eh in He2. injection He2 as _ _ Hnil.
    symmetry in Hnil. apply app_eq_nil in Hnil as [_ Hnil]. contradiction. }
  cbn [end_of cr_end cr_log]. split; [reflexivity|]. now apply ran_handled in Hran.
Qed.

(** ** settings without effect *)
Lemma header_lines_cfg cfg cfg' : h_max_header_line_size cfg' = h_max_header_line_size cfg ->
  h_max_headers_count cfg' = h_max_headers_count cfg ->
  forall f r h, header_lines f cfg' r h = header_lines f cfg r h.
Proof.
  intros H1 H2. induction f as [|f IH]; intros r h; [reflexivity|]. cbn [header_lines]. rewrite H1, H2.
  destruct (read_until LF (h_max_header_line_size cfg) r) as [[[b|] r']| | | |]; try reflexivity.
  cbn [obind fst snd]. destruct (Nat.ltb (length b) 2); [reflexivity|]. destruct (Nat.eqb (length b) 2); [reflexivity|].
  destruct (scan_line [] 0 (firstn (length b - 2) b)); auto.
  destruct (mm_append h k v); try reflexivity. cbn [obind]. destruct (h_max_headers_count cfg <? 0 + 1)%N; auto.
Qed.
Lemma settings_ignored : forall fuel cfg cfg' caps ho (svc : service K) r w,
  h_max_url_size cfg' = h_max_url_size cfg -> h_max_header_line_size cfg' = h_max_header_line_size cfg ->
  h_max_headers_count cfg' = h_max_headers_count cfg ->
  serve fuel cfg' caps ho svc r w = serve fuel cfg caps ho svc r w.
Proof.
  intros fuel cfg cfg' caps ho svc r w H1 H2 H3. unfold serve.
  assert (Hh : forall f r (m : message), read_headers f cfg' r m = read_headers f cfg r m).
  { intros f r0 m. unfold read_headers. rewrite H1.
    destruct (read_until SP 128 r0) as [[[t0|] r1]| | | |]; try reflexivity. cbn [obind fst snd].
    destruct (Nat.ltb (length t0) 1); [reflexivity|].
    destruct (negb (forallb is_printable (firstn (length t0 - 1) (fl0 m ++ t0)))); [reflexivity|].
    destruct (read_until SP (h_max_url_size cfg) r1) as [[[t1|] r2]| | | |]; try reflexivity. cbn [obind fst snd].
    destruct (Nat.ltb (length t1) 1); [reflexivity|].
    destruct (negb (forallb is_printable (firstn (length t1 - 1) (fl1 m ++ t1)))); [reflexivity|].
    destruct (read_line 128 r2) as [[[t2|] r3]| | | |]; try reflexivity. cbn [obind fst snd].
    destruct (Nat.ltb (length t2) 3); [reflexivity|].
    destruct (negb (forallb is_printable (firstn (length t2 - 2) (fl2 m ++ t2)))); [reflexivity|].
    now rewrite (header_lines_cfg cfg cfg'). }
  generalize fuel at 2 4 as inner. generalize 0 as k. generalize (@nil (message * option bytes)) as log.
  generalize (@msg_default K) at 1 3 as req. generalize (@msg_default K) as resp. revert r w.
  induction fuel as [|f IH]; intros r w resp req log k inner; [reflexivity|]. cbn [serve_loop]. rewrite Hh.
  destruct (read_headers inner cfg r req) as [[[c req1] r1]| | | |]; try reflexivity. destruct c; try reflexivity.
  destruct (read_const_length_body inner (caps k) r1 req1) as [[[c req2] r2]| | | |]; try reflexivity.
  destruct c; try reflexivity.
  destruct (svc req2 resp) as [[[[p|] req3] resp3]| | | |]; try reflexivity.
  destruct (serialize ho resp3) as [[[data|] resp4]| | | |]; try reflexivity.
  destruct (w_write data w) as [w' okw]. destruct okw; [|reflexivity].
  destruct p as [ka| |]; try reflexivity. destruct ka; [|reflexivity]. cbn [negb]. apply IH.
Qed.

End Extend.
