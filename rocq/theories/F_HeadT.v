(** The statements of P_Head. *)
From Verif Require Export F_HeadP.

Section HeadT.
Variable K : codec.
Notation message := (message K).
Notation msg0 := (@msg_default K).

Lemma read_flat_ret fuel cfg r (m : message) x s e :
  fl_headers fuel cfg (flat r) (fin r) m = Ret (x, (s, e)) ->
  exists r', read_headers fuel cfg r m = Ret (x, r') /\ flat r' = s /\ fin r' = e.
Proof. rewrite <- read_headers_flat. apply oflat_inv. Qed.

Lemma read_ret_flat fuel cfg r (m : message) x r' :
  read_headers fuel cfg r m = Ret (x, r') ->
  fl_headers fuel cfg (flat r) (fin r) m = Ret (x, (flat r', fin r')).
Proof. intros H. rewrite <- read_headers_flat, H. reflexivity. Qed.

Lemma head_fields_fuel h s fuel r : flat r = head_wire h ++ s -> enough fuel r ->
  length (hd_fields h) < fuel.
Proof.
  unfold enough. intros -> H. unfold head_wire in H. rewrite !app_length in H.
  pose proof (concat_fields_length (hd_fields h)). lia.
Qed.

Lemma head_parsed : forall fuel cfg r h suffix,
  head_ok (h_max_url_size cfg) (h_max_header_line_size cfg) h ->
  (1 <= h_max_headers_count cfg)%N ->
  flat r = head_wire h ++ suffix -> enough fuel r ->
  exists m r', read_headers fuel cfg r msg0 = Ret (RcOk, m, r')
    /\ flat r' = suffix /\ fin r' = fin r
    /\ fl0 m = hd_method h /\ fl1 m = hd_target h /\ fl2 m = hd_version h
    /\ (forall n, mm_getall (headers m) (lower n) = Ret (lookup_of n (hd_fields h)))
    /\ mbody m = body_default.
Proof.
  intros fuel cfg r h suffix Hh Hc Hr Hf.
  destruct (fl_headers_wf K fuel cfg msg0 h suffix (fin r) (fresh_default K) Hh Hc
              (head_fields_fuel _ _ _ _ Hr Hf)) as (h' & E & Hok & Hv & _).
  rewrite <- Hr in E. apply read_flat_ret in E as (r' & E & E1 & E2).
  eexists _, r'. split; [exact E|]. splits; auto.
  intros n. cbn [headers]. rewrite getall_view by apply Hok. now rewrite Hv.
Qed.

(** ** what a handler can see *)
Lemma logged_head : forall fuel cfg caps ho (svc : service K) r w req d,
  In (req, d) (cr_log (serve fuel cfg caps ho svc r w)) ->
  (Forall vchar (fl0 req) /\ length (fl0 req) <= 127)
  /\ (Forall vchar (fl1 req) /\ (lenN (fl1 req) < h_max_url_size cfg)%N)
  /\ (Forall vchar (fl2 req) /\ 1 <= length (fl2 req) <= 126)
  /\ wf (headers req)
  /\ ents (name_bound (h_max_header_line_size cfg)) (value_bound (h_max_header_line_size cfg))
          (content (headers req)).
Proof.
  intros fuel cfg caps ho svc r w req d Hi. unfold serve in Hi.
  apply serve_loop_log in Hi as [[]|(k & r0 & r1 & r2 & req0 & req1 & Hf & E1 & E2)];
    [|apply fresh_default].
  apply read_ret_flat, fl_headers_accept in E1 as (A & A1 & A2 & A3 & A4 & _); [|easy].
  assert (Hs : fl0 req = fl0 req1 /\ fl1 req = fl1 req1 /\ fl2 req = fl2 req1
               /\ headers req = headers req1).
  { cbn [fst] in E2. unfold read_const_length_body in E2.
    destruct (get_content_length req1) as [[size|]| | | |]; try discriminate. cbn [obind] in E2.
    unfold read_const_length_raw in E2.
    destruct (const_body fuel write_raw (caps k) r1 (mbody req1) size) as [[[c b] r3]| | | |];
      try discriminate. cbn [obind] in E2. injection E2 as _ <- _. auto. }
  destruct Hs as (-> & -> & -> & ->). auto.
Qed.

Lemma ents_getall Pk Pv m k vs : wf m -> ents Pk Pv (content m) ->
  mm_getall m k = Ret (Some vs) -> Pk k /\ Forall Pv vs.
Proof.
  intros Hw He. rewrite getall_view by easy. unfold view. intros [= H]. apply h_get_in in H. now apply He.
Qed.

Lemma only_printable : forall fuel cfg caps ho (svc : service K) r w req d,
  In (req, d) (cr_log (serve fuel cfg caps ho svc r w)) ->
  Forall vchar (fl0 req) /\ Forall vchar (fl1 req) /\ Forall vchar (fl2 req)
  /\ forall k vs, mm_getall (headers req) k = Ret (Some vs) ->
       Forall vchar k /\ Forall (Forall vchar) vs.
Proof.
  intros fuel cfg caps ho svc r w req d Hi. apply logged_head in Hi as ((A & _) & (A1 & _) & (A2 & _) & Hw & He).
  splits; auto. intros k vs E. apply (ents_getall _ _ _ _ _ Hw He) in E as [[H1 _] H2]. split; [easy|].
  eapply Forall_impl; [|exact H2]. now intros v [? _].
Qed.

Lemma limits_respected : forall fuel cfg caps ho (svc : service K) r w req d,
  In (req, d) (cr_log (serve fuel cfg caps ho svc r w)) ->
  length (fl0 req) <= 127
  /\ (N.of_nat (length (fl1 req)) < h_max_url_size cfg)%N
  /\ length (fl2 req) <= 126
  /\ forall k vs, mm_getall (headers req) k = Ret (Some vs) ->
       length k <= 256 /\ (N.of_nat (length k) < h_max_header_line_size cfg)%N
       /\ Forall (fun v => N.of_nat (length v) < h_max_header_line_size cfg)%N vs.
Proof.
  intros fuel cfg caps ho svc r w req d Hi. apply logged_head in Hi as ((_ & A) & (_ & A1) & (_ & A2) & Hw & He).
  splits; auto; [lia|]. intros k vs E. apply (ents_getall _ _ _ _ _ Hw He) in E as [(_ & H1 & H1') H2].
  splits; auto. eapply Forall_impl; [|exact H2]. now intros v [_ ?].
Qed.

(** ** over-long tokens *)
Lemma long_method : forall fuel cfg r method target version fields suffix,
  Forall token_char method -> 127 < length method ->
  (N.of_nat (length method - 128) < h_max_url_size cfg)%N ->
  Forall token_char target -> Forall vchar version -> length (target ++ [SP] ++ version) <= 126 ->
  Forall (field_ok (h_max_header_line_size cfg)) fields -> (2 <= h_max_header_line_size cfg)%N ->
  (1 <= h_max_headers_count cfg)%N ->
  flat r = head_wire (Head method target version fields) ++ suffix -> enough fuel r ->
  exists m r', read_headers fuel cfg r msg0 = Ret (RcOk, m, r')
    /\ fl0 m = firstn 127 method /\ fl1 m = skipn 128 method /\ fl2 m = target ++ [SP] ++ version.
Proof.
  intros fuel cfg r me ta ve fs s Hme Hml Hu Hta Hve Hvl Hfs Hlim Hcnt Hr Hf.
  pose proof (head_fields_fuel _ _ _ _ Hr Hf) as Hn.
  destruct (fl_lines_fields cfg (fin r) s fs fuel (@headers K msg0) a_empty Hcnt Hlim Hfs Hn new_ok)
    as (h' & E & _); [easy|].
  assert (Ef : fl_headers fuel cfg (flat r) (fin r) msg0
    = Ret (RcOk, Msg (firstn 127 me) (skipn 128 me) (ta ++ [SP] ++ ve) h' (mbody msg0), (s, fin r))).
  { rewrite Hr. unfold head_wire, request_line. cbn [hd_method hd_target hd_version hd_fields].
    change (me ++ [SP] ++ ta ++ [SP] ++ ve ++ CRLF) with (line_of me ta ve).
    rewrite <- !app_assoc.
    rewrite fl_headers_long_method; auto; [|apply fresh_default|].
    - rewrite E. reflexivity.
    - unfold lenN. now rewrite skipn_length. }
  apply read_flat_ret in Ef as (r' & Ef & _). exists (Msg (firstn 127 me) (skipn 128 me) (ta ++ [SP] ++ ve) h' (mbody msg0)), r'. auto.
Qed.

Lemma long_target : forall fuel cfg r method target version fields suffix u,
  Forall token_char method -> length method <= 127 ->
  h_max_url_size cfg = N.of_nat (S u) -> u < length target ->
  Forall token_char target -> Forall vchar version ->
  length (skipn (S u) target ++ [SP] ++ version) <= 126 ->
  Forall (field_ok (h_max_header_line_size cfg)) fields -> (2 <= h_max_header_line_size cfg)%N ->
  (1 <= h_max_headers_count cfg)%N ->
  flat r = head_wire (Head method target version fields) ++ suffix -> enough fuel r ->
  exists m r', read_headers fuel cfg r msg0 = Ret (RcOk, m, r')
    /\ fl0 m = method /\ fl1 m = firstn u target /\ fl2 m = skipn (S u) target ++ [SP] ++ version.
Proof.
  intros fuel cfg r me ta ve fs s u Hme Hml Hu Hut Hta Hve Hvl Hfs Hlim Hcnt Hr Hf.
  pose proof (head_fields_fuel _ _ _ _ Hr Hf) as Hn.
  destruct (fl_lines_fields cfg (fin r) s fs fuel (@headers K msg0) a_empty Hcnt Hlim Hfs Hn new_ok)
    as (h' & E & _); [easy|].
  assert (Ef : fl_headers fuel cfg (flat r) (fin r) msg0
    = Ret (RcOk, Msg me (firstn u ta) (skipn (S u) ta ++ [SP] ++ ve) h' (mbody msg0), (s, fin r))).
  { rewrite Hr. unfold head_wire, request_line. cbn [hd_method hd_target hd_version hd_fields].
    change (me ++ [SP] ++ ta ++ [SP] ++ ve ++ CRLF) with (line_of me ta ve).
    rewrite <- !app_assoc.
    rewrite (fl_headers_long_target K fuel cfg msg0 me ta ve _ (fin r) u); auto; [|apply fresh_default].
    rewrite E. reflexivity. }
  apply read_flat_ret in Ef as (r' & Ef & _). eexists _, r'. split; [exact Ef|]. auto.
Qed.

Lemma not_altered : forall fuel cfg r h rest m r',
  Forall token_char (hd_method h) -> length (hd_method h) <= 127 ->
  Forall token_char (hd_target h) -> (N.of_nat (length (hd_target h)) < h_max_url_size cfg)%N ->
  Forall vchar (hd_version h) -> 1 <= length (hd_version h) <= 126 ->
  flat r = request_line h ++ rest ->
  read_headers fuel cfg r msg0 = Ret (RcOk, m, r') ->
  fl0 m = hd_method h /\ fl1 m = hd_target h /\ fl2 m = hd_version h.
Proof.
  intros fuel cfg r h rest m r' H1 H2 H3 H4 H5 H6 Hr E. apply read_ret_flat in E. rewrite Hr in E.
  unfold request_line in E. rewrite <- !app_assoc in E. rewrite fl_headers_line in E by easy.
  destruct (fl_lines fuel cfg rest (fin r) (headers msg0)) as [[[c h'] [s e]]| | | |]; try discriminate.
  cbn [obind] in E. injection E as -> <- _ _. auto.
Qed.

(** ** header count *)
Lemma count_ignored : forall fuel cfg r h suffix,
  head_ok (h_max_url_size cfg) (h_max_header_line_size cfg) h ->
  (1 <= h_max_headers_count cfg)%N ->
  (h_max_headers_count cfg < N.of_nat (length (hd_fields h)))%N ->
  flat r = head_wire h ++ suffix -> enough fuel r ->
  exists m r', read_headers fuel cfg r msg0 = Ret (RcOk, m, r')
    /\ forall n, mm_getall (headers m) (lower n) = Ret (lookup_of n (hd_fields h)).
Proof.
  intros fuel cfg r h suffix Hh Hc _ Hr Hf.
  destruct (head_parsed fuel cfg r h suffix Hh Hc Hr Hf) as (m & r' & E & _ & _ & _ & _ & _ & Hv & _).
  eauto.
Qed.

Lemma count_zero : forall fuel cfg r h suffix,
  head_ok (h_max_url_size cfg) (h_max_header_line_size cfg) h ->
  h_max_headers_count cfg = 0%N -> hd_fields h <> [] ->
  flat r = head_wire h ++ suffix -> enough fuel r ->
  exists m r', read_headers fuel cfg r msg0 = Ret (RcReachMaxHeadersCount, m, r').
Proof.
  intros fuel cfg r h suffix (H1 & H2 & H3 & H4 & H5 & H6 & H7 & H8) Hc Hne Hr Hf.
  pose proof (head_fields_fuel _ _ _ _ Hr Hf) as Hn.
  assert (E : exists m s, fl_headers fuel cfg (flat r) (fin r) msg0
              = Ret (RcReachMaxHeadersCount, m, (s, fin r))).
  { rewrite Hr. unfold head_wire, request_line. rewrite <- !app_assoc.
    rewrite fl_headers_line by easy.
    destruct (hd_fields h) as [|fd fs] eqn:Ef; [easy|]. destruct fuel as [|fuel]; [simpl in Hn; lia|].
    inversion H7 as [|? ? Hfd Hfs]; subst.
    pose proof (field_ok_lenN _ _ Hfd) as Hlen. destruct Hfd as (Ha & Hb & Hcl & Hl & Hv & Hvv & _).
    assert (Hvn : Forall vchar (fst fd)) by now apply tokens_vchars.
    cbn [map concat]. unfold field_line at 1. unfold CRLF at 1.
    replace (((fst fd ++ [COLON] ++ snd fd ++ [CR; LF]) ++ concat (map field_line fs)) ++ CRLF ++ suffix)
      with ((fst fd ++ COLON :: snd fd) ++ [CR; LF] ++ (concat (map field_line fs) ++ CRLF ++ suffix))
      by (rewrite <- !app_assoc; reflexivity).
    rewrite fl_lines_line; auto.
    2:{ now destruct (fst fd). }
    2:{ apply forall_no_lf. apply Forall_app. split; [easy|]. constructor; [apply colon_vchar|easy]. }
    rewrite line_spec_header by easy.
    destruct (append_ok false mm_new (trim (lower (fst fd))) (trim (snd fd)) new_ok) as (h1 & E1 & _).
    { rewrite trim_tokens by now apply lower_tokens. now apply lower_nonempty. }
    { easy. }
    cbn [headers msg_default]. rewrite E1. cbn [obind]. rewrite Hc. change (0 <? 0 + 1)%N with true. cbn [obind]. eauto. }
  destruct E as (m & s & E). apply read_flat_ret in E as (r' & E & _). eauto.
Qed.

(** ** names *)
Lemma empty_name : forall fuel cfg r method target version v n w suffix,
  head_ok (h_max_url_size cfg) (h_max_header_line_size cfg) (Head method target version [(n, w)]) ->
  v <> [] -> Forall vchar v -> (N.of_nat (length (field_line ([], v))) <= h_max_header_line_size cfg)%N ->
  (1 <= h_max_headers_count cfg)%N ->
  flat r = head_wire (Head method target version [([], v); (n, w)]) ++ suffix -> enough fuel r ->
  exists m r', read_headers fuel cfg r msg0 = Ret (RcOk, m, r')
    /\ mm_getall (headers m) (lower n) = Ret (Some [strip v; strip w])
    /\ lookup_of n [([], v); (n, w)] = Some [strip w].
Proof.
  intros fuel cfg r me ta ve v n w s (H1 & H2 & H3 & H4 & H5 & H6 & H7 & H8) Hv Hvv Hvl Hcnt Hr Hf.
  cbn [hd_method hd_target hd_version hd_fields] in *.
  pose proof (head_fields_fuel _ _ _ _ Hr Hf) as Hn. cbn [hd_fields length] in Hn.
  inversion H7 as [|? ? Hfd _]; subst.
  pose proof (field_ok_lenN _ _ Hfd) as Hlen. cbn [fst snd] in Hlen.
  destruct Hfd as (Ha & Hb & Hcl & Hl & Hw & Hww & _). cbn [fst snd] in *.
  assert (Hvn : Forall vchar n) by now apply tokens_vchars.
  assert (Hln : lower n <> []) by now apply lower_nonempty.
  destruct fuel as [|[|[|fuel]]]; try lia.
  assert (E : fl_headers (S (S (S fuel))) cfg (flat r) (fin r) msg0
    = Ret (RcOk, Msg me ta ve (MM false [(lower n, [strip v; strip w])] None) (mbody msg0), (s, fin r))).
  { rewrite Hr. unfold head_wire, request_line. cbn [hd_method hd_target hd_version hd_fields].
    rewrite <- !app_assoc. rewrite fl_headers_line by easy. cbn [headers msg_default].
    cbn [map concat]. unfold field_line. cbn [fst snd app]. rewrite app_nil_r.
    replace (COLON :: (((v ++ CRLF) ++ n ++ COLON :: w ++ CRLF) ++ CRLF ++ s))
      with ((COLON :: v) ++ [CR; LF] ++ ((n ++ COLON :: w) ++ [CR; LF] ++ [CR; LF] ++ s))
      by (unfold CRLF; app_norm).
    rewrite fl_lines_line; [|easy|apply forall_no_lf; constructor; [apply colon_vchar|easy]|].
    2:{ unfold field_line, CRLF in Hvl. cbn [fst snd app] in Hvl. unfold lenN. simpl length in *.
        rewrite app_length in Hvl. simpl length in *. lia. }
    change (COLON :: v) with ([] ++ COLON :: v).
    rewrite line_spec_header by (auto; simpl; lia).
    change (trim (lower [])) with (@nil byte).
    assert (A1 : mm_append mm_new [] (trim v) = Ret (MM false [([], [trim v])] None)) by reflexivity.
    rewrite A1. cbn [obind].
    destruct (h_max_headers_count cfg <? 0 + 1)%N eqn:Ec; [lia|].
    rewrite fl_lines_line; auto.
    2:{ now destruct n. }
    2:{ apply forall_no_lf. apply Forall_app. split; [easy|]. constructor; [apply colon_vchar|easy]. }
    rewrite line_spec_header by easy. rewrite (trim_tokens (lower n)) by now apply lower_tokens.
    assert (A2 : mm_append (MM false [([], [trim v])] None) (lower n) (trim w)
                 = Ret (MM false [(lower n, [trim v; trim w])] None)).
    { unfold mm_append. cbn. now rewrite orb_true_r. }
    rewrite A2. cbn [obind]. rewrite Ec.
    rewrite fl_lines_end by (auto; apply cr_not_lf). cbn [obind].
    rewrite !trim_strip by easy. reflexivity. }
  apply read_flat_ret in E as (r' & E & _). eexists _, r'. split; [exact E|]. splits.
  - cbn [headers]. unfold mm_getall. cbn [mm_ismap mm_vec vec_getall]. now rewrite bytes_eqb_refl.
  - unfold lookup_of, values_of. cbn [filter fst snd map].
    assert (E1 : same_name n [] = false).
    { unfold same_name. destruct (lower n); [easy|reflexivity]. }
    assert (E2 : same_name n n = true) by apply bytes_eqb_refl.
    rewrite E1, E2. reflexivity.
Qed.

Lemma lines_lookup : forall fuel cfg r method target version ls suffix m r',
  head_ok (h_max_url_size cfg) (h_max_header_line_size cfg) (Head method target version []) ->
  Forall (line_ok (h_max_header_line_size cfg)) ls -> Forall named_line ls ->
  flat r = request_line (Head method target version [])
           ++ concat (map line_wire ls) ++ CRLF ++ suffix ->
  read_headers fuel cfg r msg0 = Ret (RcOk, m, r') ->
  flat r' = suffix
  /\ forall n, mm_getall (headers m) (lower n) = Ret (lookup_of n (all_fields ls)).
Proof.
  intros fuel cfg r me ta ve ls s m r' (H1 & H2 & H3 & H4 & H5 & H6 & _ & H8) Hl Hn Hr E.
  cbn [hd_method hd_target hd_version] in *.
  apply read_ret_flat in E. rewrite Hr in E. unfold request_line in E.
  cbn [hd_method hd_target hd_version] in E. rewrite <- !app_assoc in E.
  rewrite fl_headers_line in E by easy. cbn [headers msg_default] in E.
  destruct (fl_lines fuel cfg (concat (map line_wire ls) ++ CRLF ++ s) (fin r) mm_new)
    as [[[c h'] [s1 e1]]| | | |] eqn:El; try discriminate.
  cbn [obind] in E. injection E as -> <- <- _.
  apply (fl_lines_accepted cfg (fin r) s ls fuel mm_new a_empty) in El as (-> & _ & Hok & Hv); auto using new_ok.
  split; [easy|]. intros n. cbn [headers]. rewrite getall_view by apply Hok.
  rewrite Hv, a_run_fields. unfold lookup_of, a_empty. now destruct (values_of n (all_fields ls)).
Qed.

(** ** lines without colon *)
Lemma fl_lines_skip cfg e s junk : forall ls1 ls2 f h h' x,
  Forall (line_ok (h_max_header_line_size cfg)) ls1 ->
  line_ok (h_max_header_line_size cfg) junk ->
  Forall vchar junk -> ~ In COLON junk -> length junk <= 256 ->
  length (concat (map line_wire (ls1 ++ junk :: ls2)) ++ CRLF ++ s) < f ->
  fl_lines f cfg (concat (map line_wire (ls1 ++ ls2)) ++ CRLF ++ s) e h = Ret (RcOk, h', x) ->
  fl_lines f cfg (concat (map line_wire (ls1 ++ junk :: ls2)) ++ CRLF ++ s) e h = Ret (RcOk, h', x).
Proof.
  induction ls1 as [|l ls1 IH]; intros ls2 f h h' x Hl Hj Hjv Hjc Hjl Hf.
  - destruct f as [|f]; [lia|]. cbn [app map concat] in *.
    destruct (line_ok_wire _ _ Hj) as (L1 & L2 & L3).
    unfold line_wire at 2. unfold CRLF at 2.
    replace (((junk ++ [CR; LF]) ++ concat (map line_wire ls2)) ++ CRLF ++ s)
      with (junk ++ [CR; LF] ++ (concat (map line_wire ls2) ++ CRLF ++ s))
      by (rewrite <- !app_assoc; reflexivity).
    rewrite fl_lines_line by easy. rewrite line_spec_nocolon by easy.
    unfold line_wire at 1 in Hf. unfold CRLF at 1 in Hf. rewrite !app_length in Hf. simpl in Hf.
    intros E. rewrite <- E. apply fl_lines_fuel; rewrite !app_length; simpl; lia.
  - destruct f as [|f]; [lia|]. inversion Hl as [|? ? Hl1 Hl2]; subst.
    destruct (line_ok_wire _ _ Hl1) as (L1 & L2 & L3).
    cbn [app map concat] in *. unfold line_wire at 1 3. unfold CRLF at 1 3.
    replace (((l ++ [CR; LF]) ++ concat (map line_wire (ls1 ++ junk :: ls2))) ++ CRLF ++ s)
      with (l ++ [CR; LF] ++ (concat (map line_wire (ls1 ++ junk :: ls2)) ++ CRLF ++ s))
      by (rewrite <- !app_assoc; reflexivity).
    replace (((l ++ [CR; LF]) ++ concat (map line_wire (ls1 ++ ls2))) ++ CRLF ++ s)
      with (l ++ [CR; LF] ++ (concat (map line_wire (ls1 ++ ls2)) ++ CRLF ++ s))
      by (rewrite <- !app_assoc; reflexivity).
    rewrite !(fl_lines_line f cfg l CR) by easy.
    assert (Hf' : length (concat (map line_wire (ls1 ++ junk :: ls2)) ++ CRLF ++ s) < f).
    { rewrite !app_length in *. unfold line_wire at 1 in Hf. rewrite app_length in Hf. simpl in *. lia. }
    destruct (line_spec l); [easy|now apply IH|].
    destruct (mm_append h k v); try easy. cbn [obind].
    destruct (h_max_headers_count cfg <? 0 + 1)%N; [easy|now apply IH].
Qed.

Lemma colonless_ignored : forall fuel cfg r1 r2 h ls1 junk ls2 suffix m rest e,
  head_ok (h_max_url_size cfg) (h_max_header_line_size cfg) h ->
  Forall (line_ok (h_max_header_line_size cfg)) ls1 ->
  line_ok (h_max_header_line_size cfg) junk ->
  Forall vchar junk -> ~ In COLON junk -> length junk <= 256 ->
  flat r1 = head_lines h (ls1 ++ junk :: ls2) ++ suffix ->
  flat r2 = head_lines h (ls1 ++ ls2) ++ suffix ->
  fin r1 = fin r2 -> enough fuel r1 ->
  oflat (read_headers fuel cfg r2 msg0) = Ret (RcOk, m, (rest, e)) ->
  oflat (read_headers fuel cfg r1 msg0) = Ret (RcOk, m, (rest, e)).
Proof.
  intros fuel cfg r1 r2 h ls1 junk ls2 s m rest e (H1 & H2 & H3 & H4 & H5 & H6 & _ & H8) Hl Hj Hjv Hjc Hjl Hr1 Hr2 He Hf.
  rewrite !read_headers_flat. unfold enough in Hf. rewrite Hr1 in Hf. rewrite Hr1, Hr2, He. unfold head_lines, request_line.
  rewrite <- !app_assoc. rewrite !fl_headers_line by easy.
  destruct (fl_lines fuel cfg (concat (map line_wire (ls1 ++ ls2)) ++ CRLF ++ s) (fin r2) (headers msg0))
    as [[[c h'] x]| | | |] eqn:El; try discriminate. cbn [obind]. intros [= -> <- ->].
  apply (fl_lines_skip cfg (fin r2) s junk) in El; auto.
  - rewrite El. reflexivity.
  - unfold head_lines in Hf. rewrite !app_length in *. lia.
Qed.

Lemma fl_lines_bad cfg e s bad : forall ls1 f h c h' s' e',
  Forall (line_ok (h_max_header_line_size cfg)) ls1 ->
  line_ok (h_max_header_line_size cfg) bad -> line_spec bad = LBad ->
  fl_lines f cfg (concat (map line_wire ls1) ++ line_wire bad ++ s) e h = Ret (c, h', (s', e')) ->
  c <> RcOk.
Proof.
  induction ls1 as [|l ls1 IH]; intros f h c h' s' e' Hl Hb Hbad.
  - destruct f as [|f]; [easy|]. cbn [map concat app]. destruct (line_ok_wire _ _ Hb) as (L1 & L2 & L3).
    unfold line_wire, CRLF. rewrite <- app_assoc. rewrite fl_lines_line by easy. rewrite Hbad.
    intros [= <- _ _ _]. easy.
  - destruct f as [|f]; [easy|]. inversion Hl as [|? ? Hl1 Hl2]; subst.
    destruct (line_ok_wire _ _ Hl1) as (L1 & L2 & L3).
    cbn [map concat]. unfold line_wire at 1. unfold CRLF at 1.
    replace (((l ++ [CR; LF]) ++ concat (map line_wire ls1)) ++ line_wire bad ++ s)
      with (l ++ [CR; LF] ++ (concat (map line_wire ls1) ++ line_wire bad ++ s))
      by (rewrite <- !app_assoc; reflexivity).
    rewrite fl_lines_line by easy.
    destruct (line_spec l); [intros [= <- _ _ _]; easy|now apply IH|].
    destruct (mm_append h k v); try easy. cbn [obind].
    destruct (h_max_headers_count cfg <? 0 + 1)%N; [intros [= <- _ _ _]; easy|now apply IH].
Qed.

Lemma bad_colonless_refused : forall fuel cfg r h ls junk rest,
  head_ok (h_max_url_size cfg) (h_max_header_line_size cfg) h ->
  Forall (line_ok (h_max_header_line_size cfg)) ls ->
  line_ok (h_max_header_line_size cfg) junk ->
  ~ In COLON junk -> ~ Forall vchar junk \/ 256 < length junk ->
  flat r = request_line h ++ concat (map line_wire ls) ++ line_wire junk ++ rest ->
  forall m r', read_headers fuel cfg r msg0 <> Ret (RcOk, m, r').
Proof.
  intros fuel cfg r h ls junk s (H1 & H2 & H3 & H4 & H5 & H6 & _ & H8) Hl Hj Hjc Hjl Hr m r' E.
  apply read_ret_flat in E. rewrite Hr in E. unfold request_line in E. rewrite <- !app_assoc in E.
  rewrite fl_headers_line in E by easy.
  destruct (fl_lines fuel cfg (concat (map line_wire ls) ++ line_wire junk ++ s) (fin r) (headers msg0))
    as [[[c h'] [s1 e1]]| | | |] eqn:El; try discriminate.
  cbn [obind] in E. injection E as -> _ _ _.
  apply fl_lines_bad in El; auto. unfold line_spec.
  assert (Hp : position (fun c => Ascii.eqb c COLON) junk = None) by now apply position_none, no_colon_in.
  rewrite Hp. destruct (forallb is_printable junk) eqn:Ep; [|easy].
  destruct Hjl as [Hj'|Hj'].
  - exfalso. apply Hj'. now apply vchars_printable.
  - destruct (Nat.leb_spec (length junk) 256); [lia|easy].
Qed.

(** ** where the head ends *)
Lemma any_two_bytes_end : forall fuel cfg r1 r2 h ls c suffix m rest e,
  head_ok (h_max_url_size cfg) (h_max_header_line_size cfg) h ->
  Forall (line_ok (h_max_header_line_size cfg)) ls -> c <> LF ->
  flat r1 = request_line h ++ concat (map line_wire ls) ++ [c; LF] ++ suffix ->
  flat r2 = request_line h ++ concat (map line_wire ls) ++ CRLF ++ suffix ->
  fin r1 = fin r2 -> enough fuel r1 ->
  oflat (read_headers fuel cfg r2 msg0) = Ret (RcOk, m, (rest, e)) ->
  oflat (read_headers fuel cfg r1 msg0) = Ret (RcOk, m, (rest, e)).
Proof.
  intros fuel cfg r1 r2 h ls c s m rest e (H1 & H2 & H3 & H4 & H5 & H6 & _ & H8) Hl Hc Hr1 Hr2 He Hf.
  rewrite !read_headers_flat. unfold enough in Hf. rewrite Hr1 in Hf. rewrite Hr1, Hr2, He. unfold request_line.
  rewrite <- !app_assoc. rewrite !fl_headers_line by easy.
  assert (E : forall ls f g, Forall (line_ok (h_max_header_line_size cfg)) ls ->
    length ls < f -> forall h' x,
    fl_lines f cfg (concat (map line_wire ls) ++ CRLF ++ s) (fin r2) g = Ret (RcOk, h', x) ->
    fl_lines f cfg (concat (map line_wire ls) ++ [c; LF] ++ s) (fin r2) g = Ret (RcOk, h', x)).
  { clear - H8 Hc. induction ls as [|l ls IH]; intros f g Hl Hf h' x.
    - destruct f as [|f]; [simpl in Hf; lia|]. cbn [map concat].
      change (fl_lines (S f) cfg ([CR; LF] ++ s) (fin r2) g = Ret (RcOk, h', x) -> fl_lines (S f) cfg ([c; LF] ++ s) (fin r2) g = Ret (RcOk, h', x)).
      rewrite !fl_lines_end; auto using cr_not_lf.
    - destruct f as [|f]; [simpl in Hf; lia|]. simpl in Hf. inversion Hl as [|? ? Hl1 Hl2]; subst.
      destruct (line_ok_wire _ _ Hl1) as (L1 & L2 & L3).
      cbn [map concat]. unfold line_wire at 1 3. unfold CRLF at 1 3.
      replace (((l ++ [CR; LF]) ++ concat (map line_wire ls)) ++ [c; LF] ++ s)
        with (l ++ [CR; LF] ++ (concat (map line_wire ls) ++ [c; LF] ++ s)) by app_norm.
      replace (((l ++ [CR; LF]) ++ concat (map line_wire ls)) ++ CRLF ++ s)
        with (l ++ [CR; LF] ++ (concat (map line_wire ls) ++ CRLF ++ s)) by app_norm.
      rewrite !(fl_lines_line f cfg l CR) by easy.
      destruct (line_spec l); [easy|apply IH; [easy|lia]|].
      destruct (mm_append g k v); try easy. cbn [obind].
      destruct (h_max_headers_count cfg <? 0 + 1)%N; [easy|]. apply IH; [easy|lia]. }
  destruct (fl_lines fuel cfg (concat (map line_wire ls) ++ CRLF ++ s) (fin r2) (headers msg0))
    as [[[c' h'] x]| | | |] eqn:El; try discriminate. cbn [obind]. intros [= -> <- ->].
  apply E in El; auto; [now rewrite El|].
  rewrite !app_length in Hf.
  assert (Hle : length ls <= length (concat (map line_wire ls))).
  { clear. induction ls as [|l ls IH]; simpl; [lia|]. unfold line_wire at 1. rewrite !app_length. simpl. lia. }
  lia.
Qed.

Lemma fl_lines_ends cfg : forall f s e h h' s' e',
  (2 < h_max_header_line_size cfg)%N -> e <> Eof ->
  fl_lines f cfg s e h = Ret (RcOk, h', (s', e')) ->
  exists pre c, s = pre ++ [c; LF] ++ s' /\ c <> LF.
Proof.
  induction f as [|f IH]; intros s e h h' s' e' Hlim He; [easy|].
  cbn [fl_lines].
  destruct (fu LF (h_max_header_line_size cfg) s e) as [[o [rest e1]]| | | |] eqn:E; try easy.
  apply fu_inv in E as (-> & E). cbn [obind fst snd].
  destruct o as [buf|]; [|easy].
  destruct E as (-> & Hl & Hd).
  destruct (Nat.ltb_spec (length buf) 2); [easy|].
  destruct (Nat.eqb_spec (length buf) 2) as [E2|E2].
  - intros [= <- <- <-]. destruct Hd as [(t & -> & Hn)|(_ & [Hd|(_ & Hd)])].
    + rewrite app_length in E2. destruct t as [|c [|]]; simpl in E2; try lia.
      exists [], c. split; [reflexivity|]. intros ->. apply Hn. now left.
    + unfold lenN in *. lia.
    + easy.
  - assert (Hgen : forall g, fl_lines f cfg rest e g = Ret (RcOk, h', (s', e')) ->
        exists pre c, buf ++ rest = pre ++ [c; LF] ++ s' /\ c <> LF).
    { intros g Hg. apply IH in Hg as (pre & c & -> & Hc); auto. exists (buf ++ pre), c.
      now rewrite <- app_assoc. }
    destruct (scan_line [] 0 (firstn (length buf - 2) buf)) as [| |k v]; [easy|apply Hgen|].
    destruct (mm_append h k v); try easy. cbn [obind].
    destruct (h_max_headers_count cfg <? 0 + 1)%N; [easy|apply Hgen].
Qed.

Lemma head_ends : forall fuel cfg r m r',
  (2 < h_max_header_line_size cfg)%N -> fin r <> Eof ->
  read_headers fuel cfg r msg0 = Ret (RcOk, m, r') ->
  exists pre c, flat r = pre ++ [c; LF] ++ flat r' /\ c <> LF.
Proof.
  intros fuel cfg r m r' Hlim He E. apply read_ret_flat in E. unfold fl_headers in E.
  destruct (fu SP 128 (flat r) (fin r)) as [[o0 [s0 e0]]| | | |] eqn:E0; try easy.
  apply fu_inv in E0 as (-> & E0). cbn [obind fst snd] in E. destruct o0 as [t0|]; [|easy].
  destruct E0 as (-> & _).
  destruct (Nat.ltb_spec (length t0) 1); [easy|].
  match type of E with (if ?b then _ else _) = _ => destruct b; [easy|] end.
  destruct (fu SP (h_max_url_size cfg) s0 (fin r)) as [[o1 [s1 e1]]| | | |] eqn:E1; try easy.
  apply fu_inv in E1 as (-> & E1). cbn [obind fst snd] in E. destruct o1 as [t1|]; [|easy].
  destruct E1 as (-> & _).
  destruct (Nat.ltb_spec (length t1) 1); [easy|].
  match type of E with (if ?b then _ else _) = _ => destruct b; [easy|] end.
  destruct (fl_line 128 s1 (fin r)) as [[o2 [s2 e2]]| | | |] eqn:E2; try easy.
  apply fl_line_inv in E2 as (-> & E2). cbn [obind fst snd] in E. destruct o2 as [t2|]; [|easy].
  destruct E2 as (-> & _).
  destruct (Nat.ltb_spec (length t2) 3); [easy|].
  match type of E with (if ?b then _ else _) = _ => destruct b; [easy|] end.
  destruct (fl_lines fuel cfg s2 (fin r) (headers msg0)) as [[[c h] [s3 e3]]| | | |] eqn:E3; try easy.
  cbn [obind] in E. injection E as -> _ -> _.
  apply fl_lines_ends in E3 as (pre & c & -> & Hc); auto.
  exists (t0 ++ t1 ++ t2 ++ pre), c. split; [app_norm|easy].
Qed.

(** a head cut off inside a header name is accepted when the peer closes *)
Lemma truncated_head : forall fuel cfg r h a b,
  head_ok (h_max_url_size cfg) (h_max_header_line_size cfg) h ->
  (3 <= h_max_header_line_size cfg)%N ->
  a <> LF -> b <> LF -> fin r = Eof ->
  flat r = request_line h ++ [a; b] -> enough fuel r ->
  exists m r', read_headers fuel cfg r msg0 = Ret (RcOk, m, r') /\ flat r' = [].
Proof.
  intros fuel cfg r h a b (H1 & H2 & H3 & H4 & H5 & H6 & _ & _) H8 Ha Hb He Hr Hf.
  destruct fuel as [|fuel]; [unfold enough in Hf; lia|].
  assert (E : fl_headers (S fuel) cfg (flat r) (fin r) msg0
     = Ret (RcOk, Msg (hd_method h) (hd_target h) (hd_version h) mm_new (mbody msg0), ([], Eof))).
  { rewrite Hr, He. unfold request_line. rewrite <- !app_assoc. rewrite fl_headers_line by easy.
    cbn [fl_lines headers msg_default]. rewrite fu_end.
    - reflexivity.
    - intros [?|[?|[]]]; congruence.
    - unfold lenN. simpl. lia. }
  apply read_flat_ret in E as (r' & E & E1 & _). eauto.
Qed.

(** ** over-long header lines *)
Lemma long_line_cut : forall fuel cfg r1 r2 h a d rest,
  head_ok (h_max_url_size cfg) (h_max_header_line_size cfg) h ->
  a <> [] -> ~ In LF a -> ~ In LF d -> length d = 2 ->
  N.of_nat (length (a ++ d)) = h_max_header_line_size cfg ->
  flat r1 = request_line h ++ a ++ d ++ rest ->
  flat r2 = request_line h ++ a ++ CRLF ++ rest ->
  fin r1 = fin r2 ->
  oflat (read_headers fuel cfg r1 msg0) = oflat (read_headers fuel cfg r2 msg0).
Proof.
  intros fuel cfg r1 r2 h a d s (H1 & H2 & H3 & H4 & H5 & H6 & _ & H8) Ha Hna Hnd Hld Hlen Hr1 Hr2 He.
  rewrite !read_headers_flat. rewrite Hr1, Hr2, He. unfold request_line.
  rewrite <- !app_assoc. rewrite !fl_headers_line by easy.
  destruct fuel as [|f]; [reflexivity|]. rewrite app_length in Hlen.
  assert (E1 : fl_lines (S f) cfg (a ++ d ++ s) (fin r2) (headers msg0)
             = fl_lines (S f) cfg (a ++ CRLF ++ s) (fin r2) (headers msg0)).
  { unfold CRLF. rewrite fl_lines_line; auto.
    2:{ rewrite in_app_iff. intros [?|[?|[]]]; [easy|now apply cr_not_lf]. }
    2:{ unfold lenN. lia. }
    cbn [fl_lines]. rewrite app_assoc. rewrite fu_limit.
    2:{ rewrite in_app_iff. tauto. }
    2:{ unfold lenN. rewrite app_length. lia. }
    cbn [obind fst snd]. rewrite app_length, Hld.
    destruct (Nat.ltb_spec (length a + 2) 2); [lia|].
    destruct (Nat.eqb_spec (length a + 2) 2) as [E|_]; [destruct a; simpl in E; [easy|lia]|].
    replace (length a + 2 - 2) with (length a) by lia. rewrite firstn_len_app.
    rewrite scan_line_spec. reflexivity. }
  now rewrite E1.
Qed.

End HeadT.
