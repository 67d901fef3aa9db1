(** Facts about requests spelled in different ways. *)
From Verif Require Export F_Req S_Spelling.

Lemma fl_lines_same cfg e : forall fs fs', Forall2 same_field fs fs' ->
  (1 <= h_max_headers_count cfg)%N -> (2 <= h_max_header_line_size cfg)%N ->
  Forall (field_ok (h_max_header_line_size cfg)) fs -> Forall (field_ok (h_max_header_line_size cfg)) fs' ->
  forall f f' h, length fs < f -> length fs' < f' ->
  (exists o, ~ (exists x, o = Ret x)
     /\ forall s, fl_lines f cfg (concat (map field_line fs) ++ CRLF ++ s) e h = o
               /\ fl_lines f' cfg (concat (map field_line fs') ++ CRLF ++ s) e h = o)
  \/ exists h', forall s, fl_lines f cfg (concat (map field_line fs) ++ CRLF ++ s) e h = Ret (RcOk, h', (s, e))
               /\ fl_lines f' cfg (concat (map field_line fs') ++ CRLF ++ s) e h = Ret (RcOk, h', (s, e)).
Proof.
  induction 1 as [|fd fd' fs fs' [N V] _ IH]; intros Hcnt Hlim Hf Hf' f f' h L L'.
  - destruct f as [|f]; [cbn in L; lia|]. destruct f' as [|f']; [cbn in L'; lia|]. right. exists h. intros s.
    split; apply fl_lines_end; auto; apply cr_not_lf.
  - destruct f as [|f]; [cbn in L; lia|]. destruct f' as [|f']; [cbn in L'; lia|]. cbn [length] in L, L'.
    inversion Hf as [|? ? A Hf2]; subst. inversion Hf' as [|? ? A' Hf2']; subst.
    assert (G : forall (fd : field) fs f s, field_ok (h_max_header_line_size cfg) fd ->
      fl_lines (S f) cfg (concat (map field_line (fd :: fs)) ++ CRLF ++ s) e h
      = (h1 <- mm_append h (lower (fst fd)) (strip (snd fd)) ;; fl_lines f cfg (concat (map field_line fs) ++ CRLF ++ s) e h1)).
    { clear - Hcnt Hlim. intros fd fs f s Hfd. pose proof (field_ok_lenN _ _ Hfd) as Hlen.
      destruct Hfd as (Hn & Htok & Hcol & Hl & Hv0 & Hvv & _).
      assert (Hvn : Forall vchar (fst fd)) by now apply tokens_vchars.
      cbn [map concat]. unfold field_line at 1. unfold CRLF at 1.
      replace (((fst fd ++ [COLON] ++ snd fd ++ [CR; LF]) ++ concat (map field_line fs)) ++ CRLF ++ s)
        with ((fst fd ++ COLON :: snd fd) ++ [CR; LF] ++ (concat (map field_line fs) ++ CRLF ++ s))
        by (rewrite <- !app_assoc; reflexivity).
      rewrite fl_lines_line; auto.
      2:{ now destruct (fst fd). }
      2:{ apply forall_no_lf. apply Forall_app. split; [easy|]. constructor; [apply colon_vchar|easy]. }
      rewrite line_spec_header by easy. rewrite trim_tokens by now apply lower_tokens. rewrite trim_strip by easy.
      destruct (h_max_headers_count cfg <? 0 + 1)%N eqn:Ec; [lia|]. reflexivity. }
    destruct (mm_append h (lower (fst fd)) (strip (snd fd))) as [h1| | | |] eqn:E;
      [destruct (IH Hcnt Hlim Hf2 Hf2' f f' h1) as [(o & No & Q)|(h' & Q)]; [lia|lia|left; exists o|right; exists h'] | left .. ].
    + split; [easy|]. intros s. rewrite !G by easy. rewrite N, V, E. cbn [obind]. apply Q.
    + intros s. rewrite !G by easy. rewrite N, V, E. cbn [obind]. apply Q.
    + exists Panic. split; [intros [x X]; discriminate|]. intros s. rewrite !G by easy. rewrite N, V, E. auto.
    + exists UB. split; [intros [x X]; discriminate|]. intros s. rewrite !G by easy. rewrite N, V, E. auto.
    + exists Blocked. split; [intros [x X]; discriminate|]. intros s. rewrite !G by easy. rewrite N, V, E. auto.
    + exists NoFuel. split; [intros [x X]; discriminate|]. intros s. rewrite !G by easy. rewrite N, V, E. auto.
Qed.

Section Spelling.
Variable K : codec.
Notation message := (message K).

Lemma fl_headers_same cfg e h h' (m : message) : same_head h h' -> fresh m ->
  head_ok (h_max_url_size cfg) (h_max_header_line_size cfg) h ->
  head_ok (h_max_url_size cfg) (h_max_header_line_size cfg) h' -> (1 <= h_max_headers_count cfg)%N ->
  (exists m1, (forall s, fl_headers (S (length (head_wire h ++ s))) cfg (head_wire h ++ s) e m = Ret (RcOk, m1, (s, e))
                      /\ fl_headers (S (length (head_wire h' ++ s))) cfg (head_wire h' ++ s) e m = Ret (RcOk, m1, (s, e)))
     /\ ok false (headers m1) /\ (forall n, view (headers m1) (lower n) = lookup_of n (hd_fields h))).
Proof.
  intros (A1 & A2 & A3 & A4) F H H' C.
  assert (LL : forall h s, length (hd_fields h) < S (length (head_wire h ++ s))).
  { intros h1 s. unfold head_wire. rewrite !app_length. pose proof (concat_fields_length (hd_fields h1)). lia. }
  assert (G : forall h s, head_ok (h_max_url_size cfg) (h_max_header_line_size cfg) h -> 
    fl_headers (S (length (head_wire h ++ s))) cfg (head_wire h ++ s) e m
    = (y <- fl_lines (S (length (head_wire h ++ s))) cfg (concat (map field_line (hd_fields h)) ++ CRLF ++ s) e (headers m) ;;
       let '(c, hh, r') := y in Ret (c, Msg (hd_method h) (hd_target h) (hd_version h) hh (mbody m), r'))).
  { destruct F as (F0 & F1 & F2 & _). intros h1 s (Hm & Hml & Ht & Htl & Hv & Hvl & _).
    generalize (S (length (head_wire h1 ++ s))). intros n. unfold head_wire, request_line. rewrite <- !app_assoc.
    now rewrite fl_headers_line. }
  destruct (fl_headers_wf K (S (length (head_wire h ++ []))) cfg m h [] e F H C (LL h [])) as (hh & E & Hok & Hv & _).
  eexists (Msg (hd_method h) (hd_target h) (hd_version h) hh (mbody m)). split; [|split; [exact Hok|exact Hv]].
  intros s. rewrite !G by easy. rewrite A1, A2, A3.
  pose proof H as (_ & _ & _ & _ & _ & _ & Hf & Hl). pose proof H' as (_ & _ & _ & _ & _ & _ & Hf' & _).
  assert (Q : forall f f', length (hd_fields h) < f -> length (hd_fields h') < f' ->
     fl_lines f cfg (concat (map field_line (hd_fields h)) ++ CRLF ++ s) e (headers m) = Ret (RcOk, hh, (s, e))
     /\ fl_lines f' cfg (concat (map field_line (hd_fields h')) ++ CRLF ++ s) e (headers m) = Ret (RcOk, hh, (s, e))).
  { intros f f' Lf Lf'. rewrite G in E by easy.
    assert (X : forall f, length (hd_fields h) < f -> fl_lines f cfg (concat (map field_line (hd_fields h)) ++ CRLF ++ []) e (headers m) = Ret (RcOk, hh, ([], e))).
    { intros f0 L0. assert (R : Forall2 same_field (hd_fields h) (hd_fields h)).
      { clear. induction (hd_fields h); constructor; auto. now split. }
      destruct (fl_lines_same cfg e _ _ R C Hl Hf Hf _ f0 (headers m) (LL h []) L0) as [(o & No & Q)|(h2 & Q)].
      - destruct (Q []) as [Q1 _]. rewrite Q1 in E. destruct o; try discriminate. exfalso. apply No. eauto.
      - destruct (Q []) as [Q1 Q2]. rewrite Q1 in E. cbn in E. injection E as ->. exact Q2. }
    destruct (fl_lines_same cfg e _ _ A4 C Hl Hf Hf' f f' (headers m) Lf Lf') as [(o & No & Q)|(h2 & Q)].
    - destruct (Q []) as [Q1 _]. rewrite (X f Lf) in Q1. exfalso. apply No. eauto.
    - destruct (Q []) as [Q1 _]. rewrite (X f Lf) in Q1. injection Q1 as <-. apply Q. }
  destruct (Q _ _ (LL h s) (LL h' s)) as [-> ->]. split; reflexivity.
Qed.

Lemma fl_body_same e q (m1 : message) : framed q -> ok false (headers m1) ->
  (forall n, view (headers m1) (lower n) = lookup_of n (hd_fields (rq_head q))) ->
  (exists m2, forall s, fl_const_body (rq_body q ++ s) e m1 = Ret (RcOk, m2, (s, e)))
  \/ exists o, end_of o = EndPanic /\ ~ (exists x, o = Ret x) /\ forall s, fl_const_body (rq_body q ++ s) e m1 = o.
Proof.
  intros (Hlt & Hfr) Hok Hv.
  assert (L : forall s, fl_const_body (rq_body q ++ s) e m1 = fl_length_raw (rq_body q ++ s) e m1 (lenN (rq_body q))).
  { intros s. unfold fl_const_body, get_content_length.
    rewrite (get_lookup (headers m1) (hd_fields (rq_head q)) Hok Hv). cbn [obind].
    destruct (values_of (B "content-length") (hd_fields (rq_head q))) as [|v vs].
    - rewrite Hfr. reflexivity.
    - rewrite (numeral_parse v _ u64max Hfr) by (change u64max with (2 ^ 64 - 1)%N; lia). reflexivity. }
  destruct (rq_body q) as [|c b] eqn:Eb.
  - left. exists (with_body m1 (mbody m1)). intros s. rewrite L. reflexivity.
  - assert (Z : (lenN (c :: b) <? 1)%N = false) by (unfold lenN; cbn [length]; apply N.ltb_ge; lia).
    destruct (b_internal (mbody m1)) as [buf|] eqn:Ei.
    + left. exists (with_body m1 (Body (Some (buf ++ c :: b)) (b_cw (mbody m1)))). intros s. rewrite L.
      unfold fl_length_raw, fl_raw. rewrite Z, Ei.
      assert (Y : (lenN (c :: b) <=? lenN ((c :: b) ++ s))%N = true).
      { unfold lenN. rewrite app_length. apply N.leb_le. lia. }
      rewrite Y, F_Flat.splitN_app. reflexivity.
    + right. exists Panic. split; [reflexivity|]. split; [intros [x X]; discriminate|]. intros s. rewrite L.
      unfold fl_length_raw, fl_raw. rewrite Z, Ei. reflexivity.
Qed.

Lemma fl_serve_same cfg ho (svc : service K) e s s' : (1 <= h_max_headers_count cfg)%N -> respelled cfg s s' ->
  forall f f' w req resp log, length s < f -> length s' < f' -> fresh req ->
  fl_serve f cfg ho svc s e w req resp log = fl_serve f' cfg ho svc s' e w req resp log.
Proof.
  intros C R. induction R as [s|h h' s H H' S|q q' s s' Q Q' S Bq R IH]; intros f f' w req resp log L L' F.
  - now apply fl_serve_fuel.
  - destruct f as [|f]; [lia|]. destruct f' as [|f']; [lia|]. cbn [fl_serve].
    destruct (fl_headers_same cfg e h h' req S F H H' C) as (m1 & E & _). destruct (E s) as [-> ->].
    destruct (fl_const_body s e m1) as [[[c req2] [s2 e2]]| | | |] eqn:Eb; try reflexivity.
    destruct c; try reflexivity. apply fl_const_body_shrink in Eb as (-> & Hs2).
    destruct (svc req2 resp) as [[[[p|] req3] resp3]| | | |]; try reflexivity.
    destruct (serialize ho resp3) as [[[data|] resp4]| | | |]; try reflexivity.
    destruct (snd (w_write data w)); [|reflexivity].
    destruct p as [ka| |]; try reflexivity. destruct ka; [|reflexivity]. cbn [negb].
    rewrite app_length in L, L'.
    assert (P : forall h, 1 <= length (head_wire h)) by (intros h0; unfold head_wire; rewrite !app_length; cbn; lia).
    pose proof (P h). pose proof (P h'). apply fl_serve_fuel; lia.
  - destruct f as [|f]; [lia|]. destruct f' as [|f']; [lia|]. cbn [fl_serve].
    destruct Q as [H Fr]. destruct Q' as [H' _].
    destruct (fl_headers_same cfg e (rq_head q) (rq_head q') req S F H H' C) as (m1 & E & Hok & Hv).
    unfold request_wire in *. rewrite <- !app_assoc in *. rewrite Bq in *.
    rewrite (proj1 (E (rq_body q ++ s))), (proj2 (E (rq_body q ++ s'))).
    destruct (fl_body_same e q m1 Fr Hok Hv) as [(m2 & Eb)|(o & _ & No & Eb)].
    2:{ rewrite !Eb. destruct o; try reflexivity. exfalso. apply No. eauto. }
    rewrite !Eb.
    destruct (svc m2 resp) as [[[[p|] req3] resp3]| | | |]; try reflexivity.
    destruct (serialize ho resp3) as [[[data|] resp4]| | | |]; try reflexivity.
    destruct (snd (w_write data w)); [|reflexivity].
    destruct p as [ka| |]; try reflexivity. destruct ka; [|reflexivity]. cbn [negb].
    rewrite !app_length in L, L'.
    assert (P : forall h, 1 <= length (head_wire h)) by (intros h0; unfold head_wire; rewrite !app_length; cbn; lia).
    pose proof (P (rq_head q)). pose proof (P (rq_head q')). apply IH; [lia|lia|apply fresh_clear].
Qed.

Lemma serve_same cfg caps caps' ho (svc : service K) fuel fuel' r r' w : (1 <= h_max_headers_count cfg)%N ->
  (forall k, 0 < caps k)%N -> (forall k, 0 < caps' k)%N -> enough fuel r -> enough fuel' r' ->
  respelled cfg (flat r) (flat r') -> fin r = fin r' ->
  serve fuel cfg caps ho svc r w = serve fuel' cfg caps' ho svc r' w.
Proof.
  intros C Hc Hc' Hf Hf' R He. unfold serve, enough in *. rewrite !serve_flat by auto. rewrite He.
  apply fl_serve_same; auto. apply fresh_default.
Qed.
End Spelling.
