(** The head properties, as stated in P_Head. *)
From Verif Require Export F_Accept.

Ltac app_norm := repeat progress (rewrite <- ?app_assoc; cbn [app]); reflexivity.

(** ** text lines *)
Lemma cut_colon_some l : forall a v, cut_colon l = Some (a, v) <-> l = a ++ COLON :: v /\ ~ In COLON a.
Proof.
  induction l as [|c l IH]; intros a v; simpl.
  - split; [easy|]. intros [H _]. now destruct a.
  - destruct (ascii_dec c COLON) as [->|N].
    + split.
      * intros [= <- <-]. split; [reflexivity|intros []].
      * intros [H Hn]. destruct a as [|x a]; simpl in H; injection H; intros; subst; [easy|].
        exfalso. apply Hn. now left.
    + destruct (cut_colon l) as [[a0 v0]|].
      * split.
        -- intros [= <- <-]. destruct (IH a0 v0) as [H _]. destruct (H eq_refl) as [-> Hn].
           split; [reflexivity|]. intros [?|?]; congruence.
        -- intros [H Hn]. destruct a as [|x a]; simpl in H; injection H; intros; subst; [easy|].
           assert (Hn' : ~ In COLON a) by (intros ?; apply Hn; now right).
           destruct (IH a v) as [_ H']. now injection (H' (conj eq_refl Hn')) as -> ->.
      * split; [easy|]. intros [H Hn]. destruct a as [|x a]; simpl in H; injection H; intros; subst; [easy|].
        assert (Hn' : ~ In COLON a) by (intros ?; apply Hn; now right).
        destruct (IH a v) as [_ H']. now specialize (H' (conj eq_refl Hn')).
Qed.
Lemma cut_colon_none l : cut_colon l = None <-> ~ In COLON l.
Proof.
  split.
  - intros H Hi. apply in_split in Hi as (a & b & ->).
    destruct (in_dec ascii_dec COLON a) as [Ha|Ha].
    + assert (Hp : exists i, position (fun c => Ascii.eqb c COLON) (a ++ COLON :: b) = Some i).
      { destruct (position (fun c => Ascii.eqb c COLON) (a ++ COLON :: b)) eqn:E; [eauto|].
        apply position_none in E. fold (no_colon (a ++ COLON :: b)) in E. apply no_colon_in in E.
        exfalso. apply E, in_or_app. now left. }
      destruct Hp as (i & Hp). apply position_some in Hp as (a' & x & b' & E & _ & Hx & Hn).
      apply Ascii.eqb_eq in Hx as ->. fold (no_colon a') in Hn. apply no_colon_in in Hn.
      destruct (cut_colon_some (a ++ COLON :: b) a' b') as [_ H']. now rewrite H' in H.
    + destruct (cut_colon_some (a ++ COLON :: b) a b) as [_ H']. now rewrite H' in H.
  - intros H. destruct (cut_colon l) as [[a v]|] eqn:E; [|easy].
    apply cut_colon_some in E as [-> _]. exfalso. apply H, in_or_app. right. now left.
Qed.

Lemma drop_while_map {A C} (f : A -> C) (p : C -> bool) l :
  drop_while p (map f l) = map f (drop_while (fun x => p (f x)) l).
Proof. induction l as [|x l IH]; simpl; [easy|]. now destruct (p (f x)). Qed.
Lemma trim_by_map {A C} (f : A -> C) (p : C -> bool) l :
  trim_by p (map f l) = map f (trim_by (fun x => p (f x)) l).
Proof. unfold trim_by. rewrite drop_while_map, <- map_rev, drop_while_map, map_rev. reflexivity. Qed.
Lemma trim_lower s : trim (lower s) = lower (trim s).
Proof.
  unfold trim, lower. rewrite trim_by_map. f_equal. apply trim_by_ext. intros x _. apply to_lower_ws.
Qed.

Lemma line_spec_fields l k v : line_spec l = LHeader k v ->
  exists a w, cut_colon l = Some (a, w) /\ k = lower (strip a) /\ v = strip w.
Proof.
  intros H. apply line_spec_inv in H as (a & w & -> & Hc & Ha & _ & _ & Hw & -> & ->).
  exists a, w. splits.
  - now apply cut_colon_some.
  - rewrite trim_lower. f_equal. now apply trim_strip.
  - now apply trim_strip.
Qed.
Lemma line_spec_none l : line_spec l = LNoColon -> cut_colon l = None.
Proof.
  intros H. apply cut_colon_none, no_colon_in. unfold line_spec in H.
  destruct (position (fun c => Ascii.eqb c COLON) l) as [i|] eqn:E.
  - exfalso. revert H. cbv zeta.
    match goal with |- context [if ?b then _ else _] => now destruct b end.
  - now apply position_none in E.
Qed.

Lemma line_ok_wire line l : line_ok line l ->
  l <> [] /\ ~ In LF (l ++ [CR]) /\ (lenN l + 2 <= line)%N.
Proof.
  intros (H1 & H2 & H3). splits; [easy| |].
  - rewrite in_app_iff. intros [?|[?|[]]]; [easy|now apply cr_not_lf].
  - unfold line_wire, CRLF in H3. rewrite app_length in H3. simpl in H3. unfold lenN. lia.
Qed.

Lemma fl_lines_accepted cfg e s : forall ls f h a c h' s' e',
  (2 <= h_max_header_line_size cfg)%N ->
  Forall (line_ok (h_max_header_line_size cfg)) ls -> Forall named_line ls ->
  ok false h -> (forall k, view h k = a k) ->
  fl_lines f cfg (concat (map line_wire ls) ++ CRLF ++ s) e h = Ret (c, h', (s', e')) -> c = RcOk ->
  s' = s /\ e' = e /\ ok false h' /\ forall k, view h' k = a_run (map field_op (all_fields ls)) a k.
Proof.
  induction ls as [|l ls IH]; intros f h a c h' s' e' Hlim Hl Hn Hok Hv E Ec.
  - destruct f as [|f]; [easy|]. change (concat (map line_wire []) ++ CRLF ++ s) with ([CR; LF] ++ s) in E.
    rewrite fl_lines_end in E by (try easy; apply cr_not_lf).
    injection E as <- <- <- <-. auto.
  - inversion Hl as [|? ? Hl1 Hl2]; subst. inversion Hn as [|? ? Hn1 Hn2]; subst.
    destruct f as [|f]; [easy|]. destruct (line_ok_wire _ _ Hl1) as (L1 & L2 & L3).
    cbn [map concat] in E. unfold line_wire at 1 in E. unfold CRLF at 1 in E.
    replace (((l ++ [CR; LF]) ++ concat (map line_wire ls)) ++ CRLF ++ s)
      with (l ++ [CR; LF] ++ (concat (map line_wire ls) ++ CRLF ++ s)) in E
      by (rewrite <- !app_assoc; reflexivity).
    rewrite fl_lines_line in E by easy.
    destruct (line_spec l) as [| |k v] eqn:El.
    + discriminate.
    + apply line_spec_none in El. unfold all_fields. cbn [map concat]. unfold line_fields at 1.
      rewrite El. cbn [app]. eapply IH; eauto.
    + apply line_spec_fields in El as (x & w & El & -> & ->). unfold named_line in Hn1. rewrite El in Hn1.
      destruct (append_ok false h (lower (strip x)) (strip w) Hok) as (h1 & E1 & Hok1 & Hv1).
      { now apply lower_nonempty. }
      { easy. }
      rewrite E1 in E. cbn [obind] in E. destruct (h_max_headers_count cfg <? 0 + 1)%N; [discriminate|].
      unfold all_fields. cbn [map concat]. unfold line_fields at 1. rewrite El. cbn [app map].
      apply (IH f h1 (a_step a (field_op (strip x, w)))) in E; auto.
      intros k. cbn [a_step field_op fst snd]. unfold a_update. destruct k as [|c k].
      * rewrite ok_view_nil by easy. destruct (bytes_same [] (lower (strip x))) as [E'|_].
        -- now destruct (strip x).
        -- rewrite <- Hv. symmetry. now apply ok_view_nil.
      * rewrite Hv1 by easy. rewrite <- !Hv.
        destruct (bytes_same (c :: k) (lower (strip x))); easy.
Qed.

(** ** cutting over-long tokens *)
Lemma firstn_S_split {A} n (l : list A) : n < length l ->
  exists c, l = firstn n l ++ c :: skipn (S n) l.
Proof.
  revert l. induction n as [|n IH]; intros [|x l] H; simpl in H; try lia.
  - now exists x.
  - destruct (IH l) as (c & E); [lia|]. exists c. simpl. f_equal. exact E.
Qed.

Lemma token_sub {A} (P : A -> Prop) n l : Forall P l -> Forall P (firstn n l) /\ Forall P (skipn n l).
Proof. intros H. rewrite <- (firstn_skipn n l) in H. now apply Forall_app in H. Qed.

Section HeadP.
Variable K : codec.
Notation message := (message K).

Definition line_of (me ta ve : bytes) : bytes := me ++ [SP] ++ ta ++ [SP] ++ ve ++ CRLF.

Lemma line_utf8 ve : Forall vchar ve -> utf8_decode (ve ++ [CR; LF]) = Some (map code (ve ++ [CR; LF])).
Proof.
  intros Hve. apply utf8_ascii. rewrite forallb_app. apply andb_true_iff. split; [|reflexivity].
  apply forallb_forall. rewrite Forall_forall in Hve. intros b Hb.
  specialize (Hve b Hb). unfold vchar in Hve. fold (code b) in Hve. lia.
Qed.

Lemma fl_line_text ve s e : Forall vchar ve -> length ve <= 126 ->
  fl_line 128 (ve ++ CRLF ++ s) e = Ret (Some (ve ++ [CR; LF]), (s, e)).
Proof.
  intros Hve Hl. unfold fl_line. replace (ve ++ CRLF ++ s) with ((ve ++ [CR]) ++ LF :: s)
    by (rewrite <- app_assoc; reflexivity).
  rewrite fu_found; [|now apply forall_no_lf|unfold lenN; rewrite app_length; simpl; lia].
  cbn [obind fst snd]. rewrite <- app_assoc. cbn [app].
  rewrite line_utf8 by easy. reflexivity.
Qed.

Lemma fl_headers_long_method fuel cfg (m : message) me ta ve s e :
  fresh m -> Forall token_char me -> 127 < length me ->
  (lenN (skipn 128 me) < h_max_url_size cfg)%N ->
  Forall token_char ta -> Forall vchar ve -> length (ta ++ [SP] ++ ve) <= 126 ->
  fl_headers fuel cfg (line_of me ta ve ++ s) e m
  = (y <- fl_lines fuel cfg s e (headers m) ;;
     let '(c, h, r') := y in
     Ret (c, Msg (firstn 127 me) (skipn 128 me) (ta ++ [SP] ++ ve) h (mbody m), r')).
Proof.
  intros (H0 & H1 & H2 & _) Hme Hml Hu Hta Hve Hvl. unfold fl_headers, line_of.
  destruct (firstn_S_split 127 me Hml) as (c & Eme).
  destruct (token_sub _ 127 me Hme) as [Hm1 _]. destruct (token_sub _ 128 me Hme) as [_ Hm2].
  set (m1 := firstn 127 me) in *. set (m2 := skipn 128 me) in *.
  assert (Lm1 : length m1 = 127) by (unfold m1; rewrite firstn_length; lia).
  assert (Hc : token_char c).
  { rewrite Eme in Hme. apply Forall_app in Hme as [_ Hme]. now inversion Hme. }
  rewrite Eme at 1.
  replace (((m1 ++ c :: m2) ++ [SP] ++ ta ++ [SP] ++ ve ++ CRLF) ++ s)
    with ((m1 ++ [c]) ++ (m2 ++ SP :: ((ta ++ [SP] ++ ve) ++ CRLF ++ s)))
    by (rewrite <- !app_assoc; reflexivity).
  rewrite (fu_limit SP 128 (m1 ++ [c])).
  2:{ apply tokens_no_sp. apply Forall_app. split; [easy|now constructor]. }
  2:{ unfold lenN. rewrite app_length, Lm1. reflexivity. }
  cbn [obind fst snd]. rewrite H0. cbn [app].
  rewrite firstn_snoc. rewrite (app_length m1 [c]). cbn [length].
  destruct (Nat.ltb_spec (length m1 + 1) 1); [lia|].
  assert (Pm : forallb is_printable m1 = true) by now apply vchars_printable, tokens_vchars.
  rewrite Pm. cbn [negb].
  rewrite fu_found by (try (now apply tokens_no_sp); unfold lenN in *; lia).
  cbn [obind fst snd]. rewrite H1. cbn [app].
  rewrite firstn_snoc. rewrite (app_length m2 [SP]). cbn [length].
  destruct (Nat.ltb_spec (length m2 + 1) 1); [lia|].
  assert (Pt : forallb is_printable m2 = true) by now apply vchars_printable, tokens_vchars.
  rewrite Pt. cbn [negb].
  change (ta ++ SP :: ve) with (ta ++ [SP] ++ ve).
  change (CR :: LF :: s) with (CRLF ++ s).
  assert (Hv' : Forall vchar (ta ++ [SP] ++ ve)).
  { apply Forall_app. split; [now apply tokens_vchars|]. constructor; [apply sp_vchar|easy]. }
  rewrite fl_line_text by easy.
  cbn [obind fst snd]. rewrite H2. cbn [app]. change (ta ++ SP :: ve) with (ta ++ [SP] ++ ve).
  rewrite firstn_snoc2. rewrite (app_length (ta ++ [SP] ++ ve) [CR; LF]). cbn [length].
  destruct (Nat.ltb_spec (length (ta ++ [SP] ++ ve) + 2) 3) as [Hlt|_].
  { rewrite !app_length in Hlt. simpl in Hlt. lia. }
  apply vchars_printable in Hv'. rewrite Hv'. cbn [negb]. reflexivity.
Qed.

Lemma fl_headers_long_target fuel cfg (m : message) me ta ve s e u :
  fresh m -> Forall token_char me -> length me <= 127 -> h_max_url_size cfg = N.of_nat (S u) ->
  Forall token_char ta -> u < length ta -> Forall vchar ve ->
  length (skipn (S u) ta ++ [SP] ++ ve) <= 126 ->
  fl_headers fuel cfg (line_of me ta ve ++ s) e m
  = (y <- fl_lines fuel cfg s e (headers m) ;;
     let '(c, h, r') := y in
     Ret (c, Msg me (firstn u ta) (skipn (S u) ta ++ [SP] ++ ve) h (mbody m), r')).
Proof.
  intros (H0 & H1 & H2 & _) Hme Hml Hu Hta Htl Hve Hvl. unfold fl_headers, line_of.
  destruct (firstn_S_split u ta Htl) as (c & Eta).
  destruct (token_sub _ u ta Hta) as [Ht1 _]. destruct (token_sub _ (S u) ta Hta) as [_ Ht2].
  assert (Lt1 : length (firstn u ta) = u) by (rewrite firstn_length; lia).
  set (t1 := firstn u ta) in *. set (t2 := skipn (S u) ta) in *.
  assert (Hc : token_char c).
  { rewrite Eta in Hta. apply Forall_app in Hta as [_ Hta]. now inversion Hta. }
  rewrite Eta at 1.
  replace ((me ++ [SP] ++ (t1 ++ c :: t2) ++ [SP] ++ ve ++ CRLF) ++ s)
    with (me ++ SP :: ((t1 ++ [c]) ++ ((t2 ++ [SP] ++ ve) ++ CRLF ++ s))).
  2:{ app_norm. }
  rewrite fu_found by (try (now apply tokens_no_sp); unfold lenN in *; lia).
  cbn [obind fst snd]. rewrite H0. cbn [app].
  rewrite firstn_snoc. rewrite (app_length me [SP]). cbn [length].
  destruct (Nat.ltb_spec (length me + 1) 1); [lia|].
  assert (Pm : forallb is_printable me = true) by now apply vchars_printable, tokens_vchars.
  rewrite Pm. cbn [negb].
  rewrite (fu_limit SP (h_max_url_size cfg) (t1 ++ [c])).
  2:{ apply tokens_no_sp. apply Forall_app. split; [easy|now constructor]. }
  2:{ rewrite Hu. unfold lenN. rewrite app_length, Lt1. simpl length. f_equal. lia. }
  cbn [obind fst snd]. rewrite H1. cbn [app].
  rewrite firstn_snoc. rewrite (app_length t1 [c]). cbn [length].
  destruct (Nat.ltb_spec (length t1 + 1) 1); [lia|].
  assert (Pt : forallb is_printable t1 = true) by now apply vchars_printable, tokens_vchars.
  rewrite Pt. cbn [negb].
  change (t2 ++ SP :: ve) with (t2 ++ [SP] ++ ve).
  change (CR :: LF :: s) with (CRLF ++ s).
  assert (Hv' : Forall vchar (t2 ++ [SP] ++ ve)).
  { apply Forall_app. split; [now apply tokens_vchars|]. constructor; [apply sp_vchar|easy]. }
  rewrite fl_line_text by easy.
  cbn [obind fst snd]. rewrite H2. cbn [app]. change (t2 ++ SP :: ve) with (t2 ++ [SP] ++ ve).
  rewrite firstn_snoc2. rewrite (app_length (t2 ++ [SP] ++ ve) [CR; LF]). cbn [length].
  destruct (Nat.ltb_spec (length (t2 ++ [SP] ++ ve) + 2) 3) as [Hlt|_].
  { rewrite !app_length in Hlt. simpl in Hlt. lia. }
  apply vchars_printable in Hv'. rewrite Hv'. cbn [negb]. reflexivity.
Qed.

End HeadP.
