(** Facts about the request-head parser. *)
From Verif Require Export F_Flat S_Wire.

(** ** characters *)
Lemma vchar_printable b : vchar b <-> is_printable b = true.
Proof. unfold vchar. rewrite printable_iff. reflexivity. Qed.
Lemma vchars_printable s : Forall vchar s <-> forallb is_printable s = true.
Proof.
  rewrite forallb_forall, Forall_forall. split; intros H x Hx; apply vchar_printable; auto.
Qed.
Lemma token_vchar b : token_char b -> vchar b /\ b <> SP.
Proof.
  unfold token_char, vchar. intros H. split; [lia|]. intros ->. vm_compute in H.
  destruct H as [H _]. now apply H.
Qed.
Lemma tokens_vchars s : Forall token_char s -> Forall vchar s.
Proof. apply Forall_impl. intros b H. now apply token_vchar. Qed.
Lemma tokens_no_sp s : Forall token_char s -> ~ In SP s.
Proof.
  rewrite Forall_forall. intros H Hi. now destruct (token_vchar _ (H _ Hi)).
Qed.
Lemma vchars_no c s : ~ vchar c -> Forall vchar s -> ~ In c s.
Proof. intros Hc. rewrite Forall_forall. intros H Hi. apply Hc. now apply H. Qed.
Lemma lf_not_vchar : ~ vchar LF.
Proof. unfold vchar. vm_compute. intros [H _]. now apply H. Qed.
Lemma cr_not_vchar : ~ vchar CR.
Proof. unfold vchar. vm_compute. intros [H _]. now apply H. Qed.
Lemma cr_not_lf : CR <> LF.
Proof. vm_compute. discriminate. Qed.
Lemma sp_not_lf : SP <> LF.
Proof. vm_compute. discriminate. Qed.
Lemma colon_vchar : vchar COLON.
Proof. unfold vchar. vm_compute. split; discriminate. Qed.
Lemma sp_vchar : vchar SP.
Proof. unfold vchar. vm_compute. split; discriminate. Qed.

(** ** trimming *)
Lemma drop_while_ext {A} (p q : A -> bool) l :
  (forall x, In x l -> p x = q x) -> drop_while p l = drop_while q l.
Proof.
  induction l as [|x l IH]; intros H; simpl; [easy|].
  rewrite <- (H x (or_introl eq_refl)). destruct (p x); [|easy].
  apply IH. intros y Hy. apply H. now right.
Qed.
Lemma drop_while_incl {A} (p : A -> bool) l x : In x (drop_while p l) -> In x l.
Proof.
  induction l as [|y l IH]; simpl; [easy|]. destruct (p y); [|easy]. intros H. right. auto.
Qed.
Lemma trim_by_ext {A} (p q : A -> bool) l :
  (forall x, In x l -> p x = q x) -> trim_by p l = trim_by q l.
Proof.
  intros H. unfold trim_by. rewrite (drop_while_ext p q l H). f_equal. apply drop_while_ext.
  intros x Hx. apply H. apply in_rev in Hx. now apply drop_while_incl in Hx.
Qed.
Lemma skip_spaces_drop s : skip_spaces s = drop_while (fun c => Ascii.eqb c SP) s.
Proof.
  induction s as [|c s IH]; simpl; [easy|]. destruct (ascii_dec c SP) as [->|N].
  - now rewrite Ascii.eqb_refl.
  - apply Ascii.eqb_neq in N. now rewrite N.
Qed.
Lemma strip_trim_by s : strip s = trim_by (fun c => Ascii.eqb c SP) s.
Proof. unfold strip, trim_by. now rewrite !skip_spaces_drop. Qed.
Lemma trim_strip s : Forall vchar s -> trim s = strip s.
Proof.
  intros H. rewrite strip_trim_by. apply trim_by_ext. intros c Hc.
  rewrite Forall_forall in H. specialize (H c Hc). apply vchar_printable in H.
  apply eq_true_iff_eq. rewrite (printable_ws c H). symmetry. apply Ascii.eqb_eq.
Qed.

Lemma token_not_ws b : token_char b -> byte_ws b = false.
Proof.
  intros H. destruct (token_vchar b H) as [Hv Hs]. apply vchar_printable in Hv.
  destruct (byte_ws b) eqn:E; [|easy]. now apply printable_ws in E.
Qed.
Lemma lower_token b : token_char b -> token_char (to_lower b).
Proof.
  assert (H : forall b, implb (in_range 33 126 (code b)) (in_range 33 126 (code (to_lower b))) = true).
  { apply byte_sweep. vm_compute. reflexivity. }
  unfold token_char. intros Hb. specialize (H b). fold (code b) in Hb. fold (code (to_lower b)).
  assert (E : in_range 33 126 (code b) = true) by (unfold in_range; lia). rewrite E in H.
  unfold in_range in H. simpl in H. lia.
Qed.
Lemma lower_tokens s : Forall token_char s -> Forall token_char (lower s).
Proof. unfold lower. rewrite Forall_map. apply Forall_impl. apply lower_token. Qed.
Lemma trim_tokens s : Forall token_char s -> trim s = s.
Proof.
  intros H. apply trim_by_nop. apply forallb_forall. rewrite Forall_forall in H.
  intros b Hb. now rewrite token_not_ws by auto.
Qed.

(** ** one header line *)
Definition no_colon (l : bytes) : bool := forallb (fun c => negb (Ascii.eqb c COLON)) l.
Lemma no_colon_in l : no_colon l = true <-> ~ In COLON l.
Proof.
  unfold no_colon. rewrite forallb_forall. split.
  - intros H Hi. specialize (H _ Hi). now rewrite Ascii.eqb_refl in H.
  - intros H c Hc. apply negb_true_iff, Ascii.eqb_neq. intros ->. tauto.
Qed.

Definition line_spec (l : bytes) : line_result :=
  match position (fun c => Ascii.eqb c COLON) l with
  | Some i =>
      let a := firstn i l in
      let v := skipn (S i) l in
      if forallb is_printable a && Nat.leb (length a) 256 && negb (is_nil v)
         && forallb is_printable v
      then LHeader (trim (lower a)) (trim v) else LBad
  | None => if forallb is_printable l && Nat.leb (length l) 256 then LNoColon else LBad
  end.

Lemma scan_line_gen l : forall seen k, k = length seen -> k <= 256 ->
  scan_line seen k l =
  match position (fun c => Ascii.eqb c COLON) l with
  | Some i =>
      let a := firstn i l in
      let v := skipn (S i) l in
      if forallb is_printable a && Nat.leb (k + length a) 256 && negb (is_nil v)
         && forallb is_printable v
      then LHeader (trim (rev seen ++ lower a)) (trim v) else LBad
  | None => if forallb is_printable l && Nat.leb (k + length l) 256 then LNoColon else LBad
  end.
Proof.
  induction l as [|c l IH]; intros seen k Hk Hle.
  - simpl. rewrite Nat.add_0_r. destruct (Nat.leb_spec k 256); [easy|lia].
  - cbn [scan_line position]. destruct (is_printable c) eqn:Ep; cbn [negb].
    + destruct (Ascii.eqb c COLON) eqn:Ec.
      * cbn [firstn skipn forallb length]. rewrite Nat.add_0_r, app_nil_r.
        destruct (Nat.leb_spec k 256); [|lia]. simpl andb.
        destruct (is_nil l); [easy|]. simpl. now destruct (forallb is_printable l).
      * unfold MAX_HEADER_NAME_LENGTH. destruct (Nat.leb_spec 256 k) as [Hge|Hlt].
        -- assert (k = 256) by lia.
           destruct (position (fun c => Ascii.eqb c COLON) l) as [i|]; cbn [option_map].
           ++ cbn [firstn length]. destruct (Nat.leb_spec (k + S (length (firstn i l))) 256); [lia|].
              now rewrite andb_false_r.
           ++ cbn [length]. destruct (Nat.leb_spec (k + S (length l)) 256); [lia|].
              now rewrite andb_false_r.
        -- rewrite IH by (simpl; lia).
           destruct (position (fun c => Ascii.eqb c COLON) l) as [i|]; cbn [option_map].
           ++ cbn [firstn skipn length forallb lower map]. rewrite Ep. cbn [andb rev].
              rewrite <- app_assoc. cbn [app]. now rewrite Nat.add_succ_r.
           ++ cbn [forallb length]. rewrite Ep. now rewrite Nat.add_succ_r.
    + destruct (Ascii.eqb c COLON) eqn:Ec.
      * apply Ascii.eqb_eq in Ec as ->. vm_compute in Ep. discriminate.
      * destruct (position (fun c => Ascii.eqb c COLON) l) as [i|]; cbn [option_map].
        -- cbn [firstn forallb]. now rewrite Ep.
        -- cbn [forallb]. now rewrite Ep.
Qed.

Lemma scan_line_spec l : scan_line [] 0 l = line_spec l.
Proof. rewrite scan_line_gen by (simpl; lia). reflexivity. Qed.

Lemma position_colon a v : ~ In COLON a ->
  position (fun c => Ascii.eqb c COLON) (a ++ COLON :: v) = Some (length a).
Proof. intros H. apply position_app; [now apply no_colon_in|reflexivity]. Qed.

Lemma line_spec_header a v : Forall vchar a -> ~ In COLON a -> length a <= 256 ->
  v <> [] -> Forall vchar v ->
  line_spec (a ++ COLON :: v) = LHeader (trim (lower a)) (trim v).
Proof.
  intros Ha Hc Hl Hv Hvv. unfold line_spec. rewrite position_colon by easy.
  rewrite firstn_len_app.
  replace (skipn (S (length a)) (a ++ COLON :: v)) with v.
  2:{ replace (a ++ COLON :: v) with ((a ++ [COLON]) ++ v) by now rewrite <- app_assoc.
      replace (S (length a)) with (length (a ++ [COLON])) by (rewrite app_length; simpl; lia).
      now rewrite skipn_len_app. }
  cbv zeta. apply vchars_printable in Ha, Hvv. rewrite Ha, Hvv.
  destruct (Nat.leb_spec (length a) 256); [|lia]. destruct v; [easy|]. reflexivity.
Qed.

Lemma line_spec_nocolon l : Forall vchar l -> ~ In COLON l -> length l <= 256 ->
  line_spec l = LNoColon.
Proof.
  intros Ha Hc Hl. unfold line_spec.
  assert (E : position (fun c => Ascii.eqb c COLON) l = None)
    by now apply position_none, no_colon_in.
  rewrite E. apply vchars_printable in Ha. rewrite Ha. destruct (Nat.leb_spec (length l) 256); [easy|lia].
Qed.

Lemma line_spec_inv l k v : line_spec l = LHeader k v ->
  exists a w, l = a ++ COLON :: w /\ ~ In COLON a /\ Forall vchar a /\ length a <= 256
    /\ w <> [] /\ Forall vchar w /\ k = trim (lower a) /\ v = trim w.
Proof.
  unfold line_spec. destruct (position (fun c => Ascii.eqb c COLON) l) as [i|] eqn:E.
  - destruct (position_some _ _ _ E) as (a & x & w & -> & <- & Hx & Ha).
    apply Ascii.eqb_eq in Hx as ->. rewrite firstn_len_app.
    replace (skipn (S (length a)) (a ++ COLON :: w)) with w.
    2:{ replace (a ++ COLON :: w) with ((a ++ [COLON]) ++ w) by now rewrite <- app_assoc.
        replace (S (length a)) with (length (a ++ [COLON])) by (rewrite app_length; simpl; lia).
        now rewrite skipn_len_app. }
    cbv zeta. destruct (forallb is_printable a) eqn:E1; [|discriminate].
    destruct (Nat.leb_spec (length a) 256); [|discriminate].
    destruct (is_nil w) eqn:E2; [discriminate|].
    destruct (forallb is_printable w) eqn:E3; [|discriminate]. cbn [andb negb]. intros [= <- <-].
    exists a, w. repeat split; try easy.
    + now apply no_colon_in.
    + now apply vchars_printable.
    + now destruct w.
    + now apply vchars_printable.
  - now destruct (forallb is_printable l && Nat.leb (length l) 256).
Qed.

(** ** lines of the stream *)
Lemma lenN_2 (l : bytes) c : lenN (l ++ [c; LF]) = (lenN l + 2)%N.
Proof. unfold lenN. rewrite app_length. simpl. lia. Qed.

Lemma fl_lines_line f cfg l c s e h :
  l <> [] -> ~ In LF (l ++ [c]) -> (lenN l + 2 <= h_max_header_line_size cfg)%N ->
  fl_lines (S f) cfg (l ++ [c; LF] ++ s) e h =
  match line_spec l with
  | LBad => Ret (RcBadDatagram, h, (s, e))
  | LNoColon => fl_lines f cfg s e h
  | LHeader k v =>
      h' <- mm_append h k v ;;
      if (h_max_headers_count cfg <? 0 + 1)%N then Ret (RcReachMaxHeadersCount, h', (s, e))
      else fl_lines f cfg s e h'
  end.
Proof.
  intros Hl Hn Hlim. cbn [fl_lines].
  replace (l ++ [c; LF] ++ s) with ((l ++ [c]) ++ LF :: s) by now rewrite <- app_assoc.
  rewrite fu_found; [|easy|].
  2:{ unfold lenN in *. rewrite app_length. simpl. lia. }
  cbn [obind fst snd]. rewrite <- app_assoc. cbn [app].
  assert (Hlen : length (l ++ [c; LF]) = length l + 2) by now rewrite app_length.
  rewrite Hlen. destruct (Nat.ltb_spec (length l + 2) 2); [lia|].
  destruct (Nat.eqb_spec (length l + 2) 2) as [E|_]; [destruct l; simpl in E; [easy|lia]|].
  replace (length l + 2 - 2) with (length l) by lia. rewrite firstn_len_app.
  rewrite scan_line_spec. reflexivity.
Qed.

Lemma fl_lines_end f cfg c s e h :
  c <> LF -> (2 <= h_max_header_line_size cfg)%N ->
  fl_lines (S f) cfg ([c; LF] ++ s) e h = Ret (RcOk, h, (s, e)).
Proof.
  intros Hc Hlim. cbn [fl_lines].
  replace ([c; LF] ++ s) with ([c] ++ LF :: s) by reflexivity.
  rewrite fu_found; [reflexivity| |].
  - intros [?|[]]. congruence.
  - unfold lenN. simpl. lia.
Qed.

(** ** well-formed header fields *)
Definition field_op (f : field) : mop := OAppend (lower (fst f)) (strip (snd f)).

Lemma lower_nonempty s : s <> [] -> lower s <> [].
Proof. now destruct s. Qed.

Lemma forall_no_lf (s : bytes) : Forall vchar s -> ~ In LF (s ++ [CR]).
Proof.
  intros H. rewrite in_app_iff. intros [Hi|[Hi|[]]].
  - now apply (vchars_no LF s lf_not_vchar H).
  - now apply cr_not_lf.
Qed.

Lemma field_ok_lenN line f : field_ok line f ->
  (lenN (fst f ++ COLON :: snd f) + 2 <= line)%N.
Proof.
  intros (_ & _ & _ & _ & _ & _ & H). unfold field_line, CRLF in H. unfold lenN.
  rewrite !app_length in *. simpl in *. lia.
Qed.

Lemma fl_lines_fields cfg e s : forall fs f h a,
  (1 <= h_max_headers_count cfg)%N -> (2 <= h_max_header_line_size cfg)%N ->
  Forall (field_ok (h_max_header_line_size cfg)) fs ->
  length fs < f -> ok false h -> (forall k, view h k = a k) ->
  exists h', fl_lines f cfg (concat (map field_line fs) ++ CRLF ++ s) e h = Ret (RcOk, h', (s, e))
    /\ ok false h' /\ forall k, view h' k = a_run (map field_op fs) a k.
Proof.
  induction fs as [|fd fs IH]; intros f h a Hcnt Hlim Hf Hfuel Hok Hv.
  - simpl in Hfuel. destruct f as [|f]; [lia|]. exists h. split; [|auto].
    apply fl_lines_end; [apply cr_not_lf|easy].
  - inversion Hf as [|? ? Hfd Hf']; subst. simpl in Hfuel. destruct f as [|f]; [lia|].
    pose proof (field_ok_lenN _ _ Hfd) as Hlen.
    destruct Hfd as (Hn & Htok & Hcol & Hl & Hv0 & Hvv & _).
    assert (Hvn : Forall vchar (fst fd)) by now apply tokens_vchars.
    cbn [map concat]. unfold field_line at 1. unfold CRLF at 1.
    replace (((fst fd ++ [COLON] ++ snd fd ++ [CR; LF]) ++ concat (map field_line fs)) ++ CRLF ++ s)
      with ((fst fd ++ COLON :: snd fd) ++ [CR; LF] ++ (concat (map field_line fs) ++ CRLF ++ s))
      by (rewrite <- !app_assoc; reflexivity).
    rewrite fl_lines_line; auto.
    2:{ now destruct (fst fd). }
    2:{ apply forall_no_lf. apply Forall_app. split; [easy|].
        constructor; [apply colon_vchar|easy]. }
    rewrite line_spec_header by easy.
    rewrite trim_tokens by now apply lower_tokens. rewrite trim_strip by easy.
    destruct (append_ok false h (lower (fst fd)) (strip (snd fd)) Hok) as (h1 & E1 & Hok1 & Hv1).
    { now apply lower_nonempty. }
    { easy. }
    rewrite E1. cbn [obind]. destruct (h_max_headers_count cfg <? 0 + 1)%N eqn:Ec; [lia|].
    destruct (IH f h1 (a_step a (field_op fd))) as (h2 & E2 & Hok2 & Hv2); auto; [lia| |].
    { intros k. cbn [a_step field_op]. unfold a_update. destruct k as [|c k].
      - rewrite ok_view_nil by easy. destruct (bytes_same [] (lower (fst fd))) as [E|_].
        + now destruct (fst fd).
        + rewrite <- Hv. symmetry. now apply ok_view_nil.
      - rewrite Hv1 by easy. rewrite <- !Hv.
        destruct (bytes_same (c :: k) (lower (fst fd))); easy. }
    exists h2. auto.
Qed.

(** ** what lookups give *)
Lemma same_name_eq n m : same_name n m = true <-> lower n = lower m.
Proof. apply bytes_eqb_eq. Qed.

Lemma a_run_fields fs : forall a n,
  a_run (map field_op fs) a (lower n)
  = match values_of n fs with
    | [] => a (lower n)
    | vs => Some (match a (lower n) with Some ws => ws | None => [] end ++ vs)
    end.
Proof.
  induction fs as [|f fs IH]; intros a n; [reflexivity|].
  unfold a_run in *. cbn [map fold_left]. rewrite IH.
  unfold values_of. cbn [filter]. destruct (same_name n (fst f)) eqn:E.
  - apply same_name_eq in E. cbn [map a_step field_op]. unfold a_update.
    destruct (bytes_same (lower n) (lower (fst f))) as [_|?]; [|easy].
    rewrite <- E. fold (values_of n fs). destruct (values_of n fs) as [|w ws] eqn:Ev.
    + reflexivity.
    + rewrite <- app_assoc. reflexivity.
  - fold (values_of n fs). cbn [a_step field_op]. unfold a_update.
    destruct (bytes_same (lower n) (lower (fst f))) as [E'|_].
    + apply same_name_eq in E'. congruence.
    + destruct (values_of n fs); reflexivity.
Qed.

(** ** whole heads *)
Section Head.
Variable K : codec.
Notation message := (message K).

(** a message ready to receive a request *)
Definition fresh (m : message) : Prop :=
  fl0 m = [] /\ fl1 m = [] /\ fl2 m = [] /\ ok false (headers m)
  /\ forall k, view (headers m) k = None.

Lemma fresh_default : fresh msg_default.
Proof. repeat split; simpl; auto using new_wf; try easy. constructor. Qed.

(** whatever a handler did to the message *)
Lemma fresh_clear (m : message) : fresh (msg_clear m).
Proof.
  destruct (clear_ok (headers m)) as [H1 H2].
  repeat split; simpl; auto; apply H1.
Qed.

Lemma firstn_snoc {A} (a : list A) x : firstn (length (a ++ [x]) - 1) (a ++ [x]) = a.
Proof.
  rewrite app_length. simpl. replace (length a + 1 - 1) with (length a) by lia.
  apply firstn_len_app.
Qed.
Lemma firstn_snoc2 {A} (a : list A) x y : firstn (length (a ++ [x; y]) - 2) (a ++ [x; y]) = a.
Proof.
  rewrite app_length. simpl. replace (length a + 2 - 2) with (length a) by lia.
  apply firstn_len_app.
Qed.

(** the request line *)
Lemma fl_headers_line fuel cfg (m : message) me ta ve s e :
  fl0 m = [] -> fl1 m = [] -> fl2 m = [] ->
  Forall token_char me -> length me <= 127 ->
  Forall token_char ta -> (lenN ta < h_max_url_size cfg)%N ->
  Forall vchar ve -> 1 <= length ve <= 126 ->
  fl_headers fuel cfg (me ++ [SP] ++ ta ++ [SP] ++ ve ++ CRLF ++ s) e m
  = (y <- fl_lines fuel cfg s e (headers m) ;;
     let '(c, h, r') := y in Ret (c, Msg me ta ve h (mbody m), r')).
Proof.
  intros H0 H1 H2 Hme Hml Hta Htl Hve Hvl. unfold fl_headers.
  change ([SP] ++ ta ++ [SP] ++ ve ++ CRLF ++ s) with (SP :: ta ++ [SP] ++ ve ++ CRLF ++ s).
  rewrite fu_found by (try (now apply tokens_no_sp); unfold lenN; lia).
  cbn [obind fst snd]. rewrite H0. cbn [app].
  rewrite firstn_snoc. rewrite (app_length me [SP]). cbn [length].
  destruct (Nat.ltb_spec (length me + 1) 1); [lia|].
  assert (Pm : forallb is_printable me = true) by now apply vchars_printable, tokens_vchars.
  rewrite Pm. cbn [negb].
  rewrite fu_found by (try (now apply tokens_no_sp); unfold lenN in *; lia).
  cbn [obind fst snd]. rewrite H1. cbn [app].
  rewrite firstn_snoc. rewrite (app_length ta [SP]). cbn [length].
  destruct (Nat.ltb_spec (length ta + 1) 1); [lia|].
  assert (Pt : forallb is_printable ta = true) by now apply vchars_printable, tokens_vchars.
  rewrite Pt. cbn [negb].
  unfold fl_line. replace (ve ++ CRLF ++ s) with ((ve ++ [CR]) ++ LF :: s)
    by (rewrite <- app_assoc; reflexivity).
  rewrite fu_found; [|now apply forall_no_lf|unfold lenN; rewrite app_length; simpl; lia].
  cbn [obind fst snd]. rewrite <- app_assoc. cbn [app].
  rewrite utf8_ascii.
  2:{ rewrite forallb_app. apply andb_true_iff. split; [|reflexivity].
      apply forallb_forall. rewrite Forall_forall in Hve. intros b Hb.
      specialize (Hve b Hb). unfold vchar in Hve. fold (code b) in Hve. lia. }
  cbn [obind fst snd]. rewrite H2. cbn [app].
  rewrite firstn_snoc2. rewrite (app_length ve [CR; LF]). cbn [length].
  destruct (Nat.ltb_spec (length ve + 2) 3); [lia|].
  assert (Pv : forallb is_printable ve = true) by now apply vchars_printable.
  rewrite Pv. cbn [negb]. reflexivity.
Qed.

Lemma field_line_length f : 3 <= length (field_line f).
Proof. unfold field_line, CRLF. rewrite !app_length. simpl. lia. Qed.

Lemma concat_fields_length fs : length fs <= length (concat (map field_line fs)).
Proof.
  induction fs as [|f fs IH]; simpl; [lia|]. rewrite app_length.
  pose proof (field_line_length f). lia.
Qed.

(** C02 on flat streams *)
Lemma fl_headers_wf fuel cfg (m : message) h s e :
  fresh m -> head_ok (h_max_url_size cfg) (h_max_header_line_size cfg) h ->
  (1 <= h_max_headers_count cfg)%N -> length (hd_fields h) < fuel ->
  exists h', fl_headers fuel cfg (head_wire h ++ s) e m
    = Ret (RcOk, Msg (hd_method h) (hd_target h) (hd_version h) h' (mbody m), (s, e))
    /\ ok false h' /\ (forall n, view h' (lower n) = lookup_of n (hd_fields h))
    /\ (forall k, view h' k = a_run (map field_op (hd_fields h)) a_empty k).
Proof.
  intros (F0 & F1 & F2 & Fok & Fv) (Hm & Hml & Ht & Htl & Hv & Hvl & Hf & Hlim) Hcnt Hfuel.
  destruct (fl_lines_fields cfg e s (hd_fields h) fuel (headers m) a_empty Hcnt Hlim Hf Hfuel Fok Fv)
    as (h' & E & Hok & Hview).
  exists h'. split; [|split; [easy|split; [|easy]]].
  - unfold head_wire, request_line. rewrite <- !app_assoc.
    rewrite fl_headers_line by easy. rewrite E. reflexivity.
  - intros n. rewrite Hview, a_run_fields. unfold lookup_of, a_empty. now destruct (values_of n (hd_fields h)).
Qed.

End Head.
Arguments fresh {K} _.
