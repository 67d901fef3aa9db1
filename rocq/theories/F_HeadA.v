(** Exactly which heads are accepted. *)
From Verif Require Export S_Accept F_HeadT.

Lemma fu_piece e d lim s t rest : piece e d lim s t rest <-> fu d lim s e = Ret (Some t, (rest, e)).
Proof.
  split.
  - intros (-> & Hl & [(a & -> & Hn)|(Hn & [Hl2|(-> & ->)])]).
    + rewrite <- app_assoc. cbn [app]. rewrite fu_found; auto. unfold lenN. rewrite app_length in Hl. simpl in Hl. lia.
    + now apply fu_limit.
    + rewrite app_nil_r. destruct (N.eq_dec (lenN t) lim) as [El|El].
      * rewrite <- (app_nil_r t) at 1. now apply fu_limit.
      * apply fu_end; auto. unfold lenN in *. lia.
  - intros H. apply fu_inv in H as (_ & H). exact H.
Qed.

Lemma text_end_ok x y : text_end x y <-> exists u, utf8_decode [x; y] = Some u.
Proof.
  unfold text_end. cbn [utf8_decode]. unfold cont, in_range, code.
  destruct (N.ltb_spec (N_of_ascii x) 128) as [Hx|Hx].
  - destruct (N.ltb_spec (N_of_ascii y) 128) as [Hy|Hy]; cbn [option_map].
    + split; [eauto|]. intros _. left. lia.
    + split; [lia|]. intros (u & H). destruct ((194 <=? N_of_ascii y)%N && (N_of_ascii y <=? 223)%N); discriminate.
  - match goal with |- context [if ?b then _ else None] => idtac end.
    destruct (N.leb_spec 194 (N_of_ascii x)), (N.leb_spec (N_of_ascii x) 223); cbn [andb];
      try (split; [lia|intros (u & [=])]; fail).
    destruct (N.leb_spec 128 (N_of_ascii y)), (N.leb_spec (N_of_ascii y) 191); cbn [andb option_map];
      try (split; [lia|intros (u & [=])]; fail).
    split; [eauto|]. intros _. right. lia.
Qed.
Lemma utf8_tail ve x y : Forall vchar ve -> (exists u, utf8_decode (ve ++ [x; y]) = Some u) <-> text_end x y.
Proof.
  rewrite text_end_ok. induction ve as [|c ve IH]; intros H; [reflexivity|]. inversion H as [|? ? H1 H2]; subst.
  cbn [app]. unfold vchar in H1.
  assert (E : utf8_decode (c :: ve ++ [x; y]) = option_map (cons (code c)) (utf8_decode (ve ++ [x; y]))).
  { cbn [utf8_decode]. unfold code. destruct (N.ltb_spec (N_of_ascii c) 128); [reflexivity|lia]. }
  rewrite E, <- (IH H2). destruct (utf8_decode (ve ++ [x; y])); cbn [option_map]; split; intros (u & Hu); eauto; discriminate.
Qed.

Lemma last2 {A} (t : list A) : 2 <= length t -> exists x y, t = firstn (length t - 2) t ++ [x; y].
Proof.
  intros H. pose proof (firstn_skipn (length t - 2) t) as E. symmetry in E.
  assert (Hl : length (skipn (length t - 2) t) = 2) by (rewrite skipn_length; lia).
  destruct (skipn (length t - 2) t) as [|x [|y [|]]]; try discriminate. eauto.
Qed.
Lemma last1 {A} (t : list A) : 1 <= length t -> exists x, t = firstn (length t - 1) t ++ [x].
Proof.
  intros H. pose proof (firstn_skipn (length t - 1) t) as E. symmetry in E.
  assert (Hl : length (skipn (length t - 1) t) = 1) by (rewrite skipn_length; lia).
  destruct (skipn (length t - 1) t) as [|x [|]]; try discriminate. eauto.
Qed.

(** what a good line does *)
Lemma good_line_spec l : good_line l ->
  match cut_colon l with
  | Some (a, v) => line_spec l = LHeader (lower (strip a)) (strip v)
  | None => line_spec l = LNoColon
  end.
Proof.
  intros (Hn & Hv & H). destruct (cut_colon l) as [[a v]|] eqn:E.
  - apply cut_colon_some in E as (-> & Hc). apply Forall_app in Hv as [Ha Hv]. inversion Hv; subst.
    rewrite line_spec_header by easy. rewrite trim_lower, !trim_strip by easy. reflexivity.
  - apply cut_colon_none in E. now apply line_spec_nocolon.
Qed.
Lemma line_spec_good l : l <> [] -> line_spec l <> LBad -> good_line l.
Proof.
  intros Hn H. destruct (line_spec l) as [| |k v] eqn:E; [easy| |].
  - pose proof (line_spec_none _ E) as Ec. split; [easy|]. rewrite Ec. unfold line_spec in E.
    apply cut_colon_none in Ec. assert (Ep : position (fun c => Ascii.eqb c COLON) l = None) by now apply position_none, no_colon_in.
    rewrite Ep in E. destruct (forallb is_printable l) eqn:P; [|discriminate].
    destruct (Nat.leb_spec (length l) 256); [|discriminate]. now apply vchars_printable in P.
  - apply line_spec_inv in E as (a & w & -> & Hc & Ha & Hl & Hw & Hvw & _).
    split; [easy|]. split.
    + apply Forall_app. split; [easy|]. constructor; [apply colon_vchar|easy].
    + rewrite (proj2 (cut_colon_some (a ++ COLON :: w) a w)) by easy. auto.
Qed.

Lemma lines_at_accepted cfg e : forall s ls rest, lines_at e (h_max_header_line_size cfg) s ls rest ->
  (h_max_headers_count cfg = 0%N -> all_fields ls = []) ->
  forall f h, wf h -> length s < f ->
  exists h', fl_lines f cfg s e h = Ret (RcOk, h', (rest, e))
    /\ mm_run (fun l => l) h (fields_added (all_fields ls)) = Ret h' /\ wf h'.
Proof.
  induction 1 as [s x y rest Hp|s l x y s' ls rest Hp Hg _ IH]; intros Hc f h Hw Hf;
    (destruct f as [|f]; [lia|]); cbn [fl_lines]; pose proof Hp as (Es & _); apply fu_piece in Hp; rewrite Hp;
    cbn [obind fst snd].
  - cbn [length Nat.ltb Nat.leb Nat.eqb]. eexists. splits; eauto. 
  - assert (Hl : length (l ++ [x; y]) = length l + 2) by now rewrite app_length.
    rewrite firstn_snoc2, Hl. assert (l <> []) by apply Hg.
    destruct (Nat.ltb_spec (length l + 2) 2); [lia|].
    destruct (Nat.eqb_spec (length l + 2) 2); [destruct l; [easy|simpl in *; lia]|].
    rewrite scan_line_spec. pose proof (good_line_spec l Hg) as Hs.
    assert (Hf' : length s' < f) by (rewrite Es, app_length in Hf; lia).
    unfold all_fields in *. cbn [map concat] in *. unfold line_fields in *. fold line_fields in *.
    destruct (cut_colon l) as [[a v]|]; rewrite Hs.
    + destruct (step_wf (fun l => l) h (OAppend (lower (strip a)) (strip v)) (fun l => Permutation.Permutation_refl l) Hw) as (h1 & E1 & W1).
      cbn [mm_step] in E1. rewrite E1. cbn [obind].
      assert (Hcc : h_max_headers_count cfg <> 0%N) by (intros Hz; specialize (Hc Hz); discriminate).
      destruct (N.ltb_spec (h_max_headers_count cfg) (0 + 1)); [lia|].
      destruct (IH (fun Hz => False_ind _ (Hcc Hz)) f h1 W1 Hf') as (h' & E2 & E3 & W3).
      exists h'. splits; auto. cbn [app fields_added map mm_run fst snd mm_step]. rewrite E1. exact E3.
    + exact (IH Hc f h Hw Hf').
Qed.
Lemma accepted_lines_at cfg e : forall f s h h' rest,
  fl_lines f cfg s e h = Ret (RcOk, h', (rest, e)) -> wf h ->
  exists ls, lines_at e (h_max_header_line_size cfg) s ls rest
    /\ (h_max_headers_count cfg = 0%N -> all_fields ls = [])
    /\ mm_run (fun l => l) h (fields_added (all_fields ls)) = Ret h'.
Proof.
  induction f as [|f IH]; intros s h h' rest; [easy|]. cbn [fl_lines].
  destruct (fu LF (h_max_header_line_size cfg) s e) as [[o [r1 e1]]| | | |] eqn:E; try easy.
  pose proof E as Ei. apply fu_inv in Ei as (-> & _). cbn [obind fst snd]. destruct o as [t|]; [|easy].
  apply fu_piece in E.
  destruct (Nat.ltb_spec (length t) 2) as [|H2]; [easy|].
  destruct (last2 t H2) as (x & y & Et). set (l := firstn (length t - 2) t) in *.
  destruct (Nat.eqb_spec (length t) 2) as [E2|E2].
  - intros [= <- <-] _. exists []. splits; [|easy|reflexivity]. 
    assert (l = []) as El by (unfold l; rewrite E2; reflexivity). rewrite El in Et. cbn [app] in Et. subst t.
    now apply (lines_end _ _ _ x y).
  - rewrite scan_line_spec. intros E3 Hw.
    assert (Hn : l <> []). { intros Hn. apply (f_equal (@length _)) in Hn. unfold l in Hn. rewrite firstn_length in Hn. simpl in Hn. lia. }
    assert (Hg : good_line l) by (apply line_spec_good; [easy|]; intros Hb; rewrite Hb in E3; discriminate).
    pose proof (good_line_spec l Hg) as Hs. rewrite Et in E.
    destruct (cut_colon l) as [[a v]|] eqn:Ec; rewrite Hs in E3.
    + destruct (step_wf (fun l => l) h (OAppend (lower (strip a)) (strip v)) (fun l => Permutation.Permutation_refl l) Hw) as (h1 & E1 & W1).
      cbn [mm_step] in E1. rewrite E1 in E3. cbn [obind] in E3.
      destruct (N.ltb_spec (h_max_headers_count cfg) (0 + 1)); [discriminate|].
      destruct (IH _ _ _ _ E3 W1) as (ls & L1 & L2 & L3). exists (l :: ls). splits.
      * econstructor; eauto.
      * lia.
      * unfold all_fields. cbn [map concat]. unfold line_fields at 1. rewrite Ec.
        cbn [app fields_added map mm_run fst snd mm_step]. rewrite E1. exact L3.
    + destruct (IH _ _ _ _ E3 Hw) as (ls & L1 & L2 & L3). exists (l :: ls).
      unfold all_fields in *. cbn [map concat]. unfold line_fields at 1 3. rewrite Ec. cbn [app].
      splits; auto. econstructor; eauto.
Qed.

Lemma run_lookup h fs : mm_run (fun l => l) mm_new (fields_added fs) = Ret h -> Forall (fun f => fst f <> []) fs ->
  forall n, mm_getall h (lower n) = Ret (lookup_of n fs).
Proof.
  intros E Hn n.
  assert (G : forall fs m a, ok false m -> (forall k, view m k = a k) -> Forall (fun f => fst f <> []) fs ->
    forall h, mm_run (fun l => l) m (fields_added fs) = Ret h ->
    ok false h /\ forall k, view h k = a_run (map field_op fs) a k).
  { clear. induction fs as [|fd fs IH]; intros m a Hok Hv Hn h E.
    - cbn in E. injection E as <-. auto.
    - inversion Hn; subst. cbn [fields_added map mm_run mm_step] in E.
      destruct (append_ok false m (lower (fst fd)) (strip (snd fd)) Hok) as (h1 & E1 & Hok1 & Hv1);
        [now apply lower_nonempty|easy|].
      rewrite E1 in E. cbn [obind] in E. cbn [map]. eapply (IH h1); eauto.
      intros k. cbn [a_step field_op]. unfold a_update. destruct k as [|c k].
      + rewrite ok_view_nil by easy. destruct (bytes_same [] (lower (fst fd))) as [E'|_].
        * now destruct (fst fd).
        * rewrite <- Hv. symmetry. now apply ok_view_nil.
      + rewrite Hv1 by easy. rewrite <- !Hv. destruct (bytes_same (c :: k) (lower (fst fd))); easy. }
  destruct (G fs mm_new a_empty new_ok (fun _ => eq_refl) Hn h E) as (Hok & Hv).
  rewrite getall_view by apply Hok. rewrite Hv, a_run_fields. unfold lookup_of, a_empty. now destruct (values_of n fs).
Qed.
Lemma named_fields ls : Forall named_line ls -> Forall (fun f => fst f <> []) (all_fields ls).
Proof.
  unfold all_fields. induction 1 as [|l ls H _ IH]; [constructor|]. cbn [map concat]. apply Forall_app. split; [|exact IH].
  unfold named_line in H. unfold line_fields. destruct (cut_colon l) as [[a v]|]; [|constructor]. now repeat constructor.
Qed.

Section HeadA.
Variable K : codec.
Notation message := (message K).
Notation msg0 := (@msg_default K).

Notation limits cfg P := (P (h_max_url_size cfg) (h_max_header_line_size cfg) (h_max_headers_count cfg)).
(** the same for any request that starts empty *)
Lemma fl_accepts fuel cfg s e (m0 : message) me ta ve ls rest : length s < fuel ->
  fl0 m0 = [] -> fl1 m0 = [] -> fl2 m0 = [] -> wf (headers m0) ->
  limits cfg (head_at e) s me ta ve ls rest ->
  exists h, fl_headers fuel cfg s e m0 = Ret (RcOk, Msg me ta ve h (mbody m0), (rest, e))
    /\ mm_run (fun l => l) (headers m0) (fields_added (all_fields ls)) = Ret h.
Proof.
  intros Hf M0 M1 M2 Hw (x & y & z & w & s1 & s2 & s3 & P0 & V0 & P1 & V1 & P2 & V2 & N2 & T2 & Hl & Hc).
  assert (Hlen : length s3 < fuel).
  { destruct P0 as (Q0 & _), P1 as (Q1 & _), P2 as (Q2 & _). rewrite Q0, Q1, Q2, !app_length in Hf. lia. }
  destruct (lines_at_accepted cfg _ _ _ _ Hl Hc fuel (headers m0) Hw Hlen) as (h & E & R & W).
  exists h. split; [|exact R].
  unfold fl_headers. apply fu_piece in P0, P1, P2. rewrite P0, M0, M1, M2. cbn [obind fst snd app].
  rewrite firstn_snoc. destruct (Nat.ltb_spec (length (me ++ [x])) 1) as [H|_]; [rewrite app_length in H; simpl in H; lia|].
  rewrite (proj1 (vchars_printable me) V0). cbn [negb]. rewrite P1. cbn [obind fst snd].
  rewrite firstn_snoc. destruct (Nat.ltb_spec (length (ta ++ [y])) 1) as [H|_]; [rewrite app_length in H; simpl in H; lia|].
  rewrite (proj1 (vchars_printable ta) V1). cbn [negb]. unfold fl_line. rewrite P2. cbn [obind fst snd].
  destruct (proj2 (utf8_tail ve z w V2) T2) as (u & ->). cbn [obind fst snd].
  rewrite firstn_snoc2. destruct (Nat.ltb_spec (length (ve ++ [z; w])) 3) as [H|_].
  { rewrite app_length in H. destruct ve; [easy|simpl in H; lia]. }
  rewrite (proj1 (vchars_printable ve) V2). cbn [negb]. rewrite E. reflexivity.
Qed.
Lemma fl_accepted fuel cfg s e (m0 m : message) s' e' :
  fl0 m0 = [] -> fl1 m0 = [] -> fl2 m0 = [] -> wf (headers m0) ->
  fl_headers fuel cfg s e m0 = Ret (RcOk, m, (s', e')) ->
  e' = e /\ mbody m = mbody m0 /\ exists ls, limits cfg (head_at e) s (fl0 m) (fl1 m) (fl2 m) ls s'
    /\ mm_run (fun l => l) (headers m0) (fields_added (all_fields ls)) = Ret (headers m).
Proof.
  intros M0 M1 M2 Hw E. unfold fl_headers in E. rewrite M0, M1, M2 in E.
  destruct (fu SP 128 s e) as [[o0 [s0 e0]]| | | |] eqn:E0; try easy.
  pose proof E0 as I0. apply fu_inv in I0 as (-> & _). cbn [obind fst snd] in E. destruct o0 as [t0|]; [|easy].
  destruct (Nat.ltb_spec (length t0) 1) as [|L0]; [easy|]. cbn [app] in E.
  destruct (forallb is_printable (firstn (length t0 - 1) t0)) eqn:V0; [|easy]. cbn [negb] in E.
  destruct (fu SP (h_max_url_size cfg) s0 e) as [[o1 [s1 e1]]| | | |] eqn:E1; try easy.
  pose proof E1 as I1. apply fu_inv in I1 as (-> & _). cbn [obind fst snd] in E. destruct o1 as [t1|]; [|easy].
  destruct (Nat.ltb_spec (length t1) 1) as [|L1]; [easy|].
  destruct (forallb is_printable (firstn (length t1 - 1) t1)) eqn:V1; [|easy]. cbn [negb] in E.
  unfold fl_line in E.
  destruct (fu LF 128 s1 e) as [[o2 [s2 e2]]| | | |] eqn:E2; try easy.
  pose proof E2 as I2. apply fu_inv in I2 as (-> & _). cbn [obind fst snd] in E. destruct o2 as [t2|]; [|easy].
  destruct (utf8_decode t2) as [u|] eqn:U2; [|easy]. cbn [obind fst snd] in E.
  destruct (Nat.ltb_spec (length t2) 3) as [|L2]; [easy|].
  destruct (forallb is_printable (firstn (length t2 - 2) t2)) eqn:V2; [|easy]. cbn [negb] in E.
  destruct (fl_lines fuel cfg s2 e (headers m0)) as [[[c h] [s3 e3]]| | | |] eqn:E3; try easy.
  cbn [obind] in E. injection E as -> <- -> ->.
  assert (e' = e) as -> by now apply fl_lines_shrink in E3.
  apply accepted_lines_at in E3 as (ls & A1 & A2 & A3); [|exact Hw].
  split; [reflexivity|]. split; [reflexivity|]. exists ls. cbn [fl0 fl1 fl2 headers]. split; [|exact A3].
  destruct (last1 t0 L0) as (x & T0), (last1 t1 L1) as (y & T1).
  destruct (last2 t2) as (z & w & T2); [lia|].
  apply fu_piece in E0, E1, E2. apply vchars_printable in V0, V1, V2.
  exists x, y, z, w, s0, s1, s2. rewrite <- T0, <- T1, <- T2. splits; auto.
  - intros Hn. apply (f_equal (@length _)) in Hn. rewrite firstn_length in Hn. simpl in Hn. lia.
  - apply (utf8_tail _ _ _ V2). rewrite <- T2. eauto.
Qed.

Lemma head_at_accepted : forall fuel cfg r me ta ve ls rest, enough fuel r ->
  head_at (fin r) (h_max_url_size cfg) (h_max_header_line_size cfg) (h_max_headers_count cfg) (flat r) me ta ve ls rest ->
  exists m r', read_headers fuel cfg r msg0 = Ret (RcOk, m, r')
    /\ flat r' = rest /\ fin r' = fin r
    /\ fl0 m = me /\ fl1 m = ta /\ fl2 m = ve /\ mbody m = body_default
    /\ mm_run (fun l => l) mm_new (fields_added (all_fields ls)) = Ret (headers m)
    /\ (Forall named_line ls -> forall n, mm_getall (headers m) (lower n) = Ret (lookup_of n (all_fields ls))).
Proof.
  intros fuel cfg r me ta ve ls rest Hf H.
  destruct (fl_accepts fuel cfg (flat r) (fin r) msg0 me ta ve ls rest Hf eq_refl eq_refl eq_refl new_wf H) as (h & F & R).
  apply read_flat_ret in F as (r' & F & F1 & F2). eexists _, r'. split; [exact F|].
  cbn [fl0 fl1 fl2 headers mbody]. splits; auto. intros Hn. apply run_lookup; auto using named_fields.
Qed.

Lemma accepted_head_at : forall fuel cfg r m r',
  read_headers fuel cfg r msg0 = Ret (RcOk, m, r') ->
  fin r' = fin r /\ exists ls,
  head_at (fin r) (h_max_url_size cfg) (h_max_header_line_size cfg) (h_max_headers_count cfg) (flat r)
    (fl0 m) (fl1 m) (fl2 m) ls (flat r')
  /\ mm_run (fun l => l) mm_new (fields_added (all_fields ls)) = Ret (headers m).
Proof.
  intros fuel cfg r m r' E. apply read_ret_flat in E.
  apply fl_accepted in E as (H1 & _ & H2); auto. apply new_wf.
Qed.

Lemma bad_terminator : forall fuel cfg r h c suffix,
  head_ok (h_max_url_size cfg) (h_max_header_line_size cfg) h -> hd_fields h = [] ->
  c <> LF -> (N_of_ascii c < 128)%N ->
  flat r = hd_method h ++ [SP] ++ hd_target h ++ [SP] ++ hd_version h ++ [c; LF] ++ CRLF ++ suffix -> enough fuel r ->
  exists m r', read_headers fuel cfg r msg0 = Ret (RcOk, m, r')
    /\ fl0 m = hd_method h /\ fl1 m = hd_target h /\ fl2 m = hd_version h /\ flat r' = suffix.
Proof.
  intros fuel cfg r h c suffix (H1 & H2 & H3 & H4 & H5 & H6 & _ & H8) _ Hc Hc2 Hr Hf.
  destruct (head_at_accepted fuel cfg r (hd_method h) (hd_target h) (hd_version h) [] suffix Hf)
    as (m & r' & E & E1 & _ & E2 & E3 & E4 & _); [|eauto 8].
  exists SP, SP, c, LF, (hd_target h ++ [SP] ++ hd_version h ++ [c; LF] ++ CRLF ++ suffix),
    (hd_version h ++ [c; LF] ++ CRLF ++ suffix), (CRLF ++ suffix). splits; auto using tokens_vchars.
  - split; [rewrite Hr, <- app_assoc; reflexivity|]. split; [rewrite app_length; simpl; lia|].
    left. exists (hd_method h). split; [easy|now apply tokens_no_sp].
  - split; [rewrite <- app_assoc; reflexivity|]. split; [rewrite app_length; simpl; lia|].
    left. exists (hd_target h). split; [easy|now apply tokens_no_sp].
  - split; [rewrite <- app_assoc; reflexivity|]. split; [rewrite app_length; simpl; lia|].
    left. exists (hd_version h ++ [c]). split; [rewrite <- app_assoc; reflexivity|].
    rewrite in_app_iff. intros [Hi|[Hi|[]]]; [|now apply Hc].
    now apply (vchars_no LF _ lf_not_vchar H5).
  - intros E. rewrite E in H6. simpl in H6. lia.
  - left. split; [easy|]. vm_compute. reflexivity.
  - apply (lines_end _ _ _ CR LF). split; [reflexivity|]. split; [simpl; lia|]. left. exists [CR]. split; [easy|].
    intros [E|[]]. now apply cr_not_lf.
Qed.

(** the empty line stands on its own, or after a line cut at the limit *)
Definition stands (limit : N) (p : bytes) : Prop :=
  (exists a, p = a ++ [LF]) \/ exists a t, p = a ++ t /\ ~ In LF t /\ (N.min 128 limit <= N.of_nat (length t))%N.
Lemma piece_stands e limit lim s t rest before : e <> Eof -> (N.min 128 limit <= lim)%N ->
  piece e LF lim s t rest -> stands limit (before ++ t).
Proof.
  intros He Hl (_ & _ & [(a & -> & _)|(Hn & [H|[_ H]])]); [| |contradiction].
  - left. exists (before ++ a). now rewrite app_assoc.
  - right. exists before, t. splits; auto. now rewrite H.
Qed.
Lemma lines_stand e limit s ls rest : lines_at e limit s ls rest -> e <> Eof -> (2 < limit)%N ->
  forall before, stands limit before ->
  exists pre c, before ++ s = pre ++ [c; LF] ++ rest /\ c <> LF /\ stands limit pre.
Proof.
  intros H He Hl. induction H as [s x y rest (-> & _ & H)|s l x y s' ls rest Hp Hg H IH]; intros before Hb.
  - destruct H as [(a & Ha & Hn)|(Hn & [H|[_ H]])]; [|simpl in H; lia|contradiction].
    destruct a as [|c [|c2 a]]; try discriminate; [|destruct a; discriminate]. injection Ha as -> ->.
    exists before, c. splits; auto. intros ->. apply Hn. now left.
  - destruct (IH (before ++ l ++ [x; y])) as (pre & c & E & Hc & Hs).
    { apply (piece_stands e limit limit s _ s'); auto. lia. }
    exists pre, c. splits; auto. rewrite <- E. destruct Hp as (-> & _). now rewrite !app_assoc.
Qed.
Lemma head_ends_line : forall fuel cfg r m r',
  (2 < h_max_header_line_size cfg)%N -> fin r <> Eof ->
  read_headers fuel cfg r msg0 = Ret (RcOk, m, r') ->
  exists pre c, flat r = pre ++ [c; LF] ++ flat r' /\ c <> LF
    /\ ((exists a, pre = a ++ [LF])
        \/ exists a t, pre = a ++ t /\ ~ In LF t
           /\ (N.min 128 (h_max_header_line_size cfg) <= N.of_nat (length t))%N).
Proof.
  intros fuel cfg r m r' Hl He E.
  destruct (accepted_head_at fuel cfg r m r' E) as (_ & ls & (x & y & z & w & s1 & s2 & s3 & P1 & _ & P2 & _ & P3 & _ & _ & _ & P4 & _) & _).
  set (limit := h_max_header_line_size cfg) in *.
  destruct (lines_stand _ limit _ _ _ P4 He Hl ((fl0 m ++ [x]) ++ (fl1 m ++ [y]) ++ fl2 m ++ [z; w])) as (pre & c & E2 & Hc & Hs).
  { rewrite app_assoc. apply (piece_stands (fin r) limit 128 s2 _ s3); auto. lia. }
  exists pre, c. splits; auto. rewrite <- E2. destruct P1 as (-> & _), P2 as (-> & _), P3 as (-> & _). now rewrite !app_assoc.
Qed.
End HeadA.
