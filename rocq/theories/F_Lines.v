(** Proofs for C127. *)
From Verif Require Export S_Lines S_Got F_HeadA F_Unamb.

Lemma skip_repeat i s : skip_spaces (repeat SP i ++ s) = skip_spaces s.
Proof.
  induction i as [|i IH]; [reflexivity|]. cbn [repeat app skip_spaces].
  destruct (ascii_dec SP SP); [exact IH|easy].
Qed.
Lemma repeat_snoc {A} (x : A) i : repeat x i ++ [x] = x :: repeat x i.
Proof. induction i; [reflexivity|]. cbn [repeat app]. now rewrite IHi. Qed.
Lemma rev_spaces i : rev (repeat SP i) = repeat SP i.
Proof. induction i; [reflexivity|]. cbn [repeat rev]. now rewrite IHi, repeat_snoc. Qed.
Lemma skip_app_spaces a j : rev (skip_spaces (rev (skip_spaces (a ++ repeat SP j)))) = rev (skip_spaces (rev (skip_spaces a))).
Proof.
  induction a as [|c a IH]; cbn [app skip_spaces].
  - rewrite <- (app_nil_r (repeat SP j)), skip_repeat. reflexivity.
  - destruct (ascii_dec c SP); [exact IH|].
    change (c :: a ++ repeat SP j) with ((c :: a) ++ repeat SP j). now rewrite rev_app_distr, rev_spaces, skip_repeat.
Qed.
Lemma strip_spaced i a j : strip (repeat SP i ++ a ++ repeat SP j) = strip a.
Proof. unfold strip. rewrite skip_repeat. apply skip_app_spaces. Qed.

Lemma no_colon_spaces i : ~ In COLON (repeat SP i).
Proof. intros H. apply repeat_spec in H. discriminate. Qed.

Lemma spaced_fields l l' : space_around l l' -> line_fields l' = line_fields l.
Proof.
  intros (i & j & a & v & Hc & ->). unfold line_fields. rewrite Hc.
  apply cut_colon_some in Hc as (-> & Hn).
  assert (E : cut_colon (repeat SP i ++ a ++ repeat SP j ++ COLON :: v) = Some (repeat SP i ++ a ++ repeat SP j, v)).
  { apply cut_colon_some. split; [now rewrite <- !app_assoc|]. rewrite !in_app_iff.
    pose proof (no_colon_spaces i). pose proof (no_colon_spaces j). tauto. }
  rewrite E. now rewrite strip_spaced.
Qed.
Lemma spaced_all ls ls' : Forall2 space_around ls ls' -> all_fields ls' = all_fields ls.
Proof. induction 1 as [|l l' ls ls' H _ IH]; [reflexivity|]. unfold all_fields in *. cbn [map concat]. now rewrite IH, (spaced_fields _ _ H). Qed.

Lemma lines_ended e limit suffix : (2 <= limit)%N -> forall ls,
  Forall (fun p => line_fits limit (fst p) /\ snd p <> LF) ls ->
  lines_at e limit (ended_lines ls ++ CRLF ++ suffix) (map fst ls) suffix.
Proof.
  intros H2. induction ls as [|[l x] ls IH]; intros H.
  - eapply lines_end with (x := CR) (y := LF). split; [reflexivity|]. split; [simpl; lia|]. left. exists [CR].
    split; [reflexivity|]. intros [E|[]]; discriminate.
  - inversion H as [|? ? ((Hg & Hl) & Hx) Hr]; subst. cbn [fst snd] in *. cbn [map fst].
    eapply lines_more with (x := x) (y := LF) (s' := ended_lines ls ++ CRLF ++ suffix); auto.
    split; [unfold ended_lines; cbn [map concat fst snd]; now rewrite <- !app_assoc|]. split; [rewrite app_length; simpl; lia|].
    left. exists (l ++ [x]). split; [now rewrite <- app_assoc|]. rewrite in_app_iff.
    intros [Hi|[Hi|[]]]; [|now apply Hx]. now apply (vchars_no LF l lf_not_vchar (proj1 (proj2 Hg))).
Qed.

Lemma head_ended_at e cfg h ls suffix :
  head_ok (h_max_url_size cfg) (h_max_header_line_size cfg) h -> (1 <= h_max_headers_count cfg)%N ->
  Forall (fun p => line_fits (h_max_header_line_size cfg) (fst p) /\ snd p <> LF) ls ->
  head_at e (h_max_url_size cfg) (h_max_header_line_size cfg) (h_max_headers_count cfg)
    (head_ended h ls ++ suffix) (hd_method h) (hd_target h) (hd_version h) (map fst ls) suffix.
Proof.
  intros (H1 & H2 & H3 & H4 & H5 & H6 & _ & H8) Hc Hl.
  exists SP, SP, CR, LF, (hd_target h ++ [SP] ++ hd_version h ++ CRLF ++ ended_lines ls ++ CRLF ++ suffix),
    (hd_version h ++ CRLF ++ ended_lines ls ++ CRLF ++ suffix), (ended_lines ls ++ CRLF ++ suffix).
  splits; auto using tokens_vchars.
  - split; [unfold head_ended, request_line; now rewrite <- !app_assoc|]. split; [rewrite app_length; simpl; lia|].
    left. exists (hd_method h). split; [easy|now apply tokens_no_sp].
  - split; [now rewrite <- app_assoc|]. split; [rewrite app_length; simpl; lia|].
    left. exists (hd_target h). split; [easy|now apply tokens_no_sp].
  - split; [now rewrite <- app_assoc|]. split; [rewrite app_length; simpl; lia|].
    left. exists (hd_version h ++ [CR]). split; [now rewrite <- app_assoc|].
    rewrite in_app_iff. intros [Hi|[Hi|[]]]; [|discriminate].
    now apply (vchars_no LF _ lf_not_vchar H5).
  - intros E. rewrite E in H6. simpl in H6. lia.
  - left. vm_compute. auto.
  - now apply lines_ended.
  - intros E. lia.
Qed.
Lemma ended_accepted (K : codec) fuel cfg r h ls suffix : enough fuel r ->
  head_ok (h_max_url_size cfg) (h_max_header_line_size cfg) h -> (1 <= h_max_headers_count cfg)%N ->
  Forall (fun p => line_fits (h_max_header_line_size cfg) (fst p) /\ snd p <> LF) ls ->
  flat r = head_ended h ls ++ suffix ->
  exists m r', read_headers fuel cfg r (@msg_default K) = Ret (RcOk, m, r')
    /\ flat r' = suffix /\ fin r' = fin r
    /\ fl0 m = hd_method h /\ fl1 m = hd_target h /\ fl2 m = hd_version h /\ mbody m = body_default
    /\ mm_run (fun l => l) mm_new (fields_added (all_fields (map fst ls))) = Ret (headers m)
    /\ (Forall named_line (map fst ls) -> forall n, mm_getall (headers m) (lower n) = Ret (lookup_of n (all_fields (map fst ls)))).
Proof. intros Hf Hh Hc Hl Hr. apply head_at_accepted; auto. rewrite Hr. now apply head_ended_at. Qed.

Lemma skip_id a : hd COLON a <> SP -> skip_spaces a = a.
Proof. destruct a as [|c a]; [reflexivity|]. cbn [hd skip_spaces]. now destruct (ascii_dec c SP). Qed.
Lemma last_rev_hd (a : bytes) d : hd d (rev a) = last a d.
Proof.
  induction a as [|c a IH] using rev_ind; [reflexivity|]. now rewrite rev_app_distr, last_last.
Qed.
Lemma strip_id a : hd COLON a <> SP -> last a COLON <> SP -> strip a = a.
Proof.
  intros H1 H2. unfold strip. rewrite (skip_id a H1), skip_id, rev_involutive; [reflexivity|]. now rewrite last_rev_hd.
Qed.
Lemma exact_all ls : Forall exact_line ls -> all_fields ls = exact_fields ls /\ Forall named_line ls.
Proof.
  induction 1 as [|l ls (a & v & Hc & Hn & H1 & H2) _ (IH & IH2)]; [now split|].
  unfold all_fields, exact_fields in *. cbn [map concat]. unfold line_fields at 1. rewrite IH, Hc, strip_id by easy.
  split; [easy|]. constructor; [|easy]. unfold named_line. rewrite Hc, strip_id; easy.
Qed.

(** ** A length cut short *)
Lemma digit_vchar c : digit c -> vchar c /\ c <> SP /\ c <> LF.
Proof.
  unfold digit, vchar. intros H. split; [lia|].
  assert (E : N_of_ascii SP = 32%N) by reflexivity. assert (E' : N_of_ascii LF = 10%N) by reflexivity.
  split; intros ->; lia.
Qed.
Lemma digits_strip v : Forall digit v -> strip (SP :: v) = v.
Proof.
  intros H. pose proof (strip_spaced 1 v 0) as E. cbn [repeat app] in E. rewrite app_nil_r in E. rewrite E.
  rewrite Forall_forall in H. apply strip_id.
  - destruct v as [|c v]; [discriminate|]. apply digit_vchar, H. now left.
  - destruct v as [|c v] using rev_ind; [discriminate|]. rewrite last_last. apply digit_vchar, H, in_app_iff. right. now left.
Qed.
Lemma length_cut v : cut_colon (length_line v) = Some (B "Content-Length", SP :: v).
Proof. apply cut_colon_some. split; [reflexivity|]. vm_compute. intuition discriminate. Qed.
Lemma length_good line v : numeral v (decimal v) -> (N.of_nat (length v) + 18 <= line)%N -> line_fits line (length_line v).
Proof.
  intros (Hn & Hd & _) Hl. split.
  - split; [discriminate|]. split.
    + unfold length_line. apply Forall_app. split; [|eapply Forall_impl; [|exact Hd]; intros c Hc; now apply digit_vchar].
      apply Forall_forall. intros c Hc. cbn in Hc. unfold vchar. repeat (destruct Hc as [<-|Hc]; [vm_compute; split; discriminate|]). easy.
    + rewrite length_cut. split; [vm_compute; lia|discriminate].
  - unfold length_line. rewrite app_length. change (length (B "Content-Length: ")) with 16. lia.
Qed.
Lemma length_announces v n : numeral v n -> (n < 2 ^ 64)%N -> announces [length_line v] n.
Proof.
  intros Hv Hn. pose proof Hv as (H1 & H2 & H3).
  assert (E : exists h, table_of [length_line v] h /\ mm_get h (B "content-length") = Ret (Some v)).
  { unfold table_of, all_fields, fields_added. cbn [map concat]. unfold line_fields. rewrite length_cut.
    cbn [app map fst snd]. rewrite digits_strip by easy.
    change (lower (strip (B "Content-Length"))) with (B "content-length").
    eexists. split; [vm_compute; reflexivity|]. vm_compute. reflexivity. }
  destruct E as (h & E1 & E2). exists h. split; [easy|]. right. exists v. auto.
Qed.

(** ** Lines that are refused *)
Lemma line_piece e limit l x s : ~ In LF l -> x <> LF -> (N.of_nat (length l) + 2 <= limit)%N ->
  piece e LF limit ((l ++ [x; LF]) ++ s) (l ++ [x; LF]) s.
Proof.
  intros Hn Hx Hl. split; [reflexivity|]. split; [rewrite app_length; simpl; lia|].
  left. exists (l ++ [x]). split; [now rewrite <- app_assoc|]. rewrite in_app_iff. intros [Hi|[Hi|[]]]; auto.
Qed.
Lemma bad_line e limit l ls2 : l <> [] -> ~ good_line l -> ~ In LF l -> (N.of_nat (length l) + 2 <= limit)%N ->
  forall ls1 tail ls rest, Forall (line_fits limit) ls1 ->
  ~ lines_at e limit (concat (map line_wire (ls1 ++ l :: ls2)) ++ tail) ls rest.
Proof.
  intros Hz Hb Hn Hl. induction ls1 as [|l1 ls1 IH]; intros tail ls rest Hf H;
    cbn [app map concat] in H; unfold line_wire at 1 in H; rewrite <- app_assoc in H.
  - pose proof (line_piece e limit l CR (concat (map line_wire ls2) ++ tail) Hn ltac:(discriminate) Hl) as P.
    inversion H as [? x y ? Hp|? l' x y s' ls' ? Hp Hg Hr]; subst; pose proof (piece_once _ _ _ _ _ _ _ _ P Hp) as (E & _).
    + change [x; y] with ([] ++ [x; y]) in E. apply two_ends in E. now apply Hz.
    + apply two_ends in E. now subst.
  - inversion Hf as [|? ? (Hg1 & Hl1) Hf']; subst.
    assert (Hn1 : ~ In LF l1) by (apply (vchars_no LF l1 lf_not_vchar (proj1 (proj2 Hg1)))).
    pose proof (line_piece e limit l1 CR (concat (map line_wire (ls1 ++ l :: ls2)) ++ tail) Hn1 ltac:(discriminate) Hl1) as P.
    inversion H as [? x y ? Hp|? l' x y s' ls' ? Hp Hg Hr]; subst; pose proof (piece_once _ _ _ _ _ _ _ _ P Hp) as (E & E2).
    + change [x; y] with ([] ++ [x; y]) in E. apply two_ends in E. now apply Hg1.
    + subst s'. now apply IH in Hr.
Qed.
Lemma bad_line_refused (K : codec) fuel cfg r h ls1 l ls2 suffix :
  head_ok (h_max_url_size cfg) (h_max_header_line_size cfg) h ->
  Forall (line_fits (h_max_header_line_size cfg)) ls1 ->
  l <> [] -> ~ good_line l -> ~ In LF l -> (N.of_nat (length l) + 2 <= h_max_header_line_size cfg)%N ->
  flat r = head_lines h (ls1 ++ l :: ls2) ++ suffix ->
  forall m q, read_headers fuel cfg r (@msg_default K) <> Ret (RcOk, m, q).
Proof.
  intros (H1 & H2 & H3 & H4 & H5 & H6 & _ & H8) Hf Hz Hb Hn Hl Hr m q E.
  apply accepted_head_at in E as (_ & ls & (x & y & z & w & s1 & s2 & s3 & P1 & _ & P2 & _ & P3 & _ & _ & _ & P4 & _) & _).
  unfold head_lines, request_line in Hr. rewrite <- !app_assoc in Hr. rewrite Hr in P1.
  set (tl := concat (map line_wire (ls1 ++ l :: ls2)) ++ CRLF ++ suffix) in *.
  assert (Q1 : piece (fin r) SP 128 (hd_method h ++ [SP] ++ hd_target h ++ [SP] ++ hd_version h ++ CRLF ++ tl)
     (hd_method h ++ [SP]) (hd_target h ++ [SP] ++ hd_version h ++ CRLF ++ tl)).
  { split; [now rewrite <- app_assoc|]. split; [rewrite app_length; simpl; lia|].
    left. exists (hd_method h). split; [easy|now apply tokens_no_sp]. }
  destruct (piece_once _ _ _ _ _ _ _ _ P1 Q1) as (_ & ->).
  assert (Q2 : piece (fin r) SP (h_max_url_size cfg) (hd_target h ++ [SP] ++ hd_version h ++ CRLF ++ tl)
     (hd_target h ++ [SP]) (hd_version h ++ CRLF ++ tl)).
  { split; [now rewrite <- app_assoc|]. split; [rewrite app_length; simpl; lia|].
    left. exists (hd_target h). split; [easy|now apply tokens_no_sp]. }
  destruct (piece_once _ _ _ _ _ _ _ _ P2 Q2) as (_ & ->).
  assert (Q3 : piece (fin r) LF 128 (hd_version h ++ CRLF ++ tl) (hd_version h ++ CRLF) tl).
  { split; [now rewrite <- app_assoc|]. split; [rewrite app_length; simpl; lia|].
    left. exists (hd_version h ++ [CR]). split; [now rewrite <- app_assoc|].
    rewrite in_app_iff. intros [Hi|[Hi|[]]]; [|discriminate]. now apply (vchars_no LF _ lf_not_vchar H5). }
  destruct (piece_once _ _ _ _ _ _ _ _ P3 Q3) as (_ & ->).
  now apply bad_line in P4.
Qed.
