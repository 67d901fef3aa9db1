(** Chunked bodies, codecs, body histories. *)
From Verif Require Export F_Body.

Lemma trim_by_end {A} (p : A -> bool) l x y : forallb (fun c => negb (p c)) l = true ->
  p x = true -> p y = true -> trim_by p (l ++ [x; y]) = l.
Proof.
  intros Hl Hx Hy. unfold trim_by.
  assert (Hd : forall t : list A, forallb (fun c => negb (p c)) t = true -> drop_while p t = t).
  { intros [|c t] H; [reflexivity|]. simpl in H. apply andb_true_iff in H as [H _]. simpl.
    now rewrite (proj1 (negb_true_iff _) H). }
  assert (Hr : forallb (fun c => negb (p c)) (rev l) = true).
  { apply forallb_forall. intros c Hc. apply in_rev in Hc. rewrite forallb_forall in Hl. auto. }
  destruct l as [|c l].
  - simpl. rewrite Hx. simpl. rewrite Hy. reflexivity.
  - assert (Hc : p c = false) by (simpl in Hl; apply andb_true_iff in Hl as [Hc _]; now apply negb_true_iff).
    cbn [app]. cbn [drop_while]. rewrite Hc. change (c :: l ++ [x; y]) with ((c :: l) ++ [x; y]).
    rewrite rev_app_distr. cbn [rev app]. cbn [drop_while]. rewrite Hy, Hx.
    change (rev l ++ [c]) with (rev (c :: l)).
    rewrite (Hd _ Hr). apply rev_involutive.
Qed.

Lemma hex_sweep b : hex_digit b -> vchar b /\ is_ws (code b) = false.
Proof.
  assert (H : forall b, implb (in_range 48 57 (code b) || in_range 97 102 (code b) || in_range 65 70 (code b))
    (is_printable b && negb (is_ws (code b))) = true).
  { apply byte_sweep. vm_compute. reflexivity. }
  intros Hb. specialize (H b).
  assert (E : (in_range 48 57 (code b) || in_range 97 102 (code b) || in_range 65 70 (code b)) = true).
  { unfold hex_digit, digit in Hb. unfold in_range, code. lia. }
  rewrite E in H. simpl in H. apply andb_true_iff in H as [H1 H2]. apply negb_true_iff in H2.
  split; [now apply vchar_printable|easy].
Qed.
Lemma digit_hex b : digit b -> hex_digit b.
Proof. now left. Qed.

Lemma size_text size : Forall hex_digit size ->
  utf8_decode (size ++ [CR; LF]) = Some (map code (size ++ [CR; LF]))
  /\ trim_by is_ws (map code (size ++ [CR; LF])) = map code size.
Proof.
  intros H. split.
  - apply line_utf8. eapply Forall_impl; [|exact H]. intros b Hb. now apply hex_sweep.
  - rewrite map_app. cbn [map]. apply trim_by_end; try reflexivity.
    apply forallb_forall. intros c Hc. apply in_map_iff in Hc as (b & <- & Hb).
    rewrite Forall_forall in H. apply H, hex_sweep in Hb as [_ ->]. reflexivity.
Qed.

Section Chunk.
Variable K : codec.
Notation message := (message K).
Notation body := (body K).

Lemma read_size size s r : Forall hex_digit size -> length size <= 126 ->
  flat r = size ++ CRLF ++ s ->
  exists r', read_line 128 r = Ret (Some (size ++ [CR; LF]), r') /\ flat r' = s /\ fin r' = fin r.
Proof.
  intros H Hl Hr. apply oflat_inv. rewrite read_line_flat, Hr.
  replace (size ++ CRLF ++ s) with (size ++ [CR; LF] ++ s) by reflexivity.
  apply fl_line_text; auto. eapply Forall_impl; [|exact H]. intros b Hb. now apply hex_sweep.
Qed.

Lemma read_crlf s r : flat r = CRLF ++ s ->
  exists r', read_line 2 r = Ret (Some CRLF, r') /\ flat r' = s /\ fin r' = fin r.
Proof.
  intros Hr. apply oflat_inv. rewrite read_line_flat, Hr. unfold fl_line.
  change (CRLF ++ s) with ([CR] ++ LF :: s). rewrite fu_found; [reflexivity| |unfold lenN; simpl; lia].
  intros [H|[]]. discriminate H.
Qed.

Lemma chunked_one fuel cap r (b : body) max size data rest buf : (0 < cap)%N -> enough fuel r ->
  numeral size (N.of_nat (length data)) -> length size <= 126 ->
  (N.of_nat (length data) < 2 ^ 64)%N -> (N.of_nat (length data) <= max)%N ->
  flat r = chunk size data ++ rest -> b_internal b = Some buf ->
  exists r', chunked_body fuel write_raw cap r b max
             = Ret (RcOk, Body (Some (buf ++ data)) (b_cw b), r')
    /\ flat r' = rest /\ fin r' = fin r.
Proof.
  intros Hc Hf Hn Hsl Hlt Hmax Hr Hb. unfold chunked_body.
  assert (Hhex : Forall hex_digit size) by (eapply Forall_impl; [apply digit_hex|apply Hn]).
  unfold chunk in Hr. rewrite <- !app_assoc in Hr.
  destruct (read_size size _ r Hhex Hsl Hr) as (r1 & E1 & F1 & G1). rewrite E1. cbn [obind fst snd].
  destruct (size_text size Hhex) as [E2 E3]. rewrite E2, E3.
  assert (E4 : parse_uint u64max (map code size) = Some (N.of_nat (length data))).
  { apply (numeral_parse size _ u64max Hn). change u64max with (2 ^ 64 - 1)%N. lia. }
  rewrite E4. destruct (max <? N.of_nat (length data))%N eqn:E5; [lia|].
  assert (Hf1 : enough fuel r1).
  { unfold enough in *. rewrite F1. rewrite Hr in Hf. rewrite !app_length in *. lia. }
  destruct (const_body_pieces K write_raw cap fuel data (CRLF ++ rest) r1 b Hc F1 Hf1)
    as (ps & r2 & E6 & Hps & _ & F2 & G2).
  unfold lenN in E6. rewrite E6, (pour_raw K ps b buf Hb). cbn [obind]. rewrite Hps.
  destruct (read_crlf rest r2 F2) as (r3 & E7 & F3 & G3). rewrite E7. cbn [obind fst snd].
  exists r3. splits; auto. congruence.
Qed.

Lemma normal_chunk : forall fuel cap r (m : message) cfg vs size data rest buf,
  (0 < cap)%N -> enough fuel r ->
  mm_getall (headers m) (B "transfer-encoding") = Ret (Some vs) -> In (B "chunked") vs ->
  numeral size (N.of_nat (length data)) -> length size <= 126 ->
  (N.of_nat (length data) < 2 ^ 64)%N -> (N.of_nat (length data) <= h_max_body_size cfg)%N ->
  flat r = chunk size data ++ rest -> b_internal (mbody m) = Some buf ->
  exists m' r', read_body_normal fuel cap r m cfg = Ret (RcOk, m', r')
    /\ same_but_body m m' /\ b_internal (mbody m') = Some (buf ++ data)
    /\ flat r' = rest /\ fin r' = fin r.
Proof.
  intros fuel cap r m cfg vs size data rest buf Hc Hf Ht Hin Hn Hsl Hlt Hmax Hr Hb.
  destruct (chunked_one fuel cap r (mbody m) (h_max_body_size cfg) size data rest buf Hc Hf Hn Hsl Hlt Hmax Hr Hb)
    as (r' & E & H1 & H2).
  unfold read_body_normal. rewrite Ht. cbn [obind].
  assert (header_contains (Some vs) (B "chunked") = true) as ->.
  { cbn [header_contains]. apply existsb_exists. exists (B "chunked"). split; [easy|reflexivity]. }
  unfold read_chunked_body. rewrite E. cbn [obind].
  eexists _, r'. splits; try reflexivity; auto. repeat split.
Qed.

Lemma dec_aux_length fuel n : forall acc, length (dec_aux fuel n acc) <= fuel + length acc.
Proof.
  revert n; induction fuel as [|f IH]; intros n acc; cbn [dec_aux]; [lia|].
  destruct (n / 10 =? 0)%N; [cbn [length]; lia|]. etransitivity; [apply IH|]. cbn [length]. lia.
Qed.
Lemma dec_length n : (n < 2 ^ 64)%N -> length (dec n) <= 66.
Proof.
  intros H. unfold dec. etransitivity; [apply dec_aux_length|]. cbn [length].
  assert (N.size_nat n <= 64); [|lia].
  destruct n as [|p]; [simpl; lia|].
  rewrite <- (Nat2N.id (N.size_nat (N.pos p))).
  assert (Hs : N.of_nat (N.size_nat (N.pos p)) = N.size (N.pos p)).
  { simpl. clear H. induction p as [p IH|p IH|]; cbn [Pos.size_nat Pos.size]; lia. }
  rewrite Hs. rewrite N.size_log2 by lia.
  assert (N.log2 (N.pos p) < 64)%N; [|lia].
  apply N.log2_lt_pow2; [lia|exact H].
Qed.

Lemma first_chunk_only : forall fuel cap r (m : message) cfg vs d ds rest buf,
  (0 < cap)%N -> enough fuel r ->
  mm_getall (headers m) (B "transfer-encoding") = Ret (Some vs) -> In (B "chunked") vs ->
  (N.of_nat (length d) < 2 ^ 64)%N -> (N.of_nat (length d) <= h_max_body_size cfg)%N ->
  flat r = chunk (dec (N.of_nat (length d))) d ++ rest -> b_internal (mbody m) = Some buf ->
  rest = chunks ds ++ chunk (B "0") [] ->
  exists m' r', read_body_normal fuel cap r m cfg = Ret (RcOk, m', r')
    /\ b_internal (mbody m') = Some (buf ++ d) /\ flat r' = rest.
Proof.
  intros fuel cap r m cfg vs d ds rest buf Hc Hf Ht Hin Hlt Hmax Hr Hb _.
  destruct (normal_chunk fuel cap r m cfg vs _ d rest buf Hc Hf Ht Hin (numeral_dec _)
              ltac:(pose proof (dec_length _ Hlt); lia) Hlt Hmax Hr Hb) as (m' & r' & E & _ & H1 & H2 & _).
  exists m', r'. auto.
Qed.

Lemma hex_refused : forall fuel cap r (m : message) cfg vs size rest c,
  mm_getall (headers m) (B "transfer-encoding") = Ret (Some vs) -> In (B "chunked") vs ->
  Forall hex_digit size -> length size <= 126 -> In c size -> ~ digit c ->
  flat r = size ++ CRLF ++ rest ->
  exists r', read_body_normal fuel cap r m cfg = Ret (RcBadChunkSize, m, r').
Proof.
  intros fuel cap r m cfg vs size rest c Ht Hin Hh Hl Hc Hd Hr.
  unfold read_body_normal. rewrite Ht. cbn [obind].
  assert (header_contains (Some vs) (B "chunked") = true) as ->.
  { cbn [header_contains]. apply existsb_exists. exists (B "chunked"). split; [easy|reflexivity]. }
  unfold read_chunked_body, chunked_body.
  destruct (read_size size _ r Hh Hl Hr) as (r1 & E1 & F1 & G1). rewrite E1. cbn [obind fst snd].
  destruct (size_text size Hh) as [E2 E3]. rewrite E2, E3.
  destruct (parse_uint u64max (map code size)) as [n|] eqn:E4.
  - exfalso. apply (parse_numeral size n u64max) in E4 as [_ [(_ & Hn & _)|(t & -> & (_ & Hn & _))]].
    + rewrite Forall_forall in Hn. auto.
    + inversion Hh as [|? ? H1 H2]; subst. unfold hex_digit, digit in H1.
      change (N_of_ascii PLUS) with 43%N in H1. lia.
  - cbn [obind]. exists r1. destruct m; reflexivity.
Qed.

(** ** C32: clear *)
Lemma clear_keeps : forall (b : body) buf, b_internal b = Some buf -> b_cw b = None ->
  b_internal (body_clear b) = Some buf.
Proof. intros [i c] buf H1 H2. cbn [b_internal b_cw] in *. subst. reflexivity. Qed.

Lemma clear_after_failed_end : forall (b : body) c d, b_internal b = None -> b_cw b = Some c ->
  c_expose K c = None ->
  b_run b [BEnd; BClear; BWrite d] = Panic.
Proof.
  intros [i o] c d H1 H2 H3. cbn [b_internal b_cw] in *. subst.
  cbn [b_run b_step obind]. unfold body_end. cbn [b_cw]. rewrite H3. reflexivity.
Qed.

Definition sound (b : body) : Prop :=
  (b_internal b <> None /\ b_cw b = None) \/ (b_internal b = None /\ b_cw b <> None).
Lemma sound_run : no_failure K -> forall l b b', sound b -> b_run b l = Ret b' -> sound b'.
Proof.
  intros Hnf. induction l as [|o l IH]; intros b b' Hs; cbn [b_run].
  - now intros [= <-].
  - destruct (b_step b o) as [b1| | | |] eqn:E; try easy. cbn [obind]. apply IH.
    destruct o; cbn [b_step] in E.
    + unfold body_write in E. destruct b as [[i|] [c|]]; cbn in *; unfold sound in *; cbn in *.
      * injection E as <-. cbn. destruct Hs as [[_ H]|[H _]]; easy.
      * injection E as <-. cbn. left. easy.
      * destruct (c_append K c d) as [c' n]. injection E as <-. cbn. right. easy.
      * easy.
    + unfold body_compression in E. destruct b as [[i|] c]; cbn in *; [|easy]. injection E as <-.
      right. cbn. easy.
    + unfold body_decompression in E. destruct b as [[i|] c]; cbn in *; [|easy]. injection E as <-.
      right. cbn. easy.
    + injection E as <-. unfold body_end. destruct b as [i [c|]]; cbn in *.
      * destruct (c_expose K c) eqn:Ee; [|now apply Hnf in Ee]. left. cbn. easy.
      * exact Hs.
    + injection E as <-. unfold body_clear, body_end. destruct b as [i [c|]]; cbn in *.
      * destruct (c_expose K c) eqn:Ee; [|now apply Hnf in Ee]. left. cbn. easy.
      * exact Hs.
Qed.
Lemma clear_accepts_writes : no_failure K -> forall l (b : body) d,
  b_run body_default l = Ret b ->
  exists buf, b_internal (body_clear b) = Some buf
    /\ body_write (body_clear b) d = Ret (Body (Some (buf ++ d)) None, Some (length d)).
Proof.
  intros Hnf l b d Hr.
  assert (Hs : sound b). { eapply sound_run; eauto. left. split; easy. }
  destruct b as [i [c|]]; unfold body_clear, body_end; cbn [b_cw].
  - destruct (c_expose K c) as [buf|] eqn:Ee; [|now apply Hnf in Ee].
    exists buf. cbn. easy.
  - destruct Hs as [[H _]|[_ H]]; cbn in H; [|easy]. destruct i as [buf|]; [|easy].
    exists buf. cbn. easy.
Qed.

(** what survives a clear, for every history of writes before it *)
Lemma writes_survive : forall ds (b : body), b_run body_default (map BWrite ds) = Ret b ->
  b_internal (body_clear b) = Some (concat ds).
Proof.
  assert (H : forall ds (b b' : body) buf, b = Body (Some buf) None ->
    b_run b (map BWrite ds) = Ret b' -> b' = Body (Some (buf ++ concat ds)) None).
  { induction ds as [|d ds IH]; intros b b' buf ->; cbn [map b_run concat].
    - rewrite app_nil_r. now intros [= <-].
    - cbn [b_step]. unfold body_write. cbn [b_internal obind fst b_cw]. intros E.
      eapply IH in E; [|reflexivity]. now rewrite <- app_assoc in E. }
  intros ds b E. eapply H in E; [|reflexivity]. subst b. reflexivity.
Qed.

(** ** C33: encoding *)
Lemma encoded : forall enc, streams K enc -> forall ct level pre ps,
  exists b : body, b_run (Body (Some pre) None) (BCompress ct level :: map BWrite ps) = Ret b
    /\ b_cw b <> None
    /\ body_end b = (Body (Some (pre ++ enc ct (enc_level ct level) (concat ps))) None, true).
Proof.
  intros enc (st & H1 & H2 & H3) ct level pre ps.
  cbn [b_run b_step]. unfold body_compression. cbn [b_internal obind].
  assert (Hrun : forall ps c fed, st c = (pre, ct, enc_level ct level, fed) ->
    exists c', b_run (Body None (Some c)) (map BWrite ps) = Ret (Body None (Some c'))
      /\ st c' = (pre, ct, enc_level ct level, fed ++ concat ps)).
  { clear -H2. induction ps as [|p ps IH]; intros c fed Hc; cbn [map b_run concat].
    - exists c. rewrite app_nil_r. auto.
    - cbn [b_step]. unfold body_write. cbn [b_internal b_cw].
      destruct (H2 c p _ _ _ _ Hc) as [_ H]. destruct (c_append K c p) as [c' n]. cbn [obind fst] in *.
      destruct (IH _ _ H) as (c2 & E & Hc2). exists c2. rewrite app_assoc. auto. }
  destruct (Hrun ps _ [] (H1 ct (enc_level ct level) pre)) as (c & E & Hc). cbn [app] in Hc.
  apply H3 in Hc. exists (Body None (Some c)). splits; auto; [discriminate|].
  unfold body_end. cbn [b_cw]. now rewrite Hc.
Qed.

(** ** C34: decoding *)
Lemma decoder_gets_all : forall got, takes K got -> takes_all K ->
  forall fuel cap r (m : message) c data rest, (0 < cap)%N -> enough fuel r ->
  flat r = data ++ rest -> mbody m = Body None (Some c) ->
  exists m' r' c', read_const_length_body_decompression fuel cap r m (N.of_nat (length data)) = Ret (RcOk, m', r')
    /\ mbody m' = Body None (Some c') /\ got c' = got c ++ data.
Proof.
  intros got Ht Ha fuel cap r m c data rest Hc Hf Hr Hb.
  destruct (decompressing_exact K fuel cap r m c data rest Hc Hf Hr Hb) as (m' & r' & ps & E & Hps & _ & Hm & _).
  eexists m', r', _. split; [exact E|]. split; [exact Hm|]. subst data. clear -Ht Ha.
  revert c. induction ps as [|p ps IH]; intros c; cbn [fold_left concat]; [now rewrite app_nil_r|].
  rewrite IH. destruct (Ht c p) as (n & Hn & Hg). rewrite Ha in Hn. injection Hn as <-.
  rewrite Hg, firstn_all. now rewrite app_assoc.
Qed.
End Chunk.

Lemma sipping_takes : takes sipping (fun s => s).
Proof. intros c d. exists 1. auto. Qed.
Lemma decoder_loses : forall fuel cap s data (m : message sipping) (c : bytes) rest,
  (N.of_nat (length data) <= cap)%N -> 2 <= length data -> length data < fuel ->
  mbody m = @Body sipping None (Some c) -> s = data ++ rest ->
  exists m' r', read_const_length_body_decompression fuel cap (Rd [s] Stall) m (N.of_nat (length data))
                = Ret (RcOk, m', r')
    /\ mbody m' = @Body sipping None (Some (c ++ firstn 1 data)).
Proof.
  intros fuel cap s data m c rest Hc Hl Hf Hb ->.
  unfold read_const_length_body_decompression, const_body.
  destruct (N.of_nat (length data) <? 1)%N eqn:E; [lia|]. destruct fuel as [|f]; [lia|].
  cbn [const_body_loop].
  assert ((if (N.of_nat (length data) <? cap)%N then N.of_nat (length data) else cap) = N.of_nat (length data)) as ->.
  { destruct (N.of_nat (length data) <? cap)%N eqn:E2; lia. }
  unfold rd_read. cbn [segs fin rd_segs]. destruct (data ++ rest) as [|x y] eqn:Ed.
  { destruct data; [simpl in Hl; lia|discriminate]. }
  rewrite <- Ed. pose proof (splitN_app data rest) as Hs. unfold lenN in Hs. rewrite Hs. cbn [obind fst snd].
  rewrite Hb. unfold write_compression, body_write. cbn [b_internal b_cw sipping c_append obind fst].
  unfold lenN. rewrite N.sub_diag. change (0 <? 1)%N with true. cbn [obind].
  eexists _, _. split; reflexivity.
Qed.
