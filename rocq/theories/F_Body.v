(** Bodies: exact reading, limits, chunks, codecs. *)
From Verif Require Export F_HeadT S_Body.

Lemma decimal_dvalue s : decimal s = dvalue (map code s).
Proof.
  unfold decimal, dvalue. generalize 0%N as v. induction s as [|c s IH]; intros v; [reflexivity|].
  cbn [fold_left map]. rewrite <- IH. f_equal. unfold code. lia.
Qed.
Lemma digits_bool s : Forall digit s <-> forallb is_digit (map code s) = true.
Proof.
  induction s as [|c s IH]; simpl; [split; auto|]. rewrite andb_true_iff, <- IH. unfold is_digit, in_range, code.
  split.
  - intros H. inversion H as [|? ? H1 H2]; subst. unfold digit in H1. split; [lia|easy].
  - intros [H1 H2]. constructor; [unfold digit; lia|easy].
Qed.

Lemma numeral_parse s n max : numeral s n -> (n <= max)%N -> parse_uint_b max s = Some n.
Proof.
  intros (H1 & H2 & H3) Hm. apply parse_uint_spec. exists (map code s). splits.
  - auto.
  - destruct s; [congruence|discriminate].
  - now apply digits_bool.
  - now rewrite <- decimal_dvalue.
  - exact Hm.
Qed.
Lemma map_code_inv s t : map code s = map code t -> s = t.
Proof.
  revert t; induction s as [|a s IH]; intros [|b t]; simpl; try easy. intros [= H1 H2].
  apply code_inj in H1. subst. f_equal. auto.
Qed.
Lemma parse_numeral s n max : parse_uint_b max s = Some n ->
  (n <= max)%N /\ (numeral s n \/ exists t, s = PLUS :: t /\ numeral t n).
Proof.
  intros H. apply parse_uint_spec in H as (ds & Hs & Hne & Hd & Hv & Hm). split; [easy|].
  destruct Hs as [Hs|Hs].
  - left. subst ds. unfold numeral. splits.
    + intros ->. easy.
    + now apply digits_bool.
    + now rewrite decimal_dvalue.
  - right. destruct s as [|a t]; [easy|]. cbn [map] in Hs. injection Hs as Ha Hs. subst ds.
    exists t. split.
    + f_equal. apply code_inj. exact Ha.
    + unfold numeral. splits.
      * intros ->. easy.
      * now apply digits_bool.
      * now rewrite decimal_dvalue.
Qed.
Lemma numeral_fun s n n' : numeral s n -> numeral s n' -> n = n'.
Proof. intros (_ & _ & <-) (_ & _ & <-). reflexivity. Qed.
Lemma numeral_dec n : numeral (dec n) n.
Proof.
  destruct (dec_value n) as (H1 & H2 & H3). unfold numeral. splits; [easy|now apply digits_bool|].
  now rewrite decimal_dvalue.
Qed.

Section Body.
Variable K : codec.
Notation message := (message K).
Notation body := (body K).

(** ** any sink *)
Fixpoint pour (w : body -> bytes -> outcome body) (b : body) (ps : list bytes) : outcome body :=
  match ps with [] => Ret b | p :: r => b' <- w b p ;; pour w b' r end.

Lemma const_body_loop_pieces w cap data rest : (0 < cap)%N ->
  forall fuel (r : reader) (b : body),
  flat r = data ++ rest -> data <> [] -> length data < fuel ->
  exists ps r', const_body_loop fuel w cap r b (lenN data)
                = (b' <- pour w b ps ;; Ret (RcOk, b', r'))
    /\ concat ps = data /\ Forall (fun p => p <> []) ps /\ flat r' = rest /\ fin r' = fin r.
Proof.
  intros Hc fuel. revert data. induction fuel as [|f IH]; intros data r b Hr Hd Hf; [lia|].
  cbn [const_body_loop].
  destruct (rd_read_spec (if (lenN data <? cap)%N then lenN data else cap) r) as
    [(Hn & E)|(a & r1 & E & Hfl & Hfin & Ha)].
  { assert (0 < lenN data)%N by (destruct data; [easy|unfold lenN; cbn [length]; lia]).
    destruct (lenN data <? cap)%N; lia. }
  - exfalso. rewrite Hr in Hn. now destruct data.
  - rewrite E. cbn [obind fst snd].
    assert (Hle : length a <= length data).
    { unfold lenN in *. destruct (N.of_nat (length data) <? cap)%N eqn:El; lia. }
    rewrite Hr in Hfl.
    assert (exists d', data = a ++ d' /\ flat r1 = d' ++ rest) as (d' & Hd1 & Hd2).
    { apply app_eq_app in Hfl as (l & [[H1 H2]|[H1 H2]]).
      - exists l. auto.
      - subst a. rewrite app_length in Hle. assert (Hl0 : length l = 0) by lia. apply length_zero_iff_nil in Hl0. subst l.
        exists []. rewrite !app_nil_r. split; [easy|]. symmetry. exact H2. }
    subst data. rewrite lenN_app. replace (lenN a + lenN d' - lenN a)%N with (lenN d') by lia.
    destruct d' as [|c d'].
    + exists [a], r1. cbn [pour lenN length]. change (lenN (@nil byte) <? 1)%N with true. cbn iota. splits.
      * destruct (w b a); reflexivity.
      * reflexivity.
      * constructor; [|constructor]. intros ->. unfold lenN in Ha. simpl in Ha. lia.
      * exact Hd2.
      * exact Hfin.
    + assert ((lenN (c :: d') <? 1)%N = false) as Hlt by (unfold lenN; cbn [length]; lia).
      assert (a <> []) as Hna. { intros ->. unfold lenN in Ha. simpl in Ha. lia. }
      assert (Hl : length (c :: d') < f).
      { rewrite app_length in Hf. destruct a; [easy|]. cbn [length] in *. lia. }
      destruct (w b a) as [b1| | | |] eqn:Ew; cbn [obind].
      2-5: exists [a; c :: d'], (Rd [rest] (fin r)); cbn [pour]; rewrite Ew; cbn [obind]; splits; try easy;
        [ cbn [concat]; now rewrite app_nil_r
        | constructor; [easy|]; constructor; [easy|constructor]
        | unfold flat; cbn [segs concat]; now rewrite app_nil_r ].
      destruct (IH (c :: d') r1 b1 Hd2 ltac:(easy) Hl) as (ps & r' & E2 & Hps & Hne & Hf1 & Hf2).
      exists (a :: ps), r'. rewrite Hlt, E2. cbn [pour]. rewrite Ew. cbn [obind concat]. splits.
      * reflexivity.
      * now rewrite Hps.
      * constructor; easy.
      * exact Hf1.
      * congruence.
Qed.

Lemma const_body_pieces w cap fuel data rest (r : reader) (b : body) : (0 < cap)%N ->
  flat r = data ++ rest -> enough fuel r ->
  exists ps r', const_body fuel w cap r b (lenN data) = (b' <- pour w b ps ;; Ret (RcOk, b', r'))
    /\ concat ps = data /\ Forall (fun p => p <> []) ps /\ flat r' = rest /\ fin r' = fin r.
Proof.
  intros Hc Hr Hf. unfold const_body. destruct data as [|c d].
  - exists [], r. change (lenN (@nil byte) <? 1)%N with true. cbn [pour obind]. splits; auto.
  - assert ((lenN (c :: d) <? 1)%N = false) as -> by (unfold lenN; cbn [length]; lia).
    apply const_body_loop_pieces; try easy. unfold enough in Hf. rewrite Hr, app_length in Hf. lia.
Qed.

Lemma pour_raw ps : forall (b : body) buf, b_internal b = Some buf ->
  pour write_raw b ps = Ret (Body (Some (buf ++ concat ps)) (b_cw b)).
Proof.
  induction ps as [|p ps IH]; intros [i c] buf Hb; cbn [b_internal b_cw] in *; subst i.
  - cbn [pour concat]. now rewrite app_nil_r.
  - cbn [pour]. unfold write_raw, body_write_all_to_internal at 1. cbn [b_internal obind b_cw].
    fold (@write_raw K). rewrite (IH _ (buf ++ p)) by reflexivity. cbn [concat b_cw]. now rewrite app_assoc.
Qed.

Definition feed (c : cstate K) (ps : list bytes) : cstate K :=
  fold_left (fun c p => fst (c_append K c p)) ps c.
Lemma pour_compression ps : forall c,
  pour write_compression (Body None (Some c)) ps = Ret (Body None (Some (feed c ps))).
Proof.
  induction ps as [|p ps IH]; intros c; [reflexivity|]. cbn [pour].
  unfold write_compression, body_write at 1. cbn [b_internal b_cw obind].
  destruct (c_append K c p) as [c' n] eqn:E. cbn [obind fst]. fold (@write_compression K). rewrite IH.
  unfold feed. cbn [fold_left]. rewrite E. reflexivity.
Qed.

(** ** C10 *)
Lemma content_length_of (m : message) v n :
  mm_get (headers m) (B "content-length") = Ret (Some v) -> numeral v n -> (n < 2 ^ 64)%N ->
  get_content_length m = Ret (Some n).
Proof.
  intros Hg Hn Hlt. unfold get_content_length. rewrite Hg. cbn [obind].
  rewrite (numeral_parse v n); [reflexivity|easy|]. change u64max with (2 ^ 64 - 1)%N. lia.
Qed.

Lemma raw_exact fuel cap r (m : message) data rest buf : (0 < cap)%N -> enough fuel r ->
  flat r = data ++ rest -> b_internal (mbody m) = Some buf ->
  exists m' r', read_const_length_raw fuel cap r m (lenN data) = Ret (RcOk, m', r')
    /\ same_but_body m m' /\ b_internal (mbody m') = Some (buf ++ data) /\ b_cw (mbody m') = b_cw (mbody m)
    /\ flat r' = rest /\ fin r' = fin r.
Proof.
  intros Hc Hf Hr Hb.
  destruct (const_body_pieces write_raw cap fuel data rest r (mbody m) Hc Hr Hf)
    as (ps & r' & E & Hps & _ & H1 & H2).
  exists (with_body m (Body (Some (buf ++ data)) (b_cw (mbody m)))), r'.
  unfold read_const_length_raw. rewrite E, (pour_raw ps _ buf Hb). cbn [obind]. rewrite Hps.
  splits; auto. repeat split.
Qed.

Lemma body_exact : forall fuel cap r (m : message) v data rest buf, (0 < cap)%N -> enough fuel r ->
  mm_get (headers m) (B "content-length") = Ret (Some v) ->
  numeral v (N.of_nat (length data)) -> (N.of_nat (length data) < 2 ^ 64)%N ->
  flat r = data ++ rest -> b_internal (mbody m) = Some buf ->
  exists m' r', read_const_length_body fuel cap r m = Ret (RcOk, m', r')
    /\ same_but_body m m' /\ b_internal (mbody m') = Some (buf ++ data)
    /\ flat r' = rest /\ fin r' = fin r.
Proof.
  intros fuel cap r m v data rest buf Hc Hf Hg Hn Hlt Hr Hb.
  unfold read_const_length_body. rewrite (content_length_of m v _ Hg Hn Hlt). cbn [obind].
  destruct (raw_exact fuel cap r m data rest buf Hc Hf Hr Hb) as (m' & r' & E & H1 & H2 & _ & H3 & H4).
  exists m', r'. unfold lenN in E. rewrite E. splits; auto.
Qed.

Lemma no_length_no_body : forall fuel cap r (m : message),
  mm_get (headers m) (B "content-length") = Ret None ->
  read_const_length_body fuel cap r m = Ret (RcOk, m, r).
Proof.
  intros fuel cap r m Hg. unfold read_const_length_body, get_content_length. rewrite Hg. cbn [obind].
  unfold read_const_length_raw, const_body. cbn [obind]. destruct m; reflexivity.
Qed.

Lemma decompressing_exact : forall fuel cap r (m : message) c data rest, (0 < cap)%N -> enough fuel r ->
  flat r = data ++ rest -> mbody m = Body None (Some c) ->
  exists m' r' ps, read_const_length_body_decompression fuel cap r m (N.of_nat (length data)) = Ret (RcOk, m', r')
    /\ concat ps = data /\ same_but_body m m'
    /\ mbody m' = Body None (Some (fold_left (fun c p => fst (c_append K c p)) ps c))
    /\ flat r' = rest /\ fin r' = fin r.
Proof.
  intros fuel cap r m c data rest Hc Hf Hr Hb.
  destruct (const_body_pieces write_compression cap fuel data rest r (mbody m) Hc Hr Hf)
    as (ps & r' & E & Hps & _ & H1 & H2).
  exists (with_body m (Body None (Some (feed c ps)))), r', ps.
  unfold lenN in E. unfold read_const_length_body_decompression. rewrite E, Hb, pour_compression. cbn [obind].
  splits; auto. repeat split.
Qed.

(** ** C11 *)
Lemma truncated_body : forall fuel cap r (m : message) v n buf, (0 < cap)%N ->
  mm_get (headers m) (B "content-length") = Ret (Some v) -> numeral v n -> (n < 2 ^ 64)%N ->
  (N.of_nat (length (flat r)) < n)%N -> fin r = Eof -> b_internal (mbody m) = Some buf ->
  read_const_length_body fuel cap r m = NoFuel.
Proof.
  intros fuel cap r m v n buf Hc Hg Hn Hlt Hl He Hb.
  unfold read_const_length_body. rewrite (content_length_of m v _ Hg Hn Hlt). cbn [obind].
  unfold read_const_length_raw, const_body. destruct (n <? 1)%N eqn:E; [lia|].
  rewrite const_body_loop_eof; auto. now rewrite Hb.
Qed.

Lemma broken_body : forall fuel cap r (m : message) v n buf, (0 < cap)%N -> enough fuel r ->
  mm_get (headers m) (B "content-length") = Ret (Some v) -> numeral v n -> (n < 2 ^ 64)%N ->
  (N.of_nat (length (flat r)) < n)%N -> b_internal (mbody m) = Some buf ->
  match fin r with
  | Eof => True
  | IoErr => exists m' r', read_const_length_body fuel cap r m = Ret (RcConnReadError, m', r')
  | Stall => read_const_length_body fuel cap r m = Blocked
  end.
Proof.
  intros fuel cap r m v n buf Hc Hf Hg Hn Hlt Hl Hb.
  pose proof (read_const_body_flat K cap fuel r m Hc Hf) as E.
  unfold fl_const_body in E. rewrite (content_length_of m v _ Hg Hn Hlt) in E. cbn [obind] in E.
  unfold fl_length_raw, fl_raw in E. rewrite Hb in E.
  destruct (n <? 1)%N eqn:E1; [lia|]. unfold lenN in E.
  destruct (n <=? N.of_nat (length (flat r)))%N eqn:E2; [lia|].
  destruct (fin r) eqn:Ef; [easy| |].
  - cbn [obind] in E. apply oflat_inv in E as (r' & E & _). eauto.
  - cbn [obind] in E. destruct (read_const_length_body fuel cap r m) as [[? ?]| | | |]; simpl in E; easy.
Qed.

(** ** C12 *)
Lemma const_body_loop_bound cap : forall fuel (r : reader) (b : body) n c b' r' buf,
  b_internal b = Some buf -> const_body_loop fuel write_raw cap r b n = Ret (c, b', r') -> (1 <= n)%N ->
  exists d, b_internal b' = Some (buf ++ d) /\ (lenN d <= n)%N.
Proof.
  induction fuel as [|f IH]; intros r b n c b' r' buf Hb; [easy|]. cbn [const_body_loop].
  destruct (rd_read (if (n <? cap)%N then n else cap) r) as [[[a|] r1]| | | |] eqn:E; try easy; cbn [obind fst snd].
  - intros H Hn.
    assert (Ha : (lenN a <= n)%N).
    { destruct (if (n <? cap)%N then n else cap) as [|p] eqn:Ek.
      - (* a read of nothing *)
        assert (a = []) as ->; [|unfold lenN; simpl; lia].
        clear -E. unfold rd_read in E. revert E. induction (segs r) as [|s ss IHs]; simpl.
        + destruct (fin r); simpl; try easy. now intros [= <- _].
        + destruct s; [apply IHs|]. simpl. now intros [= <- _].
      - destruct (rd_read_spec (N.pos p) r ltac:(lia)) as [(Hn0 & E2)|(a' & r2 & E2 & _ & _ & Ha)];
          rewrite E in E2.
        + destruct (fin r); try easy. injection E2 as -> _. unfold lenN. simpl. lia.
        + injection E2 as -> _. destruct (n <? cap)%N eqn:El; lia. }
    revert H. unfold write_raw, body_write_all_to_internal at 1. rewrite Hb. cbn [obind]. fold (@write_raw K).
    destruct (n - lenN a <? 1)%N eqn:E1.
    + intros [= <- <- <-]. exists a. cbn [b_internal]. split; [easy|exact Ha].
    + intros H. eapply (IH _ _ _ _ _ _ (buf ++ a)) in H as (d & Hd & Hl); [|reflexivity|lia].
      exists (a ++ d). rewrite app_assoc. split; [easy|]. rewrite lenN_app. lia.
  - intros [= <- <- <-] _. exists []. rewrite app_nil_r. split; [easy|]. unfold lenN. simpl. lia.
Qed.

Lemma const_body_bound cap fuel (r : reader) (b : body) n c b' r' buf :
  b_internal b = Some buf -> const_body fuel write_raw cap r b n = Ret (c, b', r') ->
  exists d, b_internal b' = Some (buf ++ d) /\ (lenN d <= n)%N.
Proof.
  intros Hb. unfold const_body. destruct (n <? 1)%N eqn:E.
  - intros [= <- <- <-]. exists []. rewrite app_nil_r. split; [easy|]. unfold lenN. simpl. lia.
  - intros H. eapply const_body_loop_bound in H; eauto. lia.
Qed.

(** whatever happens, the size-checked reader stores at most max_body_size bytes *)
Lemma normal_bound : forall fuel cap r (m : message) cfg c m' r' buf,
  b_internal (mbody m) = Some buf ->
  read_body_normal fuel cap r m cfg = Ret (c, m', r') ->
  same_but_body m m' /\
  exists d, b_internal (mbody m') = Some (buf ++ d) /\ (N.of_nat (length d) <= h_max_body_size cfg)%N.
Proof.
  intros fuel cap r m cfg c m' r' buf Hb. unfold read_body_normal.
  destruct (mm_getall (headers m) (B "transfer-encoding")) as [te| | | |]; try easy. cbn [obind].
  assert (Hnil : exists d, b_internal (mbody m) = Some (buf ++ d) /\ (N.of_nat (length d) <= h_max_body_size cfg)%N).
  { exists []. rewrite app_nil_r. split; [easy|]. simpl. lia. }
  destruct (header_contains te (B "chunked")).
  - unfold read_chunked_body, chunked_body.
    destruct (read_line 128 r) as [[[line|] r1]| | | |]; try easy; cbn [obind fst snd].
    2:{ intros [= <- <- <-]. cbn. split; [repeat split|exact Hnil]. }
    destruct (utf8_decode line) as [cs|].
    2:{ cbn [obind]. intros [= <- <- <-]. cbn. split; [repeat split|exact Hnil]. }
    destruct (parse_uint u64max (trim_by is_ws cs)) as [num|].
    2:{ cbn [obind]. intros [= <- <- <-]. cbn. split; [repeat split|exact Hnil]. }
    destruct (h_max_body_size cfg <? num)%N eqn:En.
    { cbn [obind]. intros [= <- <- <-]. cbn. split; [repeat split|exact Hnil]. }
    destruct (const_body fuel write_raw cap r1 (mbody m) num) as [[[c1 b1] r2]| | | |] eqn:E1; try easy.
    cbn [obind]. eapply const_body_bound in E1 as (d & Hd & Hl); [|exact Hb].
    assert (Hd' : exists d, b_internal b1 = Some (buf ++ d) /\ (N.of_nat (length d) <= h_max_body_size cfg)%N).
    { exists d. split; [easy|]. unfold lenN in Hl. lia. }
    destruct c1; cbn [obind];
      try (intros [= <- <- <-]; cbn [mbody with_body]; split; [repeat split|exact Hd']).
    destruct (read_line 2 r2) as [[[z|] r3]| | | |]; try easy; cbn [obind fst snd];
      intros [= <- <- <-]; cbn [mbody with_body]; split; try exact Hd'; repeat split.
  - destruct (get_content_length m) as [[n|]| | | |]; try easy; cbn [obind].
    + destruct (h_max_body_size cfg <? n)%N eqn:En.
      * intros [= <- <- <-]. split; [repeat split|exact Hnil].
      * unfold read_const_length_raw.
        destruct (const_body fuel write_raw cap r (mbody m) n) as [[[c1 b1] r2]| | | |] eqn:E1; try easy.
        cbn [obind]. intros [= <- <- <-]. eapply const_body_bound in E1 as (d & Hd & Hl); [|exact Hb].
        split; [repeat split|]. exists d. split; [easy|]. unfold lenN in Hl. lia.
    + intros [= <- <- <-]. split; [repeat split|exact Hnil].
Qed.

Lemma normal_too_long : forall fuel cap r (m : message) cfg v n,
  mm_getall (headers m) (B "transfer-encoding") = Ret None ->
  mm_get (headers m) (B "content-length") = Ret (Some v) -> numeral v n -> (n < 2 ^ 64)%N ->
  (h_max_body_size cfg < n)%N ->
  read_body_normal fuel cap r m cfg = Ret (RcReachMaxBodySize, m, r).
Proof.
  intros fuel cap r m cfg v n Ht Hg Hn Hlt Hm. unfold read_body_normal. rewrite Ht. cbn [obind header_contains].
  rewrite (content_length_of m v n Hg Hn Hlt). cbn [obind].
  destruct (h_max_body_size cfg <? n)%N eqn:E; [reflexivity|lia].
Qed.

End Body.
