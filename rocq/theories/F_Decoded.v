(** Histories of a body with encoders and decoders, and bodies read through a decoder. *)
From Verif Require Export F_History.

Section Decoded.
Variable K : codec.
Notation message := (message K).
Notation body := (body K).
Variables (enc : ctype -> Z -> bytes -> bytes) (dcd : ctype -> bytes -> option bytes).

Lemma coded_history : codes K enc dcd -> forall l,
  match held_after enc dcd l (Holds []) with
  | Some s => exists b : body, b_run body_default l = Ret b /\ body_says b s
  | None => b_run (body_default : body) l = Panic
  end.
Proof.
  intros (st & H1 & H1' & H2 & H3).
  set (rel := fun (b : body) (s : held) =>
    match s with
    | Holds d => b = Body (Some d) None
    | Coding plain ct level x => exists c, b = Body None (Some c)
        /\ st c = (plain, ct, option_map (level_used ct) level, x)
    | Lost => b = Body None None
    end).
  assert (Hend : forall b s, rel b s -> rel (fst (body_end b)) (finished enc dcd s)).
  { intros b [d|plain ct level x|]; cbn [rel finished].
    - now intros ->.
    - intros (c & -> & Hc). unfold body_end. cbn [b_cw b_internal]. rewrite (H3 _ _ _ _ _ Hc).
      destruct level; cbn [option_map]; [reflexivity|]. destruct (dcd ct x); reflexivity.
    - now intros ->. }
  assert (Hclr : forall b p ct level x, rel b (Coding p ct level x) ->
    rel (body_clear b) (match finished enc dcd (Coding p ct level x) with Lost => Holds [] | s' => s' end)).
  { intros b p ct level x (c & -> & Hc). unfold body_clear, body_end. cbn [b_cw b_internal finished].
    rewrite (H3 _ _ _ _ _ Hc). destruct level; cbn [option_map]; [reflexivity|]. destruct (dcd ct x); reflexivity. }
  assert (Hsh : forall b s, rel b s -> body_says b s).
  { intros b [d|plain ct level x|]; cbn [rel body_says].
    - intros ->. unfold body_inner, body_is_empty, body_size. cbn [b_internal]. split; [reflexivity|]. split; [reflexivity|].
      rewrite Nat.eqb_eq. apply length_zero_iff_nil.
    - intros (c & -> & Hc). now splits.
    - intros ->. now splits. }
  assert (G : forall l b s, rel b s ->
    match held_after enc dcd l s with
    | Some s' => exists b', b_run b l = Ret b' /\ body_says b' s'
    | None => b_run b l = Panic
    end).
  2:{ intros l. apply G. reflexivity. }
  induction l as [|o l IH]; intros b s Hr; cbn [held_after b_run]; [eauto|].
  destruct o as [d|ct level|ct| |]; cbn [held_step b_step].
  - destruct s as [h|plain ct level x|]; cbn [rel] in Hr.
    + subst b. unfold body_write. cbn [b_internal b_cw obind fst]. now apply IH.
    + destruct Hr as (c & -> & Hc). unfold body_write. cbn [b_internal b_cw].
      destruct (H2 c d _ _ _ _ Hc) as [_ Hd]. destruct (c_append K c d) as [c' n]. cbn [obind fst] in *.
      apply IH. cbn [rel]. eauto.
    + now subst b.
  - destruct s as [h|plain ct' level' x|]; cbn [rel] in Hr.
    + subst b. unfold body_compression. cbn [b_internal obind]. apply IH. cbn [rel].
      eexists. split; [reflexivity|]. rewrite H1. now rewrite level_used_ok.
    + destruct Hr as (c & -> & Hc). reflexivity.
    + now subst b.
  - destruct s as [h|plain ct' level' x|]; cbn [rel] in Hr.
    + subst b. unfold body_decompression. cbn [b_internal obind]. apply IH. cbn [rel].
      eexists. split; [reflexivity|]. apply H1'.
    + destruct Hr as (c & -> & Hc). reflexivity.
    + now subst b.
  - cbn [obind]. apply IH, Hend, Hr.
  - cbn [obind]. destruct s as [h|plain ct level x|]; cbn [rel] in Hr.
    + subst b. now apply IH.
    + apply IH, Hclr, Hr.
    + subst b. now apply IH.
Qed.

Lemma coding_size : forall ct level ds (b : body),
  b_run body_default (BCompress ct level :: map BWrite ds) = Ret b -> body_size b = 0 /\ body_is_empty b = true.
Proof.
  intros ct level ds b. cbn [b_run b_step]. unfold body_compression. cbn [b_internal body_default obind].
  generalize (c_enc K ct (enc_level ct level) []) as c. induction ds as [|d ds IH]; intros c; cbn [map b_run].
  - intros [= <-]. now split.
  - cbn [b_step]. unfold body_write. cbn [b_internal b_cw]. destruct (c_append K c d) as [c' n]. cbn [obind fst]. apply IH.
Qed.

(** the chunk given piece by piece to a decoder *)
Lemma chunked_decoder fuel cap r (b : body) max size data rest c : (0 < cap)%N -> enough fuel r ->
  numeral size (N.of_nat (length data)) -> length size <= 126 ->
  (N.of_nat (length data) < 2 ^ 64)%N -> (N.of_nat (length data) <= max)%N ->
  flat r = chunk size data ++ rest -> b = Body None (Some c) ->
  exists r' ps, chunked_body fuel write_compression cap r b max
             = Ret (RcOk, Body None (Some (feed K c ps)), r')
    /\ concat ps = data /\ flat r' = rest /\ fin r' = fin r.
Proof.
  intros Hc Hf Hn Hsl Hlt Hmax Hr Hb. unfold chunked_body.
  assert (Hhex : Forall hex_digit size) by (eapply Forall_impl; [apply digit_hex|apply Hn]).
  unfold chunk in Hr. rewrite <- !app_assoc in Hr.
  destruct (read_size size _ r Hhex Hsl Hr) as (r1 & E1 & F1 & G1). rewrite E1. cbn [obind fst snd].
  destruct (size_text size Hhex) as [E2 E3]. rewrite E2, E3.
  assert (E4 : parse_uint u64max (map code size) = Some (N.of_nat (length data))).
  { apply (numeral_parse size _ u64max Hn). change u64max with (2 ^ 64 - 1)%N. lia. }
  rewrite E4. destruct (max <? N.of_nat (length data))%N eqn:E5; [lia|].
  assert (Hf1 : enough fuel r1).
  { unfold enough in *. rewrite F1. rewrite Hr in Hf. rewrite !app_length in *. lia. }
  destruct (const_body_pieces K write_compression cap fuel data (CRLF ++ rest) r1 b Hc F1 Hf1)
    as (ps & r2 & E6 & Hps & _ & F2 & G2).
  unfold lenN in E6. rewrite E6, Hb, pour_compression. cbn [obind].
  destruct (read_crlf rest r2 F2) as (r3 & E7 & F3 & G3). rewrite E7. cbn [obind fst snd].
  exists r3, ps. splits; auto. congruence.
Qed.

Lemma fed_end : codes K enc dcd -> forall ct buf ps,
  body_end (Body None (Some (feed K (c_dec K ct buf) ps))) = put_after buf (dcd ct (concat ps)).
Proof.
  intros (st & H1 & H1' & H2 & H3) ct buf ps.
  assert (Hf : forall ps c fed, st c = (buf, ct, None, fed) -> st (feed K c ps) = (buf, ct, None, fed ++ concat ps)).
  { clear -H2. induction ps as [|p ps IH]; intros c fed Hc; cbn [concat]; [now rewrite app_nil_r|].
    unfold feed in *. cbn [fold_left]. rewrite (IH _ (fed ++ p)); [now rewrite app_assoc|]. now apply H2. }
  specialize (Hf ps _ [] (H1' ct buf)). cbn [app] in Hf. apply H3 in Hf.
  unfold body_end. cbn [b_cw b_internal]. rewrite Hf. unfold put_after. now destruct (dcd ct (concat ps)).
Qed.

Lemma decoded_length : codes K enc dcd -> forall fuel cap r (m : message) ct data rest buf b,
  (0 < cap)%N -> enough fuel r -> flat r = data ++ rest ->
  mbody m = Body (Some buf) None -> body_decompression (mbody m) ct = Ret b ->
  exists m' r', read_const_length_body_decompression fuel cap r (with_body m b) (N.of_nat (length data))
      = Ret (RcOk, m', r')
    /\ same_but_body m m' /\ body_end (mbody m') = put_after buf (dcd ct data)
    /\ flat r' = rest /\ fin r' = fin r.
Proof.
  intros HK fuel cap r m ct data rest buf b Hc Hf Hr Hm Hb. rewrite Hm in Hb. injection Hb as <-.
  destruct (decompressing_exact K fuel cap r (with_body m (Body None (Some (c_dec K ct buf)))) _ data rest Hc Hf Hr eq_refl)
    as (m' & r' & ps & E & Hps & Hs & Hm' & H1 & H2).
  exists m', r'. splits; auto; try apply Hs. rewrite Hm'. rewrite <- Hps. now apply fed_end.
Qed.

Lemma decoded_chunk : codes K enc dcd -> forall fuel cap r (m : message) max ct size data rest buf b,
  (0 < cap)%N -> enough fuel r ->
  numeral size (N.of_nat (length data)) -> length size <= 126 ->
  (N.of_nat (length data) < 2 ^ 64)%N -> (N.of_nat (length data) <= max)%N ->
  flat r = chunk size data ++ rest ->
  mbody m = Body (Some buf) None -> body_decompression (mbody m) ct = Ret b ->
  exists m' r', read_chunked_body_decompression fuel cap r (with_body m b) max = Ret (RcOk, m', r')
    /\ same_but_body m m' /\ body_end (mbody m') = put_after buf (dcd ct data)
    /\ flat r' = rest /\ fin r' = fin r.
Proof.
  intros HK fuel cap r m max ct size data rest buf b Hc Hf Hn Hl Hlt Hmax Hr Hm Hb. rewrite Hm in Hb. injection Hb as <-.
  destruct (chunked_decoder fuel cap r _ max size data rest (c_dec K ct buf) Hc Hf Hn Hl Hlt Hmax Hr eq_refl)
    as (r' & ps & E & Hps & H1 & H2).
  unfold read_chunked_body_decompression. cbn [mbody with_body]. rewrite E. cbn [obind].
  eexists _, r'. split; [reflexivity|]. split; [repeat split|]. split; [|now split].
  cbn [mbody with_body]. rewrite <- Hps. now apply fed_end.
Qed.
(** whatever comes, a decoder gets no more than the limit from a chunk *)
Lemma decoder_loop_bound cap : forall fuel (r : reader) (b : body) n c b' r' d,
  b = Body None (Some d) -> const_body_loop fuel write_compression cap r b n = Ret (c, b', r') -> (1 <= n)%N ->
  exists ps, b' = Body None (Some (feed K d ps)) /\ (lenN (concat ps) <= n)%N.
Proof.
  induction fuel as [|f IH]; intros r b n c b' r' d Hb; [easy|]. cbn [const_body_loop].
  destruct (rd_read (if (n <? cap)%N then n else cap) r) as [[[a|] r1]| | | |] eqn:E; try easy; cbn [obind fst snd].
  - intros H Hn.
    assert (Ha : (lenN a <= n)%N).
    { destruct (if (n <? cap)%N then n else cap) as [|p] eqn:Ek.
      - assert (a = []) as ->; [|unfold lenN; simpl; lia].
        clear -E. unfold rd_read in E. revert E. induction (segs r) as [|s ss IHs]; simpl.
        + destruct (fin r); simpl; try easy. now intros [= <- _].
        + destruct s; [apply IHs|]. simpl. now intros [= <- _].
      - destruct (rd_read_spec (N.pos p) r ltac:(lia)) as [(Hn0 & E2)|(a' & r2 & E2 & _ & _ & Ha)];
          rewrite E in E2.
        + destruct (fin r); try easy. injection E2 as -> _. unfold lenN. simpl. lia.
        + injection E2 as -> _. destruct (n <? cap)%N eqn:El; lia. }
    revert H. subst b. unfold write_compression at 1, body_write at 1. cbn [b_internal b_cw].
    destruct (c_append K d a) as [d' k] eqn:Ed. cbn [obind fst].
    assert (Hd' : d' = fst (c_append K d a)) by now rewrite Ed.
    destruct (n - lenN a <? 1)%N eqn:E1.
    + intros [= <- <- <-]. exists [a]. cbn [concat]. rewrite app_nil_r. split; [now subst d'|exact Ha].
    + intros H. eapply IH in H as (ps & Hp & Hl); [|reflexivity|lia].
      exists (a :: ps). subst d'. split; [exact Hp|]. cbn [concat]. rewrite lenN_app. lia.
  - intros [= <- <- <-] _. exists []. split; [exact Hb|]. unfold lenN. simpl. lia.
Qed.

Lemma decoder_bound : forall fuel cap r (m : message) max c m' r' d,
  mbody m = Body None (Some d) ->
  read_chunked_body_decompression fuel cap r m max = Ret (c, m', r') ->
  same_but_body m m' /\
  exists ps, mbody m' = Body None (Some (fold_left (fun c p => fst (c_append K c p)) ps d))
    /\ (N.of_nat (length (concat ps)) <= max)%N.
Proof.
  intros fuel cap r m max c m' r' d Hb. unfold read_chunked_body_decompression, chunked_body.
  assert (Hnil : exists ps, mbody m = Body None (Some (feed K d ps)) /\ (N.of_nat (length (concat ps)) <= max)%N).
  { exists []. split; [exact Hb|]. simpl. lia. }
  destruct (read_line 128 r) as [[[line|] r1]| | | |]; try easy; cbn [obind fst snd].
  2:{ intros [= <- <- <-]. cbn. split; [repeat split|exact Hnil]. }
  destruct (utf8_decode line) as [cs|].
  2:{ cbn [obind]. intros [= <- <- <-]. cbn. split; [repeat split|exact Hnil]. }
  destruct (parse_uint u64max (trim_by is_ws cs)) as [num|].
  2:{ cbn [obind]. intros [= <- <- <-]. cbn. split; [repeat split|exact Hnil]. }
  destruct (max <? num)%N eqn:En.
  { cbn [obind]. intros [= <- <- <-]. cbn. split; [repeat split|exact Hnil]. }
  destruct (const_body fuel write_compression cap r1 (mbody m) num) as [[[c1 b1] r2]| | | |] eqn:E1; try easy.
  cbn [obind].
  assert (Hd' : exists ps, b1 = Body None (Some (feed K d ps)) /\ (N.of_nat (length (concat ps)) <= max)%N).
  { unfold const_body in E1. destruct (num <? 1)%N eqn:E2.
    - injection E1 as <- <- <-. exact Hnil.
    - eapply decoder_loop_bound in E1 as (ps & Hp & Hl); [|exact Hb|lia]. exists ps. split; [exact Hp|].
      unfold lenN in Hl. lia. }
  destruct c1; cbn [obind];
    try (intros [= <- <- <-]; cbn [mbody with_body]; split; [repeat split|exact Hd']).
  destruct (read_line 2 r2) as [[[l2|] r3]| | | |]; try easy; cbn [obind fst snd];
    intros [= <- <- <-]; cbn [mbody with_body]; (split; [repeat split|exact Hd']).
Qed.
End Decoded.
