(** The message reader and the connection loop as functions of the flattened stream: no
    segmentation, no scratch capacity, no fuel for the inner loops. *)
From Verif Require Export M_Serve F_Reader F_MultiMap.

Section Flat.
Variable K : codec.
Notation message := (message K).
Notation body := (body K).

(** ** header lines *)
Fixpoint fl_lines (fuel : nat) (cfg : http_config) (s : bytes) (e : ending) (h : mmap)
  : outcome (read_code * mmap * (bytes * ending)) :=
  match fuel with
  | O => NoFuel
  | S f =>
      x <- fu LF (h_max_header_line_size cfg) s e ;;
      match fst x with
      | None => Ret (RcConnReadError, h, snd x)
      | Some buf =>
          if Nat.ltb (length buf) 2 then Ret (RcBadDatagram, h, snd x)
          else if Nat.eqb (length buf) 2 then Ret (RcOk, h, snd x)
          else
            match scan_line [] 0 (firstn (length buf - 2) buf) with
            | LBad => Ret (RcBadDatagram, h, snd x)
            | LNoColon => fl_lines f cfg (fst (snd x)) (snd (snd x)) h
            | LHeader k v =>
                h' <- mm_append h k v ;;
                if (h_max_headers_count cfg <? 0 + 1)%N
                then Ret (RcReachMaxHeadersCount, h', snd x)
                else fl_lines f cfg (fst (snd x)) (snd (snd x)) h'
            end
      end
  end.

Lemma oflat_inv {A} (x : outcome (A * reader)) a s e :
  oflat x = Ret (a, (s, e)) -> exists r, x = Ret (a, r) /\ flat r = s /\ fin r = e.
Proof.
  destruct x as [[a' r]| | | |]; simpl; try easy. intros [= <- <- <-]. eauto.
Qed.

Lemma header_lines_flat fuel cfg : forall r h,
  oflat (header_lines fuel cfg r h) = fl_lines fuel cfg (flat r) (fin r) h.
Proof.
  induction fuel as [|f IH]; intros r h; [reflexivity|].
  cbn [header_lines fl_lines]. rewrite <- read_until_flat.
  destruct (read_until LF (h_max_header_line_size cfg) r) as [[[buf|] r']| | | |]; try reflexivity.
  cbn [obind oflat fst snd].
  destruct (Nat.ltb (length buf) 2); [reflexivity|].
  destruct (Nat.eqb (length buf) 2); [reflexivity|].
  destruct (scan_line [] 0 (firstn (length buf - 2) buf)) as [| |k v]; [reflexivity|apply IH|].
  destruct (mm_append h k v) as [h'| | | |]; try reflexivity. cbn [obind].
  destruct (h_max_headers_count cfg <? 0 + 1)%N; [reflexivity|apply IH].
Qed.

(** enough fuel is as good as any *)
Lemma fl_lines_fuel cfg : forall f1 f2 s e h, length s < f1 -> length s < f2 ->
  fl_lines f1 cfg s e h = fl_lines f2 cfg s e h.
Proof.
  induction f1 as [|f1 IH]; intros f2 s e h H1 H2; [lia|]. destruct f2 as [|f2]; [lia|].
  cbn [fl_lines]. destruct (fu LF (h_max_header_line_size cfg) s e) as [[o [rest e']]| | | |] eqn:E;
    try reflexivity. cbn [obind fst snd].
  apply fu_inv in E as (-> & E). destruct o as [buf|]; [|reflexivity].
  destruct E as (-> & _). rewrite app_length in *.
  destruct (Nat.ltb (length buf) 2) eqn:El; [reflexivity|]. apply Nat.ltb_ge in El.
  destruct (Nat.eqb (length buf) 2); [reflexivity|].
  destruct (scan_line [] 0 (firstn (length buf - 2) buf)) as [| |k v]; [reflexivity| |].
  - apply IH; lia.
  - destruct (mm_append h k v); try reflexivity. cbn [obind].
    destruct (h_max_headers_count cfg <? 0 + 1)%N; [reflexivity|apply IH; lia].
Qed.

(** no operation of the table runs out of fuel *)
Lemma append_no_fuel m k v : mm_append m k v <> NoFuel.
Proof.
  unfold mm_append, map_append. destruct (mm_ismap m).
  - destruct (mm_map m) as [mp|]; [|easy]. now destruct (h_get k mp).
  - destruct (Nat.leb 36 (length (mm_vec m))).
    + simpl. now destruct (h_get k _).
    + now destruct (vec_find_or_empty (mm_vec m) k).
Qed.

Lemma fl_lines_no_fuel cfg : forall f s e h, length s < f -> fl_lines f cfg s e h <> NoFuel.
Proof.
  induction f as [|f IH]; intros s e h H1; [lia|].
  cbn [fl_lines].
  destruct (fu_outcomes LF (h_max_header_line_size cfg) s e) as [(o & rest & E)|E];
    rewrite E; [|easy]. cbn [obind fst snd].
  apply fu_inv in E as (_ & E). destruct o as [buf|]; [|easy].
  destruct E as (-> & _). rewrite app_length in *.
  destruct (Nat.ltb (length buf) 2) eqn:El; [easy|]. apply Nat.ltb_ge in El.
  destruct (Nat.eqb (length buf) 2); [easy|].
  destruct (scan_line [] 0 (firstn (length buf - 2) buf)) as [| |k v]; [easy| |].
  - apply IH; lia.
  - pose proof (append_no_fuel h k v). destruct (mm_append h k v); try easy. cbn [obind].
    destruct (h_max_headers_count cfg <? 0 + 1)%N; [easy|apply IH; lia].
Qed.

(** ** the head *)
Definition fl_headers (fuel : nat) (cfg : http_config) (s : bytes) (e : ending) (m : message)
  : outcome (read_code * message * (bytes * ending)) :=
  x0 <- fu SP 128 s e ;;
  match fst x0 with
  | None => Ret (RcConnReadError, m, snd x0)
  | Some t0 =>
      if Nat.ltb (length t0) 1 then Ret (RcConnReadError, m, snd x0)
      else
        let d0 := firstn (length t0 - 1) (fl0 m ++ t0) in
        if negb (forallb is_printable d0) then Ret (RcBadDatagram, m, snd x0)
        else
          x1 <- fu SP (h_max_url_size cfg) (fst (snd x0)) (snd (snd x0)) ;;
          match fst x1 with
          | None => Ret (RcConnReadError, m, snd x1)
          | Some t1 =>
              if Nat.ltb (length t1) 1 then Ret (RcConnReadError, m, snd x1)
              else
                let d1 := firstn (length t1 - 1) (fl1 m ++ t1) in
                if negb (forallb is_printable d1) then Ret (RcBadDatagram, m, snd x1)
                else
                  x2 <- fl_line 128 (fst (snd x1)) (snd (snd x1)) ;;
                  match fst x2 with
                  | None => Ret (RcConnReadError, m, snd x2)
                  | Some t2 =>
                      if Nat.ltb (length t2) 3 then Ret (RcBadDatagram, m, snd x2)
                      else
                        let d2 := firstn (length t2 - 2) (fl2 m ++ t2) in
                        if negb (forallb is_printable d2) then Ret (RcBadDatagram, m, snd x2)
                        else
                          y <- fl_lines fuel cfg (fst (snd x2)) (snd (snd x2)) (headers m) ;;
                          let '(c, h, r') := y in
                          Ret (c, Msg d0 d1 d2 h (mbody m), r')
                  end
          end
  end.

Lemma read_headers_flat fuel cfg r m :
  oflat (read_headers fuel cfg r m) = fl_headers fuel cfg (flat r) (fin r) m.
Proof.
  unfold read_headers, fl_headers. rewrite <- read_until_flat.
  destruct (read_until SP 128 r) as [[[t0|] r0]| | | |]; try reflexivity.
  cbn [obind oflat fst snd]. destruct (Nat.ltb (length t0) 1); [reflexivity|].
  destruct (negb (forallb is_printable (firstn (length t0 - 1) (fl0 m ++ t0)))); [reflexivity|].
  rewrite <- read_until_flat.
  destruct (read_until SP (h_max_url_size cfg) r0) as [[[t1|] r1]| | | |]; try reflexivity.
  cbn [obind oflat fst snd]. destruct (Nat.ltb (length t1) 1); [reflexivity|].
  destruct (negb (forallb is_printable (firstn (length t1 - 1) (fl1 m ++ t1)))); [reflexivity|].
  rewrite <- read_line_flat.
  destruct (read_line 128 r1) as [[[t2|] r2]| | | |]; try reflexivity.
  cbn [obind oflat fst snd]. destruct (Nat.ltb (length t2) 3); [reflexivity|].
  destruct (negb (forallb is_printable (firstn (length t2 - 2) (fl2 m ++ t2)))); [reflexivity|].
  rewrite <- header_lines_flat.
  destruct (header_lines fuel cfg r2 (headers m)) as [[[c h] r3]| | | |]; reflexivity.
Qed.

Lemma fl_line_inv lim s e o rest e' : fl_line lim s e = Ret (o, (rest, e')) ->
  e' = e /\ match o with
            | Some t => s = t ++ rest /\ (lenN t <= lim)%N
                        /\ ((exists t', t = t' ++ [LF] /\ ~ In LF t')
                            \/ (~ In LF t /\ (lenN t = lim \/ (rest = [] /\ e = Eof))))
            | None => True
            end.
Proof.
  unfold fl_line. destruct (fu LF lim s e) as [[o' [rest' e'']]| | | |] eqn:E; simpl; try easy.
  apply fu_inv in E as (-> & E). destruct o' as [t|].
  - destruct (utf8_decode t).
    + intros [= <- <- <-]. auto.
    + intros [= <- <- <-]. auto.
  - intros [= <- <- <-]. auto.
Qed.

Lemma fl_line_outcomes lim s e :
  (exists o rest, fl_line lim s e = Ret (o, (rest, e))) \/ fl_line lim s e = Blocked.
Proof.
  unfold fl_line. destruct (fu_outcomes LF lim s e) as [(o & rest & E)|E]; rewrite E; simpl; auto.
  destruct o as [t|]; eauto. destruct (utf8_decode t); eauto.
Qed.

Lemma fl_headers_fuel cfg f1 f2 s e m : length s < f1 -> length s < f2 ->
  fl_headers f1 cfg s e m = fl_headers f2 cfg s e m.
Proof.
  intros H1 H2. unfold fl_headers.
  destruct (fu SP 128 s e) as [[o0 [s0 e0]]| | | |] eqn:E0; try reflexivity.
  apply fu_inv in E0 as (-> & E0). cbn [obind fst snd]. destruct o0 as [t0|]; [|reflexivity].
  destruct E0 as (-> & _). rewrite app_length in *.
  destruct (Nat.ltb (length t0) 1); [reflexivity|].
  destruct (negb (forallb is_printable (firstn (length t0 - 1) (fl0 m ++ t0)))); [reflexivity|].
  destruct (fu SP (h_max_url_size cfg) s0 e) as [[o1 [s1 e1]]| | | |] eqn:E1; try reflexivity.
  apply fu_inv in E1 as (-> & E1). cbn [obind fst snd]. destruct o1 as [t1|]; [|reflexivity].
  destruct E1 as (-> & _). rewrite app_length in *.
  destruct (Nat.ltb (length t1) 1); [reflexivity|].
  destruct (negb (forallb is_printable (firstn (length t1 - 1) (fl1 m ++ t1)))); [reflexivity|].
  destruct (fl_line 128 s1 e) as [[o2 [s2 e2]]| | | |] eqn:E2; try reflexivity.
  apply fl_line_inv in E2 as (-> & E2). cbn [obind fst snd]. destruct o2 as [t2|]; [|reflexivity].
  destruct E2 as (-> & _). rewrite app_length in *.
  destruct (Nat.ltb (length t2) 3); [reflexivity|].
  destruct (negb (forallb is_printable (firstn (length t2 - 2) (fl2 m ++ t2)))); [reflexivity|].
  now rewrite (fl_lines_fuel cfg f1 f2) by lia.
Qed.

(** reading only ever consumes a prefix *)
Lemma fl_lines_shrink cfg : forall f s e h c h' s' e',
  fl_lines f cfg s e h = Ret (c, h', (s', e')) -> e' = e /\ length s' <= length s.
Proof.
  induction f as [|f IH]; intros s e h c h' s' e'; [easy|].
  cbn [fl_lines]. destruct (fu LF (h_max_header_line_size cfg) s e) as [[o [rest e1]]| | | |] eqn:E;
    try easy. apply fu_inv in E as (-> & E). cbn [obind fst snd].
  destruct o as [buf|].
  2:{ destruct E as (-> & _). intros [= <- <- <- <-]. simpl. split; [easy|lia]. }
  destruct E as (-> & _). rewrite app_length.
  destruct (Nat.ltb (length buf) 2). { intros [= <- <- <- <-]. split; [easy|lia]. }
  destruct (Nat.eqb (length buf) 2). { intros [= <- <- <- <-]. split; [easy|lia]. }
  destruct (scan_line [] 0 (firstn (length buf - 2) buf)) as [| |k v].
  - intros [= <- <- <- <-]. split; [easy|lia].
  - intros H. apply IH in H as (-> & H). split; [easy|lia].
  - destruct (mm_append h k v); try easy. cbn [obind].
    destruct (h_max_headers_count cfg <? 0 + 1)%N.
    + intros [= <- <- <- <-]. split; [easy|lia].
    + intros H. apply IH in H as (-> & H). split; [easy|lia].
Qed.

Lemma fl_headers_shrink fuel cfg s e m m' s' e' :
  fl_headers fuel cfg s e m = Ret (RcOk, m', (s', e')) -> e' = e /\ length s' < length s.
Proof.
  unfold fl_headers.
  destruct (fu SP 128 s e) as [[o0 [s0 e0]]| | | |] eqn:E0; try easy.
  apply fu_inv in E0 as (-> & E0). cbn [obind fst snd]. destruct o0 as [t0|]; [|easy].
  destruct E0 as (-> & _). rewrite app_length.
  destruct (Nat.ltb (length t0) 1) eqn:L0; [easy|]. apply Nat.ltb_ge in L0.
  destruct (negb (forallb is_printable (firstn (length t0 - 1) (fl0 m ++ t0)))); [easy|].
  destruct (fu SP (h_max_url_size cfg) s0 e) as [[o1 [s1 e1]]| | | |] eqn:E1; try easy.
  apply fu_inv in E1 as (-> & E1). cbn [obind fst snd]. destruct o1 as [t1|]; [|easy].
  destruct E1 as (-> & _). rewrite app_length in *.
  destruct (Nat.ltb (length t1) 1); [easy|].
  destruct (negb (forallb is_printable (firstn (length t1 - 1) (fl1 m ++ t1)))); [easy|].
  destruct (fl_line 128 s1 e) as [[o2 [s2 e2]]| | | |] eqn:E2; try easy.
  apply fl_line_inv in E2 as (-> & E2). cbn [obind fst snd]. destruct o2 as [t2|]; [|easy].
  destruct E2 as (-> & _). rewrite app_length in *.
  destruct (Nat.ltb (length t2) 3); [easy|].
  destruct (negb (forallb is_printable (firstn (length t2 - 2) (fl2 m ++ t2)))); [easy|].
  destruct (fl_lines fuel cfg s2 e (headers m)) as [[[c h] [s3 e3]]| | | |] eqn:E3; try easy.
  cbn [obind]. intros [= -> <- -> ->]. apply fl_lines_shrink in E3 as (-> & H). split; [easy|lia].
Qed.

(** ** bodies *)
Definition fl_raw (s : bytes) (e : ending) (b : body) (remain : N)
  : outcome (read_code * body * (bytes * ending)) :=
  if (remain <? 1)%N then Ret (RcOk, b, (s, e))
  else match b_internal b with
  | Some buf =>
      if (remain <=? lenN s)%N
      then Ret (RcOk, Body (Some (buf ++ fst (splitN remain s))) (b_cw b), (snd (splitN remain s), e))
      else match e with
           | Eof => NoFuel
           | IoErr => Ret (RcConnReadError, Body (Some (buf ++ s)) (b_cw b), ([], e))
           | Stall => Blocked
           end
  | None =>
      match s, e with
      | [], IoErr => Ret (RcConnReadError, b, ([], e))
      | [], Stall => Blocked
      | _, _ => Panic
      end
  end.

Lemma splitN_app a b : splitN (lenN a) (a ++ b) = (a, b).
Proof.
  induction a as [|c a IH].
  - simpl app. unfold lenN. simpl. destruct b; reflexivity.
  - unfold lenN in *. simpl app. simpl length. cbn [splitN].
    destruct (N.of_nat (S (length a)) =? 0)%N eqn:E; [lia|].
    replace (N.of_nat (S (length a)) - 1)%N with (N.of_nat (length a)) by lia.
    now rewrite IH.
Qed.

Lemma splitN_ge n a b : (lenN a <= n)%N ->
  splitN n (a ++ b) = (a ++ fst (splitN (n - lenN a) b), snd (splitN (n - lenN a) b)).
Proof.
  revert n; induction a as [|c a IH]; intros n Hn; unfold lenN in *.
  - simpl. rewrite N.sub_0_r. now destruct (splitN n b).
  - cbn [app length splitN] in *. destruct (n =? 0)%N eqn:E; [lia|].
    rewrite IH by lia. replace (n - N.of_nat (S (length a)))%N with (n - 1 - N.of_nat (length a))%N by lia.
    reflexivity.
Qed.

Lemma splitN_all n s : lenN s = n -> splitN n s = (s, []).
Proof. intros <-. rewrite <- (app_nil_r s) at 2. apply splitN_app. Qed.

Lemma lenN_app {A} (a b : list A) : lenN (a ++ b) = (lenN a + lenN b)%N.
Proof. unfold lenN. rewrite app_length. lia. Qed.

Lemma const_body_loop_eof cap : forall fuel (r : reader) (b : body) remain,
  (0 < cap)%N -> fin r = Eof -> b_internal b <> None -> (lenN (flat r) < remain)%N ->
  const_body_loop fuel write_raw cap r b remain = NoFuel.
Proof.
  induction fuel as [|f IH]; intros r b remain Hc Hf Hb Hl; [reflexivity|].
  cbn [const_body_loop].
  destruct (rd_read_spec (if (remain <? cap)%N then remain else cap) r) as
    [(Hn & E)|(a & r' & E & Hfl & Hfin & Ha)].
  { destruct (remain <? cap)%N; lia. }
  - rewrite Hf in E. rewrite E. cbn [obind fst snd].
    unfold write_raw, body_write_all_to_internal. destruct (b_internal b) as [buf|]; [|easy].
    cbn [obind]. change (lenN (@nil byte)) with 0%N. rewrite N.sub_0_r.
    destruct (remain <? 1)%N eqn:E1; [rewrite Hn in Hl; change (lenN (@nil byte)) with 0%N in Hl; lia|].
    apply IH; simpl; auto; try easy. rewrite Hn in Hl. exact Hl.
  - rewrite E. cbn [obind fst snd].
    unfold write_raw, body_write_all_to_internal. destruct (b_internal b) as [buf|]; [|easy].
    cbn [obind]. rewrite Hfl, lenN_app in Hl.
    destruct (remain - lenN a <? 1)%N eqn:E1; [lia|].
    apply IH; simpl; auto; try easy; try congruence. lia.
Qed.

Lemma const_body_loop_flat cap : forall fuel (r : reader) (b : body) remain,
  (0 < cap)%N -> (1 <= remain)%N -> length (flat r) < fuel ->
  oflat (const_body_loop fuel write_raw cap r b remain) = fl_raw (flat r) (fin r) b remain.
Proof.
  induction fuel as [|f IH]; intros r b remain Hc Hr Hf; [lia|].
  cbn [const_body_loop].
  destruct (rd_read_spec (if (remain <? cap)%N then remain else cap) r) as
    [(Hn & E)|(a & r' & E & Hfl & Hfin & Ha)].
  { destruct (remain <? cap)%N; lia. }
  - (* nothing left *)
    unfold fl_raw. destruct (remain <? 1)%N eqn:E1; [lia|]. rewrite E, Hn.
    change (lenN (@nil byte)) with 0%N. destruct (remain <=? 0)%N eqn:E2; [lia|].
    destruct (fin r) eqn:Ef.
    + cbn [obind fst snd]. unfold write_raw, body_write_all_to_internal at 1.
      destruct (b_internal b) as [buf|] eqn:Eb; [|reflexivity]. cbn [obind].
      change (lenN (@nil byte)) with 0%N. rewrite N.sub_0_r, E1.
      fold (@write_raw K). rewrite const_body_loop_eof; auto; try easy.
      unfold flat, lenN. cbn [segs concat length]. lia.
    + cbn [obind fst snd]. destruct (b_internal b) as [buf|] eqn:Eb; simpl; rewrite ?app_nil_r; [|easy].
      destruct b as [bi bc]. simpl in *. now subst bi.
    + now destruct (b_internal b).
  - rewrite E. cbn [obind fst snd].
    assert (Hlen : (lenN a <= remain)%N) by (destruct (remain <? cap)%N eqn:Er; lia).
    unfold fl_raw. destruct (remain <? 1)%N eqn:E1; [lia|].
    destruct (b_internal b) as [buf|] eqn:Eb.
    2:{ unfold write_raw, body_write_all_to_internal. rewrite Eb. simpl. rewrite Hfl.
        destruct a; [unfold lenN in Ha; simpl in Ha; lia|reflexivity]. }
    unfold write_raw, body_write_all_to_internal at 1. rewrite Eb. cbn [obind].
    fold (@write_raw K). rewrite Hfl, lenN_app.
    destruct (remain - lenN a <? 1)%N eqn:E3.
    + assert (remain = lenN a) as -> by lia.
      destruct (lenN a <=? lenN a + lenN (flat r'))%N eqn:E4; [|lia].
      rewrite splitN_app. simpl. now rewrite Hfin.
    + rewrite IH; try lia.
      2:{ rewrite Hfl, app_length in Hf. unfold lenN in Ha. lia. }
      unfold fl_raw. rewrite E3. cbn [b_internal b_cw]. rewrite Hfin.
      destruct (remain - lenN a <=? lenN (flat r'))%N eqn:E4,
               (remain <=? lenN a + lenN (flat r'))%N eqn:E5; try lia.
      * rewrite (splitN_ge remain a) by lia. simpl. now rewrite app_assoc.
      * destruct (fin r); simpl; now rewrite ?app_assoc.
Qed.

Lemma const_body_flat cap fuel (r : reader) (b : body) remain :
  (0 < cap)%N -> length (flat r) < fuel ->
  oflat (const_body fuel write_raw cap r b remain) = fl_raw (flat r) (fin r) b remain.
Proof.
  intros Hc Hf. unfold const_body. destruct (remain <? 1)%N eqn:E.
  - unfold fl_raw. now rewrite E.
  - apply const_body_loop_flat; auto; lia.
Qed.

Definition fl_length_raw (s : bytes) (e : ending) (m : message) (remain : N)
  : outcome (read_code * message * (bytes * ending)) :=
  x <- fl_raw s e (mbody m) remain ;;
  let '(c, b, r') := x in Ret (c, with_body m b, r').

Definition fl_const_body (s : bytes) (e : ending) (m : message)
  : outcome (read_code * message * (bytes * ending)) :=
  o <- get_content_length m ;;
  match o with
  | Some size => fl_length_raw s e m size
  | None => Ret (RcBadContentLength, m, (s, e))
  end.

Lemma read_length_raw_flat cap fuel r m n : (0 < cap)%N -> length (flat r) < fuel ->
  oflat (read_const_length_raw fuel cap r m n) = fl_length_raw (flat r) (fin r) m n.
Proof.
  intros Hc Hf. unfold read_const_length_raw, fl_length_raw.
  rewrite <- (const_body_flat cap fuel r (mbody m) n Hc Hf).
  destruct (const_body fuel write_raw cap r (mbody m) n) as [[[c b] r']| | | |]; reflexivity.
Qed.

Lemma read_const_body_flat cap fuel r m : (0 < cap)%N -> length (flat r) < fuel ->
  oflat (read_const_length_body fuel cap r m) = fl_const_body (flat r) (fin r) m.
Proof.
  intros Hc Hf. unfold read_const_length_body, fl_const_body.
  destruct (get_content_length m) as [[n|]| | | |]; try reflexivity.
  now apply read_length_raw_flat.
Qed.

Lemma fl_raw_shrink s e b n c b' s' e' :
  fl_raw s e b n = Ret (c, b', (s', e')) -> e' = e /\ length s' <= length s.
Proof.
  unfold fl_raw. destruct (n <? 1)%N. { intros [= <- <- <- <-]. auto. }
  destruct (b_internal b).
  - destruct (n <=? lenN s)%N.
    + destruct (splitN n s) as [x y] eqn:E. apply splitN_spec in E as (-> & _).
      intros [= <- <- <- <-]. simpl. rewrite app_length. split; [easy|lia].
    + destruct e; try easy. intros [= <- <- <- <-]. simpl. split; [easy|lia].
  - destruct s; [|easy]. destruct e; try easy. intros [= <- <- <- <-]. auto.
Qed.

Lemma fl_const_body_shrink s e m c m' s' e' :
  fl_const_body s e m = Ret (c, m', (s', e')) -> e' = e /\ length s' <= length s.
Proof.
  unfold fl_const_body. destruct (get_content_length m) as [[n|]| | | |]; try easy.
  - cbn [obind]. unfold fl_length_raw.
    destruct (fl_raw s e (mbody m) n) as [[[c0 b0] [s0 e0]]| | | |] eqn:E; try easy.
    cbn [obind]. intros [= <- <- <- <-]. now apply fl_raw_shrink in E.
  - cbn [obind]. intros [= <- <- <- <-]. auto.
Qed.

(** ** the connection *)
Fixpoint fl_serve (fuel : nat) (cfg : http_config) (ho : hash_order) (svc : service K)
    (s : bytes) (e : ending) (w : writer) (req resp : message)
    (log : list (message * option bytes)) : conn_result K :=
  match fuel with
  | O => CR_ log w EndNoFuel
  | S f =>
      match fl_headers (S (length s)) cfg s e req with
      | Ret (RcOk, req1, (s1, e1)) =>
          match fl_const_body s1 e1 req1 with
          | Ret (RcOk, req2, (s2, e2)) =>
              match svc req2 resp with
              | Ret (Some p, req3, resp3) =>
                  match serialize ho resp3 with
                  | Ret (Some data, resp4) =>
                      if snd (w_write data w) then
                        match p with
                        | Current keep_alive =>
                            if negb keep_alive
                            then CR_ (log ++ [(req2, Some data)]) (fst (w_write data w)) EndClosed
                            else fl_serve f cfg ho svc s2 e2 (fst (w_write data w))
                                   (msg_clear req3) (msg_clear resp4) (log ++ [(req2, Some data)])
                        | WebSocket => CR_ (log ++ [(req2, Some data)]) (fst (w_write data w)) EndClosed
                        | Http2 => CR_ (log ++ [(req2, Some data)]) (fst (w_write data w)) EndPanic
                        end
                      else CR_ (log ++ [(req2, Some data)]) (fst (w_write data w)) EndClosed
                  | Ret (None, _) => CR_ (log ++ [(req2, None)]) w EndClosed
                  | o => CR_ (log ++ [(req2, None)]) w (end_of o)
                  end
              | Ret (None, _, _) => CR_ (log ++ [(req2, None)]) w EndClosed
              | o => CR_ (log ++ [(req2, None)]) w (end_of o)
              end
          | o => CR_ log w (end_of o)
          end
      | o => CR_ log w (end_of o)
      end
  end.

Lemma end_of_oflat {A} (x : outcome (A * reader)) : end_of (oflat x) = end_of x.
Proof. destruct x as [[a r]| | | |]; reflexivity. Qed.

Lemma serve_flat cfg caps ho svc : (forall k, 0 < caps k)%N ->
  forall fuel inner k r w req resp log,
  length (flat r) < inner ->
  serve_loop fuel inner cfg caps ho svc k r w req resp log
  = fl_serve fuel cfg ho svc (flat r) (fin r) w req resp log.
Proof.
  intros Hcaps. induction fuel as [|f IH]; intros inner k r w req resp log Hi; [reflexivity|].
  cbn [serve_loop fl_serve].
  assert (Hh : oflat (read_headers inner cfg r req)
               = fl_headers (S (length (flat r))) cfg (flat r) (fin r) req).
  { rewrite read_headers_flat. apply fl_headers_fuel; lia. }
  destruct (read_headers inner cfg r req) as [[[c req1] r1]| | | |] eqn:Eh;
    rewrite <- Hh; cbn [oflat end_of]; try reflexivity.
  destruct c; try reflexivity.
  assert (Hs : length (flat r1) < length (flat r)).
  { symmetry in Hh. cbn [oflat] in Hh. now apply fl_headers_shrink in Hh. }
  assert (Hb : oflat (read_const_length_body inner (caps k) r1 req1)
               = fl_const_body (flat r1) (fin r1) req1).
  { apply read_const_body_flat; [apply Hcaps|lia]. }
  destruct (read_const_length_body inner (caps k) r1 req1) as [[[c req2] r2]| | | |] eqn:Eb;
    rewrite <- Hb; cbn [oflat end_of]; try reflexivity.
  destruct c; try reflexivity.
  destruct (svc req2 resp) as [[[[p|] req3] resp3]| | | |]; try reflexivity.
  destruct (serialize ho resp3) as [[[data|] resp4]| | | |]; try reflexivity.
  destruct (w_write data w) as [w' ok]. cbn [fst snd]. destruct ok; [|reflexivity].
  destruct p as [ka| |]; try reflexivity. destruct ka; [|reflexivity]. cbn [negb].
  apply IH. symmetry in Hb. cbn [oflat] in Hb. apply fl_const_body_shrink in Hb. lia.
Qed.

Lemma fl_serve_fuel cfg ho svc : forall f1 f2 s e w req resp log,
  length s < f1 -> length s < f2 ->
  fl_serve f1 cfg ho svc s e w req resp log = fl_serve f2 cfg ho svc s e w req resp log.
Proof.
  induction f1 as [|f1 IH]; intros f2 s e w req resp log H1 H2; [lia|]. destruct f2 as [|f2]; [lia|].
  cbn [fl_serve].
  destruct (fl_headers (S (length s)) cfg s e req) as [[[c req1] [s1 e1]]| | | |] eqn:Eh; try reflexivity.
  destruct c; try reflexivity. apply fl_headers_shrink in Eh as (-> & Hs).
  destruct (fl_const_body s1 e req1) as [[[c req2] [s2 e2]]| | | |] eqn:Eb; try reflexivity.
  destruct c; try reflexivity. apply fl_const_body_shrink in Eb as (-> & Hs2).
  destruct (svc req2 resp) as [[[[p|] req3] resp3]| | | |]; try reflexivity.
  destruct (serialize ho resp3) as [[[data|] resp4]| | | |]; try reflexivity.
  destruct (snd (w_write data w)); [|reflexivity].
  destruct p as [ka| |]; try reflexivity. destruct ka; [|reflexivity]. cbn [negb].
  apply IH; lia.
Qed.

(** C01 *)
Lemma segmentation_invisible : forall fuel1 fuel2 cfg caps1 caps2 ho (svc : service K) r1 r2 w,
  concat (segs r1) = concat (segs r2) -> fin r1 = fin r2 ->
  (forall k, 0 < caps1 k)%N -> (forall k, 0 < caps2 k)%N ->
  length (concat (segs r1)) < fuel1 -> length (concat (segs r1)) < fuel2 ->
  serve fuel1 cfg caps1 ho svc r1 w = serve fuel2 cfg caps2 ho svc r2 w.
Proof.
  intros fuel1 fuel2 cfg caps1 caps2 ho svc r1 r2 w Hs He H1 H2 Hf1 Hf2. unfold serve.
  fold (flat r1) in *. fold (flat r2) in *.
  rewrite !serve_flat; auto; [|rewrite <- Hs; lia].
  rewrite <- Hs, <- He. apply fl_serve_fuel; lia.
Qed.

End Flat.

Arguments fl_headers {K} _ _ _ _ _.
Arguments fl_raw {K} _ _ _ _.
Arguments fl_length_raw {K} _ _ _ _.
Arguments fl_const_body {K} _ _ _.
Arguments fl_serve {K} _ _ _ _ _ _ _ _ _ _.
