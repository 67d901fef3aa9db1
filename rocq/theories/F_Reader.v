(** Reading depends only on the flattened stream. *)
From Verif Require Export S_Stream F_Base.

(** [take(lim).read_until(d)] on a flat stream *)
Definition fu (d : byte) (lim : N) (s : bytes) (e : ending)
  : outcome (option bytes * (bytes * ending)) :=
  let '(t, rest, l, found) := scan d lim s in
  if found || (l =? 0)%N then Ret (Some t, (rest, e))
  else match e with
       | Eof => Ret (Some t, ([], Eof))
       | IoErr => Ret (None, ([], IoErr))
       | Stall => Blocked
       end.

Lemma scan_zero d s : scan d 0 s = ([], s, 0%N, false).
Proof. destruct s; reflexivity. Qed.

Lemma scan_cons d lim c s : (0 < lim)%N ->
  scan d lim (c :: s) =
  if Ascii.eqb c d then ([c], s, (lim - 1)%N, true)
  else let '(t, r, l, f) := scan d (lim - 1) s in (c :: t, r, l, f).
Proof. intros H. cbn [scan]. destruct (lim =? 0)%N eqn:E; [lia|reflexivity]. Qed.

Lemma scan_app d a b : forall lim,
  scan d lim (a ++ b) =
  let '(t, r, l, f) := scan d lim a in
  if f then (t, r ++ b, l, true)
  else match r with
       | [] => let '(t2, r2, l2, f2) := scan d l b in (t ++ t2, r2, l2, f2)
       | _ :: _ => (t, r ++ b, l, false)
       end.
Proof.
  induction a as [|c a IH]; intros lim.
  - simpl app. destruct (N.eq_dec lim 0) as [->|Hl].
    + rewrite !scan_zero. reflexivity.
    + cbn [scan]. destruct (lim =? 0)%N eqn:E; [lia|].
      destruct (scan d lim b) as [[[t2 r2] l2] f2]. reflexivity.
  - destruct (N.eq_dec lim 0) as [->|Hl].
    + rewrite !scan_zero. reflexivity.
    + simpl app. rewrite !scan_cons by lia. destruct (Ascii.eqb c d); [reflexivity|].
      rewrite IH. destruct (scan d (lim - 1) a) as [[[t r] l] f].
      destruct f; [reflexivity|]. destruct r; [|reflexivity].
      destruct (scan d l b) as [[[t2 r2] l2] f2]. reflexivity.
Qed.

(** what scan does *)
Lemma scan_spec d : forall s lim t r l f, scan d lim s = (t, r, l, f) ->
  s = t ++ r /\ (lim = l + lenN t)%N
  /\ (f = true -> exists t', t = t' ++ [d] /\ ~ In d t')
  /\ (f = false -> ~ In d t /\ (r = [] \/ l = 0%N)).
Proof.
  induction s as [|c s IH]; intros lim t r l f.
  - simpl. destruct (lim =? 0)%N eqn:E; intros [= <- <- <- <-]; unfold lenN; simpl;
      repeat split; auto; try easy; lia.
  - destruct (N.eq_dec lim 0) as [->|Hl].
    + rewrite scan_zero. intros [= <- <- <- <-]. unfold lenN. simpl. repeat split; auto; easy.
    + rewrite scan_cons by lia. destruct (Ascii.eqb c d) eqn:E.
      * apply Ascii.eqb_eq in E as ->. intros [= <- <- <- <-]. unfold lenN. simpl.
        repeat split; try easy; [lia|]. intros _. exists []. auto.
      * apply Ascii.eqb_neq in E. destruct (scan d (lim - 1) s) as [[[t0 r0] l0] f0] eqn:Es.
        intros [= <- <- <- <-]. destruct (IH _ _ _ _ _ Es) as (H1 & H2 & H3 & H4).
        unfold lenN in *. simpl length. split; [simpl; congruence|]. split; [lia|]. split.
        -- intros Hf. destruct (H3 Hf) as (t' & -> & Hn). exists (c :: t'). split; [easy|].
           simpl. intros [?|?]; [congruence|tauto].
        -- intros Hf. destruct (H4 Hf) as (Hn & Hr). split; [|easy].
           simpl. intros [?|?]; [congruence|tauto].
Qed.

Lemma ru_segs_flat d e ss : forall lim acc,
  match fu d lim (concat ss) e with
  | Ret (o, (rest, e')) =>
      e' = e /\ exists ss', ru_segs d lim acc ss e = Ret (option_map (app acc) o, ss')
                            /\ concat ss' = rest
  | Blocked => ru_segs d lim acc ss e = Blocked
  | _ => False
  end.
Proof.
  induction ss as [|s ss IH]; intros lim acc.
  - simpl concat. unfold fu. cbn [scan ru_segs]. destruct (lim =? 0)%N eqn:E.
    + simpl. split; [easy|]. exists []. now rewrite app_nil_r.
    + simpl. rewrite E. destruct e; simpl.
      * split; [easy|]. exists []. now rewrite app_nil_r.
      * split; [easy|]. now exists [].
      * easy.
  - destruct (N.eq_dec lim 0) as [->|Hl].
    + unfold fu. rewrite scan_zero. simpl. split; [easy|]. exists (s :: ss). now rewrite app_nil_r.
    + unfold fu. simpl concat. rewrite scan_app.
      assert (Hru : ru_segs d lim acc (s :: ss) e =
        let '(t, r, l, found) := scan d lim s in
        if found then Ret (Some (acc ++ t), r :: ss)
        else match r with
             | [] => ru_segs d l (acc ++ t) ss e
             | _ :: _ => Ret (Some (acc ++ t), r :: ss)
             end).
      { cbn [ru_segs]. destruct (lim =? 0)%N eqn:E; [lia|reflexivity]. }
      rewrite Hru. clear Hru.
      destruct (scan d lim s) as [[[t r] l] f] eqn:Es.
      destruct (scan_spec _ _ _ _ _ _ _ Es) as (H1 & H2 & H3 & H4).
      destruct f.
      * simpl. split; [easy|]. now exists (r :: ss).
      * destruct r as [|c r].
        -- specialize (IH l (acc ++ t)). unfold fu in IH.
           destruct (scan d l (concat ss)) as [[[t2 r2] l2] f2] eqn:E2.
           destruct (f2 || (l2 =? 0)%N).
           ++ destruct IH as (He & ss' & Hr & Hc). split; [easy|]. exists ss'.
              rewrite Hr. simpl. now rewrite app_assoc.
           ++ destruct e.
              ** destruct IH as (He & ss' & Hr & Hc). split; [easy|]. exists ss'.
                 rewrite Hr. simpl. now rewrite app_assoc.
              ** destruct IH as (He & ss' & Hr & Hc). split; [easy|]. exists ss'. now rewrite Hr.
              ** exact IH.
        -- destruct (H4 eq_refl) as (_ & [?|Hz]); [easy|]. subst l. simpl.
           split; [easy|]. now exists ((c :: r) :: ss).
Qed.

Lemma read_until_flat d lim r : oflat (read_until d lim r) = fu d lim (flat r) (fin r).
Proof.
  unfold read_until, flat. pose proof (ru_segs_flat d (fin r) (segs r) lim []) as H.
  destruct (fu d lim (concat (segs r)) (fin r)) as [[o [rest e']]| | | |]; try easy.
  - destruct H as (-> & ss' & -> & Hc). simpl. unfold flat. simpl. rewrite Hc. now destruct o.
  - rewrite H. reflexivity.
Qed.

(** [read_line] on a flat stream *)
Definition fl_line (lim : N) (s : bytes) (e : ending) : outcome (option bytes * (bytes * ending)) :=
  x <- fu LF lim s e ;;
  match fst x with
  | None => Ret (None, snd x)
  | Some t => match utf8_decode t with
              | Some _ => Ret (Some t, snd x)
              | None => Ret (None, snd x)
              end
  end.

Lemma read_line_flat lim r : oflat (read_line lim r) = fl_line lim (flat r) (fin r).
Proof.
  unfold read_line, fl_line. rewrite <- read_until_flat.
  destruct (read_until LF lim r) as [[[t|] r']| | | |]; simpl; try easy.
  now destruct (utf8_decode t).
Qed.

(** [fu] in words *)
Lemma fu_found d lim a s e : ~ In d a -> (lenN a < lim)%N ->
  fu d lim (a ++ d :: s) e = Ret (Some (a ++ [d]), (s, e)).
Proof.
  intros Hn Hl. unfold fu.
  assert (H : forall l, lim = (l + lenN a + 1)%N ->
     scan d lim (a ++ d :: s) = (a ++ [d], s, l, true)).
  { clear Hl. revert lim. induction a as [|c a IH]; intros lim l Hl; unfold lenN in *.
    - simpl app. simpl in Hl. rewrite scan_cons by lia. rewrite Ascii.eqb_refl.
      replace (lim - 1)%N with l by lia. reflexivity.
    - simpl app. simpl length in *. rewrite scan_cons by lia.
      destruct (Ascii.eqb c d) eqn:E.
      + apply Ascii.eqb_eq in E as ->. exfalso. apply Hn. now left.
      + rewrite (IH (fun H => Hn (or_intror H)) (lim - 1)%N l) by lia. reflexivity. }
  now rewrite (H (lim - lenN a - 1)%N) by lia.
Qed.

Lemma fu_limit d lim a s e : ~ In d a -> lenN a = lim ->
  fu d lim (a ++ s) e = Ret (Some a, (s, e)).
Proof.
  intros Hn Hl. unfold fu.
  assert (H : scan d lim (a ++ s) = (a, s, 0%N, false)).
  { revert lim Hl. induction a as [|c a IH]; intros lim Hl; unfold lenN in *.
    - simpl in *. subst. apply scan_zero.
    - simpl app. simpl length in *. rewrite scan_cons by lia.
      destruct (Ascii.eqb c d) eqn:E.
      + apply Ascii.eqb_eq in E as ->. exfalso. apply Hn. now left.
      + now rewrite IH by (try lia; intros ?; apply Hn; now right). }
  now rewrite H.
Qed.

Lemma fu_end d lim a e : ~ In d a -> (lenN a < lim)%N ->
  fu d lim a e = match e with
                 | Eof => Ret (Some a, ([], Eof))
                 | IoErr => Ret (None, ([], IoErr))
                 | Stall => Blocked
                 end.
Proof.
  intros Hn Hl. unfold fu.
  assert (H : forall l, lim = (l + lenN a)%N -> (0 < l)%N -> scan d lim a = (a, [], l, false)).
  { clear Hl. revert lim. induction a as [|c a IH]; intros lim l Hl Hp; unfold lenN in *.
    - simpl. simpl in Hl. destruct (lim =? 0)%N eqn:E; [lia|].
      replace lim with l by lia. reflexivity.
    - simpl length in *. rewrite scan_cons by lia.
      destruct (Ascii.eqb c d) eqn:E.
      + apply Ascii.eqb_eq in E as ->. exfalso. apply Hn. now left.
      + rewrite (IH (fun H => Hn (or_intror H)) (lim - 1)%N l) by lia. reflexivity. }
  rewrite (H (lim - lenN a)%N) by lia. simpl. destruct (lim - lenN a =? 0)%N eqn:E; [lia|]. reflexivity.
Qed.

(** inversion of [fu]: what a successful read has taken *)
Lemma fu_inv d lim s e o rest e' : fu d lim s e = Ret (o, (rest, e')) ->
  e' = e /\
  match o with
  | Some t => s = t ++ rest /\ (lenN t <= lim)%N
              /\ ((exists t', t = t' ++ [d] /\ ~ In d t')
                  \/ (~ In d t /\ (lenN t = lim \/ (rest = [] /\ e = Eof))))
  | None => rest = [] /\ e = IoErr
  end.
Proof.
  unfold fu. destruct (scan d lim s) as [[[t r] l] f] eqn:E.
  destruct (scan_spec _ _ _ _ _ _ _ E) as (H1 & H2 & H3 & H4).
  destruct f; simpl.
  - intros [= <- <- <-]. split; [easy|]. split; [easy|]. split; [lia|]. left. auto.
  - destruct (H4 eq_refl) as (Hn & Hr). destruct (l =? 0)%N eqn:El.
    + intros [= <- <- <-]. split; [easy|]. split; [easy|]. split; [lia|]. right.
      split; [easy|]. left. lia.
    + destruct Hr as [->|?]; [|lia]. destruct e.
      * intros [= <- <- <-]. split; [easy|]. split; [easy|]. split; [lia|]. right. auto.
      * intros [= <- <- <-]. auto.
      * easy.
Qed.

Lemma fu_outcomes d lim s e :
  (exists o rest, fu d lim s e = Ret (o, (rest, e))) \/ fu d lim s e = Blocked.
Proof.
  unfold fu. destruct (scan d lim s) as [[[t r] l] f]. destruct (f || (l =? 0)%N); [eauto|].
  destruct e; eauto.
Qed.

(** ** plain reads *)
Lemma splitN_spec : forall s n a b, splitN n s = (a, b) ->
  s = a ++ b /\ lenN a = N.min n (lenN s).
Proof.
  induction s as [|c s IH]; intros n a b; cbn [splitN].
  - destruct (n =? 0)%N eqn:E; intros [= <- <-]; unfold lenN; simpl; split; auto; lia.
  - destruct (n =? 0)%N eqn:E.
    + intros [= <- <-]. unfold lenN. simpl length. split; [easy|lia].
    + destruct (splitN (n - 1) s) as [a0 b0] eqn:Es. intros [= <- <-].
      destruct (IH _ _ _ Es) as [-> H]. unfold lenN in *. simpl length. split; [easy|lia].
Qed.

Lemma rd_segs_spec n e ss : (0 < n)%N ->
  match concat ss with
  | [] => rd_segs n ss e = match e with
                           | Eof => Ret (Some [], [])
                           | IoErr => Ret (None, [])
                           | Stall => Blocked
                           end
  | _ :: _ => exists a ss', rd_segs n ss e = Ret (Some a, ss') /\ concat ss = a ++ concat ss'
                /\ (0 < lenN a <= n)%N
  end.
Proof.
  intros Hn. induction ss as [|s ss IH]; [reflexivity|].
  destruct s as [|c s].
  - simpl concat. cbn [rd_segs]. exact IH.
  - cbn [concat app rd_segs]. destruct (splitN n (c :: s)) as [a b] eqn:E.
    destruct (splitN_spec _ _ _ _ E) as [H1 H2].
    exists a, (b :: ss). split; [easy|]. split.
    + simpl concat. rewrite app_assoc, <- H1. reflexivity.
    + unfold lenN in *. simpl length in H2. lia.
Qed.

Lemma rd_read_spec n r : (0 < n)%N ->
  (flat r = [] /\ rd_read n r = match fin r with
                                | Eof => Ret (Some [], Rd [] (fin r))
                                | IoErr => Ret (None, Rd [] (fin r))
                                | Stall => Blocked
                                end)
  \/ exists a r', rd_read n r = Ret (Some a, r') /\ flat r = a ++ flat r' /\ fin r' = fin r
        /\ (0 < lenN a <= n)%N.
Proof.
  intros Hn. unfold rd_read, flat. pose proof (rd_segs_spec n (fin r) (segs r) Hn) as H.
  destruct (concat (segs r)) as [|c s] eqn:E.
  - left. rewrite H. split; [easy|]. destruct (fin r) eqn:Ef; simpl; now rewrite ?Ef.
  - right. destruct H as (a & ss' & -> & H1 & H2). exists a, (Rd ss' (fin r)). simpl. auto.
Qed.
