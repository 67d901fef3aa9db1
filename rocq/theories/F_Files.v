(** Facts about file appenders. *)
From Verif Require Export F_Luxon S_Files F_Paths.

Lemma ss_refl {A} (l : list A) : subseq l l.
Proof. induction l; [apply ss_nil|now apply ss_take]. Qed.
Lemma ss_trans {A} (a b c : list A) : subseq a b -> subseq b c -> subseq a c.
Proof.
  intros H1 H2. revert a H1. induction H2 as [l|x b l H IH|x b l H IH]; intros a H1.
  - inversion H1; subst. constructor.
  - constructor. now apply IH.
  - inversion H1; subst; [constructor|apply ss_skip; now apply IH|apply ss_take; now apply IH].
Qed.
Lemma ss_app {A} (a b c d : list A) : subseq a b -> subseq c d -> subseq (a ++ c) (b ++ d).
Proof.
  intros H1 H2. induction H1 as [l|x a l H IH|x a l H IH]; simpl.
  - induction l; simpl; [easy|]. now constructor.
  - now constructor.
  - now constructor.
Qed.
Lemma ss_app_r {A} (a b c : list A) : subseq a b -> subseq a (b ++ c).
Proof. intros H. rewrite <- (app_nil_r a). apply ss_app; [easy|constructor]. Qed.
Lemma ss_app_l {A} (a b c : list A) : subseq a c -> subseq a (b ++ c).
Proof. intros H. apply (ss_app [] b a c); [constructor|easy]. Qed.
Lemma ss_firstn {A} n (l : list A) : subseq (firstn n l) l.
Proof. rewrite <- (firstn_skipn n l) at 2. apply ss_app_r, ss_refl. Qed.

Lemma length_update {A} n f (l : list A) : length (update_nth n f l) = length l.
Proof. revert n. induction l; intros [|n]; simpl; auto. Qed.
Lemma nth_update_same {A} n f (l : list A) d : n < length l -> nth n (update_nth n f l) d = f (nth n l d).
Proof. revert n. induction l; intros [|n] H; simpl in *; try lia; auto. apply IHl. lia. Qed.
Lemma nth_update_other {A} n m f (l : list A) d : n <> m -> nth n (update_nth m f l) d = nth n l d.
Proof. revert n m. induction l; intros [|n] [|m] H; simpl; auto; try lia. Qed.

(** what one call does to the files *)
Definition frame (s s' : state) : Prop :=
  names s' = names s /\ ino s' = ino s /\ cap s' = cap s /\ length (data s') = length (data s)
  /\ forall i, i <> ino s -> content s' i = content s i.
Definition moves (e : env) (s s' : state) (b : bytes) (ok : bool) : Prop :=
  frame s s' /\ exists w, current s' = current s ++ w
  /\ subseq (w ++ pending s') (pending s ++ b)
  /\ (calm e -> ok = true /\ w ++ pending s' = pending s ++ b).

Lemma frame_refl s : frame s s. Proof. now unfold frame. Qed.
Lemma frame_trans a b c : frame a b -> frame b c -> frame a c.
Proof.
  unfold frame. intros (A1 & A2 & A3 & A4 & A5) (B1 & B2 & B3 & B4 & B5). splits; try congruence.
  intros i H. rewrite B5 by congruence. now apply A5.
Qed.
Lemma moves_refl e s : moves e s s [] true.
Proof.
  split; [apply frame_refl|]. exists []. rewrite !app_nil_r. splits; auto. apply ss_refl.
Qed.
Lemma moves_trans e a b c x y ok : moves e a b x true -> moves e b c y ok -> moves e a c (x ++ y) ok.
Proof.
  intros (F1 & w1 & A1 & A2 & A3) (F2 & w2 & B1 & B2 & B3). split; [now apply (frame_trans a b c)|].
  exists (w1 ++ w2). splits.
  - now rewrite B1, A1, app_assoc.
  - rewrite <- app_assoc. apply (ss_trans _ (w1 ++ pending b ++ y)).
    + apply ss_app; [apply ss_refl|easy].
    + rewrite !app_assoc. apply ss_app; [now rewrite <- ?app_assoc|apply ss_refl].
  - intros Hc. destruct (A3 Hc) as [_ A4]. destruct (B3 Hc) as [B4 B5]. split; [easy|].
    now rewrite <- app_assoc, B5, !app_assoc, A4, <- !app_assoc.
Qed.
(** like moves_trans, where the first part failed or lost something: only order *)
Lemma moves_less e a b x y : moves e a b x false -> moves e a b (x ++ y) false.
Proof.
  intros (F1 & w1 & A1 & A2 & A3). split; [easy|]. exists w1. splits; [easy| |].
  - rewrite app_assoc. now apply ss_app_r.
  - intros Hc. destruct (A3 Hc) as [H _]. discriminate.
Qed.

Lemma settle_moves e s s' ok : ino s < length (data s) -> settle e s = (s', ok) ->
  moves e s s' [] ok /\ fly s' = [] /\ buf s' = buf s.
Proof.
  intros Hi H. unfold settle in H. destruct (fly s) as [|c f] eqn:Ef.
  - injection H as <- <-. splits; auto. apply moves_refl.
  - set (done := match e_write e (tick s) with None => c :: f | Some k => firstn k (c :: f) end) in H.
    injection H as <- <-. splits; try reflexivity. split.
    + unfold frame, content. cbn [names data ino cap]. splits; auto; [now rewrite length_update|].
      intros i Hn. now rewrite nth_update_other.
    + exists done. unfold current, content, pending. cbn [names data ino cap fly buf]. rewrite nth_update_same by easy.
      rewrite Ef. splits; auto.
      * rewrite app_nil_r. apply ss_app; [|apply ss_refl]. unfold done.
        destruct (e_write e (tick s)); [apply ss_firstn|apply ss_refl].
      * intros Hc. unfold done. rewrite (Hc (tick s)). split; [easy|]. now rewrite app_nil_r.
Qed.

(** putting bytes into the buffer or in flight *)
Lemma file_write_moves e s s' src n : ino s < length (data s) -> buf s = [] -> file_write e s src = (s', Some n) ->
  moves e s s' (firstn n src) true /\ buf s' = [] /\ n = N.to_nat (N.min (N.of_nat (length src)) max_chunk).
Proof.
  intros Hi Hb H. unfold file_write in H. destruct (settle e s) as [s1 ok] eqn:E.
  apply settle_moves in E as (M & F & Hb1); [|easy]. destruct ok; [|discriminate].
  injection H as <- <-. rewrite Hb in Hb1. cbn [buf]. splits; auto. rewrite <- (app_nil_l (firstn _ src)).
  eapply moves_trans; [exact M|]. split; [now unfold frame|]. exists []. unfold pending, current, content. cbn.
  rewrite F, Hb1. rewrite !app_nil_r. splits; auto. apply ss_refl.
Qed.
Lemma file_write_err e s s' src : ino s < length (data s) -> file_write e s src = (s', None) ->
  moves e s s' [] false /\ fly s' = [] /\ buf s' = buf s.
Proof.
  intros Hi H. unfold file_write in H. destruct (settle e s) as [s1 ok] eqn:E.
  apply settle_moves in E as (M & F & Hb1); [|easy]. destruct ok; [discriminate|]. now injection H as <-.
Qed.
Lemma max_chunk_pos : (0 < max_chunk)%N. Proof. now vm_compute. Qed.
Lemma min_buffer_pos : 0 < min_buffer. Proof. unfold min_buffer. lia. Qed.
Lemma min_buffer_is : N.of_nat min_buffer = 8092%N. Proof. unfold min_buffer. lia. Qed.
Global Opaque max_chunk min_buffer.

(** draining the buffer: the state's own buffer is ignored on the way *)
Lemma file_write_skel e s src : forall b,
  file_write e (set_buf s b) src = (set_buf (fst (file_write e s src)) b, snd (file_write e s src)).
Proof.
  intros b. unfold file_write, settle. cbn [fly set_buf tick names data ino buf cap].
  destruct (fly s) as [|c f]; [reflexivity|]. cbn [tick ino data names cap buf fly].
  destruct (e_write e (tick s)); reflexivity.
Qed.
Lemma set_buf_set s a b : set_buf (set_buf s a) b = set_buf s b. Proof. reflexivity. Qed.
Lemma set_buf_same s : set_buf s (buf s) = s. Proof. now destruct s. Qed.

Lemma drain_moves e fuel : forall s rest s' rest' ok, ino s < length (data s) -> length rest <= fuel ->
  drain e fuel s rest = (s', rest', ok) ->
  moves e (set_buf s rest) (set_buf s' rest') [] ok /\ (ok = true -> rest' = []) /\ length rest' <= length rest
  /\ (ok = false -> fly s' = []).
Proof.
  induction fuel as [|fuel IH]; intros s rest s' rest' ok Hi Hl H.
  - destruct rest; [|simpl in Hl; lia]. simpl in H. injection H as <- <- <-. splits; auto; try easy. apply moves_refl.
  - destruct rest as [|c rest]; [simpl in H; injection H as <- <- <-; splits; auto; try easy; apply moves_refl|].
    cbn [drain] in H. set (r := c :: rest) in *.
    destruct (file_write e s r) as [s1 [n|]] eqn:E.
    + pose proof (file_write_skel e s r []) as E2. rewrite E in E2. cbn [fst snd] in E2.
      apply file_write_moves in E2 as (M & Hb & Hn); [|easy..].
      assert (Hn1 : 1 <= n <= length r).
      { pose proof max_chunk_pos. simpl length in Hn |- *. lia. }
      assert (F : frame s s1) by (destruct M as [M _]; exact M).
      destruct F as (F1 & F2 & F3 & F4 & F5).
      apply IH in H as (M2 & H2 & H3 & H4); [|lia|rewrite skipn_length; lia].
      splits; [|easy|rewrite skipn_length in H3; lia|easy].
      destruct M as ((G1 & G2 & G3 & G4 & G5) & w & A1 & A2 & A3).
      destruct M2 as ((K1 & K2 & K3 & K4 & K5) & w2 & B1 & B2 & B3).
      unfold moves, frame, pending, current, content in *. cbn [set_buf names data ino fly buf cap] in *.
      rewrite !app_nil_r in *. split.
      * splits; try congruence. intros i Hne. rewrite K5 by congruence. now apply G5.
      * exists (w ++ w2). rewrite K2, G2 in B1. rewrite K2. rewrite G2 in *. splits.
        -- rewrite B1, A1. now rewrite app_assoc.
        -- rewrite <- app_assoc. apply (ss_trans _ (w ++ fly s1 ++ skipn n r)).
           ++ apply ss_app; [apply ss_refl|easy].
           ++ rewrite app_assoc. rewrite <- (firstn_skipn n r) at 2. rewrite app_assoc.
              apply ss_app; [easy|apply ss_refl].
        -- intros Hc. destruct (A3 Hc) as [_ A4]. destruct (B3 Hc) as [B4 B5]. split; [easy|].
           rewrite <- app_assoc, B5, app_assoc, A4, <- app_assoc. now rewrite firstn_skipn.
    + injection H as <- <- <-. pose proof (file_write_skel e s r r) as E2. rewrite E in E2. cbn [fst snd] in E2.
      apply file_write_err in E2 as (M & Hf & Hb); [|easy]. splits; auto; try easy.
Qed.
Lemma flush_buf_moves e s s' ok : ino s < length (data s) -> flush_buf e s = (s', ok) ->
  moves e s s' [] ok /\ (ok = true -> buf s' = []) /\ length (buf s') <= length (buf s) /\ (ok = false -> fly s' = []).
Proof.
  intros Hi H. unfold flush_buf in H. destruct (drain e (length (buf s)) s (buf s)) as [[s1 rest] ok1] eqn:E.
  injection H as <- <-. apply drain_moves in E; [|easy|lia]. rewrite set_buf_same in E. exact E.
Qed.
Lemma moves_sound e s s' b ok : moves e s s' b ok -> length (buf s') <= cap s' -> sound s -> sound s'.
Proof.
  intros ((F1 & F2 & F3 & F4 & F5) & _) Hb (H1 & H2 & H3 & H4). unfold sound.
  rewrite F1, F2, F4. splits; auto. now rewrite F3.
Qed.
Lemma buf_write_moves e s s' b n : sound s -> b <> [] -> buf_write e s b = (s', Some n) ->
  moves e s s' (firstn n b) true /\ sound s' /\ 1 <= n <= length b
  /\ (length b < cap s -> n = length b /\ exists x, buf s' = x ++ b).
Proof.
  intros Hs Hb H. pose proof Hs as (H1 & H2 & H3 & H4). unfold buf_write in H.
  set (q := if cap s <? length (buf s) + length b then flush_buf e s else (s, true)) in H.
  assert (Q : moves e s (fst q) [] (snd q) /\ length (buf (fst q)) <= cap s /\ cap (fst q) = cap s
              /\ (snd q = true -> length (buf (fst q)) + length b <= cap s \/ buf (fst q) = [])).
  { subst q. destruct (Nat.ltb_spec (cap s) (length (buf s) + length b)) as [Hl|Hl].
    - destruct (flush_buf e s) as [s1 ok] eqn:E. apply flush_buf_moves in E as (M & A & A2 & A3); [|easy].
      cbn [fst snd]. splits; auto; [lia|]. now destruct M as ((F1 & F2 & F3 & F4 & F5) & _).
    - cbn [fst snd]. splits; auto. apply moves_refl. }
  destruct q as [s1 ok]. cbn [fst snd] in Q. destruct Q as (M & A1 & A2 & A3).
  destruct ok; cbn [negb] in H; [|discriminate].
  assert (Hs1 : sound s1) by (apply (moves_sound e s s1 [] true M); [lia|easy]).
  destruct (Nat.leb_spec (cap s) (length b)) as [Hl|Hl].
  - assert (Hb1 : buf s1 = []).
    { destruct (A3 eq_refl) as [A|A]; [|easy]. destruct (buf s1) eqn:Eb; [easy|]. simpl in A. lia. }
    apply file_write_moves in H as (M2 & Hb2 & Hn); [|apply Hs1|easy].
    splits.
    + rewrite <- (app_nil_l (firstn n b)). now apply (moves_trans e s s1 s').
    + apply (moves_sound e s1 s' _ true M2); [rewrite Hb2; simpl; lia|easy].
    + pose proof max_chunk_pos. destruct b; [easy|]. simpl length in *. lia.
    + lia.
    + lia.
  - injection H as <- <-.
    assert (M2 : moves e s1 (set_buf s1 (buf s1 ++ b)) b true).
    { split; [now unfold frame|]. exists []. unfold pending, current, content. cbn. rewrite <- !app_assoc, app_nil_r.
      splits; auto. apply ss_refl. }
    splits.
    + rewrite firstn_all. rewrite <- (app_nil_l b) at 2. now apply (moves_trans e s s1 _).
    + apply (moves_sound e s1 _ _ true M2); [|easy]. cbn. rewrite app_length, A2.
      destruct (A3 eq_refl) as [A|A]; [lia|]. rewrite A. simpl. lia.
    + destruct b; [easy|]. simpl. lia.
    + lia.
    + intros _. split; [easy|]. now exists (buf s1).
Qed.
Lemma buf_write_err e s s' b : sound s -> buf_write e s b = (s', None) -> moves e s s' [] false /\ sound s'.
Proof.
  intros Hs H. pose proof Hs as (H1 & H2 & H3 & H4). unfold buf_write in H.
  destruct (Nat.ltb_spec (cap s) (length (buf s) + length b)) as [Hl|Hl].
  - destruct (flush_buf e s) as [s1 ok] eqn:E. apply flush_buf_moves in E as (M & A & A2 & A3); [|easy].
    assert (Hc : cap s1 = cap s) by now destruct M as ((F1 & F2 & F3 & F4 & F5) & _).
    assert (Hs1 : sound s1) by (apply (moves_sound e s s1 [] ok M); [lia|easy]).
    destruct ok; cbn [negb] in H.
    + destruct (cap s <=? length b); [|discriminate].
      apply file_write_err in H as (M2 & F & Hb2); [|apply Hs1]. split.
      * apply (moves_trans e s s1 s' [] []); auto.
      * apply (moves_sound e s1 s' _ false M2); [|easy]. rewrite Hb2.
        destruct M2 as ((F1 & F2 & F3 & F4 & F5) & _). rewrite F3. apply Hs1.
    + injection H as <-. auto.
  - cbn [negb] in H. destruct (cap s <=? length b); [|discriminate].
    apply file_write_err in H as (M2 & F & Hb2); [|easy]. split; [easy|].
    apply (moves_sound e s s' _ false M2); [|easy]. rewrite Hb2.
    destruct M2 as ((F1 & F2 & F3 & F4 & F5) & _). now rewrite F3.
Qed.
Lemma write_all_moves e fuel : forall s b s' ok, sound s -> length b <= fuel -> write_all e fuel s b = (s', ok) ->
  moves e s s' b ok /\ sound s'.
Proof.
  induction fuel as [|fuel IH]; intros s b s' ok Hs Hl H.
  - destruct b; [|simpl in Hl; lia]. injection H as <- <-. split; [apply moves_refl|easy].
  - destruct b as [|c b]; [injection H as <- <-; split; [apply moves_refl|easy]|].
    cbn [write_all] in H. set (r := c :: b) in *. destruct (buf_write e s r) as [s1 [n|]] eqn:E.
    + apply buf_write_moves in E as (M & Hs1 & Hn & _); [|easy..].
      apply IH in H as (M2 & Hs2); [|easy|rewrite skipn_length; lia]. split; [|easy].
      rewrite <- (firstn_skipn n r). now apply (moves_trans e s s1 s').
    + injection H as <- <-. apply buf_write_err in E as (M & Hs1); [|easy]. split; [|easy].
      rewrite <- (app_nil_l r). now apply moves_less.
Qed.
Lemma writeall_moves e s b s' ok : sound s -> file_writeall e s b = (s', ok) -> moves e s s' b ok /\ sound s'.
Proof. intros Hs H. apply (write_all_moves e (length b)); auto. Qed.
(** a record shorter than the buffer stays in the buffer, if it is taken at all *)
Lemma writeall_short e s b s' ok : sound s -> b <> [] -> length b < cap s -> file_writeall e s b = (s', ok) ->
  if ok then exists x, buf s' = x ++ b else moves e s s' [] false.
Proof.
  intros Hs Hb Hl H. unfold file_writeall in H. destruct b as [|c b]; [easy|]. cbn [length write_all] in H.
  set (r := c :: b) in *. destruct (buf_write e s r) as [s1 [n|]] eqn:E.
  - apply buf_write_moves in E as (M & Hs1 & Hn & A); [|easy..]. destruct (A Hl) as (-> & x & Hx).
    rewrite skipn_all in H. replace (write_all e (length b) s1 []) with (s1, true) in H by now destruct (length b).
    injection H as <- <-. now exists x.
  - injection H as <- <-. now apply buf_write_err in E as (M & Hs1).
Qed.
Lemma file_flush_moves e s s' ok : sound s -> file_flush e s = (s', ok) ->
  moves e s s' [] ok /\ sound s' /\ (ok = true -> pending s' = []).
Proof.
  intros Hs H. unfold file_flush in H. destruct (flush_buf e s) as [s1 ok1] eqn:E.
  apply flush_buf_moves in E as (M & A1 & A2 & A3); [|apply Hs].
  assert (Hc : cap s1 = cap s) by now destruct M as ((F1 & F2 & F3 & F4 & F5) & _).
  assert (Hs1 : sound s1). { apply (moves_sound e s s1 [] ok1 M); [|easy]. destruct Hs as (?&?&?&?). lia. }
  destruct ok1.
  - apply settle_moves in H as (M2 & B1 & B2); [|apply Hs1]. rewrite (A1 eq_refl) in B2. splits.
    + now apply (moves_trans e s s1 s' [] []).
    + apply (moves_sound e s1 s' [] ok M2); [rewrite B2; simpl; lia|easy].
    + intros _. unfold pending. now rewrite B1, B2.
  - injection H as <- <-. splits; auto; easy.
Qed.
Lemma file_call_moves e s c s' ok : sound s -> file_call e s c = (s', ok) ->
  moves e s s' (written [c]) ok /\ sound s' /\ (c = Flush -> ok = true -> pending s' = []).
Proof.
  intros Hs H. destruct c as [b|]; cbn [file_call written] in *.
  - rewrite app_nil_r. apply writeall_moves in H as (M & Hs'); [|easy]. splits; auto; easy.
  - apply file_flush_moves in H as (M & Hs' & H); auto.
Qed.

(** histories of a plain log file *)
Lemma written_app a b : written (a ++ b) = written a ++ written b.
Proof. induction a as [|[x|] a IH]; simpl; auto. now rewrite IH, app_assoc. Qed.
Lemma moves_any e a b c x y ok1 ok2 : moves e a b x ok1 -> moves e b c y ok2 -> moves e a c (x ++ y) (ok1 && ok2).
Proof.
  intros H1 H2. destruct ok1; [now apply (moves_trans e a b c)|].
  destruct H1 as (F1 & w1 & A1 & A2 & A3), H2 as (F2 & w2 & B1 & B2 & B3).
  split; [now apply (frame_trans a b c)|]. exists (w1 ++ w2). splits.
  - now rewrite B1, A1, app_assoc.
  - rewrite <- app_assoc. apply (ss_trans _ (w1 ++ pending b ++ y)).
    + apply ss_app; [apply ss_refl|easy].
    + rewrite !app_assoc. apply ss_app; [now rewrite <- ?app_assoc|apply ss_refl].
  - intros Hc. destruct (A3 Hc). discriminate.
Qed.
Lemma calls_moves e cs : forall s s' oks, sound s -> file_calls e s cs = (s', oks) ->
  moves e s s' (written cs) (forallb (fun b => b) oks) /\ sound s'.
Proof.
  induction cs as [|c cs IH]; intros s s' oks Hs H.
  - injection H as <- <-. split; [apply moves_refl|easy].
  - cbn [file_calls] in H. destruct (file_call e s c) as [s1 ok] eqn:E1.
    destruct (file_calls e s1 cs) as [s2 oks2] eqn:E2. injection H as <- <-.
    apply file_call_moves in E1 as (M1 & Hs1 & _); [|easy]. apply IH in E2 as (M2 & Hs2); [|easy].
    split; [|easy]. change (c :: cs) with ([c] ++ cs). rewrite written_app. cbn [forallb].
    now apply (moves_any e s s1 s2).
Qed.
Lemma calls_app e a b s : file_calls e s (a ++ b) =
  let (s1, o1) := file_calls e s a in let (s2, o2) := file_calls e s1 b in (s2, o1 ++ o2).
Proof.
  revert s. induction a as [|c a IH]; intros s; simpl.
  - now destruct (file_calls e s b).
  - destruct (file_call e s c) as [s1 ok]. rewrite IH. destruct (file_calls e s1 a) as [s2 o2].
    now destruct (file_calls e s2 b).
Qed.

Lemma open_spec nm d p nm' d' i : names_ok nm d -> open_file nm d p = (nm', d', i) ->
  i < length d' /\ names_ok nm' d' /\ denotes nm' p = Some i /\ (forall j, j < length d -> nth j d' [] = nth j d [])
  /\ (denotes nm p = None -> i = length d /\ nth i d' [] = [] /\ d' = d ++ [[]])
  /\ (forall j, denotes nm p = Some j -> i = j /\ nm' = nm /\ d' = d)
  /\ (forall q, q <> p -> denotes nm' q = denotes nm q).
Proof.
  intros Hn H. unfold open_file in H. destruct (denotes nm p) as [j|] eqn:E; injection H as <- <- <-.
  - splits; auto; try easy; [now apply (Hn p)|now intros j0 [= ->]].
  - splits; auto; try easy.
    + rewrite app_length. simpl. lia.
    + intros q i Hq. rewrite app_length. cbn [denotes] in Hq. destruct (chars_eqb p q); [injection Hq as <-; simpl; lia|].
      apply Hn in Hq. lia.
    + cbn [denotes]. now rewrite (proj2 (chars_eqb_eq p p) eq_refl).
    + intros j Hj. now rewrite app_nth1.
    + intros _. splits; auto. rewrite app_nth2 by lia. now rewrite Nat.sub_diag.
    + intros q Hq. cbn [denotes]. destruct (chars_eqb p q) eqn:Epq; [|easy]. apply chars_eqb_eq in Epq. congruence.
Qed.
Lemma file_new_sound e t nm d fp bufsize s : names_ok nm d -> file_new e t nm d fp bufsize = Some s ->
  sound s /\ pending s = [] /\ denotes (names s) fp = Some (ino s)
  /\ current s = match denotes nm fp with Some i => nth i d [] | None => [] end.
Proof.
  intros Hn H. unfold file_new in H. destruct (e_open e t); [|discriminate].
  destruct (open_file nm d fp) as [[nm' d'] i] eqn:E. injection H as <-.
  apply open_spec in E as (A1 & A2 & A3 & A4 & A5 & A6 & A7); [|easy].
  unfold sound, pending, current, content. cbn. pose proof min_buffer_pos. splits; auto.
  - lia.
  - lia.
  - destruct (denotes nm fp) as [j|]; [now destruct (A6 j eq_refl) as (-> & _ & ->)|now apply A5].
Qed.

(** what the buffer's size means *)
Lemma new_cap e t nm d fp bufsize s : file_new e t nm d fp bufsize = Some s ->
  N.of_nat (cap s) = N.max 8092 (N.of_nat bufsize).
Proof.
  intros H. unfold file_new in H. destruct (e_open e t); [|discriminate].
  destruct (open_file nm d fp) as [[nm' d'] i]. injection H as <-. cbn [cap]. pose proof min_buffer_is. lia.
Qed.
Lemma calls_collected e cs : forall s s' oks, file_calls e s cs = (s', oks) -> ~ In Flush cs ->
  length (buf s) + length (written cs) < cap s ->
  s' = set_buf s (buf s ++ written cs) /\ Forall (fun ok => ok = true) oks.
Proof.
  induction cs as [|c cs IH]; intros s s' oks H Hi Hl.
  - injection H as <- <-. cbn [written]. rewrite app_nil_r, set_buf_same. auto.
  - destruct c as [b|]; [|now destruct Hi; left]. cbn [file_calls file_call] in H. cbn [written] in *.
    rewrite app_length in Hl.
    assert (E : file_writeall e s b = (set_buf s (buf s ++ b), true)).
    { unfold file_writeall. destruct b as [|x b]; [now rewrite app_nil_r, set_buf_same|]. cbn [length write_all].
      set (y := x :: b) in *. unfold buf_write. destruct (Nat.ltb_spec (cap s) (length (buf s) + length y)); [lia|].
      cbn [negb]. destruct (Nat.leb_spec (cap s) (length y)); [lia|]. rewrite skipn_all. now destruct (length b). }
    rewrite E in H. destruct (file_calls e (set_buf s (buf s ++ b)) cs) as [s2 oks2] eqn:E2. injection H as <- <-.
    apply IH in E2 as (-> & A); [| |cbn [buf cap set_buf]; rewrite app_length; lia].
    + rewrite set_buf_set. cbn [buf set_buf]. rewrite <- app_assoc. auto.
    + intros X. apply Hi. now right.
Qed.
