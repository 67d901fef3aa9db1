(** Facts about rotating appenders. *)
From Verif Require Export F_Files.

Lemma denotes_without l p q : denotes (without l p) q = if chars_eqb p q then None else denotes l q.
Proof.
  induction l as [|[x i] l IH]; cbn [without filter denotes fst].
  - now destruct (chars_eqb p q).
  - fold (without l p). destruct (chars_eqb x p) eqn:E1; cbn [negb].
    + rewrite IH. destruct (chars_eqb p q) eqn:E2; [easy|]. apply chars_eqb_eq in E1. subst x. now rewrite E2.
    + cbn [denotes]. rewrite IH. destruct (chars_eqb x q) eqn:E3; [|easy].
      destruct (chars_eqb p q) eqn:E2; [|easy]. apply chars_eqb_eq in E2, E3. subst.
      rewrite (proj2 (chars_eqb_eq q q) eq_refl) in E1. discriminate.
Qed.
Lemma rename_spec nm src dst nm' : src <> dst -> rename nm src dst = Some nm' ->
  exists i, denotes nm src = Some i /\ denotes nm' dst = Some i /\ denotes nm' src = None
  /\ forall q, q <> src -> q <> dst -> denotes nm' q = denotes nm q.
Proof.
  intros Hne H. unfold rename in H. destruct (denotes nm src) as [i|] eqn:E; [|discriminate].
  assert (Hf : chars_eqb src dst = false) by now apply chars_eqb_neq. rewrite Hf in H.
  injection H as <-. exists i. cbn [denotes]. splits; auto.
  - now rewrite (proj2 (chars_eqb_eq dst dst) eq_refl).
  - replace (chars_eqb dst src) with false by (symmetry; apply chars_eqb_neq; congruence).
    rewrite !denotes_without, (proj2 (chars_eqb_eq src src) eq_refl). now destruct (chars_eqb dst src).
  - intros q H1 H2. replace (chars_eqb dst q) with false by (symmetry; apply chars_eqb_neq; congruence).
    rewrite !denotes_without. replace (chars_eqb dst q) with false by (symmetry; apply chars_eqb_neq; congruence).
    now replace (chars_eqb src q) with false by (symmetry; apply chars_eqb_neq; congruence).
Qed.
Lemma rename_names_ok nm src dst nm' d : rename nm src dst = Some nm' -> names_ok nm d -> names_ok nm' d.
Proof.
  intros H Hn. unfold rename in H. destruct (denotes nm src) as [i|] eqn:E; [|discriminate].
  injection H as <-. destruct (chars_eqb src dst); [easy|]. intros q j Hq. cbn [denotes] in Hq.
  destruct (chars_eqb dst q); [injection Hq as <-; now apply (Hn src)|].
  rewrite !denotes_without in Hq. destruct (chars_eqb dst q); [discriminate|].
  destruct (chars_eqb src q); [discriminate|]. now apply (Hn q).
Qed.

Lemma log_name_length fp p b x : log_name fp = Some (p, b, x) -> length fp <= length p + length b + 1 + length x.
Proof.
  unfold log_name. destruct (file_name fp) as [fn|]; [|discriminate].
  set (ext := match extension fp with Some e => e | None => [] end).
  intros [= <- <- <-]. rewrite firstn_length. destruct ext as [|c ext'] eqn:E; [simpl; lia|].
  rewrite firstn_length. simpl length in *. lia.
Qed.
Lemma name_differs fp n stamp : log_name fp = Some n -> stamp <> [] -> fp <> rotated_name n stamp.
Proof.
  destruct n as [[p b] x]. intros H Hs E. apply log_name_length in H. apply (f_equal (@length N)) in E.
  unfold rotated_name in E. rewrite !app_length in E. simpl in E. destruct stamp; [easy|]. simpl in E. lia.
Qed.
Lemma name_again_differs fp n stamp nanos : log_name fp = Some n -> stamp <> [] -> fp <> rotated_name_again n stamp nanos.
Proof.
  destruct n as [[p b] x]. intros H Hs E. apply log_name_length in H. apply (f_equal (@length N)) in E.
  unfold rotated_name_again in E. rewrite !app_length in E. simpl in E. lia.
Qed.

(** renaming changes nothing but names *)
Definition only_names (s s' : state) : Prop :=
  data s' = data s /\ ino s' = ino s /\ fly s' = fly s /\ buf s' = buf s /\ cap s' = cap s.
Lemma rot_rename_spec e r stamp left : forall first s s' ok, rot_rename e r stamp left first s = Ret (s', ok) ->
  only_names s s' /\ tick s <= tick s' /\
  if ok then exists name, rename (names s) (rt_fp r) name = Some (names s')
              /\ ((first = true /\ name = rotated_name (rt_name r) stamp) \/ exists now, name = rotated_name_again (rt_name r) stamp (rt_digits r now))
  else names s' = names s.
Proof.
  induction left as [|left IH]; intros first s s' ok H.
  - injection H as <- <-. splits; auto. now unfold only_names.
  - cbn [rot_rename] in H.
    set (q := if first then Ret (rotated_name (rt_name r) stamp, s) else _) in H.
    destruct q as [[name s1]| | | |] eqn:Eq; try discriminate. cbn [obind] in H.
    assert (Q : only_names s s1 /\ names s1 = names s /\ tick s <= tick s1 /\
      ((first = true /\ name = rotated_name (rt_name r) stamp) \/ exists now, name = rotated_name_again (rt_name r) stamp (rt_digits r now))).
    { subst q. destruct first.
      - injection Eq as <- <-. splits; auto. now unfold only_names.
      - destruct (e_now e (tick s) <? 0)%Z; [discriminate|]. injection Eq as <- <-. splits; auto.
        + now unfold only_names.
        + simpl. lia.
        + right. eauto. }
    destruct Q as ((O1 & O2 & O3 & O4 & O5) & Qn & Qt & Qd).
    destruct (if e_rename e (tick s1) then rename (names s1) (rt_fp r) name else None) as [nm'|] eqn:Er.
    + injection H as <- <-. splits; [now unfold only_names|simpl; lia|].
      destruct (e_rename e (tick s1)); [|discriminate]. rewrite Qn in Er. exists name. auto.
    + apply IH in H as ((P1 & P2 & P3 & P4 & P5) & Pt & P). cbn [bump names tick data ino fly buf cap] in *.
      splits; [unfold only_names; splits; congruence|lia|].
      destruct ok; [|congruence]. rewrite Qn in P. destruct P as (name2 & R & [[? _]|P]); [discriminate|eauto].
Qed.
Lemma rot_next_spec e r s rs : rot_next e r s = Ret rs ->
  rs = (bump s, snd rs) /\ calcnext (rt_kind r) (rt_zone r) (e_now e (tick s)) = Ret (snd rs).
Proof.
  unfold rot_next. destruct (calcnext _ _ _) as [m| | | |]; try discriminate. now intros [= <-].
Qed.

(** rotating *)
Lemma rotate_spec e r s at_ s' at' ok : sound s -> naming r -> rotate e r (s, at_) = Ret ((s', at'), ok) ->
  sound s' /\ tick s < tick s' /\
  if ok then
    ino s' = length (data s) /\ fly s' = [] /\ buf s' = [] /\ cap s' = cap s
    /\ length (data s') = S (length (data s)) /\ content s' (ino s') = []
    /\ (forall i, i <> ino s -> i <> ino s' -> content s' i = content s i)
    /\ (exists w, content s' (ino s) = content s (ino s) ++ w /\ begins w (fly s) /\ (calm e -> w = fly s))
    /\ denotes (names s') (rt_fp r) = Some (ino s')
  else only_names s s'.
Proof.
  intros Hs (Hn1 & Hn2) H. unfold rotate in H.
  destruct (unix_millis (e_now e (tick s))) as [mills| | | |]; try discriminate. cbn [obind] in H.
  destruct (mills <? at_)%Z; [injection H as <- <- <-; splits; try (simpl; lia); [easy|now unfold only_names]|].
  destruct (rot_rename e r (stamp_at r (e_now e (tick s))) 10 true (bump s)) as [[s1 renamed]| | | |] eqn:E1; try discriminate.
  cbn [obind] in H. apply rot_rename_spec in E1 as ((O1 & O2 & O3 & O4 & O5) & Ht & P).
  cbn [bump names tick data ino fly buf cap] in *.
  destruct renamed; cbn [negb] in H.
  - destruct P as (name & R & Hname).
    assert (Hne : rt_fp r <> name).
    { destruct Hname as [[_ ->]|(now & ->)]; [now apply name_differs; [|apply Hn2]|now apply name_again_differs; [|apply Hn2]]. }
    assert (Nok : names_ok (names s1) (data s)) by (apply (rename_names_ok _ _ _ _ _ R); exact (proj1 (proj2 Hs))).
    apply rename_spec in R as (i & R1 & R2 & R3 & R4); [|easy].
    destruct (file_reopen e s1 (rt_fp r)) as [s2 ok2] eqn:E2.
    destruct (rot_next e r s2) as [rs| | | |] eqn:E3; try discriminate. cbn [obind] in H. injection H as -> ->.
    apply rot_next_spec in E3 as (E3 & _). injection E3 as ->.
    unfold file_reopen in E2. destruct (e_open e (tick s1)).
    + set (s1' := State (S (tick s1)) (names s1) (data s1) (ino s1) (fly s1) (buf s1) (cap s1)) in E2.
      destruct (settle e s1') as [s3 ok3] eqn:E4. cbn [fst] in E2.
      assert (Ht3 : tick s1 < tick s3).
      { clear - E4. unfold settle in E4. cbn [fly s1'] in E4. unfold s1' in E4. cbn [fly] in E4.
        destruct (fly s1); injection E4 as <- <-; cbn [tick]; lia. }
      pose proof E4 as E5.
      apply settle_moves in E4 as (M & F & Hb); [|simpl; rewrite O1, O2; apply Hs].
      destruct M as ((G1 & G2 & G3 & G4 & G5) & w & A1 & A2 & A3).
      unfold s1' in G1, G2, G3, G4, G5, A1, A2, A3, F, Hb. unfold current, pending, content in *. cbn [names tick data ino fly buf cap] in *.
      destruct (open_file (names s3) (data s3) (rt_fp r)) as [[nm' d'] j] eqn:E6. injection E2 as <- <-.
      assert (Hl3 : length (data s3) = length (data s)) by congruence.
      apply open_spec in E6 as (B1 & B2 & B3 & B4 & B5 & B6 & B7).
      2:{ rewrite G1. intros p k Hp. rewrite Hl3. now apply (Nok p). }
      rewrite G1 in B5. destruct (B5 R3) as (-> & B5' & ->). rewrite Hl3 in *. rewrite G2, O2, O1 in A1.
      cbn [bump names tick data ino fly buf cap] in *. splits; auto.
      * unfold sound. cbn [bump names tick data ino fly buf cap]. splits; auto; simpl; [lia|].
        rewrite G3, O5. apply Hs.
      * lia.
      * congruence.
      * rewrite app_length. simpl. lia.
      * intros i0 Hi Hj. destruct (Nat.lt_ge_cases i0 (length (data s))) as [Hlt|Hge].
        -- rewrite B4 by lia. rewrite G5 by congruence. now rewrite O1.
        -- rewrite !nth_overflow; auto; rewrite ?app_length; simpl; lia.
      * exists w. rewrite B4 by apply Hs. splits; [easy| |].
        -- (* settle writes a prefix *) clear - E5 A1 O1 O2 O3 Hs. unfold settle in E5. cbn [fly s1'] in E5. rewrite O3 in E5.
           destruct (fly s) as [|c f] eqn:Ef.
           ++ injection E5 as <- <-. cbn [data s1'] in A1. rewrite O1 in A1. rewrite <- (app_nil_r (nth _ _ _)) in A1 at 1.
              apply app_inv_head in A1. subst w. now exists [].
           ++ injection E5 as <- <-. cbn [data s1' ino tick] in A1. rewrite O2, O1, nth_update_same in A1 by apply Hs.
              apply app_inv_head in A1. subst w. destruct (e_write e (S (tick s1))) as [k|]; [|exists []; now rewrite app_nil_r].
              exists (skipn k (c :: f)). now rewrite firstn_skipn.
        -- intros Hc. destruct (A3 Hc) as [_ A4]. rewrite Hb, F in A4. simpl in A4. rewrite app_nil_r in A4.
           apply app_inv_tail in A4. congruence.
    + injection E2 as <- <-. splits; [|simpl; lia|now unfold only_names].
      unfold sound. cbn [bump names tick data ino fly buf cap]. rewrite O1, O2, O4, O5. splits; try apply Hs. exact Nok.
  - destruct (rot_next e r s1) as [rs| | | |] eqn:E3; try discriminate. cbn [obind] in H. injection H as -> <-.
    apply rot_next_spec in E3 as (E3 & _). injection E3 as ->.
    splits; [|simpl; lia|unfold only_names; cbn [bump names tick data ino fly buf cap]; splits; congruence].
    unfold sound. cbn [bump names tick data ino fly buf cap]. rewrite P, O1, O2, O4, O5. exact Hs.
Qed.

(** one write to a rotating log, when no write fails *)
Lemma rot_write_calm e r s at_ b s' at' ok : calm e -> sound s -> naming r ->
  rot_writeall e r (s, at_) b = Ret ((s', at'), ok) ->
  sound s' /\ ok = true /\ cap s' = cap s /\
  ((ino s' = ino s /\ current s' ++ pending s' = current s ++ pending s ++ b /\ length (data s') = length (data s)
    /\ begins (current s) (current s')
    /\ forall i, i <> ino s -> content s' i = content s i)
   \/ (ino s' = length (data s) /\ length (data s') = S (length (data s)) /\ current s' = [] /\ pending s' = []
       /\ begins (current s) (content s' (ino s))
       /\ (forall i, i <> ino s -> i <> ino s' -> content s' i = content s i)
       /\ (exists lost, content s' (ino s) ++ lost = current s ++ pending s ++ b /\ length lost <= cap s
           /\ (b <> [] -> length b < cap s -> exists x, lost = x ++ b)))).
Proof.
  intros Hc Hs Hn H. unfold rot_writeall in H. destruct (file_writeall e s b) as [s1 ok1] eqn:E1.
  pose proof E1 as E1'. apply writeall_moves in E1' as (((F1 & F2 & F3 & F4 & F5) & w & A1 & A2 & A3) & Hs1); [|easy].
  destruct (A3 Hc) as [-> A4].
  destruct (rotate e r (s1, at_)) as [[[s2 at2] ok2]| | | |] eqn:E2; try discriminate. cbn [obind] in H.
  injection H as -> -> <-. apply rotate_spec in E2 as (Hs2 & Ht & P); [|easy..]. splits; auto.
  - destruct ok2; [now destruct P as (_ & _ & _ & -> & _)|now destruct P as (_ & _ & _ & _ & ->)].
  - destruct ok2.
  + right. destruct P as (P1 & P2 & P3 & P4 & P5 & P6 & P7 & (w2 & P8 & P9 & P10) & P11).
    splits; [lia|lia|easy|unfold pending; now rewrite P2, P3| | |].
    * rewrite F2 in P8. rewrite P8. unfold current in A1. rewrite F2 in A1. rewrite A1. unfold current. rewrite <- app_assoc. now eexists.
    * intros i Hi Hj. rewrite P7 by congruence. now apply F5.
    * exists (buf s1). rewrite F2 in P8. rewrite P8, (P10 Hc). unfold current in A1. rewrite F2 in A1. rewrite A1.
      unfold current. rewrite <- A4. unfold pending. splits.
      -- now rewrite <- !app_assoc.
      -- rewrite <- F3. apply Hs1.
      -- intros Hb Hl. exact (writeall_short e s b s1 true Hs Hb Hl E1).
  + left. destruct P as (O1 & O2 & O3 & O4 & O5). unfold current, pending, content in *. rewrite O1, O2, O3, O4. rewrite F2 in *.
    splits; auto; [|rewrite A1; now eexists]. rewrite A1, <- A4. now rewrite <- !app_assoc.
Qed.
Lemma rot_flush_calm e s at_ rs ok : calm e -> sound s -> rot_flush e (s, at_) = (rs, ok) ->
  ok = true /\ snd rs = at_ /\ frame s (fst rs) /\ sound (fst rs) /\ pending (fst rs) = [] /\ current (fst rs) = current s ++ pending s.
Proof.
  intros Hc Hs H. unfold rot_flush in H. cbn [fst snd] in H. destruct (file_flush e s) as [s1 ok1] eqn:E.
  injection H as <- <-. apply file_flush_moves in E as (M & Hs1 & A); [|easy].
  destruct M as (F & w & A1 & A2 & A3). destruct (A3 Hc) as [-> A4]. cbn [fst snd]. splits; auto.
  rewrite (A eq_refl), !app_nil_r in A4. now rewrite A1, A4.
Qed.

(** histories: the files opened one after the other, and what of the log each has *)
Lemma segments_same s s1 s' b new segs : ino s1 = ino s -> length (data s1) = length (data s) -> cap s1 = cap s ->
  current s1 ++ pending s1 = current s ++ pending s ++ b ->
  (forall i, i <> ino s -> content s1 i = content s i) ->
  segments s1 s' new segs -> segments s s' (b ++ new) segs.
Proof.
  intros H1 H2 H3 H4 H5 (A1 & A2 & A3 & A4 & A5 & A6 & A7 & A8). unfold segments. rewrite H1, H2, H3 in *. splits; auto.
  - rewrite <- A1. rewrite !app_assoc, H4. now rewrite <- !app_assoc.
  - intros i Hi Hn. rewrite A8 by auto. now apply H5.
Qed.
Lemma rot_calls_calm e r cs : forall s at_ s' at' oks, calm e -> sound s -> naming r ->
  rot_calls e r (s, at_) cs = Ret ((s', at'), oks) ->
  sound s' /\ Forall (fun b => b = true) oks /\ exists segs, segments s s' (written cs) segs.
Proof.
  induction cs as [|c cs IH]; intros s at_ s' at' oks Hc Hs Hn H.
  - injection H as <- <- <-. splits; auto. exists []. unfold segments. cbn [written map concat opened length].
    rewrite !app_nil_r. splits; auto; easy.
  - cbn [rot_calls] in H. destruct (rot_call e r (s, at_) c) as [[[s1 at1] ok1]| | | |] eqn:E1; try discriminate.
    cbn [obind fst snd] in H.
    destruct (rot_calls e r (s1, at1) cs) as [[[s2 at2] oks2]| | | |] eqn:E2; try discriminate.
    cbn [obind fst snd] in H. injection H as -> -> <-.
    destruct c as [b|]; cbn [rot_call written] in *.
    + apply rot_write_calm in E1 as (Hs1 & -> & Hcap & [D|D]); [| |easy..].
      * destruct D as (D1 & D2 & D3 & D3' & D4). apply IH in E2 as (Hs2 & Ho & segs & S1); [|easy..].
        splits; auto. exists segs. now apply (segments_same s s1).
      * destruct D as (D1 & D2 & D3 & D4 & D5' & D5 & lost & D6 & D7 & D8).
        apply IH in E2 as (Hs2 & Ho & segs & (A1 & A2 & A3 & A4 & A5 & A6 & A7 & A8)); [|easy..].
        splits; auto. exists ((content s1 (ino s), lost) :: segs).
        assert (Hlt : ino s < length (data s)) by apply Hs.
        unfold segments. cbn [map concat fst snd length opened]. splits.
        -- rewrite D3, D4 in A1. cbn [app] in A1.
           transitivity ((content s1 (ino s) ++ lost) ++ written cs); [rewrite D6; now rewrite <- !app_assoc|].
           rewrite A1. now rewrite <- !app_assoc.
        -- constructor; [easy|]. now rewrite <- Hcap.
        -- rewrite D2, D1 in *. f_equal; [|easy]. apply A8; lia.
        -- congruence.
        -- easy.
        -- intros _. destruct segs as [|g segs]; [rewrite A5 by easy; simpl; lia|]. rewrite A6 by easy. simpl length in *. lia.
        -- lia.
        -- intros i Hi Hne. rewrite A8 by lia. apply D5; lia.
    + injection E1 as E1. apply rot_flush_calm in E1 as (-> & E & F & Hs1 & P1 & P2); [|easy..].
      cbn [fst snd] in *. subst at1. apply IH in E2 as (Hs2 & Ho & segs & S1); [|easy..]. splits; auto.
      exists segs. destruct F as (F1 & F2 & F3 & F4 & F5). apply (segments_same s s1 s' [] (written cs)); auto.
      now rewrite P1, P2, !app_nil_r.
Qed.

Lemma rot_flushed e r cs : forall s at_ s' at' oks, calm e -> sound s -> naming r ->
  rot_calls e r (s, at_) (cs ++ [Flush]) = Ret ((s', at'), oks) -> pending s' = [].
Proof.
  induction cs as [|c cs IH]; intros s at_ s' at' oks Hc Hs Hn H.
  - cbn [app rot_calls rot_call obind] in H. destruct (rot_flush e (s, at_)) as [rs ok] eqn:E.
    apply rot_flush_calm in E as (_ & _ & _ & _ & P & _); [|easy..]. cbn [fst snd] in H. injection H as -> _. exact P.
  - cbn [app rot_calls] in H. destruct (rot_call e r (s, at_) c) as [[[s1 at1] ok1]| | | |] eqn:E1; try discriminate.
    cbn [obind fst snd] in H.
    destruct (rot_calls e r (s1, at1) (cs ++ [Flush])) as [[[s2 at2] oks2]| | | |] eqn:E2; try discriminate.
    cbn [obind fst snd] in H. injection H as -> -> _.
    assert (Hs1 : sound s1).
    { destruct c as [b|]; cbn [rot_call] in E1.
      - now apply rot_write_calm in E1 as (Hs1 & _).
      - injection E1 as E1. now apply rot_flush_calm in E1 as (_ & _ & _ & Hs1 & _). }
    now apply IH in E2.
Qed.

(** rotation does happen *)
Lemma first_rename e r stamp left s : permissive e -> denotes (names s) (rt_fp r) <> None ->
  exists nm, rename (names s) (rt_fp r) (rotated_name (rt_name r) stamp) = Some nm
  /\ rot_rename e r stamp (S left) true s = Ret (State (S (tick s)) nm (data s) (ino s) (fly s) (buf s) (cap s), true).
Proof.
  intros (Hr & _) Hd. cbn [rot_rename obind]. rewrite Hr.
  destruct (rename (names s) (rt_fp r) (rotated_name (rt_name r) stamp)) as [nm|] eqn:E; [eauto|].
  unfold rename in E. now destruct (denotes (names s) (rt_fp r)).
Qed.
Lemma settle_names e s : names (fst (settle e s)) = names s.
Proof. unfold settle. now destruct (fly s). Qed.
Lemma settle_tick e s : tick s <= tick (fst (settle e s)).
Proof. unfold settle. destruct (fly s); cbn [fst tick]; lia. Qed.
Lemma settle_length e s : length (data (fst (settle e s))) = length (data s).
Proof. unfold settle. destruct (fly s); cbn [fst data]; [easy|]. now rewrite length_update. Qed.
Lemma rotate_happens e r s at_ : permissive e -> sound s -> naming r -> denotes (names s) (rt_fp r) <> None ->
  (0 <= e_now e (tick s))%Z -> (at_ <= e_now e (tick s) / 1000000)%Z ->
  exists nm s2, rename (names s) (rt_fp r) (rotated_name (rt_name r) (stamp_at r (e_now e (tick s)))) = Some nm
  /\ rotate e r (s, at_) = (rs' <- rot_next e r s2 ;; Ret (rs', true))
  /\ names s2 = (rt_fp r, length (data s)) :: nm /\ tick s < tick s2.
Proof.
  intros Hp Hs (Hn1 & Hn2) Hd Hnow Hat. unfold rotate, unix_millis.
  replace (e_now e (tick s) <? 0)%Z with false by lia. cbn [obind].
  replace (e_now e (tick s) / 1000000 <? at_)%Z with false by lia.
  destruct (first_rename e r (stamp_at r (e_now e (tick s))) 9 (bump s) Hp Hd) as (nm & E1 & E2).
  rewrite E2. cbn [obind negb]. cbn [bump names] in E1. exists nm. unfold file_reopen.
  destruct Hp as (_ & Ho). rewrite Ho. cbn [tick names data ino fly buf cap].
  set (s1 := State _ _ _ _ _ _ _).
  assert (Hne : rt_fp r <> rotated_name (rt_name r) (stamp_at r (e_now e (tick s)))) by (apply name_differs; [easy|apply Hn2]).
  destruct (rename_spec _ _ _ _ Hne E1) as (i & R1 & R2 & R3 & R4).
  pose proof (settle_names e s1) as N1. pose proof (settle_tick e s1) as T1. pose proof (settle_length e s1) as L1.
  unfold s1 in N1, T1, L1. cbn [names tick data] in N1, T1, L1. fold s1 in N1, T1, L1.
  unfold open_file. rewrite N1, R3. rewrite L1.
  eexists. splits; [easy|reflexivity|reflexivity|]. cbn [tick]. simpl in T1. lia.
Qed.
Lemma writeall_tick e fuel : forall s b, tick s <= tick (fst (write_all e fuel s b)).
Proof.
  assert (FW : forall s b, tick s <= tick (fst (file_write e s b))).
  { intros s b. unfold file_write. destruct (settle e s) as [s1 ok] eqn:E. pose proof (settle_tick e s) as H. rewrite E in H.
    destruct ok; exact H. }
  assert (DR : forall k s b, tick s <= tick (fst (fst (drain e k s b)))).
  { induction k as [|k IH]; intros s [|c b]; cbn [drain fst]; try lia.
    pose proof (FW s (c :: b)) as H. destruct (file_write e s (c :: b)) as [s1 [n|]]; cbn [fst] in *; [|lia].
    specialize (IH s1 (skipn n (c :: b))). lia. }
  assert (FB : forall s, tick s <= tick (fst (flush_buf e s))).
  { intros s. unfold flush_buf. pose proof (DR (length (buf s)) s (buf s)) as H.
    destruct (drain e (length (buf s)) s (buf s)) as [[s1 r] ok]. exact H. }
  assert (BW : forall s b, tick s <= tick (fst (buf_write e s b))).
  { intros s b. unfold buf_write. set (q := if cap s <? _ then _ else _).
    assert (Q : tick s <= tick (fst q)) by (subst q; destruct (cap s <? _); [apply FB|cbn; lia]).
    destruct q as [s1 ok]. cbn [fst] in Q. destruct ok; cbn [negb fst]; [|lia].
    destruct (cap s <=? length b); [pose proof (FW s1 b); lia|cbn; lia]. }
  induction fuel as [|k IH]; intros s [|c b]; cbn [write_all fst]; try lia.
  pose proof (BW s (c :: b)) as H. destruct (buf_write e s (c :: b)) as [s1 [n|]]; cbn [fst] in *; [|lia].
  specialize (IH s1 (skipn n (c :: b))). lia.
Qed.
Lemma writeall_names e s b s' ok : sound s -> file_writeall e s b = (s', ok) -> names s' = names s /\ length (data s') = length (data s) /\ tick s <= tick s'.
Proof.
  intros Hs H. pose proof (writeall_tick e (length b) s b) as Ht. unfold file_writeall in H. rewrite H in Ht.
  apply writeall_moves in H as (((F1 & F2 & F3 & F4 & F5) & _) & _); auto.
Qed.

(** the record at which a log is rotated *)
Lemma rotated_write e r s at_ b s' at' ok : permissive e -> sound s -> naming r ->
  denotes (names s) (rt_fp r) <> None ->
  (forall t, tick s <= t -> (0 <= e_now e t /\ at_ * 1000000 <= e_now e t)%Z) ->
  rot_writeall e r (s, at_) b = Ret ((s', at'), ok) ->
  exists nm t u, tick s <= t /\ t < u
  /\ rename (names s) (rt_fp r) (rotated_name (rt_name r) (stamp_at r (e_now e t))) = Some nm
  /\ names s' = (rt_fp r, length (data s)) :: nm /\ tick s < tick s'
  /\ calcnext (rt_kind r) (rt_zone r) (e_now e u) = Ret at'.
Proof.
  intros Hp Hs Hn Hd Ht H. unfold rot_writeall in H. destruct (file_writeall e s b) as [s1 ok1] eqn:E1.
  pose proof (writeall_names e s b s1 ok1 Hs E1) as (N1 & L1 & T1).
  apply writeall_moves in E1 as (_ & Hs1); [|easy].
  destruct (Ht (tick s1) T1) as [Hz Hz2].
  destruct (rotate_happens e r s1 at_ Hp Hs1 Hn) as (nm & s2 & R & Er & N2 & T2); [now rewrite N1|easy| |].
  { apply Z.div_le_lower_bound; lia. }
  destruct (rotate e r (s1, at_)) as [[[s3 at3] ok3]| | | |] eqn:E2; try discriminate.
  assert (Hs3 : sound s3) by (now apply rotate_spec in E2 as (Hs3 & _)).
  destruct (rot_next e r s2) as [rs| | | |] eqn:E3; try discriminate. cbn [obind] in Er. injection Er as <- ->.
  apply rot_next_spec in E3 as (E3 & E4). cbn [snd] in *. injection E3 as ->. cbn [obind] in H.
  exists nm, (tick s1), (tick s2). rewrite N1, L1 in *.
  destruct ok1.
  - injection H as <- <- <-. splits; auto. cbn [bump tick]. lia.
  - cbn [fst snd] in H. destruct (file_writeall e (bump s2) b) as [s4 ok4] eqn:E5. injection H as <- <- <-.
    apply writeall_names in E5 as (N4 & L4 & T4); [|easy]. rewrite N4. cbn [bump names tick] in *. splits; auto. lia.
Qed.
Lemma loses e r s at_ b s' at' ok : calm e -> permissive e -> sound s -> naming r ->
  denotes (names s) (rt_fp r) <> None ->
  (forall t, tick s <= t -> (0 <= e_now e t /\ at_ * 1000000 <= e_now e t)%Z) ->
  b <> [] -> length b < cap s -> rot_writeall e r (s, at_) b = Ret ((s', at'), ok) ->
  ok = true /\ pending s' = [] /\ (forall i, i <> ino s -> content s' i = content s i)
  /\ begins (content s' (ino s)) (current s ++ pending s) /\ ino s' = length (data s) /\ current s' = [].
Proof.
  intros Hc Hp Hs Hn Hd Ht Hb Hl H.
  pose proof (rot_write_calm e r s at_ b s' at' ok Hc Hs Hn H) as (Hs' & -> & Hcap & D).
  pose proof (rotated_write e r s at_ b s' at' true Hp Hs Hn Hd Ht H) as (nm & t & u & T1 & T2 & R & N & T3 & C).
  assert (Hi : denotes (names s') (rt_fp r) = Some (length (data s))).
  { rewrite N. cbn [denotes]. now rewrite (proj2 (chars_eqb_eq _ _) eq_refl). }
  destruct D as [D|D].
  - exfalso. destruct D as (D1 & D2 & D3 & _). destruct Hs' as (_ & Hs' & _). apply Hs' in Hi. lia.
  - destruct D as (D1 & D2 & D3 & D4 & D5 & D6 & lost & D7 & D8 & D9). splits; auto.
    + intros i Hi2. destruct (Nat.eq_dec i (ino s')) as [->|Hne]; [|now apply D6].
      unfold current in D3. rewrite D3. unfold content. rewrite nth_overflow; [easy|lia].
    + destruct (D9 Hb Hl) as (x & ->). exists x.
      rewrite (app_assoc (current s)) in D7. rewrite (app_assoc (content s' (ino s))) in D7. now apply app_inv_tail in D7.
Qed.

(** names *)
Lemma stamp_period r now k : period_at r now k -> stamp_at r now = rt_stamps r k.
Proof.
  intros H. unfold stamp_at. f_equal. unfold period_at in H. change (now / 1000000000)%Z with (secs now) in H. unfold in_period in H. unfold local_secs.
  replace (period_of (rt_kind r)) with (length_of (rt_kind r)) by now destruct (rt_kind r).
  assert (0 < length_of (rt_kind r))%Z by (destruct (rt_kind r); simpl; lia).
  symmetry. apply (Z.div_unique_pos _ _ _ (secs now + offset (rt_zone r) (secs now) - k * length_of (rt_kind r))); lia.
Qed.
Lemma archive_inj r j k : (forall a b, rt_stamps r a = rt_stamps r b -> a = b) -> archive r j = archive r k -> j = k.
Proof.
  intros Hi H. unfold archive, rotated_name in H. destruct (rt_name r) as [[p b] x].
  apply app_inv_head, app_inv_head in H. apply app_inv_tail in H. now apply Hi.
Qed.
Lemma archive_ne r k : naming r -> rt_fp r <> archive r k.
Proof. intros (H1 & H2). now apply name_differs. Qed.
Lemma overwrites e r s at_ b s' at' ok k i : permissive e -> sound s -> naming r ->
  denotes (names s) (rt_fp r) = Some i ->
  (forall t, tick s <= t -> (0 <= e_now e t /\ at_ * 1000000 <= e_now e t)%Z) ->
  (forall t, tick s <= t -> period_at r (e_now e t) k) ->
  rot_writeall e r (s, at_) b = Ret ((s', at'), ok) ->
  denotes (names s') (archive r k) = Some i /\ denotes (names s') (rt_fp r) = Some (length (data s))
  /\ forall p, p <> rt_fp r -> p <> archive r k -> denotes (names s') p = denotes (names s) p.
Proof.
  intros Hp Hs Hn Hd Ht Hk H.
  apply rotated_write in H as (nm & t & u & T1 & T2 & R & N & T3 & C); try easy; [|now rewrite Hd].
  rewrite (stamp_period r _ k (Hk t T1)) in R. fold (archive r k) in R.
  pose proof (archive_ne r k Hn) as Hne.
  apply rename_spec in R as (i' & R1 & R2 & R3 & R4); [|easy]. assert (i' = i) by congruence. subst i'.
  rewrite N. cbn [denotes]. rewrite (proj2 (chars_eqb_eq _ _) eq_refl).
  assert (F : forall p, p <> rt_fp r -> chars_eqb (rt_fp r) p = false) by (intros p Hq; apply chars_eqb_neq; congruence).
  splits; auto.
  - now rewrite F by auto.
  - intros p H1 H2. rewrite F by auto. now apply R4.
Qed.
Lemma destroyed e r s at_ b s' at' ok k j : permissive e -> sound s -> naming r ->
  denotes (names s) (rt_fp r) = Some (ino s) ->
  (forall t, tick s <= t -> (0 <= e_now e t /\ at_ * 1000000 <= e_now e t)%Z) ->
  (forall t, tick s <= t -> period_at r (e_now e t) k) ->
  denotes (names s) (archive r k) = Some j -> j <> ino s -> (forall p, denotes (names s) p = Some j -> p = archive r k) ->
  rot_writeall e r (s, at_) b = Ret ((s', at'), ok) ->
  forall p, denotes (names s') p <> Some j.
Proof.
  intros Hp Hs Hn Hd Ht Hk Hj Hji Hu H p.
  apply (overwrites e r s at_ b s' at' ok k (ino s)) in H as (A1 & A2 & A3); auto.
  destruct (list_eq_dec N.eq_dec p (rt_fp r)) as [->|H1].
  - rewrite A2. intros [= E]. apply Hs in Hj. lia.
  - destruct (list_eq_dec N.eq_dec p (archive r k)) as [->|H2]; [rewrite A1; congruence|].
    rewrite A3 by auto. intros E. now apply Hu in E.
Qed.

(** a day longer than 24 hours *)
Lemma long_day e r s at_ b c s1 at1 ok1 s2 at2 ok2 k m : calm e -> permissive e -> sound s -> naming r ->
  coherent (rt_zone r) -> denotes (names s) (rt_fp r) = Some (ino s) ->
  (forall p, denotes (names s) p = Some (ino s) -> p = rt_fp r) ->
  shows (rt_zone r) m (k * length_of (rt_kind r)) ->
  (forall t, tick s <= t -> (0 <= e_now e t /\ period_at r (e_now e t) k /\ m + length_of (rt_kind r) <= secs (e_now e t))%Z) ->
  (forall t, tick s <= t -> (at_ * 1000000 <= e_now e t)%Z) ->
  b <> [] -> length b < cap s -> c <> [] -> length c < cap s ->
  rot_writeall e r (s, at_) b = Ret ((s1, at1), ok1) -> rot_writeall e r (s1, at1) c = Ret ((s2, at2), ok2) ->
  ok1 = true /\ ok2 = true /\ (forall p, denotes (names s2) p <> Some (ino s))
  /\ exists i, denotes (names s2) (archive r k) = Some i /\ content s2 i = [] /\ current s2 = [] /\ pending s2 = [].
Proof.
  intros Hc Hp Hs Hn Hco Hd Hu Hm Ht Hat Hb Hbl Hcc Hcl H1 H2.
  assert (Ht1 : forall t, tick s <= t -> (0 <= e_now e t /\ at_ * 1000000 <= e_now e t)%Z).
  { intros t T. split; [now apply Ht|now apply Hat]. }
  assert (Hk1 : forall t, tick s <= t -> period_at r (e_now e t) k) by (intros t T; now apply Ht).
  assert (Hd' : denotes (names s) (rt_fp r) <> None) by congruence.
  pose proof (loses e r s at_ b s1 at1 ok1 Hc Hp Hs Hn Hd' Ht1 Hb Hbl H1) as (L1 & L2 & L3 & L4 & L5 & L6).
  pose proof (overwrites e r s at_ b s1 at1 ok1 k (ino s) Hp Hs Hn Hd Ht1 Hk1 H1) as (O1 & O2 & O3).
  pose proof (rotated_write e r s at_ b s1 at1 ok1 Hp Hs Hn Hd' Ht1 H1) as (nm & t & u & T1 & T2 & R & N & T3 & C).
  pose proof (rot_write_calm e r s at_ b s1 at1 ok1 Hc Hs Hn H1) as (Hs1 & _ & Hcap & _).
  assert (Hat1 : forall v, tick s1 <= v -> (0 <= e_now e v /\ at1 * 1000000 <= e_now e v)%Z).
  { intros v V. split; [apply Ht; lia|]. destruct (next_exact _ _ _ _ Hco C) as (n & s0 & A1 & A2 & A3 & ->).
    destruct (Ht u ltac:(lia)) as (_ & U & _). unfold period_at in U. change 1000000000%Z with nano in U; fold (secs (e_now e u)) in U.
    assert (Hpos : (0 < length_of (rt_kind r))%Z) by (destruct (rt_kind r); simpl; lia).
    assert (n = k). { unfold in_period in *. set (q := length_of (rt_kind r)) in *. clearbody q. nia. }
    subst n. rewrite <- (A3 m Hm). destruct (Ht v ltac:(lia)) as (_ & _ & V2). unfold secs, nano in V2.
    set (q := length_of (rt_kind r)) in *. clearbody q. clear - V2. lia. }
  assert (Hk2 : forall v, tick s1 <= v -> period_at r (e_now e v) k) by (intros v V; apply Ht; lia).
  assert (Hd1 : denotes (names s1) (rt_fp r) = Some (ino s1)) by congruence.
  assert (Hd1' : denotes (names s1) (rt_fp r) <> None) by congruence.
  rewrite <- Hcap in Hcl.
  pose proof (loses e r s1 at1 c s2 at2 ok2 Hc Hp Hs1 Hn Hd1' Hat1 Hcc Hcl H2) as (K1 & K2 & K3 & K4 & K5 & K6).
  pose proof (overwrites e r s1 at1 c s2 at2 ok2 k (ino s1) Hp Hs1 Hn Hd1 Hat1 Hk2 H2) as (P1 & P2 & P3).
  splits; auto.
  - apply (destroyed e r s1 at1 c s2 at2 ok2 k (ino s)); auto.
    + destruct Hs as (Hi & _). lia.
    + intros p E. destruct (list_eq_dec N.eq_dec p (rt_fp r)) as [->|E1].
      * rewrite O2 in E. injection E as E. destruct Hs as (Hi & _). lia.
      * destruct (list_eq_dec N.eq_dec p (archive r k)) as [->|E2]; [easy|].
        rewrite O3 in E by auto. now apply Hu in E.
  - exists (ino s1). splits; auto. destruct K4 as (x & E). rewrite L6, L2 in E. simpl in E. now destruct (content s2 (ino s1)).
Qed.

(** without clock changes and with a clock that never goes back *)
Lemma fixed_coherent z o : fixed z o -> coherent z.
Proof.
  intros (H1 & H2) l. rewrite H2. unfold shows. split; [rewrite H1; lia|]. intros u. rewrite H1. lia.
Qed.
Lemma fixed_next k z o now r n : fixed z o -> calcnext k z now = Ret r -> in_period z (length_of k) (secs now) n ->
  r = (((n + 1) * length_of k - o) * 1000)%Z.
Proof.
  intros Hf H Hn. pose proof (fixed_coherent z o Hf) as Hc.
  apply next_exact in H as (n' & s & A1 & A2 & A3 & ->); [|easy].
  assert (Hpos : (0 < length_of k)%Z) by (destruct k; simpl; lia).
  assert (n' = n). { unfold in_period in *. set (q := length_of k) in *. clearbody q. nia. }
  subst n'. unfold shows in A2. rewrite (proj1 Hf) in A2. lia.
Qed.
Lemma in_period_ex z p t : (0 < p)%Z -> exists n, in_period z p t n.
Proof.
  intros Hp. exists ((t + offset z t) / p)%Z. unfold in_period.
  pose proof (Z.mod_pos_bound (t + offset z t) p Hp). pose proof (Z.div_mod (t + offset z t) p ltac:(lia)). lia.
Qed.
Lemma period_mono z o p t u a b : fixed z o -> (0 < p)%Z -> (t <= u)%Z -> in_period z p t a -> in_period z p u b -> (a <= b)%Z.
Proof.
  intros (Hf & _) Hp Hle H1 H2. unfold in_period in *. rewrite !Hf in *. nia.
Qed.
Definition dated (e : env) (r : rotation) (o : Z) (s : state) (at_ : Z) (K : Z) : Prop :=
  at_ = (((K + 1) * length_of (rt_kind r) - o) * 1000)%Z
  /\ (forall t n, tick s <= t -> period_at r (e_now e t) n -> (K <= n)%Z)
  /\ (forall k, (K < k)%Z -> denotes (names s) (archive r k) = None).
Lemma secs_mono a b : (a <= b)%Z -> (secs a <= secs b)%Z.
Proof. intros H. unfold secs, nano. apply Z.div_le_mono; lia. Qed.
Lemma rotate_dated e r o s at_ s' at' ok K : fixed (rt_zone r) o -> monotone e -> permissive e -> sound s -> naming r ->
  (forall a b, rt_stamps r a = rt_stamps r b -> a = b) -> denotes (names s) (rt_fp r) = Some (ino s) ->
  dated e r o s at_ K -> rotate e r (s, at_) = Ret ((s', at'), ok) ->
  denotes (names s') (rt_fp r) = Some (ino s')
  /\ (forall p i, p <> rt_fp r -> denotes (names s) p = Some i -> denotes (names s') p = Some i)
  /\ exists K', dated e r o s' at' K'.
Proof.
  intros Hf Hm Hp Hs Hn Hi Hd (D1 & D2 & D3) H.
  pose proof (rotate_spec e r s at_ s' at' ok Hs Hn H) as (Hs' & Ht & P).
  assert (Hpos : (0 < length_of (rt_kind r))%Z) by (destruct (rt_kind r); simpl; lia).
  destruct (Z.lt_ge_cases (e_now e (tick s) / 1000000) at_) as [Hlt|Hge].
  - unfold rotate, unix_millis in H. pose proof (Hm (tick s) (tick s) ltac:(lia)) as Hz.
    replace (e_now e (tick s) <? 0)%Z with false in H by lia. cbn [obind] in H.
    replace (e_now e (tick s) / 1000000 <? at_)%Z with true in H by lia. injection H as <- <- <-.
    splits; auto. exists K. unfold dated. cbn [bump tick names]. splits; auto. intros t n T. apply D2. lia.
  - destruct (rotate_happens e r s at_ Hp Hs Hn) as (nm & s2 & R & Er & N & T2); [congruence|pose proof (Hm (tick s) (tick s) (Nat.le_refl _)) as [? _]; easy|lia|].
    rewrite H in Er. destruct (rot_next e r s2) as [rs| | | |] eqn:E3; try discriminate. cbn [obind] in Er. injection Er as <- ->.
    apply rot_next_spec in E3 as (E3 & E4). cbn [snd] in *. injection E3 as ->. cbn [bump names tick ino] in *.
    destruct P as (P1 & P2 & P3 & P4 & P5 & P6 & P7 & P8 & P9). cbn [bump names tick ino] in *.
    set (now := e_now e (tick s)) in *.
    destruct (in_period_ex (rt_zone r) (length_of (rt_kind r)) (secs now) Hpos) as (k & Hk).
    rewrite (stamp_period r now k Hk) in R. fold (archive r k) in R.
    assert (HKk : (K < k)%Z).
    { unfold in_period in Hk. rewrite (proj1 Hf) in Hk. subst at_. set (q := length_of (rt_kind r)) in *. clearbody q.
      assert ((K + 1) * q - o <= secs now)%Z.
      { unfold secs, nano. apply Z.div_le_lower_bound; [lia|]. clear - Hge. lia. }
      nia. }
    pose proof (archive_ne r k Hn) as Hne.
    apply rename_spec in R as (i' & R1 & R2 & R3 & R4); [|easy].
    splits; auto.
    + intros p i Hpne Hpi. rewrite N. cbn [denotes].
      replace (chars_eqb (rt_fp r) p) with false by (symmetry; apply chars_eqb_neq; congruence).
      rewrite R4; auto. intros ->. rewrite D3 in Hpi by easy. discriminate.
    + destruct (in_period_ex (rt_zone r) (length_of (rt_kind r)) (secs (e_now e (tick s2))) Hpos) as (K' & HK').
      exists K'. unfold dated. cbn [bump names tick]. splits.
      * now apply (fixed_next _ _ _ _ _ _ Hf E4).
      * intros t n T Hpn. apply (period_mono (rt_zone r) o (length_of (rt_kind r)) (secs (e_now e (tick s2))) (secs (e_now e t))); auto.
        apply secs_mono. apply Hm. lia.
      * assert (Hkk : (k <= K')%Z).
        { apply (period_mono (rt_zone r) o (length_of (rt_kind r)) (secs now) (secs (e_now e (tick s2)))); auto.
          apply secs_mono. apply Hm. lia. }
        intros j Hj. rewrite N. cbn [denotes].
        replace (chars_eqb (rt_fp r) (archive r j)) with false by (symmetry; apply chars_eqb_neq; now apply archive_ne).
        rewrite R4; [apply D3; lia|intros Ea; exact (archive_ne r _ Hn (eq_sym Ea))|]. intros E. apply archive_inj in E; [lia|easy].
Qed.
Lemma dated_later e r o s s' at_ K : dated e r o s at_ K -> tick s <= tick s' -> names s' = names s -> dated e r o s' at_ K.
Proof. intros (D1 & D2 & D3) T N. unfold dated. rewrite N. splits; auto. intros t n Ht. apply D2. lia. Qed.
Lemma flush_tick e s : tick s <= tick (fst (file_flush e s)).
Proof.
  assert (FW : forall s b, tick s <= tick (fst (file_write e s b))).
  { clear s. intros s b. unfold file_write. destruct (settle e s) as [s1 ok] eqn:E. pose proof (settle_tick e s) as H. rewrite E in H.
    destruct ok; exact H. }
  assert (DR : forall k s b, tick s <= tick (fst (fst (drain e k s b)))).
  { clear s. induction k as [|k IH]; intros s [|c b]; cbn [drain fst]; try lia.
    pose proof (FW s (c :: b)) as H. destruct (file_write e s (c :: b)) as [s1 [n|]]; cbn [fst] in *; [|lia].
    specialize (IH s1 (skipn n (c :: b))). lia. }
  unfold file_flush, flush_buf. pose proof (DR (length (buf s)) s (buf s)) as H.
  destruct (drain e (length (buf s)) s (buf s)) as [[s1 r] ok]. cbn [fst] in H.
  destruct ok; [|exact H]. pose proof (settle_tick e (set_buf s1 r)) as H2. cbn [set_buf tick] in H2. lia.
Qed.
Lemma call_dated e r o s at_ c s' at' ok K : fixed (rt_zone r) o -> monotone e -> permissive e -> calm e -> sound s -> naming r ->
  (forall a b, rt_stamps r a = rt_stamps r b -> a = b) -> denotes (names s) (rt_fp r) = Some (ino s) ->
  dated e r o s at_ K -> rot_call e r (s, at_) c = Ret ((s', at'), ok) ->
  sound s' /\ denotes (names s') (rt_fp r) = Some (ino s')
  /\ (forall p i, p <> rt_fp r -> denotes (names s) p = Some i -> denotes (names s') p = Some i)
  /\ exists K', dated e r o s' at' K'.
Proof.
  intros Hf Hm Hp Hc Hs Hn Hi Hd HD H. destruct c as [b|]; cbn [rot_call] in H.
  - unfold rot_writeall in H. destruct (file_writeall e s b) as [s1 ok1] eqn:E1.
    pose proof (writeall_names e s b s1 ok1 Hs E1) as (N1 & L1 & T1).
    apply writeall_moves in E1 as (((F1 & F2 & F3 & F4 & F5) & w & A1 & A2 & A3) & Hs1); [|easy].
    destruct (A3 Hc) as [-> _].
    destruct (rotate e r (s1, at_)) as [[[s2 at2] ok2]| | | |] eqn:E2; try discriminate. cbn [obind] in H.
    injection H as <- <- <-. pose proof (rotate_spec e r s1 at_ s2 at2 ok2 Hs1 Hn E2) as (Hs2 & _).
    apply (rotate_dated e r o s1 at_ s2 at2 ok2 K) in E2 as (B1 & B2 & B3); auto.
    + splits; auto. intros p i Hpne Hpi. apply B2; [easy|congruence].
    + congruence.
    + now apply (dated_later e r o s s1).
  - injection H as H. pose proof (rot_flush_calm e s at_ _ _ Hc Hs H) as (_ & A & F & Hs1 & _). cbn [fst snd] in *. subst at'.
    assert (T : tick s <= tick s').
    { pose proof (flush_tick e s) as T. unfold rot_flush in H. cbn [fst snd] in H. destruct (file_flush e s) as [s1 ok1].
      injection H as <- <-. exact T. }
    destruct F as (F1 & F2 & F3 & F4 & F5). rewrite F1, F2. splits; auto. exists K. now apply (dated_later e r o s s').
Qed.
Lemma calls_dated e r o cs : forall s at_ s' at' oks K, fixed (rt_zone r) o -> monotone e -> permissive e -> calm e -> sound s -> naming r ->
  (forall a b, rt_stamps r a = rt_stamps r b -> a = b) -> denotes (names s) (rt_fp r) = Some (ino s) ->
  dated e r o s at_ K -> rot_calls e r (s, at_) cs = Ret ((s', at'), oks) ->
  sound s' /\ denotes (names s') (rt_fp r) = Some (ino s')
  /\ (forall p i, p <> rt_fp r -> denotes (names s) p = Some i -> denotes (names s') p = Some i)
  /\ exists K', dated e r o s' at' K'.
Proof.
  induction cs as [|c cs IH]; intros s at_ s' at' oks K Hf Hm Hp Hc Hs Hn Hi Hd HD H.
  - injection H as <- <- <-. splits; eauto.
  - cbn [rot_calls] in H. destruct (rot_call e r (s, at_) c) as [[[s1 at1] ok1]| | | |] eqn:E1; try discriminate.
    cbn [obind fst snd] in H.
    destruct (rot_calls e r (s1, at1) cs) as [[[s2 at2] oks2]| | | |] eqn:E2; try discriminate.
    cbn [obind fst snd] in H. injection H as -> -> <-.
    apply (call_dated e r o s at_ c s1 at1 ok1 K) in E1 as (Hs1 & B1 & B2 & K1 & B3); auto.
    apply (IH s1 at1 s' at' oks2 K1) in E2 as (Hs2 & C1 & C2 & C3); auto. splits; auto.
Qed.
Lemma new_dated e t nm d fp bufsize kind z stamps digits r s at_ o K : fixed z o -> monotone e -> names_ok nm d ->
  (forall k, stamps k <> []) ->
  rot_new e t nm d fp bufsize kind z stamps digits = Ret (Some (r, (s, at_))) ->
  in_period z (length_of kind) (secs (e_now e (S t))) K ->
  (forall k, (K < k)%Z -> denotes nm (archive r k) = None) ->
  sound s /\ naming r /\ denotes (names s) (rt_fp r) = Some (ino s) /\ dated e r o s at_ K /\ rt_zone r = z /\ rt_stamps r = stamps
  /\ pending s = [] /\ current s = match denotes nm fp with Some i => nth i d [] | None => [] end.
Proof.
  intros Hf Hm Hok Hst H HK Ha. unfold rot_new in H. destruct (file_new e t nm d fp bufsize) as [s0|] eqn:E; [|discriminate].
  destruct (calcnext kind z (e_now e (tick s0))) as [m| | | |] eqn:E2; try discriminate. cbn [obind] in H.
  destruct (log_name fp) as [n|] eqn:E3; [|discriminate]. injection H as <- <- <-.
  pose proof (file_new_sound e t nm d fp bufsize s0 Hok E) as (A1 & A2 & A3 & A4).
  assert (T : tick s0 = S t /\ forall p, p <> fp -> denotes (names s0) p = denotes nm p).
  { unfold file_new in E. destruct (e_open e t); [|discriminate]. destruct (open_file nm d fp) as [[nm' d'] i] eqn:E4.
    injection E as <-. split; [easy|]. cbn [names]. apply open_spec in E4; [|easy]. apply E4. }
  destruct T as [T1 T2]. rewrite T1 in E2.
  assert (Hpos : (0 < length_of kind)%Z) by (destruct kind; simpl; lia).
  assert (Hn : naming (Rotation kind z fp n stamps digits)) by (split; easy).
  splits; auto.
  - split; [now apply (fixed_next _ _ _ _ _ _ Hf E2)|]. split.
    + cbn [bump tick rt_kind rt_zone]. intros u j U Hj. unfold period_at in Hj. change 1000000000%Z with nano in Hj; fold (secs (e_now e u)) in Hj. cbn [rt_zone rt_kind] in Hj.
      apply (period_mono z o (length_of kind) (secs (e_now e (S t))) (secs (e_now e u))); auto.
      apply secs_mono. apply Hm. lia.
    + intros k Hk. cbn [bump names]. rewrite T2; [now apply Ha|]. intros E4. symmetry in E4. revert E4. now apply (archive_ne _ k Hn).
Qed.
(** the name is not that of the period in which the log was started *)
Lemma misnamed e r o s at_ b s' at' ok t0 K i : fixed (rt_zone r) o -> permissive e -> sound s -> naming r ->
  (forall a b, rt_stamps r a = rt_stamps r b -> a = b) ->
  denotes (names s) (rt_fp r) = Some i -> denotes (names s) (archive r K) <> Some i ->
  calcnext (rt_kind r) (rt_zone r) t0 = Ret at_ -> period_at r t0 K ->
  (forall t, tick s <= t -> (0 <= e_now e t /\ at_ * 1000000 <= e_now e t)%Z) ->
  rot_writeall e r (s, at_) b = Ret ((s', at'), ok) ->
  exists k, (K < k)%Z /\ denotes (names s') (archive r k) = Some i /\ denotes (names s') (archive r K) <> Some i.
Proof.
  intros Hf Hp Hs Hn Hi Hd Hd2 Hat HK Ht H.
  pose proof (fixed_next _ _ _ _ _ _ Hf Hat HK) as Hv.
  apply rotated_write in H as (nm & t & u & T1 & T2 & R & N & T3 & C); try easy; [|now rewrite Hd].
  assert (Hpos : (0 < length_of (rt_kind r))%Z) by (destruct (rt_kind r); simpl; lia).
  set (now := e_now e t) in *.
  destruct (in_period_ex (rt_zone r) (length_of (rt_kind r)) (secs now) Hpos) as (k & Hk).
  rewrite (stamp_period r now k Hk) in R. fold (archive r k) in R.
  assert (HKk : (K < k)%Z).
  { unfold in_period in Hk. rewrite (proj1 Hf) in Hk. destruct (Ht t T1) as [_ Hge]. fold now in Hge. subst at_.
    set (q := length_of (rt_kind r)) in *. clearbody q.
    assert ((K + 1) * q - o <= secs now)%Z.
    { unfold secs, nano. apply Z.div_le_lower_bound; [lia|]. clear - Hge. lia. }
    nia. }
  pose proof (archive_ne r k Hn) as Hne.
  apply rename_spec in R as (i' & R1 & R2 & R3 & R4); [|easy]. assert (i' = i) by congruence. subst i'.
  exists k. rewrite N. cbn [denotes]. splits; auto.
  - now replace (chars_eqb (rt_fp r) (archive r k)) with false by (symmetry; now apply chars_eqb_neq).
  - replace (chars_eqb (rt_fp r) (archive r K)) with false by (symmetry; apply chars_eqb_neq; now apply archive_ne).
    rewrite R4; [easy|intros Ea; exact (archive_ne r _ Hn (eq_sym Ea))|]. intros E. apply archive_inj in E; [lia|easy].
Qed.
