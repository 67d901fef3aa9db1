(** Facts about log files whose calls all succeed, and about when a rotating log rotates. *)
From Verif Require Export F_Rotation.

(** the same environment, in which no write fails *)
Definition quiet (e : env) : env := Env (e_now e) (fun _ => None) (e_rename e) (e_open e).
Lemma quiet_calm e : calm (quiet e). Proof. now intros t. Qed.
Lemma settle_quiet e s s' : settle e s = (s', true) -> settle (quiet e) s = (s', true).
Proof.
  unfold settle. destruct (fly s) as [|c f]; [easy|]. cbn [quiet e_write]. destruct (e_write e (tick s)); [|easy].
  now intros [= _].
Qed.
Lemma file_write_quiet e s b s' n : file_write e s b = (s', Some n) -> file_write (quiet e) s b = (s', Some n).
Proof.
  unfold file_write. destruct (settle e s) as [s1 ok] eqn:E. destruct ok; [|discriminate].
  apply settle_quiet in E. now rewrite E.
Qed.
Lemma drain_quiet e fuel : forall s rest s' rest', drain e fuel s rest = (s', rest', true) ->
  drain (quiet e) fuel s rest = (s', rest', true).
Proof.
  induction fuel as [|fuel IH]; intros s [|c rest] s' rest' H; cbn [drain] in *; try easy.
  destruct (file_write e s (c :: rest)) as [s1 [n|]] eqn:E; [|discriminate].
  apply file_write_quiet in E. rewrite E. now apply IH.
Qed.
Lemma flush_buf_quiet e s s' : flush_buf e s = (s', true) -> flush_buf (quiet e) s = (s', true).
Proof.
  unfold flush_buf. destruct (drain e (length (buf s)) s (buf s)) as [[s1 rest] ok] eqn:E.
  intros [= <- ->]. apply drain_quiet in E. now rewrite E.
Qed.
Lemma buf_write_quiet e s b s' n : buf_write e s b = (s', Some n) -> buf_write (quiet e) s b = (s', Some n).
Proof.
  unfold buf_write. intros H. destruct (cap s <? length (buf s) + length b).
  - destruct (flush_buf e s) as [s1 ok] eqn:E. destruct ok; [|discriminate]. apply flush_buf_quiet in E. rewrite E.
    cbn [negb] in *. destruct (cap s <=? length b); [|easy]. now apply file_write_quiet.
  - cbn [negb] in *. destruct (cap s <=? length b); [|easy]. now apply file_write_quiet.
Qed.
Lemma write_all_quiet e fuel : forall s b s', write_all e fuel s b = (s', true) -> write_all (quiet e) fuel s b = (s', true).
Proof.
  induction fuel as [|fuel IH]; intros s [|c b] s' H; cbn [write_all] in *; try easy.
  destruct (buf_write e s (c :: b)) as [s1 [n|]] eqn:E; [|discriminate]. apply buf_write_quiet in E. rewrite E. now apply IH.
Qed.
Lemma file_call_quiet e s c s' : file_call e s c = (s', true) -> file_call (quiet e) s c = (s', true).
Proof.
  destruct c as [b|]; cbn [file_call].
  - apply write_all_quiet.
  - unfold file_flush. destruct (flush_buf e s) as [s1 ok] eqn:E. destruct ok; [|discriminate].
    apply flush_buf_quiet in E. rewrite E. apply settle_quiet.
Qed.
Lemma file_calls_quiet e cs : forall s s' oks, file_calls e s cs = (s', oks) -> Forall (fun ok => ok = true) oks ->
  file_calls (quiet e) s cs = (s', oks).
Proof.
  induction cs as [|c cs IH]; intros s s' oks H Ho; cbn [file_calls] in *; [easy|].
  destruct (file_call e s c) as [s1 ok] eqn:E1. destruct (file_calls e s1 cs) as [s2 oks2] eqn:E2.
  injection H as <- <-. inversion Ho; subst. apply file_call_quiet in E1. rewrite E1.
  now rewrite (IH _ _ _ E2).
Qed.

(** a rotating log rotates when its time has come *)
Lemma chars_eqb_same p : chars_eqb p p = true.
Proof. now apply chars_eqb_eq. Qed.
Lemma due e r s at_ b s' at' ok i : permissive e -> sound s -> naming r -> denotes (names s) (rt_fp r) = Some i ->
  (forall t, tick s <= t -> (0 <= e_now e t /\ at_ * 1000000 <= e_now e t)%Z) ->
  rot_writeall e r (s, at_) b = Ret ((s', at'), ok) ->
  exists t u k, tick s <= t /\ t < u /\ period_at r (e_now e t) k
  /\ denotes (names s') (archive r k) = Some i
  /\ denotes (names s') (rt_fp r) = Some (length (data s))
  /\ (forall p, p <> rt_fp r -> p <> archive r k -> denotes (names s') p = denotes (names s) p)
  /\ calcnext (rt_kind r) (rt_zone r) (e_now e u) = Ret at'.
Proof.
  intros Hp Hs Hn Hd Ht H.
  apply rotated_write in H as (nm & t & u & T1 & T2 & R & N & T3 & C); try easy; [|now rewrite Hd].
  destruct (in_period_ex (rt_zone r) (length_of (rt_kind r)) (secs (e_now e t))) as (k & Hk); [now destruct (rt_kind r)|].
  assert (Hk' : period_at r (e_now e t) k) by exact Hk.
  rewrite (stamp_period r _ k Hk') in R. fold (archive r k) in R. pose proof (archive_ne r k Hn) as Hne.
  apply rename_spec in R as (i' & R1 & R2 & R3 & R4); [|easy]. assert (i' = i) by congruence. subst i'.
  exists t, u, k. rewrite N. cbn [denotes]. rewrite chars_eqb_same.
  assert (F : forall p, p <> rt_fp r -> chars_eqb (rt_fp r) p = false) by (intros p Hq; apply chars_eqb_neq; congruence).
  splits; auto.
  - now rewrite F by auto.
  - intros p H1 H2. rewrite F by auto. now apply R4.
Qed.
(** ... and its handle is then that of the new file *)
Lemma due_ino e r s at_ b s' at' ok i : permissive e -> sound s -> naming r -> denotes (names s) (rt_fp r) = Some i ->
  (forall t, tick s <= t -> (0 <= e_now e t /\ at_ * 1000000 <= e_now e t)%Z) ->
  rot_writeall e r (s, at_) b = Ret ((s', at'), ok) -> ino s' = length (data s).
Proof.
  intros Hp Hs Hn Hd Ht H. unfold rot_writeall in H. destruct (file_writeall e s b) as [s1 ok1] eqn:E1.
  pose proof (writeall_names e s b s1 ok1 Hs E1) as (N1 & L1 & T1).
  apply writeall_moves in E1 as (_ & Hs1); [|easy].
  destruct (Ht (tick s1) T1) as [Hz Hz2].
  destruct (rotate_happens e r s1 at_ Hp Hs1 Hn) as (nm & s2 & R & Er & N2 & T2); [now rewrite N1, Hd|easy| |].
  { apply Z.div_le_lower_bound; lia. }
  destruct (rotate e r (s1, at_)) as [[[s3 at3] ok3]| | | |] eqn:E2; try discriminate.
  destruct (rot_next e r s2) as [rs| | | |] eqn:E3; try discriminate. cbn [obind] in Er. injection Er as <- ->.
  apply rotate_spec in E2 as (Hs3 & _ & I3 & _); [|easy..]. cbn [obind fst snd] in *. rewrite L1 in I3.
  destruct ok1.
  - injection H as <- _ _. easy.
  - destruct (file_writeall e s3 b) as [s4 ok4] eqn:E5. injection H as <- _ _.
    apply writeall_moves in E5 as (((F1 & F2 & F3 & F4 & F5) & _) & _); [|easy]. congruence.
Qed.

(** a log that cannot be renamed, or whose path is gone, stays where it is *)
Definition stuck (e : env) (r : rotation) (s : state) : Prop :=
  (forall t, e_rename e t = false) \/ denotes (names s) (rt_fp r) = None.
Lemma stuck_rename e r stamp left : forall first s s' ok, stuck e r s ->
  rot_rename e r stamp left first s = Ret (s', ok) -> ok = false.
Proof.
  induction left as [|left IH]; intros first s s' ok Hk H; [now injection H|].
  cbn [rot_rename] in H. set (q := if first then _ else _) in H.
  destruct q as [[name s1]| | | |] eqn:Eq; try discriminate. cbn [obind] in H.
  assert (N1 : names s1 = names s).
  { subst q. destruct first; [now injection Eq as <- <-|]. destruct (e_now e (tick s) <? 0)%Z; [discriminate|].
    now injection Eq as <- <-. }
  assert (E : (if e_rename e (tick s1) then rename (names s1) (rt_fp r) name else None) = None).
  { destruct Hk as [Hk|Hk]; [now rewrite Hk|]. destruct (e_rename e (tick s1)); [|easy]. unfold rename. now rewrite N1, Hk. }
  rewrite E in H. apply IH in H; [easy|]. destruct Hk as [Hk|Hk]; [now left|right]. cbn [bump names]. now rewrite N1.
Qed.
Lemma stuck_write e r s at_ b s' at' ok : sound s -> naming r -> stuck e r s ->
  rot_writeall e r (s, at_) b = Ret ((s', at'), ok) -> sound s' /\ names s' = names s /\ ino s' = ino s.
Proof.
  intros Hs Hn Hk H. unfold rot_writeall in H. destruct (file_writeall e s b) as [s1 ok1] eqn:E1.
  apply writeall_moves in E1 as (((F1 & F2 & F3 & F4 & F5) & _) & Hs1); [|easy].
  assert (Hk1 : stuck e r (bump s1)) by (destruct Hk as [Hk|Hk]; [now left|right]; cbn [bump names]; now rewrite F1).
  destruct (rotate e r (s1, at_)) as [[[s2 at2] ok2]| | | |] eqn:E2; try discriminate. cbn [obind fst snd] in H.
  pose proof (rotate_spec e r s1 at_ s2 at2 ok2 Hs1 Hn E2) as (Hs2 & _ & _).
  assert (R : ok2 = false /\ names s2 = names s1 /\ ino s2 = ino s1).
  { unfold rotate in E2. destruct (unix_millis (e_now e (tick s1))) as [mills| | | |]; try discriminate. cbn [obind] in E2.
    destruct (mills <? at_)%Z; [now injection E2 as <- <- <-|].
    destruct (rot_rename e r (stamp_at r (e_now e (tick s1))) 10 true (bump s1)) as [[s3 renamed]| | | |] eqn:E3; try discriminate.
    cbn [obind] in E2. pose proof (stuck_rename _ _ _ _ _ _ _ _ Hk1 E3) as ->.
    apply rot_rename_spec in E3 as ((O1 & O2 & _) & _ & P). cbn [negb bump names ino] in *.
    destruct (rot_next e r s3) as [rs| | | |] eqn:E4; try discriminate. cbn [obind] in E2. injection E2 as -> <-.
    apply rot_next_spec in E4 as (E4 & _). injection E4 as ->. cbn [bump names ino]. auto. }
  destruct R as (-> & N2 & I2). destruct ok1; injection H as <- <- <-; splits; congruence.
Qed.
Lemma stuck_calls e r cs : forall s at_ s' at' oks, sound s -> naming r -> stuck e r s ->
  rot_calls e r (s, at_) cs = Ret ((s', at'), oks) -> names s' = names s /\ ino s' = ino s.
Proof.
  induction cs as [|c cs IH]; intros s at_ s' at' oks Hs Hn Hk H; cbn [rot_calls] in H.
  - now injection H as <- <- <-.
  - destruct (rot_call e r (s, at_) c) as [[[s1 at1] ok1]| | | |] eqn:E1; try discriminate. cbn [obind fst snd] in H.
    destruct (rot_calls e r (s1, at1) cs) as [[[s2 at2] oks2]| | | |] eqn:E2; try discriminate.
    cbn [obind fst snd] in H. injection H as -> -> <-.
    assert (C : sound s1 /\ names s1 = names s /\ ino s1 = ino s).
    { destruct c as [b|]; cbn [rot_call] in E1; [now apply stuck_write in E1|].
      unfold rot_flush in E1. cbn [fst snd] in E1. destruct (file_flush e s) as [s3 ok3] eqn:E3. injection E1 as <- <- <-.
      apply file_flush_moves in E3 as (((F1 & F2 & F3 & F4 & F5) & _) & Hs3 & _); auto. }
    destruct C as (Hs1 & N1 & I1). apply IH in E2 as (N2 & I2); [|easy..|].
    + split; congruence.
    + destruct Hk as [Hk|Hk]; [now left|right]. now rewrite N1.
Qed.
(** when reopening fails the path of the log is gone *)
Lemma lost_path e r s at_ b s' at' ok i : (forall t, e_rename e t = true) -> (forall t, e_open e t = false) ->
  sound s -> naming r -> denotes (names s) (rt_fp r) = Some i ->
  (forall t, tick s <= t -> (0 <= e_now e t /\ at_ * 1000000 <= e_now e t)%Z) ->
  rot_writeall e r (s, at_) b = Ret ((s', at'), ok) ->
  sound s' /\ denotes (names s') (rt_fp r) = None /\ ino s' = ino s.
Proof.
  intros Hr Ho Hs Hn Hd Ht H. unfold rot_writeall in H. destruct (file_writeall e s b) as [s1 ok1] eqn:E1.
  pose proof (writeall_names e s b s1 ok1 Hs E1) as (N1 & L1 & T1).
  apply writeall_moves in E1 as (((F1 & F2 & F3 & F4 & F5) & _) & Hs1); [|easy].
  destruct (Ht (tick s1) T1) as [Hz Hz2].
  destruct (rotate e r (s1, at_)) as [[[s2 at2] ok2]| | | |] eqn:E2; try discriminate. cbn [obind fst snd] in H.
  pose proof (rotate_spec e r s1 at_ s2 at2 ok2 Hs1 Hn E2) as (Hs2 & _ & _).
  assert (R : ok2 = false /\ denotes (names s2) (rt_fp r) = None /\ ino s2 = ino s1).
  { unfold rotate, unix_millis in E2. replace (e_now e (tick s1) <? 0)%Z with false in E2 by lia. cbn [obind] in E2.
    assert (at_ <= e_now e (tick s1) / 1000000)%Z by (apply Z.div_le_lower_bound; lia).
    replace (e_now e (tick s1) / 1000000 <? at_)%Z with false in E2 by lia.
    destruct Hn as (Hn1 & Hn2).
    assert (X : exists nm, rename (names s1) (rt_fp r) (rotated_name (rt_name r) (stamp_at r (e_now e (tick s1)))) = Some nm
      /\ rot_rename e r (stamp_at r (e_now e (tick s1))) 10 true (bump s1)
         = Ret (State (S (S (tick s1))) nm (data s1) (ino s1) (fly s1) (buf s1) (cap s1), true)).
    { cbn [rot_rename obind]. rewrite Hr. cbn [bump names tick data ino fly buf cap].
      destruct (rename (names s1) (rt_fp r) _) as [nm|] eqn:E; [eauto|]. unfold rename in E. rewrite N1, Hd in E. discriminate. }
    destruct X as (nm & X1 & X2). rewrite X2 in E2. cbn [obind negb] in E2.
    unfold file_reopen in E2. rewrite Ho in E2.
    set (s3 := State (S _) _ _ _ _ _ _) in E2.
    destruct (rot_next e r s3) as [rs| | | |] eqn:E3; try discriminate. cbn [obind] in E2. injection E2 as -> <-.
    apply rot_next_spec in E3 as (E3 & _). injection E3 as ->. unfold s3. cbn [bump names ino]. splits; auto.
    apply rename_spec in X1 as (j & _ & _ & X & _); [easy|]. apply name_differs; [easy|apply Hn2]. }
  destruct R as (-> & N2 & I2). destruct ok1; injection H as <- <- <-; splits; congruence.
Qed.

(** a record that failed to be written is written again to the new file *)
Lemma retried e r s at_ b s' at' : sound s -> naming r -> rot_writeall e r (s, at_) b = Ret ((s', at'), true) ->
  snd (file_writeall e s b) = false -> ino s' = length (data s) /\ current s' ++ pending s' = b.
Proof.
  intros Hs Hn H Hf. unfold rot_writeall in H. destruct (file_writeall e s b) as [s1 ok1] eqn:E1. cbn [snd] in Hf. subst ok1.
  pose proof (writeall_names e s b s1 false Hs E1) as (N1 & L1 & T1).
  apply writeall_moves in E1 as (_ & Hs1); [|easy].
  destruct (rotate e r (s1, at_)) as [[[s2 at2] ok2]| | | |] eqn:E2; try discriminate. cbn [obind fst snd] in H.
  destruct ok2; [|discriminate].
  apply rotate_spec in E2 as (Hs2 & _ & P1 & P2 & P3 & P4 & P5 & P6 & _); [|easy..].
  destruct (file_writeall e s2 b) as [s3 ok3] eqn:E3. injection H as <- <- ->.
  apply write_all_quiet in E3. apply (writeall_moves (quiet e)) in E3 as (((F1 & F2 & F3 & F4 & F5) & w & A1 & A2 & A3) & _); [|easy].
  destruct (A3 (quiet_calm e)) as (_ & A4). split; [congruence|]. rewrite A1. unfold current in *. rewrite P6. cbn [app].
  rewrite A4. unfold pending. now rewrite P2, P3.
Qed.

(** what a call that fails has lost: part of one block *)
Definition block : nat := N.to_nat max_chunk.
Lemma block_is : N.of_nat block = (2 * 1024 * 1024)%N. Proof. unfold block. now rewrite N2Nat.id. Qed.
Definition drops (s s' : state) (b : bytes) : Prop :=
  exists w lost rest, current s' = current s ++ w /\ pending s ++ b = w ++ lost ++ pending s' ++ rest /\ length lost <= block.
Lemma settle_fails e s s' : ino s < length (data s) -> settle e s = (s', false) ->
  exists w lost, current s' = current s ++ w /\ fly s = w ++ lost /\ fly s' = [] /\ buf s' = buf s.
Proof.
  intros Hi H. unfold settle in H. destruct (fly s) as [|c f] eqn:Ef; [discriminate|].
  destruct (e_write e (tick s)) as [k|]; [|discriminate]. injection H as <-.
  exists (firstn k (c :: f)), (skipn k (c :: f)). unfold current, content. cbn [data ino fly buf].
  rewrite nth_update_same by easy. splits; auto. now rewrite firstn_skipn.
Qed.
Lemma file_write_some e s b s' n : ino s < length (data s) -> file_write e s b = (s', Some n) ->
  current s' = current s ++ fly s /\ fly s' = firstn n b /\ buf s' = buf s /\ length (fly s') <= block
  /\ ino s' = ino s /\ length (data s') = length (data s) /\ (b <> [] -> 1 <= n).
Proof.
  intros Hi H. unfold file_write in H. destruct (settle e s) as [s1 ok] eqn:E. destruct ok; [|discriminate].
  injection H as <- <-. apply settle_quiet in E. unfold settle in E. cbn [quiet e_write] in E.
  pose proof max_chunk_pos.
  assert (L : length (firstn (N.to_nat (N.min (N.of_nat (length b)) max_chunk)) b) <= block).
  { rewrite firstn_length. unfold block. lia. }
  assert (P : b <> [] -> 1 <= N.to_nat (N.min (N.of_nat (length b)) max_chunk)).
  { intros Hb. destruct b; [easy|]. cbn [length]. lia. }
  destruct (fly s) as [|c f] eqn:Ef; injection E as <-; unfold current, content; cbn [data ino fly buf].
  - rewrite app_nil_r. splits; auto.
  - rewrite nth_update_same by easy. rewrite length_update. splits; auto.
Qed.
Lemma file_write_none e s b s' : file_write e s b = (s', None) -> settle e s = (s', false).
Proof. unfold file_write. destruct (settle e s) as [s1 [|]]; [discriminate|]. now intros [= <-]. Qed.
Lemma drain_fails e fuel : forall s rest s' rest', ino s < length (data s) -> length rest <= fuel -> length (fly s) <= block ->
  drain e fuel s rest = (s', rest', false) ->
  exists w lost, current s' = current s ++ w /\ fly s ++ rest = w ++ lost ++ fly s' ++ rest' /\ length lost <= block.
Proof.
  induction fuel as [|fuel IH]; intros s [|c rest] s' rest' Hi Hl Hf H; cbn [drain] in H; try discriminate.
  { simpl in Hl. lia. }
  set (r := c :: rest) in *. destruct (file_write e s r) as [s1 [n|]] eqn:E.
  - apply file_write_some in E as (A1 & A2 & A3 & A4 & A5 & A6 & A7); [|easy].
    assert (1 <= n) by now apply A7.
    apply IH in H as (w & lost & B1 & B2 & B3); [|lia|rewrite skipn_length; unfold r in *; simpl length in *; lia|easy].
    exists (fly s ++ w), lost. splits; auto.
    + now rewrite B1, A1, app_assoc.
    + rewrite <- app_assoc. f_equal. rewrite <- B2, A2. now rewrite firstn_skipn.
  - injection H as <- <-. apply file_write_none, settle_fails in E as (w & lost & B1 & B2 & B3 & B4); [|easy].
    exists w, lost. rewrite B3. splits; auto.
    + cbn [app]. rewrite app_assoc. now rewrite B2.
    + rewrite B2, app_length in Hf. lia.
Qed.
Lemma flush_buf_fails e s s' : ino s < length (data s) -> length (fly s) <= block -> flush_buf e s = (s', false) ->
  exists w lost, current s' = current s ++ w /\ pending s ++ [] = w ++ lost ++ pending s' /\ length lost <= block.
Proof.
  intros Hi Hf H. unfold flush_buf in H. destruct (drain e (length (buf s)) s (buf s)) as [[s1 rest] ok] eqn:E.
  injection H as <- ->. apply drain_fails in E as (w & lost & A1 & A2 & A3); [|easy|lia|easy].
  exists w, lost. unfold current, content, pending in *. cbn [set_buf data ino fly buf]. splits; auto.
  now rewrite app_nil_r.
Qed.
(** what a call that succeeds has done *)
Lemma drain_block e fuel : forall s rest s' rest' ok, ino s < length (data s) -> length (fly s) <= block ->
  drain e fuel s rest = (s', rest', ok) -> length (fly s') <= block.
Proof.
  induction fuel as [|fuel IH]; intros s [|c rest] s' rest' ok Hi Hf H; cbn [drain] in H; try (injection H as <- _ _; easy).
  destruct (file_write e s (c :: rest)) as [s1 [n|]] eqn:E.
  - apply file_write_some in E as (A1 & A2 & A3 & A4 & A5 & A6 & A7); [|easy]. apply IH in H; [easy|lia|easy].
  - injection H as <- _ _. apply file_write_none, settle_fails in E as (w & lost & B1 & B2 & B3 & B4); [|easy].
    rewrite B3. cbn [length]. lia.
Qed.
Lemma flush_buf_block e s s' ok : ino s < length (data s) -> length (fly s) <= block -> flush_buf e s = (s', ok) -> length (fly s') <= block.
Proof.
  intros Hi Hf H. unfold flush_buf in H. destruct (drain e (length (buf s)) s (buf s)) as [[s1 rest] ok1] eqn:E.
  injection H as <- _. now apply drain_block in E.
Qed.
Lemma settle_block e s s' ok : length (fly s) <= block -> settle e s = (s', ok) -> length (fly s') <= block.
Proof. intros Hf H. unfold settle in H. destruct (fly s) eqn:E; injection H as <- _; [now rewrite E|cbn; lia]. Qed.
Lemma buf_write_block e s b s' n : ino s < length (data s) -> length (fly s) <= block -> buf_write e s b = (s', n) -> length (fly s') <= block.
Proof.
  intros Hi Hf H. unfold buf_write in H.
  set (q := if cap s <? length (buf s) + length b then flush_buf e s else (s, true)) in H.
  assert (Q : length (fly (fst q)) <= block /\ ino (fst q) < length (data (fst q))).
  { subst q. destruct (cap s <? length (buf s) + length b); [|easy].
    destruct (flush_buf e s) as [s1 ok] eqn:E. split; [now apply flush_buf_block in E|].
    apply flush_buf_moves in E as (((F1 & F2 & F3 & F4 & F5) & _) & _); [|easy]. cbn [fst]. lia. }
  destruct q as [s1 ok]. cbn [fst] in Q. destruct Q as [Q1 Q2].
  destruct ok; cbn [negb] in H; [|now injection H as <- _].
  destruct (cap s <=? length b); [|now injection H as <- _].
  destruct n as [n|]; [now apply file_write_some in H|]. now apply file_write_none, settle_block in H.
Qed.
Lemma keeps_some e s b s' n : sound s -> b <> [] -> buf_write e s b = (s', Some n) ->
  exists w, current s' = current s ++ w /\ pending s ++ firstn n b = w ++ pending s'.
Proof.
  intros Hs Hb H. apply buf_write_quiet in H. apply (buf_write_moves (quiet e)) in H as ((_ & w & A1 & _ & A3) & _); [|easy..].
  exists w. split; [easy|]. now destruct (A3 (quiet_calm e)).
Qed.
Lemma buf_write_fails e s b s' : sound s -> length (fly s) <= block -> buf_write e s b = (s', None) -> drops s s' [].
Proof.
  intros Hs Hf H. pose proof Hs as (Hi & _). unfold buf_write in H.
  destruct (cap s <? length (buf s) + length b).
  - destruct (flush_buf e s) as [s1 ok] eqn:E. destruct ok; cbn [negb] in H.
    + destruct (cap s <=? length b); [|discriminate]. apply file_write_none in H.
      assert (Hb1 : length (fly s1) <= block) by now apply flush_buf_block in E.
      apply flush_buf_quiet in E. apply (flush_buf_moves (quiet e)) in E as (((F1 & F2 & F3 & F4 & F5) & w & A1 & _ & A3) & A4 & _); [|easy].
      destruct (A3 (quiet_calm e)) as (_ & A5). apply settle_fails in H as (w2 & lost & B1 & B2 & B3 & B4); [|lia].
      exists (w ++ w2), lost, []. rewrite !app_nil_r in *. splits.
      * now rewrite B1, A1, app_assoc.
      * rewrite <- A5. unfold pending at 1. rewrite B2. unfold pending. rewrite B3, B4. now rewrite <- !app_assoc.
      * rewrite B2, app_length in Hb1. lia.
    + injection H as <-. apply flush_buf_fails in E as (w & lost & A1 & A2 & A3); [|easy..]. exists w, lost, [].
      splits; auto. rewrite A2. now rewrite app_nil_r.
  - cbn [negb] in H. destruct (cap s <=? length b); [|discriminate]. apply file_write_none in H.
    apply settle_fails in H as (w2 & lost & B1 & B2 & B3 & B4); [|easy].
    exists w2, lost, []. rewrite !app_nil_r. splits; auto.
    + unfold pending. rewrite B2, B3, B4. now rewrite <- !app_assoc.
    + rewrite B2, app_length in Hf. lia.
Qed.
Lemma write_all_fails e fuel : forall s b s', sound s -> length b <= fuel -> length (fly s) <= block ->
  write_all e fuel s b = (s', false) -> drops s s' b.
Proof.
  induction fuel as [|fuel IH]; intros s [|c b] s' Hs Hl Hf H; cbn [write_all] in H; try discriminate.
  { simpl in Hl. lia. }
  set (r := c :: b) in *. destruct (buf_write e s r) as [s1 [n|]] eqn:E.
  - assert (Hb1 : length (fly s1) <= block) by (apply buf_write_block in E; auto; apply Hs).
    pose proof (buf_write_moves e s s1 r n Hs ltac:(easy) E) as (_ & Hs1 & Hn & _).
    apply keeps_some in E as (w & A1 & A2); [|easy..].
    apply IH in H as (w2 & lost & rest & B1 & B2 & B3); [|easy|rewrite skipn_length; unfold r in *; simpl length in *; lia|easy].
    exists (w ++ w2), lost, rest. splits; auto.
    + now rewrite B1, A1, app_assoc.
    + rewrite <- (firstn_skipn n r), app_assoc, A2, <- !app_assoc. now rewrite B2.
  - injection H as <-. apply buf_write_fails in E as (w & lost & rest & A1 & A2 & A3); [|easy..].
    exists w, lost, (rest ++ r). splits; auto. rewrite app_nil_r in A2. rewrite A2. now rewrite <- !app_assoc.
Qed.
Lemma write_all_block e fuel : forall s b s' ok, sound s -> length (fly s) <= block ->
  write_all e fuel s b = (s', ok) -> length (fly s') <= block.
Proof.
  induction fuel as [|fuel IH]; intros s [|c b] s' ok Hs Hf H; cbn [write_all] in H; try (injection H as <- _; easy).
  destruct (buf_write e s (c :: b)) as [s1 [n|]] eqn:E.
  - assert (Hb1 : length (fly s1) <= block) by (apply buf_write_block in E; auto; apply Hs).
    apply buf_write_moves in E as (_ & Hs1 & _); [|easy..]. now apply IH in H.
  - injection H as <- _. apply buf_write_block in E; auto. apply Hs.
Qed.
Lemma file_call_block e s c s' ok : sound s -> length (fly s) <= block -> file_call e s c = (s', ok) -> length (fly s') <= block.
Proof.
  intros Hs Hf H. destruct c as [b|]; cbn [file_call] in H; [now apply write_all_block in H|].
  unfold file_flush in H. destruct (flush_buf e s) as [s1 ok1] eqn:E. apply flush_buf_block in E; [|apply Hs|easy].
  destruct ok1; [now apply settle_block in H|now injection H as <- _].
Qed.
Lemma file_calls_block e cs : forall s s' oks, sound s -> length (fly s) <= block -> file_calls e s cs = (s', oks) -> length (fly s') <= block.
Proof.
  induction cs as [|c cs IH]; intros s s' oks Hs Hf H; cbn [file_calls] in H; [now injection H as <- _|].
  destruct (file_call e s c) as [s1 ok] eqn:E1. destruct (file_calls e s1 cs) as [s2 oks2] eqn:E2. injection H as <- _.
  assert (length (fly s1) <= block) by now apply file_call_block in E1.
  apply file_call_moves in E1 as (_ & Hs1 & _); [|easy]. now apply IH in E2.
Qed.
Lemma file_call_fails e s c s' : sound s -> length (fly s) <= block -> file_call e s c = (s', false) ->
  exists w lost rest, current s' = current s ++ w /\ pending s ++ written [c] = w ++ lost ++ pending s' ++ rest
  /\ length lost <= block /\ (c = Flush -> rest = []).
Proof.
  intros Hs Hf H. destruct c as [b|]; cbn [file_call written] in *.
  - rewrite app_nil_r. apply write_all_fails in H as (w & lost & rest & H1 & H2 & H3); [|easy..]. exists w, lost, rest. splits; auto. discriminate.
  - unfold file_flush in H. destruct (flush_buf e s) as [s1 ok1] eqn:E. destruct ok1.
    + assert (Hb1 : length (fly s1) <= block) by (apply flush_buf_block in E; auto; apply Hs).
      apply flush_buf_quiet in E. apply (flush_buf_moves (quiet e)) in E as (((F1 & F2 & F3 & F4 & F5) & w & A1 & _ & A3) & A4 & _); [|apply Hs].
      destruct (A3 (quiet_calm e)) as (_ & A5). pose proof Hs as (Hi & _).
      apply settle_fails in H as (w2 & lost & B1 & B2 & B3 & B4); [|lia].
      exists (w ++ w2), lost, []. rewrite !app_nil_r in *. splits.
      * now rewrite B1, A1, app_assoc.
      * rewrite <- A5. unfold pending at 1. rewrite B2. unfold pending. rewrite B3, B4. now rewrite <- !app_assoc.
      * rewrite B2, app_length in Hb1. lia.
      * easy.
    + injection H as <-. apply flush_buf_fails in E as (w & lost & A1 & A2 & A3); [|apply Hs|easy]. exists w, lost, [].
      splits; auto. rewrite A2. now rewrite app_nil_r.
Qed.

(** a record whose writing failed, when the log is rotated and no further write fails *)
Lemma retried_due e r s at_ b s' at' ok i : permissive e -> sound s -> naming r -> denotes (names s) (rt_fp r) = Some i ->
  (forall t, tick s <= t -> (0 <= e_now e t /\ at_ * 1000000 <= e_now e t)%Z) ->
  (forall t, tick (fst (file_writeall e s b)) <= t -> e_write e t = None) -> snd (file_writeall e s b) = false ->
  rot_writeall e r (s, at_) b = Ret ((s', at'), ok) -> ok = true.
Proof.
  intros Hp Hs Hn Hd Ht Hw Hf H. unfold rot_writeall in H. destruct (file_writeall e s b) as [s1 ok1] eqn:E1. cbn [fst snd] in *. subst ok1.
  pose proof (writeall_names e s b s1 false Hs E1) as (N1 & L1 & T1).
  apply writeall_moves in E1 as (_ & Hs1); [|easy].
  destruct (Ht (tick s1) T1) as [Hz Hz2].
  destruct (rotate_happens e r s1 at_ Hp Hs1 Hn) as (nm & s2 & R & Er & N2 & T2); [now rewrite N1, Hd|easy| |].
  { apply Z.div_le_lower_bound; lia. }
  destruct (rotate e r (s1, at_)) as [[[s3 at3] ok3]| | | |] eqn:E2; try discriminate.
  destruct (rot_next e r s2) as [rs| | | |] eqn:E3; try discriminate. cbn [obind] in Er. injection Er as <- ->.
  pose proof E2 as E2'. apply rotate_spec in E2' as (Hs3 & T3 & P1 & P2 & P3 & P4 & _); [|easy..]. cbn [obind fst snd] in *.
  destruct (file_writeall e s3 b) as [s4 ok4] eqn:E5. injection H as <- <- <-.
  (* the same as in an environment in which no write fails *)
  assert (X : forall fuel s b, tick s1 <= tick s -> write_all e fuel s b = write_all (quiet e) fuel s b).
  { assert (ST : forall s, tick s1 <= tick s -> settle e s = settle (quiet e) s).
    { intros z Hz'. unfold settle. cbn [quiet e_write]. rewrite Hw by easy. reflexivity. }
    assert (SK : forall s, tick s1 <= tick s -> tick s1 <= tick (fst (settle e s))) by (intros z Hz'; pose proof (settle_tick e z); lia).
    assert (FW : forall s b, tick s1 <= tick s -> file_write e s b = file_write (quiet e) s b
      /\ tick s1 <= tick (fst (file_write e s b))).
    { intros z c Hz'. unfold file_write. rewrite <- ST by easy. specialize (SK z Hz').
      destruct (settle e z) as [z1 [|]]; cbn [fst tick] in *; auto. }
    assert (DR : forall k s b, tick s1 <= tick s -> drain e k s b = drain (quiet e) k s b /\ tick s1 <= tick (fst (fst (drain e k s b)))).
    { induction k as [|k IH]; intros z [|c d] Hz'; cbn [drain fst]; auto.
      destruct (FW z (c :: d) Hz') as [<- X2]. destruct (file_write e z (c :: d)) as [z1 [n|]]; cbn [fst] in *; auto. }
    assert (FB : forall s, tick s1 <= tick s -> flush_buf e s = flush_buf (quiet e) s /\ tick s1 <= tick (fst (flush_buf e s))).
    { intros z Hz'. unfold flush_buf. destruct (DR (length (buf z)) z (buf z) Hz') as [<- X2].
      destruct (drain e (length (buf z)) z (buf z)) as [[z1 q] k]. auto. }
    assert (BW : forall s b, tick s1 <= tick s -> buf_write e s b = buf_write (quiet e) s b /\ tick s1 <= tick (fst (buf_write e s b))).
    { intros z c Hz'. unfold buf_write. destruct (cap z <? length (buf z) + length c).
      - destruct (FB z Hz') as [<- X2]. destruct (flush_buf e z) as [z1 [|]]; cbn [negb fst] in *; auto.
        destruct (cap z <=? length c); [|auto]. now apply FW.
      - cbn [negb]. destruct (cap z <=? length c); [now apply FW|auto]. }
    induction fuel as [|k IH]; intros z [|c d] Hz'; cbn [write_all]; auto.
    destruct (BW z (c :: d) Hz') as [<- X2]. destruct (buf_write e z (c :: d)) as [z1 [n|]]; cbn [fst] in *; auto. }
  unfold file_writeall in E5. rewrite X in E5 by lia.
  apply (write_all_moves (quiet e)) in E5 as ((_ & w & _ & _ & A3) & _); [|easy..]. now destruct (A3 (quiet_calm e)).
Qed.

(** when the write in flight fails a flush keeps the buffer *)
Lemma flush_kept e s k : sound s -> fly s <> [] -> e_write e (tick s) = Some k ->
  exists s', file_flush e s = (s', false) /\ current s' = current s ++ firstn k (fly s) /\ pending s' = buf s.
Proof.
  intros (Hi & _) Hf He. destruct (settle e s) as [s1 ok] eqn:E.
  assert (X : ok = false /\ current s1 = current s ++ firstn k (fly s) /\ fly s1 = [] /\ buf s1 = buf s).
  { unfold settle in E. destruct (fly s) as [|c f] eqn:Ef; [easy|]. rewrite He in E. injection E as <- <-.
    unfold current, content. cbn [data ino fly buf]. rewrite nth_update_same by easy. auto. }
  destruct X as (-> & X1 & X2 & X3). unfold file_flush, flush_buf. destruct (buf s) as [|c r] eqn:Eb.
  - cbn [length drain]. assert (Es : set_buf s [] = s) by (rewrite <- Eb; now rewrite set_buf_same). rewrite Es, E.
    exists s1. splits; auto. unfold pending. now rewrite X2, X3.
  - cbn [length drain]. unfold file_write. rewrite E. eexists. splits; [reflexivity| |].
    + exact X1.
    + unfold pending. cbn [set_buf fly buf]. now rewrite X2.
Qed.

(** starting a rotating log *)
Lemma new_started e t nm d fp bufsize kind z stamps digits r s at_ : names_ok nm d ->
  (forall k, stamps k <> []) ->
  rot_new e t nm d fp bufsize kind z stamps digits = Ret (Some (r, (s, at_))) ->
  (rt_kind r = kind /\ rt_zone r = z /\ rt_fp r = fp /\ rt_stamps r = stamps /\ rt_digits r = digits)
  /\ naming r /\ sound s /\ denotes (names s) fp = Some (ino s) /\ pending s = []
  /\ current s = match denotes nm fp with Some i => nth i d [] | None => [] end
  /\ (forall p, p <> fp -> denotes (names s) p = denotes nm p)
  /\ (N.of_nat (cap s) = N.max 8092 (N.of_nat bufsize))
  /\ (coherent z -> ordinary z -> steady z (secs (e_now e (S t))) -> (0 <= e_now e (S t))%Z ->
      (e_now e (S t) < at_ * 1000000 <= e_now e (S t) + length_of kind * nano)%Z).
Proof.
  intros Hok Hst H. unfold rot_new in H. destruct (file_new e t nm d fp bufsize) as [s0|] eqn:E; [|discriminate].
  destruct (calcnext kind z (e_now e (tick s0))) as [m| | | |] eqn:E2; try discriminate. cbn [obind] in H.
  destruct (log_name fp) as [n|] eqn:E3; [|discriminate]. injection H as <- <- <-.
  pose proof (file_new_sound e t nm d fp bufsize s0 Hok E) as (A1 & A2 & A3 & A4). pose proof (new_cap _ _ _ _ _ _ _ E) as Hc.
  assert (T : tick s0 = S t /\ forall p, p <> fp -> denotes (names s0) p = denotes nm p).
  { unfold file_new in E. destruct (e_open e t); [|discriminate]. destruct (open_file nm d fp) as [[nm' d'] i] eqn:E4.
    injection E as <-. split; [easy|]. cbn [names]. apply open_spec in E4; [|easy]. apply E4. }
  destruct T as [T1 T2]. rewrite T1 in E2. cbn [rt_kind rt_zone rt_fp rt_stamps rt_digits].
  split; [now repeat split|]. split; [now split|]. splits; auto; intros C1 C2 C3 C4;
    destruct (next_ok kind z _ C1 C2 C3 C4) as (m' & M1 & M2 & _); rewrite E2 in M1; injection M1 as <-; easy.
Qed.
Lemma new_starts e t nm d fp bufsize kind z stamps digits c :
  e_open e t = true -> coherent z -> ordinary z -> steady z (secs (e_now e (S t))) -> (0 <= e_now e (S t))%Z ->
  last_component fp c ->
  exists r s at_, rot_new e t nm d fp bufsize kind z stamps digits = Ret (Some (r, (s, at_))).
Proof.
  intros Ho C1 C2 C3 C4 Hc. destruct (next_ok kind z _ C1 C2 C3 C4) as (m & M1 & _).
  unfold rot_new, file_new. rewrite Ho. destruct (open_file nm d fp) as [[nm' d'] i]. cbn [tick]. rewrite M1. cbn [obind].
  unfold log_name. rewrite (file_name_complete _ _ Hc). eauto.
Qed.
