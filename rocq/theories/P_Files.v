(** Properties C59-C61, C79, C80, C99: log files and their rotation. *)
From Verif Require Import F_Due.

Definition ex_env (now : nat -> Z) : env := Env now (fun _ => None) (fun _ => true) (fun _ => true).
Definition utc : zone := Zone (fun _ => 0%Z) (fun l => Single (l - 0)).

(** C59: in a new appender's file the earlier content comes first; what has been written, in the
    order of the calls, follows, split between the file and what is on its way there; after a
    flush all of it is in the file.  A crash can only cut off an end. *)
Theorem C59_nothing_lost : forall e t names data fp bufsize s0 cs s oks, calm e -> names_ok names data ->
  file_new e t names data fp bufsize = Some s0 -> file_calls e s0 cs = (s, oks) ->
  let before := match denotes names fp with Some i => nth i data [] | None => [] end in
  Forall (fun ok => ok = true) oks
  /\ current s ++ pending s = before ++ written cs
  /\ (forall cs', cs = cs' ++ [Flush] -> current s = before ++ written cs)
  /\ begins (current s) (before ++ written cs)
  /\ forall i, i <> ino s -> content s i = nth i data [].
Proof.
  intros e t nm d fp bufsize s0 cs s oks Hc Hok Hnew H before.
  pose proof (file_new_sound _ _ _ _ _ _ _ Hok Hnew) as (Hs & Hp & Hd & Hcur).
  pose proof (calls_moves e cs s0 s oks Hs H) as (((F1 & F2 & F3 & F4 & F5) & w & A1 & A2 & A3) & Hs').
  destruct (A3 Hc) as [B1 B2]. rewrite Hp in B2. cbn [app] in B2.
  assert (E : current s ++ pending s = before ++ written cs) by (rewrite A1, Hcur, <- B2; now rewrite app_assoc).
  splits.
  - apply Forall_forall. intros b Hb. rewrite forallb_forall in B1. now apply B1.
  - exact E.
  - intros cs' ->. rewrite calls_app in H. destruct (file_calls e s0 cs') as [s1 o1] eqn:E1.
    cbn [file_calls file_call] in H. destruct (file_flush e s1) as [s2 ok2] eqn:E2. injection H as <- <-.
    apply calls_moves in E1 as (_ & Hs1); [|easy]. apply file_flush_moves in E2 as (_ & _ & E2); [|easy].
    rewrite forallb_app in B1. apply andb_true_iff in B1 as [_ B1]. simpl in B1. rewrite andb_true_r in B1.
    rewrite (E2 B1), app_nil_r in E. exact E.
  - exists (pending s). now symmetry.
  - intros i Hi. rewrite F5 by congruence. unfold file_new in Hnew. destruct (e_open e t); [|discriminate].
    destruct (open_file nm d fp) as [[nm' d'] j] eqn:E1. injection Hnew as <-. cbn [ino] in *. unfold content. cbn.
    apply open_spec in E1 as (_ & _ & _ & O4 & O5 & O6 & _); [|easy].
    destruct (Nat.lt_ge_cases i (length d)) as [Hlt|Hge]; [now apply O4|].
    destruct (denotes nm fp) as [k|]; [now destruct (O6 k eq_refl) as (_ & _ & ->)|].
    destruct (O5 eq_refl) as (-> & _ & ->). rewrite !nth_overflow; auto. rewrite app_length. simpl. lia.
Qed.
Print Assumptions C59_nothing_lost.
(** Even when writes fail, the file only grows, and what it gains is part of what was written, in
    order and without repetition. *)
Theorem C59_order : forall e s cs s' oks, sound s -> file_calls e s cs = (s', oks) ->
  exists w, current s' = current s ++ w /\ subseq (w ++ pending s') (pending s ++ written cs).
Proof.
  intros e s cs s' oks Hs H. apply calls_moves in H as ((_ & w & A1 & A2 & _) & _); [|easy]. eauto.
Qed.
Print Assumptions C59_order.
(** Losses are not silent: as long as every call has reported success nothing is lost, whatever
    writes fail behind the scenes; and if the last call was a flush all of it is in the file. *)
Theorem C59_reported : forall e t names data fp bufsize s0 cs s oks, names_ok names data ->
  file_new e t names data fp bufsize = Some s0 -> file_calls e s0 cs = (s, oks) -> Forall (fun ok => ok = true) oks ->
  let before := match denotes names fp with Some i => nth i data [] | None => [] end in
  current s ++ pending s = before ++ written cs
  /\ (forall cs', cs = cs' ++ [Flush] -> current s = before ++ written cs).
Proof.
  intros e t nm d fp bufsize s0 cs s oks Hok Hnew H Ho before.
  apply file_calls_quiet in H; [|easy].
  now destruct (C59_nothing_lost (quiet e) t nm d fp bufsize s0 cs s oks (quiet_calm e) Hok Hnew H) as (_ & A & B & _).
Qed.
Print Assumptions C59_reported.
(** A call that fails loses part of one block, of at most two megabytes; everything after it stays
    in the buffer for the next call, except the end of the record that was not accepted. *)
Theorem C59_failed : forall e t names data fp bufsize s0 cs s oks c s', names_ok names data ->
  file_new e t names data fp bufsize = Some s0 -> file_calls e s0 cs = (s, oks) -> file_call e s c = (s', false) ->
  exists w lost rest, current s' = current s ++ w /\ pending s ++ written [c] = w ++ lost ++ pending s' ++ rest
  /\ (N.of_nat (length lost) <= 2 * 1024 * 1024)%N /\ (c = Flush -> rest = []).
Proof.
  intros e t nm d fp bufsize s0 cs s oks c s' Hok Hnew H Hc.
  pose proof (file_new_sound _ _ _ _ _ _ _ Hok Hnew) as (Hs & Hp & _).
  assert (Hf0 : length (fly s0) <= block) by (unfold pending in Hp; apply app_eq_nil in Hp as [-> _]; cbn; lia).
  assert (Hf : length (fly s) <= block) by now apply file_calls_block in H.
  apply calls_moves in H as (_ & Hs1); [|easy].
  destruct (file_call_fails e s c s' Hs1 Hf Hc) as (w & lost & rest & A1 & A2 & A3 & A4).
  exists w, lost, rest. splits; auto. rewrite <- block_is. lia.
Qed.
Print Assumptions C59_failed.
(** When it is the block in flight whose write fails, a flush reports it and the buffer is kept. *)
Theorem C59_kept : forall e s k, sound s -> fly s <> [] -> e_write e (tick s) = Some k ->
  exists s', file_flush e s = (s', false) /\ current s' = current s ++ firstn k (fly s) /\ pending s' = buf s.
Proof. exact flush_kept. Qed.
Print Assumptions C59_kept.
(** Never more is held back than the configured buffer, of at least 8092 bytes, and a block of two
    megabytes being written. *)
Theorem C59_held_back : forall e t names data fp bufsize s0 cs s oks, names_ok names data ->
  file_new e t names data fp bufsize = Some s0 -> file_calls e s0 cs = (s, oks) ->
  (N.of_nat (length (pending s)) <= N.max 8092 (N.of_nat bufsize) + 2 * 1024 * 1024)%N.
Proof.
  intros e t nm d fp bufsize s0 cs s oks Hok Hnew H.
  pose proof (file_new_sound _ _ _ _ _ _ _ Hok Hnew) as (Hs & Hp & _).
  assert (Hf0 : length (fly s0) <= block) by (unfold pending in Hp; apply app_eq_nil in Hp as [-> _]; cbn; lia).
  assert (Hf : length (fly s) <= block) by now apply file_calls_block in H.
  pose proof (calls_moves e cs s0 s oks Hs H) as (((_ & _ & F3 & _) & _) & (_ & _ & Hb & _)).
  pose proof (new_cap _ _ _ _ _ _ _ Hnew). unfold pending. rewrite app_length. pose proof block_is. lia.
Qed.
Print Assumptions C59_held_back.
(** And what fits in the buffer is held back: without a flush the file is not touched. *)
Theorem C59_collected : forall e t names data fp bufsize s0 cs s oks, names_ok names data ->
  file_new e t names data fp bufsize = Some s0 -> file_calls e s0 cs = (s, oks) ->
  ~ In Flush cs -> (N.of_nat (length (written cs)) < N.max 8092 (N.of_nat bufsize))%N ->
  current s = match denotes names fp with Some i => nth i data [] | None => [] end
  /\ pending s = written cs /\ Forall (fun ok => ok = true) oks.
Proof.
  intros e t nm d fp bufsize s0 cs s oks Hok Hnew H Hi Hl.
  pose proof (file_new_sound _ _ _ _ _ _ _ Hok Hnew) as (Hs & Hp & _ & Hcur).
  pose proof (new_cap _ _ _ _ _ _ _ Hnew). unfold pending in Hp. apply app_eq_nil in Hp as [Hf Hb].
  destruct (calls_collected e cs s0 s oks H Hi) as (A & B); [rewrite Hb; simpl; lia|].
  subst s. unfold current, content, pending, set_buf. cbn [ino data fly buf]. rewrite Hf, Hb. splits; auto.
Qed.
Print Assumptions C59_collected.
Example C59_nonvacuous :
  let e := ex_env (fun _ => 0%Z) in
  exists s0 s, file_new e 0 [(chars "a.log", 0)] [B "old "] (chars "a.log") 0 = Some s0 /\ sound s0
  /\ file_calls e s0 [Write (B "one "); Flush; Write (B "two ")] = (s, [true; true; true])
  /\ current s = B "old one " /\ pending s = B "two ".
Proof.
  cbv zeta.
  set (s0 := State 1 [(chars "a.log", 0)] [B "old "] 0 [] [] (Nat.max min_buffer 0)).
  assert (H : file_new (ex_env (fun _ => 0%Z)) 0 [(chars "a.log", 0)] [B "old "] (chars "a.log") 0 = Some s0) by reflexivity.
  assert (Hs : sound s0).
  { apply (file_new_sound (ex_env (fun _ => 0%Z)) 0 [(chars "a.log", 0)] [B "old "] (chars "a.log") 0); [|easy].
    intros p i. cbn [denotes]. destruct (chars_eqb (chars "a.log") p); [intros [= <-]; simpl; lia|discriminate]. }
  destruct (file_calls (ex_env (fun _ => 0%Z)) s0 [Write (B "one "); Flush; Write (B "two ")]) as [s oks] eqn:E.
  exists s0, s. splits; auto; vm_compute in E; injection E as <- <-; vm_compute; reflexivity.
Qed.
Example C59_failed_nonvacuous :
  let e := Env (fun _ => 0%Z) (fun t => if t =? 1 then Some 3 else None) (fun _ => true) (fun _ => true) in
  let x := repeat "x"%char (N.to_nat 9000) in
  exists s0, file_new e 0 [] [] (chars "a.log") 0 = Some s0
  /\ let (s, oks) := file_calls e s0 [Write x; Write (B "two ")] in
     let (s1, ok1) := file_call e s Flush in
     let (s2, ok2) := file_call e s1 Flush in
     oks = [true; true] /\ ok1 = false /\ current s1 = B "xxx" /\ pending s1 = B "two "
     /\ ok2 = true /\ current s2 = B "xxxtwo ".
Proof. cbv zeta. eexists. split; [reflexivity|]. vm_compute. repeat split. Qed.

(** C60, the part that holds: how every history of calls distributes the log over the files, when
    no write fails.  A file that is rotated away has all of its part of the log except an end no
    longer than the buffer; nothing else is lost, reordered or repeated.  In particular nothing is
    lost before the first rotation.  After a flush nothing is held back. *)
Theorem C60_segments_partial : forall e r s at_ cs s' at' oks, calm e -> sound s -> naming r ->
  rot_calls e r (s, at_) cs = Ret ((s', at'), oks) ->
  Forall (fun ok => ok = true) oks /\ (exists segs, segments s s' (written cs) segs)
  /\ (forall cs', cs = cs' ++ [Flush] -> pending s' = []).
Proof.
  intros e r s at_ cs s' at' oks Hc Hs Hn H. pose proof H as H2. apply rot_calls_calm in H as (_ & H & S); [|easy..].
  splits; auto. intros cs' ->. now apply (rot_flushed e r cs' s at_ s' at' oks).
Qed.
Print Assumptions C60_segments_partial.
(** C60 fails: whenever a record shorter than the buffer makes the log rotate, the record ends up in
    no file and in no buffer, although writing it succeeds. *)
Theorem C60_rotation_loses_refuted : forall e r s at_ b s' at' ok, calm e -> permissive e -> sound s -> naming r ->
  denotes (names s) (rt_fp r) <> None ->
  (forall t, tick s <= t -> (0 <= e_now e t /\ at_ * 1000000 <= e_now e t)%Z) ->
  b <> [] -> length b < cap s -> rot_call e r (s, at_) (Write b) = Ret ((s', at'), ok) ->
  ok = true /\ pending s' = [] /\ (forall i, i <> ino s -> content s' i = content s i)
  /\ begins (content s' (ino s)) (current s ++ pending s).
Proof.
  intros e r s at_ b s' at' ok Hc Hp Hs Hn Hd Ht Hb Hl H.
  now destruct (loses e r s at_ b s' at' ok Hc Hp Hs Hn Hd Ht Hb Hl H) as (L1 & L2 & L3 & L4 & L5 & L6).
Qed.
Print Assumptions C60_rotation_loses_refuted.
(** When writing a record fails and the log is rotated at that moment, the record is written again,
    whole, to the new file. *)
Theorem C60_retry_partial : forall e r s at_ b s' at', sound s -> naming r ->
  rot_call e r (s, at_) (Write b) = Ret ((s', at'), true) -> snd (file_writeall e s b) = false ->
  ino s' = length (data s) /\ current s' ++ pending s' = b.
Proof. exact retried. Qed.
Print Assumptions C60_retry_partial.
(** ... and if then no write fails the call succeeds. *)
Theorem C60_again_partial : forall e r s at_ b s' at' ok i, permissive e -> sound s -> naming r ->
  denotes (names s) (rt_fp r) = Some i ->
  (forall t, tick s <= t -> (0 <= e_now e t /\ at_ * 1000000 <= e_now e t)%Z) ->
  (forall t, tick (fst (file_writeall e s b)) <= t -> e_write e t = None) -> snd (file_writeall e s b) = false ->
  rot_call e r (s, at_) (Write b) = Ret ((s', at'), ok) -> ok = true /\ current s' ++ pending s' = b.
Proof.
  intros e r s at_ b s' at' ok i Hp Hs Hn Hd Ht Hw Hf H.
  pose proof (retried_due e r s at_ b s' at' ok i Hp Hs Hn Hd Ht Hw Hf H) as ->. split; [easy|].
  now apply retried in H.
Qed.
Print Assumptions C60_again_partial.
Definition ex_rot : rotation :=
  Rotation Daily_ utc (chars "a.log") ([], chars "a", chars "log") (fun k => dot :: map code (dec (Z.to_N k))) (fun n => map code (dec (Z.to_N n))).
Definition ex_state : state := State 0 [(chars "a.log", 0)] [B "old "] 0 [] (B "kept? ") 100.
Example C60_nonvacuous :
  let e := ex_env (fun _ => (86400 * 3 * nano)%Z) in
  sound ex_state /\ naming ex_rot
  /\ exists s' at', rot_call e ex_rot (ex_state, (86400 * 3 * 1000)%Z) (Write (B "record")) = Ret ((s', at'), true)
     /\ data s' = [B "old "; []] /\ pending s' = [] /\ at' = (86400 * 4 * 1000)%Z
     /\ denotes (names s') (chars "a.3.log") = Some 0 /\ denotes (names s') (chars "a.log") = Some 1.
Proof.
  cbv zeta. splits.
  - unfold sound, ex_state. cbn [ino data names buf cap]. splits; try (vm_compute; lia).
    intros p i. cbn [denotes]. destruct (chars_eqb (chars "a.log") p); [intros [= <-]; simpl; lia|discriminate].
  - split; [reflexivity|discriminate].
  - eexists. eexists. split; [vm_compute; reflexivity|]. splits; reflexivity.
Qed.

(** C61, the part that holds: away from clock changes the next rotation is after now, at most one
    period later, and at a full local hour or at local midnight. *)
Theorem C61_next_partial : forall k z now, coherent z -> ordinary z -> steady z (secs now) -> (0 <= now)%Z ->
  exists r, calcnext k z now = Ret r /\ (now < r * 1000000 <= now + length_of k * nano)%Z
  /\ exists t, (r = t * 1000)%Z /\ boundary z (length_of k) t.
Proof. exact next_ok. Qed.
Print Assumptions C61_next_partial.
(** C61 fails: on a local day with more than 24 hours, after the first 24, the next rotation is not
    after now; ... *)
Theorem C61_long_day_refuted : forall k z now r n s, coherent z -> calcnext k z now = Ret r ->
  in_period z (length_of k) (secs now) n -> shows z s (n * length_of k) -> (s + length_of k <= secs now)%Z ->
  (r * 1000000 <= now)%Z.
Proof. exact next_late. Qed.
Print Assumptions C61_long_day_refuted.
(** ... when the clocks change in between it is not at a boundary; ... *)
Theorem C61_uneven_refuted : forall k z now r, coherent z -> calcnext k z now = Ret r ->
  exists s t, (r = t * 1000)%Z /\ (t = s + length_of k)%Z /\ boundary z (length_of k) s
  /\ (boundary z (length_of k) t <-> (length_of k | offset z t - offset z s)%Z).
Proof. exact next_uneven. Qed.
Print Assumptions C61_uneven_refuted.
(** ... and when the start of the current local day or hour is skipped or repeated by the clocks,
    computing it crashes. *)
Theorem C61_crash_refuted : forall k z now n, coherent z -> in_period z (length_of k) (secs now) n ->
  (~ exists s, shows z s (n * length_of k) /\ forall u, shows z u (n * length_of k) -> u = s) ->
  calcnext k z now = Panic.
Proof.
  intros k z now n Hc Hn Hno. apply calcnext_panics. intros t E. apply Hno.
  assert (Hpos : (0 < length_of k)%Z) by (destruct k; simpl; lia).
  assert (El : (local_secs z now - local_secs z now mod length_of k = n * length_of k)%Z).
  { unfold in_period in Hn. unfold local_secs in *. set (l := (secs now + offset z (secs now))%Z) in *.
    assert (n = l / length_of k)%Z by (apply (Z.div_unique_pos _ _ _ (l - n * length_of k)); lia).
    subst n. rewrite (Z.div_mod l (length_of k)) at 1 by lia. lia. }
  rewrite El in E. specialize (Hc (n * length_of k)%Z). rewrite E in Hc. now exists t.
Qed.
Print Assumptions C61_crash_refuted.
(** a zone whose clocks are put back by one hour at time [T] *)
Definition autumn (T : Z) : zone :=
  Zone (fun t => if (t <? T)%Z then 7200%Z else 3600%Z)
       (fun l => if (l <? T + 3600)%Z then Single (l - 7200)
                 else if (l <? T + 7200)%Z then Ambiguous (l - 7200) (l - 3600) else Single (l - 3600)).
Lemma autumn_coherent T : coherent (autumn T).
Proof.
  intros l. unfold autumn, shows. cbn [instants offset].
  destruct (Z.ltb_spec l (T + 3600)); [|destruct (Z.ltb_spec l (T + 7200))].
  - split; [destruct (Z.ltb_spec (l - 7200) T); lia|]. intros u. destruct (Z.ltb_spec u T); lia.
  - splits; [lia|destruct (Z.ltb_spec (l - 7200) T); lia|destruct (Z.ltb_spec (l - 3600) T); lia].
  - split; [destruct (Z.ltb_spec (l - 3600) T); lia|]. intros u. destruct (Z.ltb_spec u T); lia.
Qed.
Example C61_nonvacuous :
  let m := (86400 * 100 - 7200)%Z in let z := autumn (m + 3 * 3600) in
  (* a quarter past eleven in the evening of the long day *)
  calcnext Daily_ z ((m + 86400 + 900) * nano) = Ret ((m + 86400) * 1000)%Z
  /\ in_period z 86400 (m + 86400 + 900) 100 /\ shows z m (100 * 86400)
  (* in the hour that occurs twice *)
  /\ calcnext Hourly z ((m + 3 * 3600 + 5) * nano) = Panic
  (* an ordinary day *)
  /\ calcnext Daily_ utc (5 * 86400 * nano + 7) = Ret (6 * 86400 * 1000)%Z /\ steady utc (5 * 86400).
Proof.
  cbv zeta. splits.
  all: match goal with
       | |- steady _ _ => intros u _; reflexivity
       | |- in_period _ _ _ _ => vm_compute; split; congruence
       | _ => vm_compute; reflexivity
       end.
Qed.

(** C79, the part that holds: without clock changes and with a clock that never goes back, rotation
    never changes which file a path denotes, except for the path of the log itself; so a log that
    has been rotated away stays available under its name.  (Provided no name of a future date is in
    use at the start.) *)
Theorem C79_archives_kept_partial : forall e t nm d fp bufsize kind z o stamps digits r rs K cs1 cs2 rs1 oks1 rs2 oks2,
  fixed z o -> monotone e -> permissive e -> calm e -> names_ok nm d ->
  (forall k, stamps k <> []) -> (forall a b, stamps a = stamps b -> a = b) ->
  rot_new e t nm d fp bufsize kind z stamps digits = Ret (Some (r, rs)) ->
  in_period z (length_of kind) (secs (e_now e (S t))) K ->
  (forall k, (K < k)%Z -> denotes nm (archive r k) = None) ->
  rot_calls e r rs cs1 = Ret (rs1, oks1) -> rot_calls e r rs1 cs2 = Ret (rs2, oks2) ->
  forall p i, p <> fp -> denotes (names (fst rs1)) p = Some i -> denotes (names (fst rs2)) p = Some i.
Proof.
  intros e t nm d fp bufsize kind z o stamps digits r [s at_] K cs1 cs2 [s1 at1] oks1 [s2 at2] oks2 Hf Hm Hp Hc Hok Hst Hinj Hnew HK Ha H1 H2 p i.
  cbn [fst].
  pose proof (new_dated _ _ _ _ _ _ _ _ _ _ _ _ _ o K Hf Hm Hok Hst Hnew HK Ha) as (Hs & Hn & Hd & D & Ez & Es & _).
  assert (Hfp : rt_fp r = fp).
  { clear - Hnew. unfold rot_new in Hnew. destruct (file_new e t nm d fp bufsize); [|discriminate].
    destruct (calcnext _ _ _); try discriminate. cbn [obind] in Hnew. destruct (log_name fp); [|discriminate]. now injection Hnew as <- _. }
  rewrite <- Ez in Hf. rewrite <- Es in Hinj.
  apply (calls_dated e r o cs1 s at_ s1 at1 oks1 K) in H1 as (Hs1 & Hd1 & _ & K1 & D1); auto.
  apply (calls_dated e r o cs2 s1 at1 s2 at2 oks2 K1) in H2 as (_ & _ & A & _); auto.
  rewrite <- Hfp. apply A.
Qed.
Print Assumptions C79_archives_kept_partial.
(** C79 fails: a log rotated in a period replaces the one already named after that period; ... *)
Theorem C79_overwrites_refuted : forall e r s at_ b s' at' ok k j, permissive e -> sound s -> naming r ->
  denotes (names s) (rt_fp r) = Some (ino s) ->
  (forall t, tick s <= t -> (0 <= e_now e t /\ at_ * 1000000 <= e_now e t)%Z) ->
  (forall t, tick s <= t -> period_at r (e_now e t) k) ->
  denotes (names s) (archive r k) = Some j -> j <> ino s -> (forall p, denotes (names s) p = Some j -> p = archive r k) ->
  rot_call e r (s, at_) (Write b) = Ret ((s', at'), ok) ->
  forall p, denotes (names s') p <> Some j.
Proof. exact destroyed. Qed.
Print Assumptions C79_overwrites_refuted.
(** ... so, on a day with more than 24 hours, any two records after the first 24 destroy the log of
    that day: it is no longer under any name, and the file named after that day is empty. *)
Theorem C79_long_day_refuted : forall e r s at_ b c s1 at1 ok1 s2 at2 ok2 k m, calm e -> permissive e -> sound s -> naming r ->
  coherent (rt_zone r) -> denotes (names s) (rt_fp r) = Some (ino s) ->
  (forall p, denotes (names s) p = Some (ino s) -> p = rt_fp r) ->
  shows (rt_zone r) m (k * length_of (rt_kind r)) ->
  (forall t, tick s <= t -> (0 <= e_now e t /\ period_at r (e_now e t) k /\ m + length_of (rt_kind r) <= secs (e_now e t))%Z) ->
  (forall t, tick s <= t -> (at_ * 1000000 <= e_now e t)%Z) ->
  b <> [] -> length b < cap s -> c <> [] -> length c < cap s ->
  rot_call e r (s, at_) (Write b) = Ret ((s1, at1), ok1) -> rot_call e r (s1, at1) (Write c) = Ret ((s2, at2), ok2) ->
  ok1 = true /\ ok2 = true /\ (forall p, denotes (names s2) p <> Some (ino s))
  /\ exists i, denotes (names s2) (archive r k) = Some i /\ content s2 i = [] /\ current s2 = [] /\ pending s2 = [].
Proof. exact long_day. Qed.
Print Assumptions C79_long_day_refuted.
Definition ex_autumn : rotation :=
  let m := (86400 * 100 - 7200)%Z in
  Rotation Daily_ (autumn (m + 3 * 3600)) (chars "a.log") ([], chars "a", chars "log") (rt_stamps ex_rot) (rt_digits ex_rot).
Example C79_nonvacuous :
  let m := (86400 * 100 - 7200)%Z in
  let e := ex_env (fun _ => ((m + 86400 + 900) * nano)%Z) in
  let s := State 0 [(chars "a.log", 0); (chars "a.100.log", 1)] [B "the day's log"; B "the log of the day before"] 0 [] [] 100 in
  exists s1 at1 s2 at2,
  rot_call e ex_autumn (s, ((m + 86400) * 1000)%Z) (Write (B "x")) = Ret ((s1, at1), true)
  /\ names s1 = [(chars "a.log", 2); (chars "a.100.log", 0)]
  /\ rot_call e ex_autumn (s1, at1) (Write (B "y")) = Ret ((s2, at2), true)
  /\ names s2 = [(chars "a.log", 3); (chars "a.100.log", 2)]
  /\ data s2 = [B "the day's log"; B "the log of the day before"; []; []]
  /\ period_at ex_autumn ((m + 86400 + 900) * nano) 100 /\ shows (rt_zone ex_autumn) m (100 * 86400).
Proof.
  cbv zeta. eexists. eexists. eexists. eexists. split; [vm_compute; reflexivity|]. split; [reflexivity|].
  split; [vm_compute; reflexivity|]. splits; try reflexivity; vm_compute; split; congruence.
Qed.
Example C79_partial_nonvacuous :
  let now (t : nat) := (Z.of_nat t * 86400 * nano)%Z in let e := ex_env now in
  fixed utc 0 /\ (forall t u, t <= u -> (0 <= now t <= now u)%Z)
  /\ exists r rs, rot_new e 0 [] [] (chars "a.log") 0 Daily_ utc (rt_stamps ex_rot) (rt_digits ex_rot) = Ret (Some (r, rs))
     /\ in_period utc 86400 (secs (now 1)) 1.
Proof.
  cbv zeta. splits.
  - unfold fixed, utc. cbn. split; auto.
  - intros t u H. unfold nano. nia.
  - eexists. eexists. split; [reflexivity|]. vm_compute. split; congruence.
Qed.

(** C80 fails: a rotated log gets the date of its rotation, which (without clock changes) is never
    the date of the day on which the log was started, and all records but the last were written. *)
Theorem C80_name_refuted : forall e r o s at_ b s' at' ok t0 K i, fixed (rt_zone r) o -> permissive e -> sound s -> naming r ->
  (forall a b, rt_stamps r a = rt_stamps r b -> a = b) ->
  denotes (names s) (rt_fp r) = Some i -> denotes (names s) (archive r K) <> Some i ->
  calcnext (rt_kind r) (rt_zone r) t0 = Ret at_ -> period_at r t0 K ->
  (forall t, tick s <= t -> (0 <= e_now e t /\ at_ * 1000000 <= e_now e t)%Z) ->
  rot_call e r (s, at_) (Write b) = Ret ((s', at'), ok) ->
  exists k, (K < k)%Z /\ denotes (names s') (archive r k) = Some i /\ denotes (names s') (archive r K) <> Some i.
Proof. exact misnamed. Qed.
Print Assumptions C80_name_refuted.
(** What holds: before the log's period is over it is not rotated. *)
Theorem C80_not_early_partial : forall e r s at_ b s' at' ok, sound s -> naming r ->
  (forall t, tick s <= t -> (0 <= e_now e t < at_ * 1000000)%Z) ->
  rot_call e r (s, at_) (Write b) = Ret ((s', at'), ok) -> names s' = names s /\ ino s' = ino s /\ at' = at_.
Proof.
  intros e r s at_ b s' at' ok Hs Hn Ht H. unfold rot_call, rot_writeall in H. destruct (file_writeall e s b) as [s1 ok1] eqn:E1.
  pose proof (writeall_names e s b s1 ok1 Hs E1) as (N1 & L1 & T1).
  apply writeall_moves in E1 as (((F1 & F2 & F3 & F4 & F5) & _) & _); [|easy].
  specialize (Ht (tick s1) T1). unfold rotate, unix_millis in H.
  replace (e_now e (tick s1) <? 0)%Z with false in H by lia. cbn [obind] in H.
  replace (e_now e (tick s1) / 1000000 <? at_)%Z with true in H by lia. cbn [obind] in H.
  destruct ok1; injection H as <- <- <-; splits; auto.
Qed.
Print Assumptions C80_not_early_partial.
Example C80_nonvacuous :
  calcnext Daily_ utc (2 * 86400 * nano + 5) = Ret (86400 * 3 * 1000)%Z /\ period_at ex_rot (2 * 86400 * nano + 5) 2
  /\ archive ex_rot 3 = chars "a.3.log" /\ archive ex_rot 2 = chars "a.2.log".
Proof. splits; try reflexivity; vm_compute; split; congruence. Qed.
Example C60_retry_nonvacuous :
  let e := Env (fun _ => (86400 * 3 * nano)%Z) (fun t => if t =? 0 then Some 2 else None) (fun _ => true) (fun _ => true) in
  let s := State 0 [(chars "a.log", 0)] [B "old "] 0 (B "in flight ") (B "kept? ") 8 in
  exists s' at', rot_call e ex_rot (s, (86400 * 3 * 1000)%Z) (Write (B "record")) = Ret ((s', at'), true)
  /\ snd (file_writeall e s (B "record")) = false /\ data s' = [B "old in"; []] /\ pending s' = B "record".
Proof. cbv zeta. eexists. eexists. split; [vm_compute; reflexivity|]. splits; vm_compute; reflexivity. Qed.

(** C99, the part that holds: once the time has come, and renaming and opening are allowed, the next
    record rotates the log.  Its file is then named after the period in which that happened, the path of the log denotes
    a new file, which is the appender's, no other path changes, and the next rotation is ahead. *)
Theorem C99_due_partial : forall e r s at_ b s' at' ok i, permissive e -> sound s -> naming r ->
  denotes (names s) (rt_fp r) = Some i ->
  (forall t, tick s <= t -> (0 <= e_now e t /\ at_ * 1000000 <= e_now e t)%Z) ->
  rot_call e r (s, at_) (Write b) = Ret ((s', at'), ok) ->
  ino s' = length (data s) /\ exists t u k, tick s <= t < u /\ period_at r (e_now e t) k
  /\ denotes (names s') (archive r k) = Some i
  /\ denotes (names s') (rt_fp r) = Some (length (data s))
  /\ (forall p, p <> rt_fp r -> p <> archive r k -> denotes (names s') p = denotes (names s) p)
  /\ (coherent (rt_zone r) -> ordinary (rt_zone r) -> steady (rt_zone r) (secs (e_now e u)) ->
      (e_now e u < at' * 1000000 <= e_now e u + length_of (rt_kind r) * nano)%Z).
Proof.
  intros e r s at_ b s' at' ok i Hp Hs Hn Hd Ht H. split; [now apply (due_ino e r s at_ b s' at' ok i)|].
  destruct (due e r s at_ b s' at' ok i Hp Hs Hn Hd Ht H) as (t & u & k & A1 & A2 & A3 & A4 & A5 & A6 & A7).
  exists t, u, k. splits; auto. intros C1 C2 C3.
  assert (Hu : (0 <= e_now e u)%Z) by (apply Ht; lia).
  destruct (next_ok (rt_kind r) (rt_zone r) (e_now e u)) as (m & M1 & M2 & _); auto. rewrite A7 in M1. injection M1 as <-. lia.
Qed.
Print Assumptions C99_due_partial.
(** A rotating log starts as a plain one, with the given settings, and its first rotation is ahead; ... *)
Theorem C99_started_partial : forall e t nm d fp bufsize kind z stamps digits r s at_, names_ok nm d ->
  (forall k, stamps k <> []) ->
  rot_new e t nm d fp bufsize kind z stamps digits = Ret (Some (r, (s, at_))) ->
  (rt_kind r = kind /\ rt_zone r = z /\ rt_fp r = fp /\ rt_stamps r = stamps /\ rt_digits r = digits)
  /\ naming r /\ sound s /\ denotes (names s) fp = Some (ino s) /\ pending s = []
  /\ current s = match denotes nm fp with Some i => nth i d [] | None => [] end
  /\ (forall p, p <> fp -> denotes (names s) p = denotes nm p)
  /\ (N.of_nat (cap s) = N.max 8092 (N.of_nat bufsize))
  /\ (coherent z -> ordinary z -> steady z (secs (e_now e (S t))) -> (0 <= e_now e (S t))%Z ->
      (e_now e (S t) < at_ * 1000000 <= e_now e (S t) + length_of kind * nano)%Z).
Proof. exact new_started. Qed.
Print Assumptions C99_started_partial.
(** ... and away from clock changes it does start, if the file can be opened and has a name. *)
Theorem C99_starts_partial : forall e t nm d fp bufsize kind z stamps digits c,
  e_open e t = true -> coherent z -> ordinary z -> steady z (secs (e_now e (S t))) -> (0 <= e_now e (S t))%Z ->
  last_component fp c ->
  exists r s at_, rot_new e t nm d fp bufsize kind z stamps digits = Ret (Some (r, (s, at_))).
Proof. exact new_starts. Qed.
Print Assumptions C99_starts_partial.
(** While renaming is not allowed the log stays where it is, and nothing is lost. *)
Theorem C99_not_renamed_partial : forall e r s at_ cs s' at' oks, sound s -> naming r -> (forall t, e_rename e t = false) ->
  rot_calls e r (s, at_) cs = Ret ((s', at'), oks) ->
  names s' = names s /\ ino s' = ino s /\ (calm e -> current s' ++ pending s' = current s ++ pending s ++ written cs).
Proof.
  intros e r s at_ cs s' at' oks Hs Hn Hr H.
  pose proof (stuck_calls e r cs s at_ s' at' oks Hs Hn (or_introl Hr) H) as (N & I). splits; auto.
  intros Hc. apply rot_calls_calm in H as (_ & _ & segs & S1); [|easy..].
  destruct S1 as (A1 & A2 & A3 & A4 & A5 & A6 & A7 & A8). destruct segs as [|g segs]; [now rewrite A1|].
  assert (X := A6 ltac:(easy)). cbn [length] in X. destruct Hs as (Hs & _). lia.
Qed.
Print Assumptions C99_not_renamed_partial.
(** C99 fails: if the new file cannot be opened when the log is rotated, the path of the log is gone, and it
    never comes back, nor is the log ever rotated again, even if everything is allowed from then on. *)
Theorem C99_open_failure_refuted : forall e r s at_ b s1 at1 ok1 i e2 cs s2 at2 oks2,
  (forall t, e_rename e t = true) -> (forall t, e_open e t = false) -> sound s -> naming r ->
  denotes (names s) (rt_fp r) = Some i ->
  (forall t, tick s <= t -> (0 <= e_now e t /\ at_ * 1000000 <= e_now e t)%Z) ->
  rot_call e r (s, at_) (Write b) = Ret ((s1, at1), ok1) -> rot_calls e2 r (s1, at1) cs = Ret ((s2, at2), oks2) ->
  denotes (names s2) (rt_fp r) = None /\ names s2 = names s1 /\ ino s2 = ino s.
Proof.
  intros e r s at_ b s1 at1 ok1 i e2 cs s2 at2 oks2 Hr Ho Hs Hn Hd Ht H1 H2.
  apply (lost_path e r s at_ b s1 at1 ok1 i) in H1 as (Hs1 & N1 & I1); auto.
  apply stuck_calls in H2 as (N2 & I2); [|easy..|now right]. splits; congruence.
Qed.
Print Assumptions C99_open_failure_refuted.
Example C99_nonvacuous :
  let e := Env (fun _ => (86400 * 3 * nano)%Z) (fun _ => None) (fun _ => true) (fun _ => false) in
  let e2 := ex_env (fun t => ((86400 * 3 + Z.of_nat t * 86400) * nano)%Z) in
  exists s1 at1 s2 at2,
  rot_call e ex_rot (ex_state, (86400 * 3 * 1000)%Z) (Write (B "one ")) = Ret ((s1, at1), true)
  /\ names s1 = [(chars "a.3.log", 0)]
  /\ rot_calls e2 ex_rot (s1, at1) [Write (B "two "); Write (B "three "); Flush] = Ret ((s2, at2), [true; true; true])
  /\ names s2 = [(chars "a.3.log", 0)] /\ current s2 = B "old kept? one two three "
  /\ exists s3 at3, rot_call e2 ex_rot (ex_state, (86400 * 3 * 1000)%Z) (Write (B "one ")) = Ret ((s3, at3), true)
     /\ names s3 = [(chars "a.log", 1); (chars "a.3.log", 0)].
Proof.
  cbv zeta. eexists. eexists. eexists. eexists. split; [vm_compute; reflexivity|]. split; [vm_compute; reflexivity|].
  split; [vm_compute; reflexivity|]. split; [vm_compute; reflexivity|]. split; [vm_compute; reflexivity|].
  eexists. eexists. split; vm_compute; reflexivity.
Qed.
Example C99_started_nonvacuous :
  let e := ex_env (fun _ => (86400 * 3 * nano + 7)%Z) in
  exists r s, rot_new e 0 [] [] (chars "logs/a.log") 0 Hourly utc (rt_stamps ex_rot) (rt_digits ex_rot)
              = Ret (Some (r, (s, ((86400 * 3 + 3600) * 1000)%Z)))
  /\ rt_name r = (chars "logs/", chars "a", chars "log") /\ names s = [(chars "logs/a.log", 0)].
Proof. cbv zeta. eexists. eexists. split; [reflexivity|]. split; reflexivity. Qed.
