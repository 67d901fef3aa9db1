(** Properties C62, C63, C78: flushing, shutdown, and records that cannot be rendered. *)
From Verif Require Import F_Dispatch F_Render.

(** C62: a record logged (by any thread) before flush was called is in its file, for each of the
    appenders' files, when flush returns.  The order of log calls is that of the sends. *)
Theorem C62_barrier : forall e fs i s l1 f l2 m, all_calm e -> nth_error fs i = Some s -> sound s ->
  renderable (l1 ++ FlushCall f :: l2) -> NoDup (flush_calls (l1 ++ FlushCall f :: l2)) ->
  schedule e (started fs) (l1 ++ FlushCall f :: l2 ++ [FlushReturn f]) = Next m ->
  exists s', nth_error (outs m) i = Some s' /\ begins (current s ++ pending s ++ logged i l1) (current s').
Proof. exact barrier. Qed.
Print Assumptions C62_barrier.
(** In whatever state the logger is, flush comes to return when the consumer keeps running. *)
Theorem C62_returns : forall e m f q, exited m = false -> sender m = true -> phase m = Consuming -> queue m = q ->
  ~ In (LogItem None) q ->
  exists m', schedule e m (FlushCall f :: map (fun _ => Take) q ++ [Take; FlushReturn f]) = Next m'.
Proof. exact flush_returns. Qed.
Print Assumptions C62_returns.

Definition file0 : state := State 0 [(chars "a.log", 0)] [B "old "] 0 [] [] 16.
Definition file1 : state := State 0 [(chars "b.log", 0)] [[]] 0 [] [] 16.
Definition quiet : nat -> env := fun _ => Env (fun _ => 0%Z) (fun _ => None) (fun _ => true) (fun _ => true).
Lemma file0_sound : sound file0.
Proof.
  unfold sound, file0. cbn [ino data names buf cap length]. splits; try lia. intros p i. cbn [denotes].
  destruct (chars_eqb (chars "a.log") p); [intros [= <-]; simpl; lia|discriminate].
Qed.
Lemma quiet_calm : all_calm quiet. Proof. intros i t. reflexivity. Qed.
Example C62_nonvacuous :
  let l1 := [Log (Some [(0, B "one "); (1, B "uno ")]); Log (Some [(1, B "due ")])] in
  let l2 := [Take; Log (Some [(0, B "two ")]); Take; Take] in
  all_calm quiet /\ sound file0 /\ renderable (l1 ++ FlushCall 7 :: l2) /\ NoDup (flush_calls (l1 ++ FlushCall 7 :: l2))
  /\ exists m, schedule quiet (started [file0; file1]) (l1 ++ FlushCall 7 :: l2 ++ [FlushReturn 7]) = Next m
  /\ map current (outs m) = [B "old one "; B "uno due "] /\ map pending (outs m) = [[]; []].
Proof.
  cbv zeta. splits; [exact quiet_calm|exact file0_sound| | |].
  - unfold renderable. cbn. intros H. repeat destruct H as [H|H]; try discriminate. easy.
  - cbn. constructor; [now intros []|constructor].
  - eexists. splits; reflexivity.
Qed.

(** C63 fails: the guard's destructor returns when the consumer has emptied the channel, before
    the last flush; and then main returns.  Any records that fit an appender's buffer can be lost. *)
Theorem C63_lost_refuted : forall e fs i s lines, nth_error fs i = Some s -> sound s ->
  Forall (fun b => b <> [] /\ length b < cap s) lines ->
  length (buf s) + length (concat lines) <= cap s ->
  exists l m s', logged i l = concat lines /\ renderable l /\ schedule e (started fs) l = Next m /\ exited m = true
  /\ nth_error (outs m) i = Some s' /\ current s' = current s /\ data s' = data s.
Proof. exact exit_loses. Qed.
Print Assumptions C63_lost_refuted.
(** What holds: when main returns, every record logged is in its file or in the appender's buffer
    (none is left in the channel); all of it is in the file if the last flush had time to run, or
    if the program flushed after its last record. *)
Theorem C63_consumed_partial : forall e fs i s l m, all_calm e -> nth_error fs i = Some s -> sound s -> renderable l ->
  schedule e (started fs) l = Next m -> exited m = true ->
  exists s', nth_error (outs m) i = Some s' /\ current s' ++ pending s' = current s ++ pending s ++ logged i l.
Proof. exact at_exit. Qed.
Print Assumptions C63_consumed_partial.
Theorem C63_last_flush_partial : forall e fs i s l m, all_calm e -> nth_error fs i = Some s -> sound s -> renderable l ->
  schedule e (started fs) l = Next m -> exited m = true -> In LastFlush l ->
  exists s', nth_error (outs m) i = Some s' /\ current s' = current s ++ pending s ++ logged i l.
Proof. exact exit_flushed. Qed.
Print Assumptions C63_last_flush_partial.
Theorem C63_flush_call_partial : forall e fs i s l1 f l2 m, all_calm e -> nth_error fs i = Some s -> sound s ->
  renderable (l1 ++ FlushCall f :: l2) ->
  NoDup (flush_calls (l1 ++ FlushCall f :: l2)) -> (forall x, ~ In (Log x) l2) -> In (FlushReturn f) l2 ->
  schedule e (started fs) (l1 ++ FlushCall f :: l2) = Next m -> exited m = true ->
  exists s', nth_error (outs m) i = Some s' /\ current s' = current s ++ pending s ++ logged i (l1 ++ FlushCall f :: l2).
Proof. exact explicit_flush. Qed.
Print Assumptions C63_flush_call_partial.
Example C63_nonvacuous :
  (exists m, schedule quiet (started [file0]) [Log (Some [(0, B "one ")]); DropGuard; Take; Closed; GuardReturn; Exit] = Next m
     /\ exited m = true /\ map current (outs m) = [B "old "])
  /\ (exists m, schedule quiet (started [file0]) [Log (Some [(0, B "one ")]); DropGuard; Take; Closed; LastFlush; GuardReturn; Exit] = Next m
     /\ exited m = true /\ map current (outs m) = [B "old one "])
  /\ (exists m, schedule quiet (started [file0]) ([Log (Some [(0, B "one ")])] ++ FlushCall 1 :: [Take; Take; FlushReturn 1; DropGuard; Closed; GuardReturn; Exit]) = Next m
     /\ exited m = true /\ map current (outs m) = [B "old one "])
  /\ (exists l m s', logged 0 l = concat [B "one "; B "two "] /\ renderable l /\ schedule quiet (started [file0]) l = Next m
     /\ exited m = true /\ nth_error (outs m) 0 = Some s' /\ current s' = B "old " /\ data s' = [B "old "]).
Proof.
  splits; try (eexists; split; [vm_compute; reflexivity|]; splits; reflexivity).
  apply (C63_lost_refuted quiet [file0] 0 file0); [reflexivity|exact file0_sound| |cbn; lia].
  repeat constructor; cbn; try discriminate; lia.
Qed.

(** C78: what the consumer makes of a record, with the configuration's renderer *)
Definition entry (fmt : formatter) (r : renderer) (i : nat) (it : item) : option (list (nat * bytes)) :=
  match render fmt r it with Ret line => Some [(i, line)] | _ => None end.
Lemma renderers_layout u layout : forall names rs,
  renderers_of u layout names = Some rs -> Forall (fun r => r_timelayout r = layout) rs.
Proof.
  induction names as [|n names IH]; intros rs H; cbn [renderers_of] in H; [injection H as <-; constructor|].
  destruct (renderer_of u n); [|discriminate]. destruct (renderers_of u layout names) as [rs'|]; [|discriminate].
  injection H as <-. constructor; [reflexivity|now apply IH].
Qed.
Lemma good_layout fmt r it t : shown_time fmt (r_timelayout r) it t -> exists line, render fmt r it = Ret line.
Proof.
  unfold shown_time, render, render_json, render_color, time_text. change usual_layout with default_layout. intros H. destruct (r_kind r); rewrite H; cbn; now eexists.
Qed.
Lemma bad_layout fmt r i it e fs :
  (forall t, ~ shown_time fmt (r_timelayout r) it t) ->
  render fmt r it = Panic
  /\ exists m, schedule e (started fs) [Log (entry fmt r i it); Take] = Next m
  /\ (forall x, step e m (Log x) = Panics)
  /\ forall l m', schedule e m l = Next m' -> guard m' <> Gone /\ exited m' = false /\ outs m' = fs.
Proof.
  intros H. assert (E : render fmt r it = Panic).
  { unfold shown_time in H. unfold render, render_json, render_color, time_text.
    destruct (fmt (i_time it) _) as [t|]; [now destruct (H t)|]. now destruct (r_kind r). }
  split; [easy|]. unfold entry. rewrite E. eexists. splits; [reflexivity|reflexivity|].
  intros l m' Hm. pose proof (dead_stays e l _ m' Hm eq_refl eq_refl ltac:(discriminate) eq_refl) as (A1 & A2 & A3 & A4).
  pose proof (dead_files e l _ m' Hm eq_refl eq_refl ltac:(discriminate) eq_refl) as A5. splits; auto.
Qed.
(** C78 fails.  The configured layout reaches the renderers unchecked; when the time library does
    not accept it, the first record kills the consumer, later log calls panic, and the guard's
    destructor never returns. *)
Theorem C78_unchecked_refuted : forall u layout names rs,
  renderers_of u layout names = Some rs -> Forall (fun r => r_timelayout r = layout) rs.
Proof. exact renderers_layout. Qed.
Print Assumptions C78_unchecked_refuted.
Theorem C78_crash_refuted : forall fmt r i it e fs,
  (forall t, ~ shown_time fmt (r_timelayout r) it t) ->
  render fmt r it = Panic
  /\ exists m, schedule e (started fs) [Log (entry fmt r i it); Take] = Next m
  /\ (forall x, step e m (Log x) = Panics)
  /\ forall l m', schedule e m l = Next m' -> guard m' <> Gone /\ exited m' = false /\ outs m' = fs.
Proof. exact bad_layout. Qed.
Print Assumptions C78_crash_refuted.
(** A layout that formats the record's time renders. *)
Theorem C78_partial : forall fmt r it t, shown_time fmt (r_timelayout r) it t -> exists line, render fmt r it = Ret line.
Proof. exact good_layout. Qed.
Print Assumptions C78_partial.
Example C78_nonvacuous :
  let fmt : formatter := fun _ layout => if chars_eqb layout (chars "%") then None else Some (B "now") in
  let it := Item 0 Info (B "main.rs") 1 (B "hello") [] 0 in
  (forall t, ~ shown_time fmt (chars "%") it t) /\ shown_time fmt (chars "%Y") it (B "now").
Proof. cbv zeta. split; [intros t; unfold shown_time; vm_compute; discriminate|reflexivity]. Qed.
