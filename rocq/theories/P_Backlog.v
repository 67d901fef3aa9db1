(** C131: logging does not delay its callers, and records waiting to be written are limited. *)
From Verif Require Import F_Backlog.

(** What holds: as long as the program has not begun to shut down and every record can be rendered, a
    log call returns at once, whatever the files do and however many records are waiting: it
    leaves the files alone and only adds its record to those waiting. *)
Theorem C131_never_waits_partial : forall e fs l m lines, renderable l -> ~ In DropGuard l ->
  schedule e (started fs) l = Next m ->
  exists m', step e m (Log lines) = Next m' /\ queue m' = queue m ++ [LogItem lines] /\ outs m' = outs m.
Proof.
  intros e fs l m lines Hr Hd H. exists (put m (LogItem lines)). splits; auto.
  apply running_logs. exact (stays_running e l (started fs) m (started_running fs) Hr Hd H).
Qed.
Print Assumptions C131_never_waits_partial.

(** C131 is violated: nothing limits the number of waiting records.  From any such state any number of
    log calls can be made before the first of their records is written. *)
Theorem C131_backlog_refuted : forall e fs l m lines n, renderable l -> ~ In DropGuard l ->
  schedule e (started fs) l = Next m ->
  exists m', schedule e (started fs) (l ++ repeat (Log (Some lines)) n) = Next m'
    /\ queue m' = queue m ++ repeat (LogItem (Some lines)) n /\ n <= length (queue m') /\ outs m' = outs m.
Proof.
  intros e fs l m lines n Hr Hd H.
  destruct (piles_up e n lines m (stays_running e l (started fs) m (started_running fs) Hr Hd H)) as (m' & E & Q & O).
  exists m'. rewrite schedule_app, H. splits; auto. rewrite Q, app_length, repeat_length. lia.
Qed.
Print Assumptions C131_backlog_refuted.

(** What waits is exactly what has been handed over and not been dealt with, the latest calls, in
    their order ... *)
Theorem C131_waiting_partial : forall e fs l m, schedule e (started fs) l = Next m ->
  queue m = skipn (dealt_with l) (posted l) /\ dealt_with l <= length (posted l).
Proof.
  intros e fs l m H. destruct (waiting e l (started fs) m H) as (d & D & L). cbn [started queue app] in D.
  rewrite <- L, D, skipn_app, skipn_all, Nat.sub_diag, app_length. cbn. split; [reflexivity|lia].
Qed.
Print Assumptions C131_waiting_partial.

(** ... and when nothing more is logged, the logger gets through all of it, one after the other. *)
Theorem C131_drains_partial : forall e fs l m, renderable l -> ~ In DropGuard l ->
  schedule e (started fs) l = Next m ->
  exists m', schedule e m (repeat Take (length (queue m))) = Next m' /\ queue m' = [].
Proof.
  intros e fs l m Hr Hd H.
  destruct (drains e _ m (stays_running e l (started fs) m (started_running fs) Hr Hd H) eq_refl) as (m' & E & Q & _).
  exists m'. auto.
Qed.
Print Assumptions C131_drains_partial.

Example C131_nonvacuous :
  let e : nat -> env := fun _ => Env (fun _ => 0%Z) (fun _ => None) (fun _ => true) (fun _ => true) in
  let f := State 0 [(chars "a.log", 0)] [B "old "] 0 [] [] 16 in
  let l := [Log (Some [(0, B "one ")]); FlushCall 3; Take; Log (Some [(0, B "two ")])] in
  renderable l /\ ~ In DropGuard l /\ dealt_with l = 1
  /\ exists m, schedule e (started [f]) l = Next m /\ queue m = [FlushRequest 3; LogItem (Some [(0, B "two ")])].
Proof.
  cbv zeta. split; [intros X; cbn in X; intuition discriminate|]. split; [intros X; cbn in X; intuition discriminate|].
  split; [reflexivity|]. eexists. split; vm_compute; reflexivity.
Qed.
