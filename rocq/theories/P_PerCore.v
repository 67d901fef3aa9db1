(** Properties C65 and C83: per-core mode. *)
From Verif Require Import F_PerCore F_Dispatch.

(** C65 fails: with two or more services, main can return when the first has ended although the
    others' threads have not got as far as taking the lock (returning ends the process) ... *)
Theorem C65_late_refuted : forall k, exists l p, moves_run (per_core (2 + k)) l = Some p /\ main p = Returned true
  /\ threads p = Ended :: repeat Starting (1 + k).
Proof. exact late. Qed.
Print Assumptions C65_late_refuted.
(** ... and for any number of services, when all have ended before main looks (for instance because
    their ports are taken), main never returns. *)
Theorem C65_hang_refuted : forall k, exists l p, moves_run (per_core k) l = Some p /\ all_ended p /\ length (threads p) = k
  /\ forall l' p', moves_run p l' = Some p' -> all_ended p' /\ forall ok, main p' <> Returned ok.
Proof. exact hangs. Qed.
Print Assumptions C65_hang_refuted.
(** Main also returns at once, with services running, when a thread cannot be created. *)
Theorem C65_spawn_refuted : forall k, exists l p, moves_run (per_core (2 + k)) l = Some p
  /\ main p = Returned false /\ threads p = [Holding].
Proof. intros k. exists [Spawn true; Begin 0; Spawn false]. eexists. splits; reflexivity. Qed.
Print Assumptions C65_spawn_refuted.
(** What holds: when main returns, no thread is running its service, and at least one has ended
    (with one service: it) ... *)
Theorem C65_none_running_partial : forall k l p, moves_run (per_core k) (l ++ [Acquire]) = Some p ->
  Forall (fun t => t <> Holding) (threads p) /\ length (threads p) = k /\ exists i, nth_error (threads p) i = Some Ended.
Proof.
  intros k l p H. split; [now apply (return_none_running k l)|]. apply (return_ended k (l ++ [Acquire])); auto.
  rewrite moves_app in H. destruct (moves_run (per_core k) l) as [p1|]; [|discriminate]. cbn [moves_run move_step] in H.
  destruct (main p1); try discriminate. destruct (existsb is_holding (threads p1)); [discriminate|]. now injection H as <-.
Qed.
Print Assumptions C65_none_running_partial.
Theorem C65_one_service_partial : forall l p, moves_run (per_core 1) (l ++ [Acquire]) = Some p -> threads p = [Ended].
Proof.
  intros l p H. apply C65_none_running_partial in H as (_ & H & i & Hi).
  destruct (threads p) as [|t [|t' ts]]; try discriminate. destruct i as [|[|i]]; cbn in Hi; try discriminate. congruence.
Qed.
Print Assumptions C65_one_service_partial.
(** ... and all have ended if all had taken the lock before main first looked. *)
Theorem C65_prompt_partial : forall k l p, moves_run (per_core k) (l ++ [Acquire]) = Some p -> prompt l k -> all_ended p.
Proof. exact prompt_waits. Qed.
Print Assumptions C65_prompt_partial.
Example C65_nonvacuous :
  let l := [Spawn true; Begin 0; Spawn true; Begin 1; Look; End 1; End 0] in
  (exists p, moves_run (per_core 2) (l ++ [Acquire]) = Some p /\ threads p = [Ended; Ended]) /\ prompt l 2.
Proof.
  cbv zeta. split; [eexists; split; reflexivity|]. intros l1 l2 E i Hi.
  do 4 (destruct l1 as [|? l1]; [discriminate|]; injection E as <- E).
  destruct i as [|[|i]]; [right; now left|do 3 right; now left|lia].
Qed.

(** C83 fails: main returns from run_per_core with a service thread still to come; dropping the
    guard then frees the logger, and the thread's first record is sent through freed memory. *)
Theorem C83_freed_refuted : forall k e fs,
  (exists l p p', moves_run (per_core (2 + k)) l = Some p /\ main p = Returned true
     /\ move_step p (Begin 1) = Some p')
  /\ exists m, schedule e (started fs) [DropGuard] = Next m /\ forall x, step e m (Log x) = Freed.
Proof.
  intros k e fs. split; [|eexists; split; [reflexivity|reflexivity]].
  destruct (late k) as (l & p & H1 & H2 & H3). exists l, p. eexists. splits; auto. cbn. rewrite H3. reflexivity.
Qed.
Print Assumptions C83_freed_refuted.
(** What holds: as long as the guard is held no call touches freed memory, whatever the schedule. *)
Theorem C83_held_partial : forall e fs l m a, schedule e (started fs) l = Next m -> guard m = Held -> step e m a <> Freed.
Proof.
  intros e fs l m a H Hg Hf.
  assert (G : forall l m1 m2, schedule e m1 l = Next m2 -> (guard m1 = Held -> sender m1 = true) -> (guard m2 = Held -> sender m2 = true)).
  { clear. induction l as [|x l IH]; intros m1 m2 H Hi; [now injection H as <-|]. cbn [schedule] in H.
    destruct (step e m1 x) as [| | |m3] eqn:E; try discriminate. apply (IH m3 m2 H).
    unfold step, send in E. destruct (exited m1); [discriminate|].
    destruct x as [line|g|g| | | | | |]; try discriminate;
    repeat match goal with E : context [match ?x with _ => _ end] |- _ => destruct x eqn:?; try discriminate end;
    injection E as <-; cbn; auto; try congruence. }
  pose proof (G l (started fs) m H (fun _ => eq_refl) Hg) as Hs.
  unfold step, send in Hf. rewrite Hs in Hf. cbn [negb] in Hf.
  destruct a; repeat match goal with E : context [match ?x with _ => _ end] |- _ => destruct x; try discriminate end; discriminate.
Qed.
Print Assumptions C83_held_partial.
Example C83_nonvacuous : forall e fs, exists m, schedule e (started fs) [Log (Some [(0, B "a")]); Take] = Next m /\ guard m = Held.
Proof. intros e fs. eexists. split; reflexivity. Qed.
