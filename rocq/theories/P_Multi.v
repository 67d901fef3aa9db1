(** Properties C84 and C85: the multi-threaded mode. *)
From Verif Require Import F_Multi.

(** C84: when main comes back every service has ended, and nothing happens any more; ... *)
Theorem C84_waits : forall k l rt, acts_run (multi_threads k) l = Some rt -> back rt = true ->
  (forall i, i < k -> has_ended i l) /\ forall l' rt', acts_run rt l' = Some rt' -> l' = [].
Proof. intros k l rt H Hb. split; [now apply (waits_all k l rt)|now apply back_final]. Qed.
Print Assumptions C84_waits.
(** ... once all have ended main only has to join them to come back; ... *)
Theorem C84_returns : forall k l rt, acts_run (multi_threads k) l = Some rt -> back rt = false ->
  (forall i, i < k -> has_ended i l) ->
  exists l' rt', Forall (fun a => exists i, a = Join i) l' /\ acts_run rt (l' ++ [Empty]) = Some rt' /\ back rt' = true.
Proof.
  intros k l rt H Hb He. destruct (can_return k l rt H Hb He) as (l' & rt' & H1 & H2 & H3 & _). eauto.
Qed.
Print Assumptions C84_returns.
(** ... each service that ended with an error or a panic has then been reported, once, and no other; ... *)
Theorem C84_reports : forall k l rt, acts_run (multi_threads k) l = Some rt -> back rt = true ->
  NoDup (reports rt) /\ forall i, In i (reports rt) <-> went_wrong i l.
Proof. exact reports_exact. Qed.
Print Assumptions C84_reports.
(** ... and a service that has not ended itself goes on accepting, whatever became of the others. *)
Theorem C84_unaffected : forall k l rt j, acts_run (multi_threads k) l = Some rt -> j < k -> ~ has_ended j l ->
  exists rt', acts_run (multi_threads k) (l ++ [Connect j]) = Some rt' /\ conns rt' = conns rt ++ [(j, Busy)].
Proof. exact unaffected. Qed.
Print Assumptions C84_unaffected.
Example C84_nonvacuous :
  let l := [Return 1 Panicked; Connect 2; Join 1; Return 0 Failed; Serve 0; Return 2 Finished; Join 2; Join 0] in
  (exists rt, acts_run (multi_threads 3) (firstn 4 l) = Some rt /\ back rt = false)
  /\ ~ has_ended 2 (firstn 4 l)
  /\ (forall i, i < 3 -> has_ended i l)
  /\ exists rt, acts_run (multi_threads 3) (l ++ [Empty]) = Some rt /\ back rt = true /\ reports rt = [1; 0].
Proof.
  cbv zeta. splits.
  - eexists. split; reflexivity.
  - intros (r & H). cbn in H. intuition discriminate.
  - intros [|[|[|i]]] H; [exists Failed|exists Panicked|exists Finished|lia]; cbn; auto 10.
  - eexists. splits; reflexivity.
Qed.

(** C85 fails: whenever all services have ended, main can come back with any connection that is
    still being served cut off. *)
Theorem C85_cut_off_refuted : forall k l rt c i, acts_run (multi_threads k) l = Some rt -> back rt = false ->
  (forall i, i < k -> has_ended i l) -> nth_error (conns rt) c = Some (i, Busy) ->
  exists l' rt', acts_run rt l' = Some rt' /\ back rt' = true /\ nth_error (conns rt') c = Some (i, Busy)
    /\ forall l'' rt'', acts_run rt' l'' = Some rt'' -> nth_error (conns rt'') c = Some (i, Busy).
Proof.
  intros k l rt c i H Hb He Hc. destruct (can_return k l rt H Hb He) as (l' & rt' & _ & H2 & H3 & H4).
  exists (l' ++ [Empty]), rt'. rewrite H4. splits; auto. intros l'' rt'' H''.
  pose proof (back_final rt' H3 l'' rt'' H'') as ->. injection H'' as <-. now rewrite H4.
Qed.
Print Assumptions C85_cut_off_refuted.
(** What holds: as long as main has not come back - so as long as some service has not ended - a
    connection can be served to its end, also one of a service that has ended. *)
Theorem C85_served_partial : forall k l rt c i j, acts_run (multi_threads k) l = Some rt -> j < k -> ~ has_ended j l ->
  nth_error (conns rt) c = Some (i, Busy) ->
  exists rt', acts_run rt [Serve c] = Some rt' /\ nth_error (conns rt') c = Some (i, Through).
Proof.
  intros k l rt c i j H Hj Hn Hc. apply goes_on; auto. destruct (back rt) eqn:E; auto.
  destruct Hn. now apply (waits_all k l rt).
Qed.
Print Assumptions C85_served_partial.
Example C85_nonvacuous :
  (exists rt, acts_run (multi_threads 2) [Connect 0; Return 0 Finished; Return 1 Finished] = Some rt
     /\ back rt = false /\ nth_error (conns rt) 0 = Some (0, Busy))
  /\ exists rt, acts_run (multi_threads 2) [Connect 0; Return 0 Finished] = Some rt /\ nth_error (conns rt) 0 = Some (0, Busy).
Proof. split; eexists; splits; reflexivity. Qed.
