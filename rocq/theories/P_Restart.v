(** C137: starting the program again with the same configuration gives the same services. *)
From Verif Require Import S_Restart F_Restart.

(** A configuration that was loaded is loaded again by another run, with the same settings, the same
    services under the same keys, and a routing table of the same length. *)
Theorem C137_loaded : forall w w' arg c, world_ok w -> another_run w w' -> load_config w arg = Some c ->
  exists c', load_config w' arg = Some c' /\ same_settings c c' /\ same_services c c'
  /\ length (c_slab c') = length (c_slab c).
Proof.
  intros w w' arg c [Ho _] A H. destruct (load_again w w' arg c Ho A H) as (c' & H' & S & _ & _ & L & P).
  exists c'. splits; auto. now apply er_services.
Qed.
Print Assumptions C137_loaded.

(** One that was refused is refused again. *)
Theorem C137_refused : forall w w' arg, world_ok w -> another_run w w' -> load_config w arg = None ->
  load_config w' arg = None.
Proof.
  intros w w' arg [Ho _] (E1 & E2 & E3 & E4 & E5 & Ho') H. destruct (load_config w' arg) as [c'|] eqn:E; [|easy].
  destruct (load_again w' w arg c' Ho') as (c & Hc & _); [|easy|congruence].
  unfold another_run. splits; auto.
Qed.
Print Assumptions C137_refused.

(** If the outputs of log entries could be opened they can be again, and they are the same for the
    program itself and for each service. *)
Theorem C137_outputs : forall w w' arg c l, world_ok w -> another_run w w' -> load_config w arg = Some c ->
  all_appenders w c = Ret (Some l) ->
  exists c' l', load_config w' arg = Some c' /\ all_appenders w' c' = Ret (Some l') /\ same_logs c l c' l'.
Proof.
  intros w w' arg c l W A H Hl. destruct (load_again w w' arg c (proj1 W) A H) as (c' & H' & S).
  destruct (outputs_again w w' arg c c' l W A H H' S Hl) as (l' & Hl' & O). eauto.
Qed.
Print Assumptions C137_outputs.

(** Two services, found in the opposite order by the other run: they are numbered differently. *)
Definition two_names : config :=
  Config [] (RuntimeConfig 0 None) logging_default [] None tcp_default http_default [] []
    [(chars "a", service_default); (chars "b", service_default)] [].
Definition run_with (order : list (str * service_config) -> list (str * service_config)) : world :=
  World (fun _ => Some two_names) (fun _ => true) (fun _ => None) (fun _ => true) order (LogEnv (fun _ => true) true).
Example C137_nonvacuous :
  world_ok (run_with (fun l => l)) /\ another_run (run_with (fun l => l)) (run_with (@rev _))
  /\ (exists c c' l, load_config (run_with (fun l => l)) (chars "f") = Some c
      /\ load_config (run_with (@rev _)) (chars "f") = Some c'
      /\ map (fun e => (fst e, s_idx (snd e))) (c_services c) = [(chars "a", 1); (chars "b", 2)]
      /\ map (fun e => (fst e, s_idx (snd e))) (c_services c') = [(chars "b", 1); (chars "a", 2)]
      /\ all_appenders (run_with (fun l => l)) c = Ret (Some l) /\ length l = 3).
Proof.
  splits.
  - split; [intros l; reflexivity|]. intros f c [= <-]. split; [|reflexivity].
    repeat constructor; cbn; intros H; repeat (destruct H as [H|H]; [discriminate|]); easy.
  - unfold another_run. cbn. splits; try reflexivity. intros l. symmetry. apply Permutation_rev.
  - eexists _, _, _. splits; vm_compute; reflexivity.
Qed.
