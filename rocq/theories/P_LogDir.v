(** C133: log directories are created. *)
From Verif Require Import S_LogDir F_Load F_LogStart F_LogFiles F_LogPlace.

Lemma file_in_dir logpath s before l path : log_file logpath (l_service_name s) before l path ->
  exists f, path = log_dir logpath s ++ [slash] ++ f /\ ~ In slash f /\ f <> [].
Proof.
  intros H.
  assert (G : forall file, file <> [] -> ~ In slash file -> exists f,
    in_place logpath (l_service_name s) file = log_dir logpath s ++ [slash] ++ f /\ ~ In slash f /\ f <> []).
  { intros file Hn Hs. unfold in_place, log_dir. destruct (l_service_name s) as [|a n].
    - exists (chars "httpd." ++ file). splits; [reflexivity| |discriminate].
      intros X. apply in_app_or in X as [X|X]; [|contradiction]. revert X. cbn. intuition discriminate.
    - exists file. splits; auto. rewrite <- !app_assoc. reflexivity. }
  assert (C : forall x, ~ In slash (chars (capitals x))) by (intros []; cbn; intuition discriminate).
  assert (E : ~ In slash (chars ".log")) by (cbn; intuition discriminate).
  destruct H as [[_ ->]|[_ ->]]; apply G; try (destruct l; discriminate); rewrite !in_app_iff.
  - intros [X|X]; [exact (C l X)|exact (E X)].
  - intros [X|[X|[X|X]]]; [exact (C l X)| |apply dec_str_no in X; [easy|unfold slash; lia]|exact (E X)].
    revert X. cbn. intuition discriminate.
Qed.
Lemma first_file cfgs : (exists o equal daily n, In (FileCfg o equal daily n) cfgs) ->
  exists i o equal daily n, nth_error cfgs i = Some (FileCfg o equal daily n)
    /\ forall o' e' d' n', ~ In (FileCfg o' e' d' n') (firstn i cfgs).
Proof.
  induction cfgs as [|c cfgs IH]; intros (o & e & d & n & H); [destruct H|].
  destruct c as [lv|o1 e1 d1 n1].
  - destruct H as [[=]|H]. destruct IH as (i & o1 & e1 & d1 & n1 & A & C); [eauto|].
    exists (S i), o1, e1, d1, n1. split; [exact A|]. intros o' e' d' n' [[=]|X]. exact (C _ _ _ _ X).
  - exists 0, o1, e1, d1, n1. split; [reflexivity|]. intros o' e' d' n' [].
Qed.

(** C133 is violated: no directory is ever created.  If the directory of a section that logs to files
    does not exist, the program does not start, whichever the directory is. *)
Theorem C133_missing_refuted : forall u no w fp c s exists_dir, load_config w fp = Some c -> days_known w c ->
  needs_dirs exists_dir (e_log w) -> In s (sections c) -> logs_to_files s ->
  exists_dir (log_dir (c_logpath c) s) = false ->
  program u no w fp = Ret None.
Proof.
  intros u no w fp c s dirs Hl Hd Hn Hs [He Hf] Hm.
  destruct (first_file _ Hf) as (i & o & e & d & n & A & C).
  pose (path := in_place (c_logpath c) (l_service_name s) (chars (capitals (level_of o)) ++ chars ".log")).
  assert (F : log_file (c_logpath c) (l_service_name s) (firstn i (l_appenders s)) (level_of o) path).
  { left. split; [|reflexivity]. intros (o' & e' & d' & n' & X & _). exact (C _ _ _ _ X). }
  assert (Q : asked_for (c_logpath c) s path).
  { split; [exact He|]. exists i, o, e, d, n, (level_of o). splits; auto. now apply level_of_spec. }
  assert (O : can_open (e_log w) path = false).
  { destruct (can_open (e_log w) path) eqn:E; [|reflexivity]. destruct (file_in_dir _ _ _ _ _ F) as (f & P & Hf1 & _).
    rewrite P in E. apply Hn in E; [congruence|exact Hf1]. }
  unfold program, config_logging. rewrite Hl, (proj2 (started w c Hd) s path Hs Q O). reflexivity.
Qed.
Print Assumptions C133_missing_refuted.

(** What holds: where all of them exist and can be written in, and something is logged at all, the
    program starts. *)
Theorem C133_existing_partial : forall u no w fp c s exists_dir, world_ok w -> (forall x, Permutation (no x) x) ->
  load_config w fp = Some c -> days_known w c -> writes_in exists_dir (e_log w) ->
  (forall s, In s (sections c) -> logs_to_files s -> exists_dir (log_dir (c_logpath c) s) = true) ->
  In s (sections c) -> l_disable s <> Some true -> l_appenders s <> [] ->
  exists k st, program u no w fp = Ret (Some (k, st)).
Proof.
  intros u no w fp c s dirs Hw Hno Hl Hd Hwr Hall Hs He Ha.
  destruct (proj1 (started w c Hd)) as [l El].
  { intros s' path Hs' (He' & i & o & e & d & n & lv & A & _ & F).
    destruct (file_in_dir _ _ _ _ _ F) as (f & -> & F1 & F2). apply Hwr; auto. apply Hall; auto. split; [exact He'|].
    exists o, e, d, n. exact (nth_error_In _ _ A). }
  assert (Hne : l <> []).
  { destruct (laid_appenders w c l El) as [(parts & -> & Hp) _].
    clear - Hp Hs He Ha. induction Hp as [|x p xs ps H _ IH]; [destruct Hs|]. cbn [concat]. destruct Hs as [->|Hs].
    - unfold section_laid_out in H. destruct (l_disable s) as [[]|]; [now elim He| |];
        destruct H as [H _]; (destruct p; [destruct (l_appenders s); [now elim Ha|discriminate H]|discriminate]).
    - intros E. apply app_eq_nil in E as [_ E]. now apply IH. }
  destruct (logging_starts u no w fp c l Hw Hno Hl El Hne) as (k & E & _).
  exists k. unfold program. rewrite Hl, E. cbn [obind]. eexists. reflexivity.
Qed.
Print Assumptions C133_existing_partial.

(** a service "web" that logs to a file, where only the directories [dirs] exist *)
Example C133_nonvacuous :
  let web := ServiceConfig 0 [] [] HelloService (LoggingConfig [] 0 None [] [FileCfg (Some (chars "info")) None true 0])
               tcp_default http_default in
  let c0 := Config [] (RuntimeConfig 0 None) logging_default (chars "log") None tcp_default http_default [] [] [(chars "web", web)] [] in
  let w dirs := World (fun _ => Some c0) (fun _ => true) (fun _ => None) (fun _ => true) (fun l => l)
                  (LogEnv (fun p => existsb (fun d => chars_eqb p (d ++ chars "/INFO.log")) dirs) true) in
  let u := Unicode (fun _ => false) (fun c => [c]) in
  program u (fun l => l) (w [chars "log"]) (chars "f") = Ret None
  /\ (exists r, program u (fun l => l) (w [chars "log/web"]) (chars "f") = Ret (Some r))
  /\ exists c s, load_config (w [chars "log"]) (chars "f") = Some c /\ In s (sections c) /\ logs_to_files s
     /\ log_dir (c_logpath c) s = chars "log/web" /\ days_known (w [chars "log"]) c
     /\ needs_dirs (fun d => existsb (chars_eqb d) [chars "log"]) (e_log (w [chars "log"])).
Proof.
  cbv zeta. split; [vm_compute; reflexivity|]. split; [eexists; vm_compute; reflexivity|].
  eexists _, _. split; [vm_compute; reflexivity|]. split; [right; left; reflexivity|].
  split; [split; [discriminate|exists (Some (chars "info")), None, true, 0%N; now left]|].
  split; [reflexivity|]. split; [now left|].
  intros d f Hf H. cbn [existsb can_open e_log] in *. rewrite orb_false_r in *. apply chars_eqb_eq in H. apply chars_eqb_eq.
  change (d ++ slash :: f = chars "log" ++ slash :: chars "INFO.log") in H.
  apply last_split in H as [H _]; [exact H|exact Hf|cbn; intuition discriminate].
Qed.
