(** Properties C41-C43 for whole configurations, and C86-C89: what a loaded configuration is. *)
From Verif Require Import S_LogPlace F_Load F_LogStart F_LogPlace M_Program.

(** An example: a main file with a file service, and a pattern matching one service file. *)
Definition ex_own : service_config :=
  ServiceConfig 0 [] [] (FileService (chars "www")) logging_default
    (TcpConfig (B "127.0.0.1:1") tls_default 0 5000 12) (HttpConfig None 0 17 0 0 0 None None).
Definition ex_main : config :=
  Config (chars "/srv") (RuntimeConfig 0 (Some true)) logging_default [] None
    (TcpConfig [] tls_default 65536 0 100) (HttpConfig (Some true) 20000 0 200 7 900 None None)
    (chars "conf/*.toml") [] [(chars "files", ex_own)] [].
Definition ex_found : service_config :=
  ServiceConfig 0 (chars " web ") [] HelloService logging_default tcp_default http_default.
Definition ex_fp : str := chars "httpd.toml".
Definition ex_dir (main : config) : world :=
  World (fun fp => if chars_eqb fp ex_fp then Some main else None) (fun _ => true)
    (fun _ => Some [None; Some (Matched (chars "conf/a.toml") true (Some ex_found))])
    (fun p => chars_eqb p (chars "www")) (fun l => l) (LogEnv (fun _ => true) true).
Lemma ex_dir_ok : world_ok (ex_dir ex_main).
Proof.
  split; [intros l; apply Permutation_refl|]. intros fp c H. unfold ex_dir, e_file in H.
  destruct (chars_eqb fp ex_fp); [|discriminate]. injection H as <-.
  split; [repeat constructor; intros []|reflexivity].
Qed.
Lemma ex_fp_given : ~ blank ex_fp.
Proof. intros H. inversion H as [|c l H1 H2]. vm_compute in H1. discriminate. Qed.
Lemma ex_given : given (ex_dir ex_main) ex_main (chars "files") ex_own
  /\ given (ex_dir ex_main) ex_main (chars "web") ex_found.
Proof.
  split; [left; now left|]. right. exists (chars "conf/*.toml").
  eexists. exists (Some (Matched (chars "conf/a.toml") true (Some ex_found))).
  splits; [now left|reflexivity|right; now left|].
  exists (Matched (chars "conf/a.toml") true (Some ex_found)), (chars "a.toml"). splits; try reflexivity.
  - split.
    + unfold proper. splits; try discriminate. cbn. unfold slash. intros H.
      repeat (destruct H as [H|H]; [discriminate|]). easy.
    + exists (chars "conf/"), []. splits; [reflexivity| |constructor]. right. now exists (chars "conf").
  - intros c' H. discriminate.
  - left. split; [|discriminate]. apply trim_spec. reflexivity.
Qed.
Definition ex_loaded : config :=
  match load_config (ex_dir ex_main) ex_fp with Some c => c | None => config_default end.
Lemma ex_loads : loads (ex_dir ex_main) ex_fp ex_main ex_loaded.
Proof. unfold loads. splits; [exact ex_dir_ok|exact ex_fp_given|reflexivity|vm_compute; reflexivity]. Qed.
Definition ex_at (k : string) : service_config :=
  match find (fun e => chars_eqb (fst e) (chars k)) (c_services ex_loaded) with
  | Some (_, s) => s | None => service_default
  end.
Lemma ex_at_in : In (chars "files", ex_at "files") (c_services ex_loaded)
  /\ In (chars "web", ex_at "web") (c_services ex_loaded).
Proof. split; [left|right; left]; vm_compute; reflexivity. Qed.

(** C41 for a loaded configuration: the root's buffer sizes are the configured ones if these are
    usable, and at least 4096; a service's follow the rule, with respect to these. *)
Theorem C41_loaded : forall w fp c0 c k s0 s, loads w fp c0 c -> given w c0 k s0 -> In (k, s) (c_services c) ->
  buffer_rule (t_read_buf (s_tcp s0)) (t_read_buf (c_tcp c)) (t_read_buf (s_tcp s))
  /\ buffer_rule (t_write_buf (s_tcp s0)) (t_write_buf (c_tcp c)) (t_write_buf (s_tcp s))
  /\ buffer_rule (t_buf (s_tcp s0)) (t_buf (c_tcp c)) (t_buf (s_tcp s)).
Proof.
  intros w fp c0 c k s0 s H Hg Hin. destruct (load_service w fp c0 c k s0 s H Hg Hin) as (_ & _ & -> & _).
  destruct (load_parts w fp c0 c H) as (-> & _). apply buffers.
Qed.
Print Assumptions C41_loaded.
Theorem C41_loaded_root : forall w fp c0 c, loads w fp c0 c ->
  (4096 <= t_read_buf (c_tcp c) /\ 4096 <= t_write_buf (c_tcp c) /\ 4096 <= t_buf (c_tcp c))%N
  /\ ((4096 <= t_read_buf (c_tcp c0))%N -> t_read_buf (c_tcp c) = t_read_buf (c_tcp c0))
  /\ ((4096 <= t_write_buf (c_tcp c0))%N -> t_write_buf (c_tcp c) = t_write_buf (c_tcp c0))
  /\ ((4096 <= t_buf (c_tcp c0))%N -> t_buf (c_tcp c) = t_buf (c_tcp c0)).
Proof.
  intros w fp c0 c H. destruct (load_parts w fp c0 c H) as (-> & _).
  destruct (root_buffers (c_tcp c0)) as (H1 & H2 & H3). split; [easy|].
  cbn [tcp_autofix t_read_buf t_write_buf t_buf] in *. splits; intros; cases; lia.
Qed.
Print Assumptions C41_loaded_root.
Example C41_loaded_nonvacuous :
  loads (ex_dir ex_main) ex_fp ex_main ex_loaded /\ given (ex_dir ex_main) ex_main (chars "files") ex_own
  /\ In (chars "files", ex_at "files") (c_services ex_loaded)
  /\ (t_read_buf (s_tcp (ex_at "files")), t_write_buf (s_tcp (ex_at "files")), t_buf (s_tcp (ex_at "files")))
     = (65536, 5000, 8192)%N.
Proof. splits; [exact ex_loads|exact (proj1 ex_given)|exact (proj1 ex_at_in)|vm_compute; reflexivity]. Qed.

(** C42 for a loaded configuration. *)
Theorem C42_loaded : forall w fp c0 c, loads w fp c0 c ->
  limits_rule (c_http c0) (c_http c)
  /\ forall k s0 s, given w c0 k s0 -> In (k, s) (c_services c) -> limits_rule (s_http s0) (s_http s).
Proof.
  intros w fp c0 c H. split.
  - destruct (load_parts w fp c0 c H) as (_ & -> & _). apply limits.
  - intros k s0 s Hg Hin. destruct (load_service w fp c0 c k s0 s H Hg Hin) as (_ & _ & _ & -> & _). apply limits.
Qed.
Print Assumptions C42_loaded.
(** Limits that the main file leaves unset. *)
Theorem C42_defaults : forall w fp c0 c, loads w fp c0 c ->
  defaults_rule (c_http c0) (c_tcp c0) (c_http c) (c_tcp c).
Proof.
  intros w fp c0 c H. destruct (load_parts w fp c0 c H) as (-> & -> & _).
  unfold defaults_rule. cbn [http_autofix http_defaults tcp_autofix tls_autofix t_tls tls_timeout t_read_buf t_write_buf t_buf
    h_max_url_size h_max_header_line_size h_max_headers_count h_max_body_size].
  splits; intros ->; reflexivity.
Qed.
Print Assumptions C42_defaults.
Example C42_loaded_nonvacuous :
  loads (ex_dir ex_main) ex_fp ex_main ex_loaded /\ given (ex_dir ex_main) ex_main (chars "files") ex_own
  /\ In (chars "files", ex_at "files") (c_services ex_loaded)
  /\ h_max_url_size (s_http (ex_at "files")) = 17%N /\ h_max_url_size (c_http ex_loaded) = 8192%N.
Proof. splits; [exact ex_loads|exact (proj1 ex_given)|exact (proj1 ex_at_in)|vm_compute; reflexivity|vm_compute; reflexivity]. Qed.

(** C43 for a loaded configuration: the five options that are inherited, and the three that are not. *)
Theorem C43_loaded_partial : forall w fp c0 c k s0 s, loads w fp c0 c -> given w c0 k s0 -> In (k, s) (c_services c) ->
  (h_keep_alive (s_http s0) = None -> h_keep_alive (s_http s) = h_keep_alive (c_http c))
  /\ (h_idle_timeout (s_http s0) = 0%N -> h_idle_timeout (s_http s) = h_idle_timeout (c_http c))
  /\ (h_max_url_size (s_http s0) = 0%N -> h_max_url_size (s_http s) = h_max_url_size (c_http c))
  /\ (h_max_header_line_size (s_http s0) = 0%N -> h_max_header_line_size (s_http s) = h_max_header_line_size (c_http c))
  /\ (h_compression (s_http s0) = None -> h_compression (s_http s) = h_compression (c_http c)).
Proof.
  intros w fp c0 c k s0 s H Hg Hin. destruct (load_service w fp c0 c k s0 s H Hg Hin) as (_ & _ & _ & -> & _).
  destruct (load_parts w fp c0 c H) as (_ & -> & _). apply inherits.
Qed.
Print Assumptions C43_loaded_partial.
Theorem C43_loaded_refuted : forall w fp c0 c k s0 s, loads w fp c0 c -> given w c0 k s0 -> In (k, s) (c_services c) ->
  (h_max_headers_count (s_http s0) = 0%N -> h_max_headers_count (s_http s) = 128%N)
  /\ (h_max_body_size (s_http s0) = 0%N -> h_max_body_size (s_http s) = (10 * 1024 * 1024)%N)
  /\ (h_websocket (s_http s0) = None -> h_websocket (s_http s) = None).
Proof.
  intros w fp c0 c k s0 s H Hg Hin. destruct (load_service w fp c0 c k s0 s H Hg Hin) as (_ & _ & _ & -> & _).
  destruct (load_parts w fp c0 c H) as (_ & -> & _). apply not_inherited.
Qed.
Print Assumptions C43_loaded_refuted.
Example C43_loaded_nonvacuous :
  loads (ex_dir ex_main) ex_fp ex_main ex_loaded /\ given (ex_dir ex_main) ex_main (chars "web") ex_found
  /\ In (chars "web", ex_at "web") (c_services ex_loaded)
  /\ s_http (ex_at "web") = HttpConfig (Some true) 20000 8192 200 128 10485760 None None
  /\ h_max_headers_count (c_http ex_loaded) = 7%N.
Proof. splits; [exact ex_loads|exact (proj2 ex_given)|exact (proj2 ex_at_in)|vm_compute; reflexivity|vm_compute; reflexivity]. Qed.

(** C86: a configuration naming a file service whose root directory is empty or does not exist is
    refused; so every file service of a loaded configuration has one. *)
Theorem C86_refused : forall w fp c0 k s0, world_ok w -> ~ blank fp -> e_file w fp = Some c0 ->
  given w c0 k s0 -> ~ root_fine w s0 -> load_config w fp = None.
Proof.
  intros w fp c0 k s0 Hw Hb Hf Hg Hr. destruct (load_config w fp) as [c|] eqn:E; [|reflexivity].
  assert (H : loads w fp c0 c) by (unfold loads; splits; auto).
  destruct (load_parts w fp c0 c H) as (_ & _ & _ & _ & _ & _ & _ & H2 & H3 & _).
  destruct (H2 k s0 Hg) as (s & Hin & (Hk & _)). rewrite Forall_forall in H3. specialize (H3 _ Hin). cbn [snd] in H3.
  rewrite Hk in H3. apply kind_root in H3. contradiction.
Qed.
Print Assumptions C86_refused.
Theorem C86_roots : forall w fp c0 c k s, loads w fp c0 c -> In (k, s) (c_services c) -> root_fine w s.
Proof.
  intros w fp c0 c k s H Hin. destruct (load_parts w fp c0 c H) as (_ & _ & _ & _ & _ & _ & _ & _ & H3 & _).
  rewrite Forall_forall in H3. specialize (H3 _ Hin). now apply kind_root in H3.
Qed.
Print Assumptions C86_roots.
Example C86_nonvacuous :
  In (chars "files", ex_at "files") (c_services ex_loaded) /\ s_kind (ex_at "files") = FileService (chars "www")
  /\ let bad := ServiceConfig 0 [] [] (FileService (chars "nowhere")) logging_default tcp_default http_default in
     let main := set_services ex_main [(chars "x", bad)] in
     world_ok (ex_dir main) /\ e_file (ex_dir main) ex_fp = Some main /\ given (ex_dir main) main (chars "x") bad
     /\ ~ root_fine (ex_dir main) bad.
Proof.
  split; [exact (proj1 ex_at_in)|]. split; [vm_compute; reflexivity|]. cbv zeta. splits.
  - split; [intros l; apply Permutation_refl|]. intros fp c H. unfold ex_dir, e_file in H.
    destruct (chars_eqb fp ex_fp); [|discriminate]. injection H as <-. split; [repeat constructor; intros []|reflexivity].
  - reflexivity.
  - left. now left.
  - intros H. destruct (H _ eq_refl) as [_ E]. vm_compute in E. discriminate.
Qed.

(** C87: a loaded configuration has exactly the services that were configured, each once and with
    its own kind, host, address, certificate and log outputs; if none was configured it has the
    hello-world service. *)
Theorem C87_services : forall w fp c0 c, loads w fp c0 c ->
  NoDup (map fst (c_services c))
  /\ (forall k s0, given w c0 k s0 -> exists s, In (k, s) (c_services c) /\ same_service s0 s)
  /\ (forall k s, In (k, s) (c_services c) ->
        (exists s0, given w c0 k s0 /\ same_service s0 s)
        \/ (forall k' s', ~ given w c0 k' s') /\ k = chars "helloworld" /\ s_kind s = HelloService
           /\ t_addr (s_tcp s) = B "0.0.0.0:8080")
  /\ c_services c <> [].
Proof.
  intros w fp c0 c H. pose proof H as (_ & _ & _ & Hl).
  destruct (load_parts w fp c0 c H) as (_ & _ & _ & _ & _ & _ & H1 & H2 & _ & Hnd).
  assert (B : forall s0 s, becomes c s0 s -> same_service s0 s).
  { intros s0 s (B1 & B2 & B3 & _ & B5 & B6). unfold same_service. rewrite B3. cbn. splits; auto. }
  splits; auto.
  - intros k s0 Hg. destruct (H2 k s0 Hg) as (s & Hin & Hb). exists s. auto.
  - intros k s Hin. destruct (H1 k s Hin) as (s0 & Hb & [Hg|(-> & -> & Hno)]); [left; eauto|right].
    apply B in Hb as (B1 & _ & B3 & _). splits; auto.
  - eapply load_some; eauto.
Qed.
Print Assumptions C87_services.
Example C87_nonvacuous : loads (ex_dir ex_main) ex_fp ex_main ex_loaded
  /\ given (ex_dir ex_main) ex_main (chars "web") ex_found
  /\ map fst (c_services ex_loaded) = [chars "files"; chars "web"]
  /\ t_addr (s_tcp (ex_at "files")) = B "127.0.0.1:1".
Proof. splits; [exact ex_loads|exact (proj2 ex_given)|vm_compute; reflexivity|vm_compute; reflexivity]. Qed.

(** C88: which configurations are accepted: the file can be read, its working directory can be
    entered, its patterns are well-formed and match nothing but service files and entries passed
    over, no two services have the same key, no key is blank, and each file service has a root. *)
Theorem C88_accepted : forall w fp c0, world_ok w -> ~ blank fp -> e_file w fp = Some c0 ->
  ((exists c, load_config w fp = Some c) <->
   (c_workdir c0 = [] \/ e_chdir w (c_workdir c0) = true)
   /\ exists ess added, Forall2 (fun p es => e_glob w p = Some es) (patterns c0) ess /\ gives (concat ess) added
      /\ NoDup (map fst (c_services c0 ++ added))
      /\ Forall (fun e => ~ blank (fst e) /\ root_fine w (snd e)) (c_services c0 ++ added)).
Proof. exact load_iff. Qed.
Print Assumptions C88_accepted.
Theorem C88_unreadable : forall w fp, ~ blank fp -> e_file w fp = None -> load_config w fp = None.
Proof.
  intros w fp Hb Hf. unfold load_config, config_load. rewrite Hf.
  destruct (trim_str fp) eqn:E; [apply trim_blank in E; contradiction|reflexivity].
Qed.
Print Assumptions C88_unreadable.
Example C88_nonvacuous : world_ok (ex_dir ex_main) /\ ~ blank ex_fp /\ e_file (ex_dir ex_main) ex_fp = Some ex_main
  /\ (exists c, load_config (ex_dir ex_main) ex_fp = Some c)
  /\ load_config (ex_dir (set_services ex_main [(chars " ", ex_found)])) ex_fp = None
  /\ load_config (ex_dir (set_services ex_main [(chars "web", ex_found)])) ex_fp = None.
Proof.
  splits; [exact ex_dir_ok|exact ex_fp_given|reflexivity| |vm_compute; reflexivity|vm_compute; reflexivity].
  exists ex_loaded. exact (proj2 (proj2 (proj2 ex_loads))).
Qed.

(** C89: without a configuration file the program ends at once, serving nothing; with one, once
    logging is set up, it serves exactly the services of the loaded configuration, one thread per
    service if the configuration says so and otherwise on a shared runtime. *)
Theorem C89_no_file : forall u no w arg, world_ok w -> (forall l, Permutation (no l) l) -> blank arg ->
  exists k, program u no w arg = Ret (Some (k, NoServices)).
Proof.
  intros u no w arg Hw Hno Hb.
  assert (Hl : exists c, load_config w arg = Some c /\ c_services c = []
            /\ c_logging c = logging_autofix logging_default [] 0).
  { unfold load_config. apply trim_blank in Hb. rewrite Hb. unfold config_autofix. cbv zeta.
    destruct Hw as [Ho _]. assert (E : e_order w (c_services config_default) = []).
    { apply Permutation_nil. apply Permutation_sym, Ho. }
    rewrite E. cbn [autofix_services]. eexists. splits; reflexivity. }
  destruct Hl as (c & Hl & Hs & Hg). unfold program. rewrite Hl, Hs. cbn [map].
  assert (Ha : exists a, all_appenders w c = Ret (Some [a])).
  { unfold all_appenders. rewrite Hs, Hg. cbn [map section_appenders]. eexists. reflexivity. }
  destruct Ha as [a Ha]. destruct (logging_starts u no w arg c [a] Hw Hno Hl Ha) as (k & -> & _); [discriminate|].
  cbn [obind]. eauto.
Qed.
Print Assumptions C89_no_file.
Theorem C89_serves : forall u no w fp c0 c a l, loads w fp c0 c -> (forall x, Permutation (no x) x) ->
  all_appenders w c = Ret (Some (a :: l)) ->
  exists k, k_appenders k = a :: l /\ program u no w fp = Ret (Some (k,
    if match rt_per_core (c_runtime c0) with Some true => true | _ => false end
    then PerCore (map snd (c_services c)) else MultiThreads (map snd (c_services c)))).
Proof.
  intros u no w fp c0 c a l H Hno Ha. pose proof H as (Hw & _ & _ & Hl).
  destruct (load_parts w fp c0 c H) as (_ & _ & Hr & _).
  destruct (logging_starts u no w fp c (a :: l) Hw Hno Hl Ha) as (k & E & Ek & _); [discriminate|].
  exists k. split; [easy|]. unfold program. rewrite Hl, E. cbn [obind]. rewrite Hr.
  destruct (C87_services w fp c0 c H) as (_ & _ & _ & Hne).
  destruct (c_services c) as [|e es]; [easy|]. cbn [map].
  destruct (rt_per_core (c_runtime c0)) as [[]|]; reflexivity.
Qed.
Print Assumptions C89_serves.
Theorem C89_refused : forall u no w fp, load_config w fp = None -> program u no w fp = Ret None.
Proof. intros u no w fp H. unfold program. now rewrite H. Qed.
Print Assumptions C89_refused.
Example C89_nonvacuous : loads (ex_dir ex_main) ex_fp ex_main ex_loaded
  /\ rt_per_core (c_runtime ex_main) = Some true
  /\ exists a l, all_appenders (ex_dir ex_main) ex_loaded = Ret (Some (a :: l)).
Proof. splits; [exact ex_loads|reflexivity|]. eexists. eexists. vm_compute. reflexivity. Qed.

(** C100 for the program: a log file that cannot be opened is an error of the whole program. *)
Theorem C100_refused_partial : forall u no w fp c s path, load_config w fp = Some c ->
  midnight_known (e_log w) = true \/ (forall s, In s (sections c) -> ~ rotates s) ->
  In s (sections c) -> asked_for (c_logpath c) s path -> can_open (e_log w) path = false ->
  program u no w fp = Ret None.
Proof.
  intros u no w fp c s path Hl Hm Hs Ha Ho. unfold program, config_logging. rewrite Hl.
  now rewrite (proj2 (started w c Hm) s path Hs Ha Ho).
Qed.
Print Assumptions C100_refused_partial.
Definition ex_logged : config :=
  Config [] (RuntimeConfig 0 None) (LoggingConfig [] 0 None [] [FileCfg (Some (chars "warn")) None false 0]) [] None
    tcp_default http_default [] [] [] [].
Definition ex_closed : world :=
  World (fun _ => Some ex_logged) (fun _ => true) (fun _ => None) (fun _ => false) (fun l => l) (LogEnv (fun _ => false) true).
Example C100_refused_nonvacuous : exists c, load_config ex_closed ex_fp = Some c
  /\ asked_for (c_logpath c) (c_logging c) (chars "./logs//httpd.WARN.log") /\ midnight_known (e_log ex_closed) = true.
Proof.
  eexists. split; [vm_compute; reflexivity|]. split; [|reflexivity]. split; [discriminate|].
  exists 0, (Some (chars "warn")), None, false, 0%N, Warn. split; [reflexivity|].
  split; [apply level_of_spec; vm_compute; reflexivity|]. left. split; [|reflexivity].
  intros (o & e & d & n & [] & _).
Qed.

(** C96, what holds: settings that are given have the given value once loaded, apart from too small
    idle timeouts and buffers, and nothing is switched on in the root settings that was not (services inherit from these, C43). *)
Theorem C96_kept_partial : forall w fp c0 c, loads w fp c0 c ->
  c_workdir c = c_workdir c0 /\ c_runtime c = c_runtime c0 /\ c_loglevel c = c_loglevel c0
  /\ c_logpath c = (match c_logpath c0 with [] => chars "./logs/" | p => p end)
  /\ l_appenders (c_logging c) = l_appenders (c_logging c0) /\ l_disable (c_logging c) = l_disable (c_logging c0)
  /\ l_timelayout (c_logging c) = l_timelayout (c_logging c0)
  /\ http_kept (c_http c0) (c_http c) /\ tcp_kept (c_tcp c0) (c_tcp c)
  /\ nothing_added (c_http c0) (c_http c)
  /\ forall k s0 s, given w c0 k s0 -> In (k, s) (c_services c) ->
     http_kept (s_http s0) (s_http s) /\ tcp_kept (s_tcp s0) (s_tcp s).
Proof.
  intros w fp c0 c H. pose proof (load_parts w fp c0 c H) as (H1 & H2 & H3 & H4 & H5 & H6 & _).
  destruct (load_paths w fp c0 c H) as (H7 & H8 & H9). splits; auto.
  - rewrite H2. apply http_keeps.
  - rewrite H1. apply tcp_keeps.
  - rewrite H2. apply http_adds.
  - intros k s0 s Hg Hin. destruct (load_service w fp c0 c k s0 s H Hg Hin) as (_ & _ & -> & -> & _).
    split; [apply http_keeps|apply tcp_keeps].
Qed.
Print Assumptions C96_kept_partial.
(** C96 fails: an idle timeout of less than ten seconds becomes ten seconds, a buffer of less than
    4 KiB becomes 8 KiB. *)
Theorem C96_raised_refuted : forall w fp c0 c, loads w fp c0 c ->
  raised (c_http c0) (c_tcp c0) (c_http c) (c_tcp c)
  /\ forall k s0 s, given w c0 k s0 -> In (k, s) (c_services c) ->
     raised (s_http s0) (s_tcp s0) (s_http s) (s_tcp s).
Proof.
  intros w fp c0 c H. pose proof (load_parts w fp c0 c H) as (H1 & H2 & _). split.
  - rewrite H1, H2. apply all_raised.
  - intros k s0 s Hg Hin. destruct (load_service w fp c0 c k s0 s H Hg Hin) as (_ & _ & -> & -> & _). apply all_raised.
Qed.
Print Assumptions C96_raised_refuted.
Example C96_nonvacuous : loads (ex_dir ex_main) ex_fp ex_main ex_loaded
  /\ given (ex_dir ex_main) ex_main (chars "files") ex_own /\ In (chars "files", ex_at "files") (c_services ex_loaded)
  /\ h_keep_alive (c_http ex_main) = Some true /\ h_idle_timeout (c_http ex_main) = 20000%N
  /\ t_buf (s_tcp ex_own) = 12%N
  /\ h_idle_timeout (http_autofix (HttpConfig None 5000 0 0 0 0 None None) None) = 10000%N.
Proof. splits; try reflexivity; [exact ex_loads|exact (proj1 ex_given)|exact (proj1 ex_at_in)]. Qed.
