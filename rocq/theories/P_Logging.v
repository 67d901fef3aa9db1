(** Properties C51-C55, C64, C69-C71, C76, C100: setting up logging and delivering records. *)
From Verif Require Import S_LogPlace F_LogFiles F_LogPlace F_Item.

(** An example: a root section with a console appender (the default) and one service that logs to
    two files. *)
Definition ex_files : list appender_cfg :=
  [FileCfg (Some (chars "Info")) None true 0; FileCfg (Some (chars "info")) (Some true) false 9000].
Definition ex_service (cfgs : list appender_cfg) (disable : option bool) : service_config :=
  ServiceConfig 0 [] [] HelloService (LoggingConfig [] 0 disable [] cfgs) tcp_default http_default.
Definition ex_config (root : list appender_cfg) (disable : option bool)
    (services : list (str * list appender_cfg)) : config :=
  Config [] (RuntimeConfig 0 None) (LoggingConfig [] 0 disable [] root) [] (Some (chars "INFO"))
    tcp_default http_default [] [] (map (fun e => (fst e, ex_service (snd e) disable)) services) [].
Definition ex_world (c : config) : world :=
  World (fun _ => Some c) (fun _ => true) (fun _ => None) (fun _ => false) (fun l => l) (LogEnv (fun _ => true) true).
Lemma ex_world_ok c : NoDup (map fst (c_services c)) -> c_slab c = [] -> world_ok (ex_world c).
Proof.
  intros H Hs. split; [intros l; apply Permutation_refl|]. intros fp c' [= <-]. auto.
Qed.
Definition ex_arg : str := chars "httpd.toml".
Definition ex_fmt : formatter := fun _ _ => Some (B "2024-01-02 03:04:05.678").
Definition ex_uni : unicode := Unicode (fun _ => false) (fun c => [c]).
Lemma ex_fmt_ok layout : layout_ok ex_fmt layout.
Proof. intros t. now exists (B "2024-01-02 03:04:05.678"). Qed.
Definition ex_item (service : N) (lv : level) : item := Item 0 lv (B "src/main.rs") 7 (B "hello") [] service.
Definition ex_mixed : config := ex_config [appender_default] None [(chars "a", ex_files)].
Definition ex_allfiles : config := ex_config ex_files None [(chars "a", ex_files); (chars "b", ex_files)].

Lemma ex_only_files l : forallb (fun a => match a_sink a with Stdout => false | _ => true end) l = true ->
  forall a b, In a l -> In b l -> (console a <-> console b).
Proof.
  intros H a b Ha Hb. rewrite forallb_forall in H. apply H in Ha, Hb. unfold console.
  destruct (a_sink a), (a_sink b); easy.
Qed.

(** C51: the paths of all file appenders of a loaded configuration with distinct service names are
    distinct. *)
Theorem C51_files_distinct : forall w arg c l, world_ok w -> load_config w arg = Some c ->
  NoDup (map (fun e => s_name (snd e)) (c_services c)) ->
  all_appenders w c = Ret (Some l) -> NoDup (files l).
Proof. exact loaded_files. Qed.
Print Assumptions C51_files_distinct.
(** within one section, whatever the names of the services *)
Theorem C51_section_distinct : forall e s logpath l,
  logging_init e s logpath = Ret (Some (Some l)) -> NoDup (files l).
Proof. intros e s logpath l H. exact (proj1 (logging_init_files e s logpath (Some l) H)). Qed.
Print Assumptions C51_section_distinct.
Example C51_nonvacuous :
  let w := ex_world ex_mixed in
  world_ok w /\ exists c l, load_config w ex_arg = Some c /\ all_appenders w c = Ret (Some l)
  /\ NoDup (map (fun e => s_name (snd e)) (c_services c))
  /\ files l = [chars "./logs//a/INFO.log"; chars "./logs//a/INFO.1.log"].
Proof.
  cbv zeta. split; [apply ex_world_ok; [|reflexivity]; repeat constructor; cbn; intuition discriminate|].
  eexists. eexists. splits; try reflexivity. repeat constructor. intros [].
Qed.

(** C76, the part that holds: if the service names are distinct proper file names, log files lie
    below the log directory and no two of the paths lead to the same place. *)
Theorem C76_places_partial : forall cwd w arg c l, world_ok w -> load_config w arg = Some c ->
  NoDup (map (fun e => s_name (snd e)) (c_services c)) ->
  Forall (fun e => proper (s_name (snd e))) (c_services c) ->
  all_appenders w c = Ret (Some l) ->
  forall places, Forall2 (leads cwd) (files l) places -> NoDup places.
Proof. exact loaded_leads. Qed.
Print Assumptions C76_places_partial.
Theorem C76_below_partial : forall cwd w arg c l p there, world_ok w -> load_config w arg = Some c ->
  Forall (fun e => proper (s_name (snd e))) (c_services c) ->
  all_appenders w c = Ret (Some l) -> In p (files l) -> leads cwd p there ->
  exists dir rest, leads cwd (c_logpath c) dir /\ there = dir ++ rest /\ rest <> [].
Proof. exact loaded_below. Qed.
Print Assumptions C76_below_partial.
Example C76_partial_nonvacuous :
  let w := ex_world ex_mixed in
  exists c l, load_config w ex_arg = Some c /\ all_appenders w c = Ret (Some l)
  /\ Forall (fun e => proper (s_name (snd e))) (c_services c)
  /\ leads [chars "home"] (chars "./logs//a/INFO.log") [chars "home"; chars "logs"; chars "a"; chars "INFO.log"].
Proof.
  cbv zeta. eexists. eexists. splits; try reflexivity.
  - constructor; [|constructor]. unfold proper. splits; try discriminate. cbn. unfold slash. intros [H|[]]; discriminate.
  - exists [chars "."; chars "logs"; []; chars "a"; chars "INFO.log"]. split.
    + unfold pieces. splits; [reflexivity|discriminate|].
      repeat constructor; cbn; unfold slash; intros H; repeat (destruct H as [H|H]; [discriminate|]); exact H.
    + cbn. apply walk_stay; [auto|]. do 1 (apply walk_down; [discriminate|discriminate|discriminate|]).
      apply walk_stay; [auto|]. do 2 (apply walk_down; [discriminate|discriminate|discriminate|]). apply walk_end.
Qed.
(** C76 fails otherwise: services named "a" and "./a" write to the same file, and one named ".."
    writes outside of the log directory. *)
Theorem C76_same_place_refuted : exists w arg c l p q there, world_ok w /\ load_config w arg = Some c
  /\ NoDup (map (fun e => s_name (snd e)) (c_services c)) /\ all_appenders w c = Ret (Some l)
  /\ files l = [p; q] /\ p <> q /\ forall cwd, leads cwd p (cwd ++ there) /\ leads cwd q (cwd ++ there).
Proof.
  exists (ex_world (ex_config [] None [(chars "a", [FileCfg None None false 0]); (chars "./a", [FileCfg None None false 0])])), ex_arg.
  eexists. eexists. exists (chars "./logs//a/TRACE.log"), (chars "./logs//./a/TRACE.log").
  exists [chars "logs"; chars "a"; chars "TRACE.log"]. splits; try reflexivity.
  - apply ex_world_ok; [|reflexivity]. repeat constructor; cbn; intuition discriminate.
  - repeat constructor; cbn; intuition discriminate.
  - discriminate.
  - intros cwd. split.
    + exists [chars "."; chars "logs"; []; chars "a"; chars "TRACE.log"]. split.
      * unfold pieces. splits; [reflexivity|discriminate|].
        repeat constructor; cbn; unfold slash; intros H; repeat (destruct H as [H|H]; [discriminate|]); exact H.
      * cbn -[app]. apply walk_stay; [auto|]. apply walk_down; [discriminate|discriminate|discriminate|].
        apply walk_stay; [auto|]. do 2 (apply walk_down; [discriminate|discriminate|discriminate|]).
        rewrite <- !app_assoc. apply walk_end.
    + exists [chars "."; chars "logs"; []; chars "."; chars "a"; chars "TRACE.log"]. split.
      * unfold pieces. splits; [reflexivity|discriminate|].
        repeat constructor; cbn; unfold slash; intros H; repeat (destruct H as [H|H]; [discriminate|]); exact H.
      * cbn -[app]. apply walk_stay; [auto|]. apply walk_down; [discriminate|discriminate|discriminate|].
        apply walk_stay; [auto|]. apply walk_stay; [auto|]. do 2 (apply walk_down; [discriminate|discriminate|discriminate|]).
        rewrite <- !app_assoc. apply walk_end.
Qed.
Print Assumptions C76_same_place_refuted.
Theorem C76_outside_refuted : exists w arg c l p f, world_ok w /\ load_config w arg = Some c
  /\ all_appenders w c = Ret (Some l) /\ files l = [p]
  /\ forall cwd, leads cwd (c_logpath c) (cwd ++ [chars "logs"]) /\ leads cwd p (cwd ++ [f]).
Proof.
  exists (ex_world (ex_config [] None [(chars "..", [FileCfg None None false 0])])), ex_arg.
  eexists. eexists. exists (chars "./logs//../TRACE.log"), (chars "TRACE.log").
  splits; try reflexivity.
  - apply ex_world_ok; [|reflexivity]. repeat constructor; cbn; intuition discriminate.
  - intros cwd. cbn [c_logpath]. split.
    + exists [chars "."; chars "logs"; []]. split.
      * unfold pieces. splits; [reflexivity|discriminate|].
        repeat constructor; cbn; unfold slash; intros H; repeat (destruct H as [H|H]; [discriminate|]); exact H.
      * cbn -[app]. apply walk_stay; [auto|]. apply walk_down; [discriminate|discriminate|discriminate|].
        apply walk_stay; [auto|]. apply walk_end.
    + exists [chars "."; chars "logs"; []; chars ".."; chars "TRACE.log"]. split.
      * unfold pieces. splits; [reflexivity|discriminate|].
        repeat constructor; cbn; unfold slash; intros H; repeat (destruct H as [H|H]; [discriminate|]); exact H.
      * cbn -[app]. apply walk_stay; [auto|]. apply walk_down; [discriminate|discriminate|discriminate|].
        apply walk_stay; [auto|]. apply walk_up. rewrite removelast_last.
        apply walk_down; [discriminate|discriminate|discriminate|]. apply walk_end.
Qed.
Print Assumptions C76_outside_refuted.

(** C52: the appenders are, section by section, those configured, and the filter of each accepts
    exactly the records its settings select. *)
Theorem C52_filters : forall w c l, all_appenders w c = Ret (Some l) ->
  exists parts, l = concat parts /\ Forall2 configured (sections c) parts.
Proof. exact appenders_configured. Qed.
Print Assumptions C52_filters.
Example C52_nonvacuous :
  let w := ex_world ex_mixed in
  exists c l, load_config w ex_arg = Some c /\ all_appenders w c = Ret (Some l)
  /\ map (fun a => map (filter_accepts (a_filter a)) [Error; Warn; Info; Debug; Trace]) l
     = [[true; true; true; true; true]; [true; true; true; false; false]; [false; false; true; false; false]].
Proof. cbv zeta. eexists. eexists. splits; reflexivity. Qed.

(** C53: the routing table has a list for the root and for each service; list j is increasing and
    holds exactly the appenders of the section with index j. *)
Theorem C53_routing : forall u names_order w arg c lv k, world_ok w -> load_config w arg = Some c ->
  config_logging u names_order w c = Ret (Some (lv, k)) ->
  length (k_samap k) = S (length (c_services c))
  /\ (forall i j, In i (nth j (k_samap k) []) <->
        exists a, nth_error (k_appenders k) i = Some a /\ a_service a = j)
  /\ Forall increasing (k_samap k).
Proof. exact routing. Qed.
Print Assumptions C53_routing.
Example C53_nonvacuous :
  let w := ex_world ex_allfiles in
  world_ok w /\ exists c k, load_config w ex_arg = Some c
  /\ config_logging ex_uni (fun l => l) w c = Ret (Some (Info, k)) /\ k_samap k = [[0; 1]; [2; 3]; [4; 5]].
Proof.
  cbv zeta. split; [apply ex_world_ok; [|reflexivity]; repeat constructor; cbn; intuition discriminate|].
  eexists. eexists. split; [vm_compute; reflexivity|]. split; [vm_compute; reflexivity|]. reflexivity.
Qed.

(** C54: if all appenders are consoles or all are files, every history of records is delivered
    exactly: each record once to each appender of its service that accepts it. *)
Theorem C54_delivery : forall u names_order w arg c lv k fmt, world_ok w ->
  (forall x, Permutation (names_order x) x) -> load_config w arg = Some c ->
  config_logging u names_order w c = Ret (Some (lv, k)) ->
  layout_ok fmt (l_timelayout (c_logging c)) ->
  (forall a b, In a (k_appenders k) -> In b (k_appenders k) -> (console a <-> console b)) ->
  forall items, exists wss, consume_all fmt k items (empty_bufs k) = Ret wss
    /\ Forall2 (delivered fmt (l_timelayout (c_logging c)) (k_appenders k)) items wss.
Proof. exact single_all. Qed.
Print Assumptions C54_delivery.
Example C54_nonvacuous :
  let w := ex_world ex_allfiles in
  world_ok w /\ exists c k, load_config w ex_arg = Some c
  /\ config_logging ex_uni (fun l => l) w c = Ret (Some (Info, k))
  /\ (forall a b, In a (k_appenders k) -> In b (k_appenders k) -> (console a <-> console b))
  /\ match consume_all ex_fmt k [ex_item 1 Warn; ex_item 2 Info; ex_item 9 Info] (empty_bufs k) with
     | Ret wss => map (map fst) wss = [[2]; [4; 5]; []] | _ => False end.
Proof.
  cbv zeta. split; [apply ex_world_ok; [|reflexivity]; repeat constructor; cbn; intuition discriminate|].
  eexists. eexists. split; [vm_compute; reflexivity|]. split; [vm_compute; reflexivity|].
  split; [apply ex_only_files; reflexivity|]. vm_compute. reflexivity.
Qed.

(** C55, the part that holds: with consoles and files, records that belong at a prefix of the list
    of appenders are delivered exactly. *)
Theorem C55_delivery_partial : forall u names_order w arg c lv k fmt, world_ok w ->
  (forall x, Permutation (names_order x) x) -> load_config w arg = Some c ->
  config_logging u names_order w c = Ret (Some (lv, k)) ->
  layout_ok fmt (l_timelayout (c_logging c)) ->
  forall a b, In a (k_appenders k) -> In b (k_appenders k) -> console a -> ~ console b ->
  forall items,
  Forall (fun it => forall i j x y, i < j -> nth_error (k_appenders k) i = Some x ->
    nth_error (k_appenders k) j = Some y -> belongs y it -> belongs x it) items ->
  exists wss, consume_all fmt k items (empty_bufs k) = Ret wss
    /\ Forall2 (delivered fmt (l_timelayout (c_logging c)) (k_appenders k)) items wss.
Proof. exact several_good. Qed.
Print Assumptions C55_delivery_partial.
(** C55 fails for all other records: memory is read out of bounds. *)
Theorem C55_delivery_refuted : forall u names_order w arg c lv k fmt, world_ok w ->
  (forall x, Permutation (names_order x) x) -> load_config w arg = Some c ->
  config_logging u names_order w c = Ret (Some (lv, k)) ->
  layout_ok fmt (l_timelayout (c_logging c)) ->
  forall a b, In a (k_appenders k) -> In b (k_appenders k) -> console a -> ~ console b ->
  forall it i j x y bufs, length bufs = length (k_renderers k) -> i < j ->
  nth_error (k_appenders k) i = Some x -> nth_error (k_appenders k) j = Some y ->
  ~ belongs x it -> belongs y it ->
  consume fmt k it bufs = UB.
Proof. exact several_bad. Qed.
Print Assumptions C55_delivery_refuted.
Example C55_nonvacuous :
  let w := ex_world ex_mixed in
  world_ok w /\ exists c k a b, load_config w ex_arg = Some c
  /\ config_logging ex_uni (fun l => l) w c = Ret (Some (Info, k))
  /\ In a (k_appenders k) /\ In b (k_appenders k) /\ console a /\ ~ console b
  /\ consume ex_fmt k (ex_item 1 Info) (empty_bufs k) = UB
  /\ match consume ex_fmt k (ex_item 0 Info) (empty_bufs k) with Ret (ws, _) => map fst ws = [0] | _ => False end.
Proof.
  cbv zeta. split; [apply ex_world_ok; [|reflexivity]; repeat constructor; cbn; intuition discriminate|].
  eexists. eexists. eexists. eexists. split; [vm_compute; reflexivity|]. split; [vm_compute; reflexivity|].
  split; [now left|]. split; [now right; left|]. split; [reflexivity|]. split; [discriminate|].
  split; vm_compute; reflexivity.
Qed.

(** C64 fails: with logging disabled everywhere, or no appender anywhere, the server never starts. *)
Theorem C64_no_logging_refuted : forall u names_order w c l,
  (forall x, Permutation (names_order x) x) ->
  all_appenders w c = Ret (Some l) -> l = [] -> config_logging u names_order w c = Blocked.
Proof. exact logging_blocked. Qed.
Print Assumptions C64_no_logging_refuted.
(** C64, the part that holds: with at least one appender logging starts. *)
Theorem C64_logging_partial : forall u names_order w arg c l, world_ok w ->
  (forall x, Permutation (names_order x) x) -> load_config w arg = Some c ->
  all_appenders w c = Ret (Some l) -> l <> [] ->
  exists k, config_logging u names_order w c = Ret (Some (max_level c, k)) /\ k_appenders k = l.
Proof.
  intros u names_order w arg c l Hw Hn Hl Ha Hne.
  destruct (logging_starts u names_order w arg c l Hw Hn Hl Ha Hne) as (k & H1 & H2 & _). eauto.
Qed.
Print Assumptions C64_logging_partial.
Example C64_nonvacuous :
  let w := ex_world (ex_config ex_files (Some true) [(chars "a", ex_files)]) in
  exists c, load_config w ex_arg = Some c /\ all_appenders w c = Ret (Some [])
  /\ Forall (fun s => l_disable s = Some true) (sections c).
Proof. cbv zeta. eexists. splits; try reflexivity. repeat constructor. Qed.

(** C69: what becomes of a record and its attributes. *)
Theorem C69_attributes : forall r,
  service_of (lr_kvs r) (i_service (item_of r)) /\ kept (lr_kvs r) (i_kvs (item_of r))
  /\ i_time (item_of r) = lr_time r /\ i_level (item_of r) = lr_level r /\ i_msg (item_of r) = lr_msg r
  /\ (lr_file r = Some (i_file (item_of r)) \/ lr_file r = None /\ i_file (item_of r) = [])
  /\ (lr_line r = Some (i_line (item_of r)) \/ lr_line r = None /\ i_line (item_of r) = 0%N).
Proof. exact item_of_spec. Qed.
Print Assumptions C69_attributes.
(** these determine the service and the attributes *)
Theorem C69_determined : forall kvs,
  (forall n m, service_of kvs n -> service_of kvs m -> n = m)
  /\ (forall a b, kept kvs a -> kept kvs b -> a = b).
Proof. intros kvs. split; [exact (service_of_fun kvs)|exact (kept_fun kvs)]. Qed.
Print Assumptions C69_determined.
Example C69_nonvacuous :
  let it := item_of (LogRecord 0 Info None None (B "m")
     [(B "x", Value (Some 9) (B "9")); (B "service", Value (Some 1) (B "1")); ([], Value None (B "0"));
      (B "service", Value (Some 3) (B "3")); (B "service", Value None (B "null")); (B "y", Value None (B "true"))])%N in
  i_service it = 3%N /\ i_kvs it = [(B "x", B "9"); (B "y", B "true")].
Proof. split; reflexivity. Qed.

(** C70: rotated files get the directory, base name and extension of the log file. *)
Theorem C70_rotated_names : forall w c l p, all_appenders w c = Ret (Some l) -> In p (files l) ->
  exists d b n, p = d ++ b ++ chars ".log" /\ directory d /\ ~ In slash b /\ b <> [] /\ log_name p = Some n
  /\ (forall stamp, rotated_name n stamp = d ++ b ++ stamp ++ chars ".log")
  /\ (forall stamp nanos, rotated_name_again n stamp nanos = d ++ b ++ stamp ++ [dot] ++ nanos ++ chars ".log").
Proof. exact rotated_names. Qed.
Print Assumptions C70_rotated_names.
Example C70_nonvacuous : exists n, log_name (chars "./logs//a.b/INFO.1.log") = Some n
  /\ rotated_name n (chars ".20240102") = chars "./logs//a.b/INFO.1.20240102.log".
Proof. eexists. split; reflexivity. Qed.

(** C71: the level a setting selects, for the whole program and for one appender. *)
Theorem C71_levels : forall o l, level_of o = l <-> asks_for o l.
Proof. exact level_of_spec. Qed.
Print Assumptions C71_levels.
Theorem C71_max_level : forall c l, max_level c = l <-> asks_for (c_loglevel c) l.
Proof. exact max_level_spec. Qed.
Print Assumptions C71_max_level.
Example C71_nonvacuous :
  map (fun s => level_of (Some (chars s))) ["ErRoR"; "warn"; "INFO"; "debug"; "off"; "warning"; ""; " info"]%string
  = [Error; Warn; Info; Debug; Trace; Trace; Trace; Trace] /\ level_of None = Trace.
Proof. split; reflexivity. Qed.

(** C100: every section gets one appender for each of its settings, in order, writing where the
    setting says; a log file that cannot be opened keeps the server from starting. *)
Theorem C100_placed : forall w c l, all_appenders w c = Ret (Some l) ->
  (exists parts, l = concat parts /\ Forall2 (section_laid_out (c_logpath c)) (sections c) parts)
  /\ forall s path, In s (sections c) -> asked_for (c_logpath c) s path -> can_open (e_log w) path = true.
Proof. exact laid_appenders. Qed.
Print Assumptions C100_placed.
Theorem C100_section_names : forall w arg c, world_ok w -> load_config w arg = Some c ->
  map l_service_name (sections c) = [] :: map (fun e => s_name (snd e)) (c_services c).
Proof. exact section_names. Qed.
Print Assumptions C100_section_names.
Theorem C100_started_partial : forall w c,
  midnight_known (e_log w) = true \/ (forall s, In s (sections c) -> ~ rotates s) ->
  ((forall s path, In s (sections c) -> asked_for (c_logpath c) s path -> can_open (e_log w) path = true) ->
   exists l, all_appenders w c = Ret (Some l))
  /\ forall s path, In s (sections c) -> asked_for (c_logpath c) s path -> can_open (e_log w) path = false ->
     all_appenders w c = Ret None.
Proof. exact started. Qed.
Print Assumptions C100_started_partial.
(** Where today's local midnight does not exist, or exists twice, a file rotated daily makes the
    start-up panic. *)
Theorem C100_midnight_refuted : forall w c s,
  midnight_known (e_log w) = false -> In s (sections c) -> rotates s ->
  (forall s path, In s (sections c) -> asked_for (c_logpath c) s path -> can_open (e_log w) path = true) ->
  all_appenders w c = Panic.
Proof. exact no_midnight. Qed.
Print Assumptions C100_midnight_refuted.
Definition ex_root : list appender_cfg :=
  [FileCfg (Some (chars "warn")) None false 9000; ConsoleCfg None; FileCfg (Some (chars "WARN")) (Some true) true 0].
Example C100_nonvacuous :
  let c := ex_config ex_root None [] in
  option_map (map a_sink) (match all_appenders (ex_world c) c with Ret r => r | _ => None end)
    = Some [Plain (chars "/httpd.WARN.log") 9000; Stdout; Daily (chars "/httpd.WARN.2.log") 0]
  /\ rotates (c_logging c)
  /\ asked_for (c_logpath c) (c_logging c) (chars "/httpd.WARN.2.log").
Proof.
  split; [vm_compute; reflexivity|]. split.
  - split; [discriminate|]. exists (Some (chars "WARN")), (Some true), 0%N. right. right. now left.
  - split; [discriminate|]. exists 2, (Some (chars "WARN")), (Some true), true, 0%N, Warn. split; [reflexivity|].
    assert (H : forall s, level_of (Some s) = Warn -> asks_for (Some s) Warn) by (intros s; apply level_of_spec).
    split; [apply H; vm_compute; reflexivity|].
    right. split; [|reflexivity]. exists (Some (chars "warn")), None, false, 9000%N. split; [now left|].
    apply H. vm_compute. reflexivity.
Qed.
