(** Configuration files. *)
From Verif Require Import F_Units F_Load F_Toml2.
Local Open Scope string_scope.
Local Open Scope list_scope.

(** C102: a configuration file is accepted exactly if each of its settings can be understood, and
    then every setting has the value the file gives it, or its default. *)
Theorem C102_config : forall rd t c, release rd ->
  (de_config rd t = Ret (Some c) <-> says_config (rd_first rd) t c).
Proof. intros rd t c H. exact (exact_config rd H t c). Qed.
Print Assumptions C102_config.
Theorem C102_service : forall rd t s, release rd ->
  (de_service rd t = Ret (Some s) <-> says_service (rd_first rd) t s).
Proof. intros rd t s H. exact (exact_service rd H t s). Qed.
Print Assumptions C102_service.
(** ... and it is this that the program works with: its configuration is the main file's, with the
    services of the service files (so that C41-C47, C86-C89 and C96 are about what the files say). *)
Theorem C102_files : forall rd z fp t c, release rd -> files_ok z -> ~ blank fp -> z_file z fp = Some t ->
  read_program rd z fp = Ret (Some c) ->
  exists c0, says_config (rd_first rd) t c0 /\ loads (world_of rd z) fp c0 c
  /\ forall k s, given (world_of rd z) c0 k s <->
       In (k, s) (c_services c0)
       \/ exists p es m, In p (patterns c0) /\ z_glob z p = Some es /\ In (Some m) es
          /\ says_service_file (rd_first rd) m k s.
Proof.
  intros rd z fp t c Hrd Hz Hb Ht H. destruct (files_load rd Hrd z fp t c Hz Hb Ht H) as (c0 & H1 & H2).
  exists c0. splits; auto. intros k s. apply (given_says rd Hrd).
Qed.
Print Assumptions C102_files.
(** ... which is refused exactly if the configuration made of what the files say is (C88) *)
Theorem C102_refused : forall rd z fp, release rd -> read_program rd z fp <> Panic ->
  read_program rd z fp = Ret (load_config (world_of rd z) fp).
Proof.
  intros rd z fp Hrd H. pose proof (program_outcome rd Hrd z fp) as P. destruct (read_program rd z fp); try easy. now rewrite P.
Qed.
Print Assumptions C102_refused.

Definition ex_unicode : unicode := Unicode (fun _ => false) (fun c => if (c =? kelvin)%N then [107%N] else [c]).
Definition ex_rd : reading := Reading ex_unicode false true.
Lemma ex_release : release ex_rd.
Proof.
  split; [reflexivity|]. split; [reflexivity|]. split; [reflexivity|]. intros c H1 H2 H3. exists c. cbn [ex_rd rd_unicode ex_unicode u_lower].
  destruct (c =? kelvin)%N eqn:E; [lia|]. splits; auto. now left.
Qed.
Definition tk (k : string) (t : toml) : str * toml := (chars k, t).
Definition ts (s : string) : toml := TStr (chars s).
Definition ex_file : toml :=
  TTable [tk "workdir" (ts "/srv");
          tk "log" (TTable [tk "time_layout" (ts "T"); tk "appenders" (TArr [TTable [tk "file" (TTable [tk "daily" (TBool true); tk "bufsize" (ts "8 k")])]])]);
          tk "Tcp" (TTable [tk "address" (ts "0.0.0.0:80"); tk "tls" (TTable [tk "timeout" (ts "1m30s")])]);
          tk "http" (TTable [tk "keep_alive" (TBool true); tk "max_headers_count" (TInt 7); tk "ws" (TTable [])]);
          tk "includes" (TArr [ts "*.toml"]);
          tk "services" (TTable [tk "a" (TTable [tk "service" (TTable [tk "fs" (TTable [tk "root" (ts "www")])])])])].
Definition ex_service_file : toml := TTable [tk "name" (ts " b "); tk "http" (TTable [tk "max_url_size" (ts "2k")])].
Definition ex_said : config :=
  Config (chars "/srv") (RuntimeConfig 0 None)
    (LoggingConfig [] 0 None (chars "T") [FileCfg None None true 8192])
    [] None (TcpConfig (B "0.0.0.0:80") (TlsConfig [] [] 90000) 0 0 0)
    (HttpConfig (Some true) 0 0 0 7 0 None (Some (WsConfig 0 0 0 None))) [] [chars "*.toml"]
    [(chars "a", ServiceConfig 0 [] [] (FileService (chars "www")) console_only
        (TcpConfig [] (TlsConfig [] [] 0) 0 0 0) (HttpConfig None 0 0 0 0 0 None None))] [].
Definition ex_files : disk :=
  Disk (fun fp => if chars_eqb fp (chars "m") then Some ex_file else None) (fun _ => true)
    (fun p => if chars_eqb p (chars "*.toml") then Some [Some (FileMatch (chars "x/y.toml") true (Some ex_service_file)); None] else None)
    (fun _ => true) (fun l => l) (LogEnv (fun _ => true) true).
Lemma ex_once : keys_once ex_file.
Proof.
  assert (N : forall l : list str, (fix nd (l : list str) := match l with [] => true | x :: r => negb (existsb (chars_eqb x) r) && nd r end) l = true -> NoDup l).
  { induction l as [|x l IH]; intros H; [constructor|]. apply andb_true_iff in H as [H1 H2]. constructor; [|auto]. intros Hin.
    apply negb_true_iff in H1. assert (X : existsb (chars_eqb x) l = true); [|congruence]. apply existsb_exists. exists x. split; [exact Hin|].
    clear. induction x as [|c x IH]; cbn; [reflexivity|]. now rewrite N.eqb_refl. }
  unfold ex_file.
  repeat match goal with
  | |- keys_once (TTable ?l) => apply once_table; [apply N; vm_compute; reflexivity|intros e He; cbn [In tk] in He;
      repeat (destruct He as [<-|He]; [cbn [snd tk]|]); try contradiction]
  | |- keys_once (TArr ?l) => apply once_array; intros e He; cbn [In] in He; repeat (destruct He as [<-|He]); try contradiction
  | |- keys_once _ => apply once_other; exact I
  end.
Qed.
Example C102_nonvacuous : release ex_rd /\ says_config true ex_file ex_said /\ ~ (exists c, says_config true (ts "x") c)
  /\ files_ok ex_files /\ z_file ex_files (chars "m") = Some ex_file
  /\ exists c, read_program ex_rd ex_files (chars "m") = Ret (Some c) /\ map fst (c_services c) = [chars "a"; chars "b"].
Proof.
  split; [exact ex_release|]. split.
  { apply (C102_config ex_rd ex_file ex_said ex_release). vm_compute. reflexivity. }
  split. { intros (c & H). apply (C102_config ex_rd _ c ex_release) in H. discriminate. }
  split. { split; [intros l; apply Permutation_refl|]. cbn [ex_files z_file]. intros fp t H. destruct (chars_eqb fp (chars "m")); [|discriminate].
           injection H as <-. exact ex_once. }
  split; [vm_compute; reflexivity|]. eexists. split; vm_compute; reflexivity.
Qed.

(** C103: a setting under a name the server does not know should be reported.  Refuted: in every
    section, whatever its value, it changes nothing at all, not even whether the file is accepted. *)
Theorem C103_ignored_refuted : forall rd t t', adds_unknown (rd_first rd) SMain t t' -> de_config rd t' = de_config rd t.
Proof. intros rd t t' H. symmetry. exact (alike rd SMain t t' H). Qed.
Print Assumptions C103_ignored_refuted.
Theorem C103_service_ignored_refuted : forall rd t t', adds_unknown (rd_first rd) SService t t' -> de_service rd t' = de_service rd t.
Proof. intros rd t t' H. symmetry. exact (alike rd SService t t' H). Qed.
Print Assumptions C103_service_ignored_refuted.
(** It is reported in the tables that describe a log output or a kind of service. *)
Theorem C103_choices_partial : forall rd k l rest, release rd ->
  (forall a, de_appender rd (TTable ((k, TTable l) :: rest)) = Ret (Some a) ->
     forall e, In e l -> one_of (names_of log_file_settings) (fst e)
                         \/ one_of (names_of console_settings) (fst e))
  /\ (forall a, de_kind rd (TTable ((k, TTable l) :: rest)) = Ret (Some a) ->
     forall e, In e l ->
     match a with
     | HelloService => one_of (names_of (hello_settings (rd_first rd))) (fst e)
     | FileService _ => one_of (names_of (fs_settings (rd_first rd))) (fst e)
     | ForwardService => one_of (names_of (forward_settings (rd_first rd))) (fst e)
     | UpstreamService => one_of (names_of (upstream_settings (rd_first rd))) (fst e)
     end).
Proof.
  intros rd k l rest Hrd.
  assert (X : forall R (ss : list (setting R)) r, says_only ss (TTable l) r -> forall e, In e l -> one_of (names_of ss) (fst e)).
  { intros R ss r [H _] e He. destruct (H l eq_refl e He) as (s & Hs & n & Hn & ->). exists n. split; [|reflexivity].
    unfold names_of. apply in_concat. exists (st_names s). split; [now apply in_map|exact Hn]. }
  split; intros a H e He.
  - apply (exact_appender rd Hrd) in H as (k' & d & rest' & names & says & [= <- <- <-] & _ & Hc & _ & Hs).
    destruct Hc as [[= <- <-]|[[= <- <-]|[]]]; destruct Hs as (f & Hs & _); [right|left]; eapply X; eauto.
  - apply (exact_kind rd) in H as (k' & d & rest' & names & says & [= <- <- <-] & _ & Hc & _ & Hs).
    destruct Hc as [[= <- <-]|[[= <- <-]|[[= <- <-]|[[= <- <-]|[]]]]].
    + destruct Hs as [Hs ->]. eapply X; eauto.
    + destruct Hs as (r & Hs & ->). eapply X; eauto.
    + destruct Hs as [Hs ->]. eapply X; eauto.
    + destruct Hs as [Hs ->]. eapply X; eauto.
Qed.
Print Assumptions C103_choices_partial.
Example C103_nonvacuous :
  adds_unknown true SMain
    (TTable [tk "http" (TTable [tk "ws" (TTable [])])])
    (TTable [tk "http" (TTable [tk "ws" (TTable [tk "max_frame_size" (ts "1k")])])])
  /\ (exists a, de_appender ex_rd (TTable [tk "file" (TTable [tk "daily" (TBool true)])]) = Ret (Some a))
  /\ de_appender ex_rd (TTable [tk "file" (TTable [tk "dayly" (TBool true)])]) = Ret None.
Proof.
  split; [|split; [eexists; vm_compute; reflexivity|vm_compute; reflexivity]].
  apply (adds_within true SMain ["http"; "Http"] SHttp [] _ _ _ []).
  { right. right. right. left. reflexivity. } { exists "http". cbn. auto. }
  apply (adds_within true SHttp ["websocket"; "Websocket"; "ws"] SWebsocket [] _ _ _ []).
  { left. reflexivity. } { exists "ws". cbn. auto. }
  apply (adds_here true SWebsocket [] _ _ []). intros H. apply is_one_of_spec in H. vm_compute in H. discriminate.
Qed.

Lemma crashing_panics rd place ks s : crashing (rd_unicode rd) s -> In place amount_places -> Forall2 one_of place ks ->
  de_config rd (nested ks (TStr s)) = Panic /\ de_service rd (nested ks (TStr s)) = Panic.
Proof.
  intros (c & t & E & Hc) Hp Hk.
  assert (P1 : de_size rd (TStr s) = Panic) by (exact (units_panic size_unit _ s c t E Hc _)).
  assert (P2 : de_duration rd (TStr s) = Panic) by (exact (units_panic duration_unit _ s c t E Hc _)). clear E Hc.
  assert (O : forall A (d : de A) t, d t = Panic -> de_opt d t = Panic) by (intros A d t0 H; unfold de_opt, de_fmap; now rewrite H).
  cbn [In amount_places map app] in Hp.
  repeat (destruct Hp as [<-|Hp]; [|]); try contradiction;
    repeat match goal with
    | H : Forall2 _ (_ :: _) _ |- _ => let k := fresh "k" in let H1 := fresh in inversion H as [|? k ? ? H1 ?]; subst; clear H;
        let n := fresh "n" in let Hn := fresh in destruct H1 as (n & Hn & ->); cbn [In] in Hn; repeat (destruct Hn as [<-|Hn]); try contradiction
    | H : Forall2 _ [] _ |- _ => inversion H; subst; clear H
    end; cbn [nested fold_right]; split;
    repeat first [exact P1|exact P2|apply O|eapply struct_panic; [reflexivity|cbn [fd_de fd_type]]].
Qed.
(** C104: a mistake in a configuration file should be reported.  Refuted: an amount that does not
    start with a number ends the program with a panic, wherever sizes and durations are expected. *)
Theorem C104_crash_refuted : forall rd z fp place ks s, ~ blank fp -> crashing (rd_unicode rd) s ->
  In place amount_places -> Forall2 one_of place ks -> z_file z fp = Some (nested ks (TStr s)) ->
  read_program rd z fp = Panic.
Proof.
  intros rd z fp place ks s Hb Hs Hp Hk Hf. unfold read_program, read_config. rewrite Hf.
  destruct (trim_str fp) eqn:Et; [apply trim_blank in Et; contradiction|].
  destruct (crashing_panics rd place ks s Hs Hp Hk) as [Q _]. now rewrite Q.
Qed.
Print Assumptions C104_crash_refuted.
(** The same in a service file that the main file includes. *)
Theorem C104_included_refuted : forall rd z fp k p m es base place ks s, ~ blank fp -> p <> [] ->
  one_of ["include"; "Include"] k -> z_file z fp = Some (TTable [(k, TStr p)]) ->
  z_glob z p = Some (Some m :: es) -> d_is_file m = true -> file_name (d_path m) = Some base ->
  hd_error base <> Some dot ->
  crashing (rd_unicode rd) s -> In place amount_places -> Forall2 one_of place ks ->
  d_tree m = Some (nested ks (TStr s)) ->
  read_program rd z fp = Panic.
Proof.
  intros rd z fp k p m es base place ks s Hb Hne Hk Hf Hg Hfile Hbase Hdot Hs Hp Hks Ht.
  unfold read_program, read_config. rewrite Hf.
  destruct (trim_str fp) eqn:Et; [apply trim_blank in Et; contradiction|].
  assert (Q : exists c, de_config rd (TTable [(k, TStr p)]) = Ret (Some c) /\ c_workdir c = [] /\ c_include c = p).
  { destruct Hk as (nm & Hn & ->). destruct Hn as [<-|[<-|[]]]; (eexists; split; [cbn; reflexivity|split; reflexivity]). }
  destruct Q as (c & Q1 & Q2 & Q3). rewrite Q1. cbn [obind]. rewrite Q2, Q3. destruct p as [|x p]; [contradiction|].
  cbn [app read_patterns]. rewrite Hg. cbn [read_all].
  assert (X : entry_panics rd (Some m) = true).
  { unfold entry_panics. rewrite Hbase, Ht, Hfile. destruct (crashing_panics rd place ks s Hs Hp Hks) as [_ ->].
    destruct base as [|b base]; [reflexivity|]. cbn in Hdot |- *. destruct (b =? dot)%N eqn:Eb; [|reflexivity].
    apply N.eqb_eq in Eb. subst b. now exfalso. }
  rewrite X. reflexivity.
Qed.
Print Assumptions C104_included_refuted.
Example C104_included_nonvacuous :
  let m := FileMatch (chars "conf.d/a.toml") true (Some (TTable [tk "http" (TTable [tk "max_body_size" (ts "k")])])) in
  let z := Disk (fun _ => Some (TTable [tk "include" (ts "conf.d/*")])) (fun _ => true) (fun _ => Some [Some m])
             (fun _ => true) (fun l => l) (LogEnv (fun _ => true) true) in
  file_name (d_path m) = Some (chars "a.toml") /\ read_program ex_rd z (chars "main.toml") = Panic.
Proof. split; vm_compute; reflexivity. Qed.
(** Nothing else in the files crashes it: if it panics, one of the files has such a text. *)
Theorem C104_only_amounts_partial : forall rd z fp, release rd ->
  match read_program rd z fp with
  | Ret _ => True
  | Panic => exists t s, some_file z fp t /\ holds_text t s /\ crashing (rd_unicode rd) s
  | _ => False
  end.
Proof. intros rd z fp H. pose proof (program_outcome rd H z fp) as P. destruct (read_program rd z fp); auto. Qed.
Print Assumptions C104_only_amounts_partial.
Example C104_nonvacuous : In [["tcp"; "Tcp"]; ["tls"]; ["timeout"]] amount_places /\ crashing (rd_unicode ex_rd) (chars " k") /\ ~ crashing (rd_unicode ex_rd) (chars "")
  /\ ~ crashing (rd_unicode ex_rd) (chars "8 q").
Proof.
  splits.
  - vm_compute. tauto.
  - exists 107%N, []. split; vm_compute; reflexivity.
  - intros (c & t & H & _). discriminate.
  - intros (c & t & H & H'). vm_compute in H. injection H as <- <-. discriminate.
Qed.

(** C105: what a section does not mention is as if the section were missing.  Refuted for logging:
    without a logging section there is one output, with a logging section that lists none there is
    none. *)
Theorem C105_no_outputs_refuted : forall rd l sec k c, release rd ->
  de_config rd (TTable l) = Ret (Some c) ->
  (none_of ["logging"; "Logging"; "Log"; "log"] l -> l_appenders (c_logging c) = [ConsoleCfg (Some (chars "trace"))])
  /\ (In (k, TTable sec) l -> one_of ["logging"; "Logging"; "Log"; "log"] k ->
      none_of ["appenders"; "Appender"] sec -> l_appenders (c_logging c) = []).
Proof.
  intros rd l sec k c Hrd H. apply (C102_config rd _ c Hrd) in H as [H _]. cbn [says_record] in H. rewrite Forall_forall in H.
  destruct (H _ (or_intror (or_intror (or_introl eq_refl)))) as [[H1 H2]|(l1 & k' & t & l2 & -> & H1 & H2 & H3)]; cbn [st_names st_get st_default st_says] in *.
  - split; [now rewrite H2|]. intros Hin Hk. now apply H1 in Hin.
  - split. { intros X. exfalso. apply (X (k', t)); [apply in_elt|exact H1]. }
    intros Hin Hk Hn. apply in_elt_inv in Hin as [[= <- <-]|Hin]; [|exfalso; now apply (H2 (k, TTable sec))].
    destruct H3 as [H3 _]. cbn [says_record] in H3. rewrite Forall_forall in H3.
    destruct (H3 _ (or_intror (or_intror (or_introl eq_refl)))) as [[_ E]|(a & b & d & e & -> & E & _)]; [exact E|].
    exfalso. apply (Hn (b, d)); [apply in_elt|exact E].
Qed.
Print Assumptions C105_no_outputs_refuted.
(** It is so for the settings of tcp, http and runtime. *)
Theorem C105_others_partial : forall rd l c0 c k sec, release rd ->
  de_config rd (TTable []) = Ret (Some c0) -> de_config rd (TTable l) = Ret (Some c) -> In (k, TTable sec) l ->
  (one_of ["http"; "Http"] k -> forall s, In s http_settings -> none_of (st_names s) sec -> st_get s (c_http c) = st_get s (c_http c0))
  /\ (one_of ["tcp"; "Tcp"] k -> forall s, In s tcp_settings -> none_of (st_names s) sec -> st_get s (c_tcp c) = st_get s (c_tcp c0))
  /\ (one_of ["runtime"; "Runtime"] k -> forall s, In s runtime_settings -> none_of (st_names s) sec ->
        st_get s (c_runtime c) = st_get s (c_runtime c0)).
Proof.
  intros rd l c0 c k sec Hrd H0 H Hin. apply (C102_config rd _ _ Hrd) in H0 as [H0 _]. apply (C102_config rd _ c Hrd) in H as [H _].
  cbn [says_record] in H, H0. rewrite Forall_forall in H, H0.
  assert (A : forall s0, In s0 (config_settings (rd_first rd)) -> st_get s0 c0 = st_default s0).
  { intros s0 Hs0. destruct (H0 s0 Hs0) as [[_ E]|([|] & ? & ? & ? & E & _)]; [exact E|discriminate|discriminate]. }
  assert (G : forall s0, In s0 (config_settings (rd_first rd)) -> one_of (st_names s0) k -> st_says s0 (TTable sec) (st_get s0 c)).
  { intros s0 Hs0 Hk. destruct (H s0 Hs0) as [[E _]|(l1 & k' & t & l2 & -> & E1 & E2 & E3)]; [now apply E in Hin|].
    apply in_elt_inv in Hin as [[= <- <-]|Hin]; [exact E3|]. exfalso. now apply (E2 (k, TTable sec)). }
  assert (D : forall R (ss : list (setting R)) (r d : R), says_record ss (TTable sec) r -> Forall (fun s => st_get s d = st_default s) ss ->
            forall s, In s ss -> none_of (st_names s) sec -> st_get s r = st_get s d).
  { intros R ss r d Hr Hd s Hs Hn. cbn [says_record] in Hr. rewrite Forall_forall in Hr, Hd. rewrite (Hd s Hs).
    destruct (Hr s Hs) as [[_ E]|(l1 & k' & t & l2 & -> & E & _)]; [exact E|]. exfalso. apply (Hn (k', t)); [apply in_elt|exact E]. }
  unfold config_settings in A, G. splits; intros Hk; apply D.
  - apply (G _ (or_intror (or_intror (or_intror (or_intror (or_intror (or_intror (or_introl eq_refl)))))))), Hk.
  - pose proof (A _ (or_intror (or_intror (or_intror (or_intror (or_intror (or_intror (or_introl eq_refl)))))))) as E. cbn in E. rewrite E. repeat constructor.
  - apply (G _ (or_intror (or_intror (or_intror (or_intror (or_intror (or_introl eq_refl))))))), Hk.
  - pose proof (A _ (or_intror (or_intror (or_intror (or_intror (or_intror (or_introl eq_refl))))))) as E. cbn in E. rewrite E. repeat constructor.
  - apply (G _ (or_intror (or_introl eq_refl))), Hk.
  - pose proof (A _ (or_intror (or_introl eq_refl))) as E. cbn in E. rewrite E. repeat constructor.
Qed.
Print Assumptions C105_others_partial.
Example C105_nonvacuous :
  (exists c, de_config ex_rd (TTable [tk "log" (TTable [tk "timelayout" (ts "T")])]) = Ret (Some c) /\ l_appenders (c_logging c) = [])
  /\ (exists c, de_config ex_rd (TTable []) = Ret (Some c) /\ l_appenders (c_logging c) = [ConsoleCfg (Some (chars "trace"))])
  /\ (exists c, de_config ex_rd (TTable [tk "http" (TTable [tk "keep_alive" (TBool true)])]) = Ret (Some c) /\ h_keep_alive (c_http c) = Some true).
Proof. splits; eexists; split; vm_compute; reflexivity. Qed.

(** C106: a condition that cannot be understood should be reported.  Refuted: every text is a
    condition, and it makes no difference which. *)
Theorem C106_any_text_refuted : forall rd k l1 ek e1 mk m1 s s' m2 e2 l2,
  one_of ["early"; "Early"; "filter"; "Filter"] ek -> one_of ["matchs"; "Matchs"] mk ->
  let early x := TTable (e1 ++ (mk, TArr (m1 ++ TStr x :: m2)) :: e2) in
  de_kind rd (TTable [(k, TTable (l1 ++ (ek, early s) :: l2))]) = de_kind rd (TTable [(k, TTable (l1 ++ (ek, early s') :: l2))]).
Proof.
  intros rd k l1 ek e1 mk m1 s s' m2 e2 l2 He Hm early.
  assert (A : de_all de_match (m1 ++ TStr s :: m2) = de_all de_match (m1 ++ TStr s' :: m2)).
  { induction m1 as [|t m1 IH]; cbn [app de_all]; [reflexivity|]. now rewrite IH. }
  assert (B : de_struct (early_fields rd) tt (early s) = de_struct (early_fields rd) tt (early s')).
  { unfold early. apply visit_same. repeat (apply Forall_nil || apply Forall_cons).
    - intros _. cbn [aside fd_de]. unfold unused, de_fmap, de_vec. now rewrite A.
    - intros C. exfalso. destruct Hm as (n & [<-|[<-|[]]] & ->); vm_compute in C; discriminate. }
  assert (C : de_early rd (early s) = de_early rd (early s')) by (unfold de_early, unused, de_opt, de_fmap; now rewrite B).
  assert (D : forall R (fs : list (tfield R)) base, Forall (fun f => called ek f = true -> fd_de f (early s) = fd_de f (early s')) fs ->
            de_variant fs base (TTable (l1 ++ (ek, early s) :: l2)) = de_variant fs base (TTable (l1 ++ (ek, early s') :: l2))).
  { intros R fs base F. unfold de_variant.
    assert (K : forallb (fun e => existsb (called (fst e)) fs) (l1 ++ (ek, early s) :: l2)
              = forallb (fun e => existsb (called (fst e)) fs) (l1 ++ (ek, early s') :: l2)) by now rewrite !forallb_app.
    rewrite K. destruct (forallb _ (l1 ++ (ek, early s') :: l2)); [|reflexivity]. now apply visit_same. }
  assert (E : Forall (fun v => va_de v (TTable (l1 ++ (ek, early s) :: l2)) = va_de v (TTable (l1 ++ (ek, early s') :: l2))) (kind_variants rd)).
  { destruct He as (n & He & ->). cbn [In] in He. repeat (apply Forall_nil || apply Forall_cons); cbn [va_de]; unfold de_fmap; rewrite D; try reflexivity;
      (repeat (apply Forall_nil || apply Forall_cons); cbn [aside fd_de]; intros X; try exact C; exfalso;
       repeat (destruct He as [<-|He]; [vm_compute in X; discriminate|]); contradiction). }
  unfold de_kind, de_enum. destruct (_ && _); [reflexivity|]. destruct (find_variant (kind_variants rd) k) as [v|] eqn:Ev; [|reflexivity].
  apply find_variant_in in Ev as [Ev _]. rewrite Forall_forall in E. now apply E.
Qed.
Print Assumptions C106_any_text_refuted.
(** What is not a text is reported, and so is an answer without the form of one. *)
Theorem C106_form_partial : forall rd k l rest a ek e,
  de_kind rd (TTable ((k, TTable l) :: rest)) = Ret (Some a) -> In (ek, e) l ->
  one_of ["early"; "Early"; "filter"; "Filter"] ek -> is_early (rd_first rd) e.
Proof.
  intros rd k l rest a ek e H Hin Hk.
  assert (X : forall R (ss : list (setting R)) r, says_only (@early_setting (rd_first rd) R :: ss) (TTable l) r -> is_early (rd_first rd) e).
  { intros R ss r [_ F]. cbn [says_record] in F. apply Forall_cons_iff in F as [F _].
    destruct F as [[F _]|(l1 & k' & t & l2 & -> & F1 & F2 & F3)]; [now apply F in Hin|].
    apply in_elt_inv in Hin as [[= <- <-]|Hin]; [exact F3|]. exfalso. now apply (F2 (ek, e)). }
  apply (exact_kind rd) in H as (k' & d & rest' & names & says & [= <- <- <-] & _ & Hc & _ & Hs).
  destruct Hc as [[= <- <-]|[[= <- <-]|[[= <- <-]|[[= <- <-]|[]]]]].
  - destruct Hs as [Hs _]. eapply X; exact Hs.
  - destruct Hs as (r & Hs & _). eapply X; exact Hs.
  - destruct Hs as [Hs _]. eapply X; exact Hs.
  - destruct Hs as [Hs _]. eapply X; exact Hs.
Qed.
Print Assumptions C106_form_partial.
Example C106_nonvacuous :
  let t e := TTable [tk "fs" (TTable [tk "root" (ts "www"); tk "filter" (TTable [tk "matchs" e])])] in
  de_kind ex_rd (t (TArr [ts "<<nonsense"; ts ""])) = Ret (Some (FileService (chars "www")))
  /\ de_kind ex_rd (t (TArr [TInt 1])) = Ret None.
Proof. split; vm_compute; reflexivity. Qed.
