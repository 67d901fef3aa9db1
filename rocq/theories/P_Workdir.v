(** C130: the directory from which the paths of a configuration count. *)
From Verif Require Import F_Workdir.

(** C130 is violated: unless the configuration names a directory, its relative paths count from
    wherever the program is started.  For any two places and any relative pattern there are files such
    that the same configuration file, given by its absolute path, is accepted when the program is
    started in the one place and refused when it is started in the other. *)
Theorem C130_elsewhere_refuted : forall order midnight fp p d1 d2, (forall l, Permutation (order l) l) ->
  rooted fp -> ~ rooted p -> p <> [] -> d1 <> d2 ->
  exists y c0, tree_ok y /\ c_workdir c0 = [] /\ c_include c0 = p
    /\ says_in y d1 fp c0 /\ says_in y d2 fp c0
    /\ (exists c, load_config (world_in y order midnight d1 fp) fp = Some c)
    /\ load_config (world_in y order midnight d2 fp) fp = None.
Proof.
  intros order midnight fp p d1 d2 Ho Hf Hp Hn Hd.
  pose (c0 := Config [] (RuntimeConfig 0 None) logging_default [] None tcp_default http_default p [] [] []).
  pose (y := FileTree (fun _ => Some c0) (fun _ => true)
               (fun q => if chars_eqb q (from_dir d1 p) then Some [] else None) (fun _ => true) (fun _ => true) (fun _ => None)).
  assert (Y : tree_ok y) by (intros f c [= <-]; split; [constructor|reflexivity]).
  assert (S : forall d, says_in y d fp c0) by (intros d; exists (from_dir d fp); split; [now apply from_dir_spec|reflexivity]).
  assert (Bp : ~ blank fp) by now apply rooted_given.
  assert (P : patterns c0 = [p]) by (unfold patterns; cbn; destruct p; [now elim Hn|reflexivity]).
  assert (A : forall d, work_base d c0 d) by (intros d; left; auto).
  exists y, c0. splits; auto.
  - apply (base_accepts y order midnight d1 fp c0 d1 Y Ho Bp (S d1) (A d1)). split; [now left|].
    exists [[]], []. rewrite P. splits; try constructor; [|constructor].
    exists (from_dir d1 p). split; [now apply from_dir_spec|]. cbn. now rewrite (proj2 (chars_eqb_eq _ _) eq_refl).
  - destruct (load_config (world_in y order midnight d2 fp) fp) as [c|] eqn:E; [exfalso|reflexivity].
    destruct (proj1 (base_accepts y order midnight d2 fp c0 d2 Y Ho Bp (S d2) (A d2)) (ex_intro _ c E)) as (_ & ess & added & H & _).
    rewrite P in H. inversion_clear H as [|? es ? ? (q & Q & M) _]. apply from_dir_spec in Q as ->. cbn in M.
    destruct (chars_eqb (from_dir d2 p) (from_dir d1 p)) eqn:X; [|discriminate]. apply chars_eqb_eq in X.
    unfold from_dir in X. destruct p as [|c' p]; [now elim Hn|]. destruct (N.eqb_spec c' slash) as [->|].
    + apply Hp. now exists p.
    + apply app_inv_tail in X. now elim Hd.
Qed.
Print Assumptions C130_elsewhere_refuted.

(** What holds: when the configuration file is given by its absolute path and names its directory by
    an absolute path, it makes no difference where the program is started: the same configuration is
    loaded, the same log files and services are set up, the same certificates are used. *)
Theorem C130_absolute_partial : forall y order midnight d1 d2 fp c0,
  rooted fp -> says_in y d1 fp c0 -> rooted (c_workdir c0) ->
  let w d := world_in y order midnight d fp in
  load_config (w d1) fp = load_config (w d2) fp
  /\ (forall u no, program u no (w d1) fp = program u no (w d2) fp)
  /\ forall x s, run (tls_in y x d1 fp) s = run (tls_in y x d2 fp) s.
Proof.
  intros y order midnight d1 d2 fp c0 Hf Hs Hw w.
  destruct (absolute_same y order midnight d1 d2 fp c0 Hf Hs Hw) as (H1 & H2 & H3).
  splits; auto. intros x s. now rewrite H3.
Qed.
Print Assumptions C130_absolute_partial.

(** In any case all patterns and roots count from one directory: the one the configuration names,
    itself counted from where the program is started, or else the latter. *)
Theorem C130_base_partial : forall y order midnight cwd fp c0 b, tree_ok y -> (forall l, Permutation (order l) l) ->
  ~ blank fp -> says_in y cwd fp c0 -> work_base cwd c0 b ->
  ((exists c, load_config (world_in y order midnight cwd fp) fp = Some c) <->
   (c_workdir c0 = [] \/ y_dir y b = true)
   /\ exists ess added,
      Forall2 (fun p es => exists q, stands_for b p q /\ y_match y q = Some es) (patterns c0) ess
      /\ gives (concat ess) added /\ NoDup (map fst (c_services c0 ++ added))
      /\ Forall (fun e => ~ blank (fst e) /\ forall root, s_kind (snd e) = FileService root ->
           root <> [] /\ exists q, stands_for b root q /\ y_exists y q = true) (c_services c0 ++ added)).
Proof. exact base_accepts. Qed.
Print Assumptions C130_base_partial.

(** So do the log files of a program that has started ... *)
Theorem C130_logs_partial : forall u no y order midnight cwd fp c0 b c k st s path,
  ~ blank fp -> says_in y cwd fp c0 -> work_base cwd c0 b ->
  load_config (world_in y order midnight cwd fp) fp = Some c ->
  program u no (world_in y order midnight cwd fp) fp = Ret (Some (k, st)) ->
  In s (sections c) -> asked_for (c_logpath c) s path ->
  exists q, stands_for b path q /\ y_writable y q = true.
Proof.
  intros u no y order midnight cwd fp c0 b c k st s path Hb Hs Hw Hl Hp Hi Ha.
  apply (dir_after_spec y cwd fp c0 b Hb Hs) in Hw as ->.
  exists (from_dir (dir_after y cwd fp) path). split; [now apply from_dir_spec|].
  unfold program in Hp. rewrite Hl in Hp. unfold config_logging in Hp.
  destruct (all_appenders (world_in y order midnight cwd fp) c) as [[l|]| | | |] eqn:E; try discriminate Hp.
  exact (proj2 (laid_appenders _ c l E) s path Hi Ha).
Qed.
Print Assumptions C130_logs_partial.

(** ... and the certificate and the key of a service that accepts TLS connections. *)
Theorem C130_certificate_partial : forall y x cwd fp c0 b s t,
  ~ blank fp -> says_in y cwd fp c0 -> work_base cwd c0 b ->
  run (tls_in y x cwd fp) s = Ret (Done (Some t)) ->
  exists q q' pem pem' certs key,
    stands_for b (map code (tls_cert (t_tls (s_tcp s)))) q /\ y_bytes y q = Some pem
    /\ stands_for b (map code (tls_key (t_tls (s_tcp s)))) q' /\ y_bytes y q' = Some pem'
    /\ x_certs x pem = map Some certs /\ x_key x pem' = Some (Some key) /\ x_server x certs key = Some t.
Proof.
  intros y x cwd fp c0 b s t Hb Hs Hw Hr. apply (dir_after_spec y cwd fp c0 b Hb Hs) in Hw as ->.
  unfold run in Hr. destruct (x_bind _ _); [|discriminate].
  destruct (tls_load (tls_in y x cwd fp) (t_tls (s_tcp s))) as [|o] eqn:E; [discriminate|].
  assert (o = Some t) as -> by (destruct (s_kind s); congruence). clear Hr. unfold tls_load in E.
  set (C := tls_cert (t_tls (s_tcp s))) in *. set (K := tls_key (t_tls (s_tcp s))) in *.
  assert (G : forall r, match C, K with [], [] => Done None | _, _ => r end = Done (Some t) -> r = Done (Some t))
    by (intros r; destruct C, K; auto; discriminate).
  apply G in E. clear G. cbn [tls_in x_open x_certs x_key x_server] in E.
  destruct (y_bytes y (from_dir _ (map code C))) as [pem|] eqn:E1; [|discriminate].
  destruct (all_certs (x_certs x pem)) as [certs|] eqn:E2; [|discriminate].
  destruct (y_bytes y (from_dir _ (map code K))) as [pem'|] eqn:E3; [|discriminate].
  destruct (x_key x pem') as [[key|]|] eqn:E4; try discriminate.
  destruct (x_server x certs key) as [t'|] eqn:E5; [|discriminate]. injection E as ->.
  eexists _, _, pem, pem', certs, key. splits; try (apply from_dir_spec; reflexivity); auto.
  clear - E2. revert certs E2. induction (x_certs x pem) as [|[c|] l IH]; cbn; intros certs E; try discriminate.
  - now injection E as <-.
  - destruct (all_certs l) as [cs|]; [|discriminate]. injection E as <-. cbn. f_equal. now apply IH.
Qed.
Print Assumptions C130_certificate_partial.

(** /etc/h.toml, in its own directory /srv, includes s/*.toml and logs warnings to files *)
Definition ex_conf (dir : str) : config :=
  Config dir (RuntimeConfig 0 None) (LoggingConfig [] 0 None [] [FileCfg (Some (chars "warn")) None false 0]) [] None
    tcp_default http_default (chars "s/*.toml") [] [(chars "f", ServiceConfig 0 [] [] (FileService (chars "www"))
      logging_default (TcpConfig [] (TlsConfig (B "c.pem") (B "/k.pem") 0) 0 0 0) http_default)] [].
Definition ex_tree (dir : str) : file_tree :=
  FileTree (fun f => if chars_eqb f (chars "/etc/h.toml") then Some (ex_conf dir) else None)
    (fun d => chars_eqb d (chars "/srv"))
    (fun p => if chars_eqb p (chars "/srv/s/*.toml") then Some [] else None)
    (fun p => chars_eqb p (chars "/srv/www")) (fun p => chars_eqb p (chars "/srv/./logs//httpd.WARN.log"))
    (fun p => if is_one_of p ["/srv/c.pem"; "/k.pem"]%string then Some (B "x") else None).
Definition ex_x : tls_env :=
  TlsEnv (fun _ => None) (fun _ => [Some (B "cert")]) (fun _ => Some (Some (B "key"))) (fun _ _ => Some (B "tls")) (fun _ => true).
Lemma ex_says d dir : says_in (ex_tree dir) d (chars "/etc/h.toml") (ex_conf dir).
Proof. exists (chars "/etc/h.toml"). split; [left; split; [eexists; reflexivity|reflexivity]|reflexivity]. Qed.
Example C130_nonvacuous :
  let fp := chars "/etc/h.toml" in
  let w dir d := world_in (ex_tree dir) (fun l => l) true d fp in
  rooted fp /\ says_in (ex_tree (chars "/srv")) (chars "/home") fp (ex_conf (chars "/srv")) /\ rooted (chars "/srv")
  /\ tree_ok (ex_tree (chars "/srv")) /\ work_base (chars "/home") (ex_conf (chars "/srv")) (chars "/srv")
  /\ (exists c k st, load_config (w (chars "/srv") (chars "/home")) fp = Some c
      /\ program (Unicode (fun _ => false) (fun c => [c])) (fun l => l) (w (chars "/srv") (chars "/home")) fp = Ret (Some (k, st))
      /\ asked_for (c_logpath c) (c_logging c) (chars "./logs//httpd.WARN.log")
      /\ exists s, In s (map snd (c_services c))
         /\ run (tls_in (ex_tree (chars "/srv")) ex_x (chars "/home") fp) s = Ret (Done (Some (B "tls"))))
  /\ (exists c, load_config (w [] (chars "/srv")) fp = Some c) /\ load_config (w [] (chars "/home")) fp = None.
Proof.
  cbv zeta. split; [eexists; reflexivity|]. split; [apply ex_says|]. split; [eexists; reflexivity|].
  split; [intros f c; cbn; destruct (chars_eqb f _); [intros [= <-]; split; [repeat constructor; intros []|reflexivity]|discriminate]|].
  split; [right; split; [discriminate|left; split; [eexists; reflexivity|reflexivity]]|].
  split; [|split; [eexists; vm_compute; reflexivity|vm_compute; reflexivity]].
  eexists _, _, _. split; [vm_compute; reflexivity|]. split; [vm_compute; reflexivity|].
  split; [|eexists; split; [left; reflexivity|vm_compute; reflexivity]].
  split; [discriminate|].
  exists 0, (Some (chars "warn")), None, false, 0%N, Warn. split; [reflexivity|].
  split; [apply level_of_spec; vm_compute; reflexivity|]. left. split; [|reflexivity].
  intros (o & e & d & n & [] & _).
Qed.
