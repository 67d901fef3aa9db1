(** Properties C48-C50, C77, C81, C82: starting services and accepting connections. *)
From Verif Require Import F_Main.

(** C48: an accept loop runs in plain text exactly when neither path is configured ... *)
Theorem C48_plain_iff_unset : forall x s tls, run x s = Ret (Done tls) ->
  (tls = None <-> tls_cert (t_tls (s_tcp s)) = [] /\ tls_key (t_tls (s_tcp s)) = []).
Proof.
  intros x s tls H. apply run_mode in H. rewrite <- (load_none x). rewrite H. split; congruence.
Qed.
Print Assumptions C48_plain_iff_unset.
(** ... and otherwise with the configured certificate and key, and every connection it serves went
    through a successful handshake. *)
Theorem C48_encrypted : forall x s tls l st, run x s = Ret (Done tls) ->
  tls_cert (t_tls (s_tcp s)) <> [] \/ tls_key (t_tls (s_tcp s)) <> [] ->
  loop_run tls loop_start l = Some st ->
  (exists scfg pem certs pem' key, tls = Some scfg
     /\ x_open x (tls_cert (t_tls (s_tcp s))) = Some pem /\ x_certs x pem = map Some certs
     /\ x_open x (tls_key (t_tls (s_tcp s))) = Some pem' /\ x_key x pem' = Some (Some key)
     /\ x_server x certs key = Some scfg)
  /\ forall c flag, In (c, flag) (served st) -> In c (established l).
Proof.
  intros x s tls l st H Hne Hl. pose proof (C48_plain_iff_unset x s tls H) as Hp. apply run_mode in H.
  destruct tls as [scfg|]; [|exfalso; destruct Hp as [Hp _]; destruct (Hp eq_refl); tauto].
  split.
  - apply load_files in H as (pem & certs & pem' & key & H). exists scfg, pem, certs, pem', key. tauto.
  - intros c flag Hin. apply served_tls in Hl. rewrite Hl in Hin. apply in_map_iff in Hin as (d & E & Hin). congruence.
Qed.
Print Assumptions C48_encrypted.

Definition ex_x : tls_env :=
  TlsEnv (fun p => Some p) (fun _ => [Some (B "cert")]) (fun _ => Some (Some (B "key"))) (fun _ k => Some k) (fun _ => true).
Definition ex_service (cert key : bytes) (k : service_kind) : service_config :=
  ServiceConfig 1 (chars "web") (chars "*") k logging_default (TcpConfig (B "127.0.0.1:80") (TlsConfig cert key 0) 0 0 0) http_default.
Example C48_nonvacuous :
  run ex_x (ex_service (B "a.pem") (B "b.pem") HelloService) = Ret (Done (Some (B "key")))
  /\ run ex_x (ex_service [] [] HelloService) = Ret (Done None)
  /\ exists st, loop_run (Some (B "key")) loop_start [Poll; Accept (Some 1); Accept (Some 2); Shake 2 Rejected; Shake 1 Established] = Some st
     /\ served st = [(1, false)].
Proof. splits; try reflexivity. eexists. split; reflexivity. Qed.

(** C49 fails: the flag is the opposite of what it should be, on every connection. *)
Theorem C49_flag_refuted : forall x s tls l st c flag, run x s = Ret (Done tls) ->
  loop_run tls loop_start l = Some st -> In (c, flag) (served st) ->
  flag = negb (match tls with Some _ => true | None => false end).
Proof.
  intros x s tls l st c flag _ Hl Hin. destruct tls as [b|].
  - apply served_tls in Hl. rewrite Hl in Hin. apply in_map_iff in Hin as (d & E & _). now injection E as _ <-.
  - apply served_plain in Hl. rewrite Hl in Hin. apply in_map_iff in Hin as (d & E & _). now injection E as _ <-.
Qed.
Print Assumptions C49_flag_refuted.
(** What holds: it tells encrypted connections from plain ones. *)
Theorem C49_distinguishes_partial : forall tls l st tls' l' st' c flag c' flag',
  loop_run tls loop_start l = Some st -> loop_run tls' loop_start l' = Some st' ->
  In (c, flag) (served st) -> In (c', flag') (served st') ->
  (flag = flag' <-> (tls = None <-> tls' = None)).
Proof.
  assert (G : forall tls l st c flag, loop_run tls loop_start l = Some st -> In (c, flag) (served st) -> (flag = true <-> tls = None)).
  { intros tls l st c flag Hl Hin. destruct tls as [b|].
    - apply served_tls in Hl. rewrite Hl in Hin. apply in_map_iff in Hin as (d & E & _). injection E as _ <-. easy.
    - apply served_plain in Hl. rewrite Hl in Hin. apply in_map_iff in Hin as (d & E & _). injection E as _ <-. easy. }
  intros tls l st tls' l' st' c flag c' flag' H H' Hin Hin'.
  rewrite <- (G _ _ _ _ _ H Hin), <- (G _ _ _ _ _ H' Hin'). destruct flag, flag'; intuition congruence.
Qed.
Print Assumptions C49_distinguishes_partial.
Example C49_nonvacuous : exists st st', loop_run None loop_start [Accept (Some 1)] = Some st /\ served st = [(1, true)]
  /\ loop_run (Some (B "k")) loop_start [Accept (Some 1); Shake 1 Established] = Some st' /\ served st' = [(1, false)].
Proof. eexists. eexists. splits; reflexivity. Qed.

(** C50: what is served is what was accepted, or got through the handshake, once each and in that
    order; failures change nothing for the others; and after the loop stops nothing is accepted. *)
Theorem C50_plain : forall l st, loop_run None loop_start l = Some st -> map fst (served st) = accepted l.
Proof. intros l st H. rewrite (served_plain l st H), map_map. apply map_id. Qed.
Print Assumptions C50_plain.
Theorem C50_tls : forall scfg l st, loop_run (Some scfg) loop_start l = Some st -> NoDup (accepted l) ->
  map fst (served st) = established l /\ NoDup (established l) /\ forall c, In c (established l) -> In c (accepted l).
Proof.
  intros b l st H Hd. destruct (shaking_sub b l loop_start st H Hd) as (A1 & A2 & A3 & A4). splits; auto.
  - rewrite (served_tls b l st H), map_map. apply map_id.
  - intros c Hc. now apply A3 in Hc.
Qed.
Print Assumptions C50_tls.
Theorem C50_isolated : forall tls l st, loop_run tls loop_start l = Some st ->
  exists st', loop_run tls loop_start (without_failures l) = Some st' /\ served st' = served st.
Proof. exact failures_dont_matter. Qed.
Print Assumptions C50_isolated.
(** An accepted connection whose handshake has not ended can still succeed, whatever happened in
    between; and until the loop stops it goes on accepting, after errors too. *)
Theorem C50_progress : forall scfg l st c, loop_run (Some scfg) loop_start l = Some st ->
  In c (accepted l) -> (forall h, ~ In (Shake c h) l) ->
  exists st', loop_run (Some scfg) loop_start (l ++ [Shake c Established]) = Some st'
  /\ served st' = served st ++ [(c, false)].
Proof. exact handshake_open. Qed.
Print Assumptions C50_progress.
Theorem C50_goes_on : forall tls l st x, loop_run tls loop_start l = Some st -> ~ In Stop l ->
  exists st', loop_run tls loop_start (l ++ [Accept x]) = Some st'.
Proof. exact goes_on. Qed.
Print Assumptions C50_goes_on.
Theorem C50_stopped : forall tls l1 l2 st, loop_run tls loop_start (l1 ++ Stop :: l2) = Some st ->
  accepted l2 = [] /\ ~ In (Accept None) l2.
Proof. exact stop_final. Qed.
Print Assumptions C50_stopped.
Example C50_nonvacuous :
  let l := [Poll; Accept None; Accept (Some 1); Accept (Some 2); Accept None; Accept (Some 3); Shake 3 Established; Shake 2 TimedOut;
            Poll; Interrupt; Stop; Shake 1 Established] in
  NoDup (accepted l) /\ exists st, loop_run (Some (B "k")) loop_start l = Some st /\ served st = [(3, false); (1, false)].
Proof. cbv zeta. split; [cbn; repeat constructor; cbn; intuition discriminate|]. eexists. split; [vm_compute; reflexivity|reflexivity]. Qed.

(** C77 fails: a Ctrl-C that meets a connection ready to be accepted can be lost; the loop goes on
    for as long as no further Ctrl-C comes. *)
Theorem C77_lost_refuted : forall tls l1 st c l2, loop_run tls loop_start l1 = Some st -> stopped st = false ->
  exists st', loop_run tls loop_start (l1 ++ Poll :: Interrupt :: map (fun c => Accept (Some c)) (c :: l2)) = Some st'
  /\ stopped st' = false
  /\ match tls with
     | None => served st' = served st ++ map (fun c => (c, true)) (c :: l2)
     | Some _ => shaking st' = shaking st ++ c :: l2
     end
  /\ forall l3 st'', loop_run tls st' l3 = Some st'' -> ~ In Interrupt l3 -> stopped st'' = false.
Proof. exact interrupt_lost. Qed.
Print Assumptions C77_lost_refuted.
(** What holds: a Ctrl-C that finds the loop waiting can stop it, and a stopped loop accepts
    nothing more. *)
Theorem C77_stops_partial : forall tls l st, loop_run tls loop_start l = Some st -> stopped st = false ->
  exists st', loop_run tls loop_start (l ++ [Poll; Interrupt; Stop]) = Some st' /\ stopped st' = true
  /\ served st' = served st /\ forall l2 st2, loop_run tls st' l2 = Some st2 -> accepted l2 = [].
Proof.
  intros tls l st H Hs. rewrite loop_run_app, H. cbn [loop_run loop_step]. rewrite Hs. cbn. rewrite orb_true_r.
  eexists. splits; [reflexivity|reflexivity|reflexivity|]. intros l2 st2 H2. apply stopped_stays in H2; tauto.
Qed.
Print Assumptions C77_stops_partial.
Example C77_nonvacuous : exists st, loop_run None loop_start [Poll; Accept (Some 1)] = Some st /\ stopped st = false.
Proof. eexists. split; reflexivity. Qed.

(** C81 fails: a forwarding service is accepted at load time and panics when started. *)
Theorem C81_forward_refuted : forall w x tcp http name idx s s', s_kind s = ForwardService \/ s_kind s = UpstreamService ->
  x_bind x (t_addr (s_tcp s)) = true -> tls_cert (t_tls (s_tcp s)) = [] -> tls_key (t_tls (s_tcp s)) = [] ->
  service_autofix w tcp http name idx s = Some s' -> run x s' = Panic.
Proof.
  intros w x tcp http name idx s s' Hk Hb Hc Hy H. unfold service_autofix in H.
  destruct (kind_ok w (s_kind s)); [|discriminate]. injection H as <-. unfold run. cbn. rewrite Hb.
  unfold tls_load. cbn. rewrite Hc, Hy. now destruct Hk as [-> | ->].
Qed.
Print Assumptions C81_forward_refuted.
Theorem C81_loaded_refuted : forall w tcp http name idx s, s_kind s = ForwardService \/ s_kind s = UpstreamService ->
  exists s', service_autofix w tcp http name idx s = Some s'.
Proof. intros w tcp http name idx s Hk. unfold service_autofix. destruct Hk as [-> | ->]; now eexists. Qed.
Print Assumptions C81_loaded_refuted.
(** The other services run or report an error. *)
Theorem C81_starts_partial : forall x s, s_kind s <> ForwardService -> s_kind s <> UpstreamService ->
  exists r, run x s = Ret r /\ (x_bind x (t_addr (s_tcp s)) = true ->
    tls_cert (t_tls (s_tcp s)) = [] -> tls_key (t_tls (s_tcp s)) = [] -> r = Done None).
Proof.
  intros x s H1 H2. unfold run. destruct (x_bind x _); [|now eexists].
  destruct (tls_load x _) as [|tls] eqn:E.
  - eexists. split; [reflexivity|]. intros _ Hc Hk. unfold tls_load in E. now rewrite Hc, Hk in E.
  - destruct (s_kind s); try easy; (eexists; split; [reflexivity|]; intros _ Hc Hk; unfold tls_load in E; rewrite Hc, Hk in E; congruence).
Qed.
Print Assumptions C81_starts_partial.
Example C81_nonvacuous : run ex_x (ex_service [] [] ForwardService) = Panic /\ run ex_x (ex_service [] [] HelloService) = Ret (Done None).
Proof. split; reflexivity. Qed.

(** C82 fails: certificate and key set for all services are used by none: a service without its own
    serves plain text, whatever the root configuration says. *)
Theorem C82_root_ignored_refuted : forall w c c' key s' x, config_autofix w c = Some c' -> In (key, s') (c_services c') ->
  exists s, In (key, s) (e_order w (c_services c))
  /\ (tls_cert (t_tls (s_tcp s)) = [] -> tls_key (t_tls (s_tcp s)) = [] ->
      forall tls, run x s' = Ret (Done tls) -> tls = None).
Proof. exact root_tls_ignored. Qed.
Print Assumptions C82_root_ignored_refuted.
(** The handshake timeout is inherited, 15 seconds if it is given nowhere; and a service's own
    paths are kept. *)
Theorem C82_timeout_partial : forall s root,
  let r := tls_autofix root None in let f := tls_autofix s (Some r) in
  tls_timeout r = (if (tls_timeout root =? 0)%N then 15000%N else tls_timeout root)
  /\ tls_timeout f = (if (tls_timeout s =? 0)%N then tls_timeout r else tls_timeout s)
  /\ tls_cert f = tls_cert s /\ tls_key f = tls_key s.
Proof.
  intros s root. cbv zeta. unfold tls_autofix. cbn [tls_timeout tls_cert tls_key].
  splits; auto; repeat match goal with |- context [if ?b then _ else _] => destruct b eqn:? end; lia.
Qed.
Print Assumptions C82_timeout_partial.
Example C82_nonvacuous :
  let w := World (fun _ => None) (fun _ => true) (fun _ => None) (fun _ => true) (fun l => l) (LogEnv (fun _ => true) true) in
  let c := Config [] (RuntimeConfig 0 None) logging_default [] None
             (TcpConfig [] (TlsConfig (B "all.pem") (B "all.key") 500) 0 0 0) http_default [] []
             [(chars "web", ex_service [] [] HelloService)] [] in
  exists c' s', config_autofix w c = Some c' /\ In (chars "web", s') (c_services c')
  /\ run ex_x s' = Ret (Done None) /\ tls_timeout (t_tls (s_tcp s')) = 500%N.
Proof. cbv zeta. eexists. eexists. splits; [reflexivity|now left|reflexivity|reflexivity]. Qed.
