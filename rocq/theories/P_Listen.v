(** Properties C123-C125: where services listen, hosts, and the exit status. *)
From Verif Require Import F_Base F_Load P_Load S_Listen F_Listen P_System.

(** C123 fails: a service that gives no address never listens, whatever address the root section
    gives; the configuration is accepted all the same. *)
Theorem C123_root_address_refuted : forall w fp c0 c k s0 s i net x l st, loads w fp c0 c -> given w c0 k s0 ->
  In (k, s) (c_services c) -> t_addr (s_tcp s0) = [] -> n_resolve net [] = [] ->
  (forall a b, n_clash net a b = n_clash net b a) ->
  nth_error (map snd (c_services c)) i = Some s ->
  units_run net x (map snd (c_services c)) (units_start (map snd (c_services c))) l = Some st ->
  (forall a, ~ listening st i a)
  /\ forall st', unit_step net x (map snd (c_services c)) st (StartUnit i) = Some st' -> nth_error (u_states st') i = Some (IsOver AnError).
Proof.
  intros w fp c0 c k s0 s i net x l st H Hg Hin Ha Hr Hs Hi Hl.
  destruct (load_service w fp c0 c k s0 s H Hg Hin) as (_ & _ & Ht & _).
  assert (A : t_addr (s_tcp s) = []) by (rewrite Ht; exact Ha). split.
  - intros a La. destruct (reached_sound net x _ l st Hs Hl) as (_ & S2 & _). destruct (S2 i a s La Hi) as [X _].
    rewrite A, Hr in X. exact X.
  - intros st' E. unfold unit_step in E. destruct (u_exit st); [discriminate|]. rewrite Hi in E.
    destruct (nth_error (u_states st) i) as [[| |]|] eqn:Eu; try discriminate. injection E as <-. cbn [u_states].
    rewrite nth_update, Nat.eqb_refl, Eu. cbn [option_map]. unfold start_unit, bind_first. now rewrite A, Hr.
Qed.
Print Assumptions C123_root_address_refuted.
(** C123, what holds: a service listens on the address it gives and on no other ... *)
Theorem C123_own_partial : forall w fp c0 c k s0 s i net x l st a, loads w fp c0 c -> given w c0 k s0 ->
  In (k, s) (c_services c) -> (forall a b, n_clash net a b = n_clash net b a) ->
  nth_error (map snd (c_services c)) i = Some s ->
  units_run net x (map snd (c_services c)) (units_start (map snd (c_services c))) l = Some st ->
  listening st i a -> In a (n_resolve net (t_addr (s_tcp s0))) /\ n_allows net a = true.
Proof.
  intros w fp c0 c k s0 s i net x l st a H Hg Hin Hs Hi Hl La.
  destruct (load_service w fp c0 c k s0 s H Hg Hin) as (_ & _ & Ht & _).
  destruct (reached_sound net x _ l st Hs Hl) as (_ & S2 & _).
  replace (t_addr (s_tcp s0)) with (t_addr (s_tcp s)) by (now rewrite Ht). now apply (S2 i).
Qed.
Print Assumptions C123_own_partial.
(** ... namely, when it starts, on the first one that is free, if it is one of the built-in services
    and its certificate can be used; otherwise it ends. *)
Theorem C123_starts_partial : forall net x services st st' i s, nth_error services i = Some s ->
  unit_step net x services st (StartUnit i) = Some st' ->
  (forall a, listening st' i a <-> first_of net (listened (u_states st)) (t_addr (s_tcp s)) a /\ presentable x s)
  /\ ((forall a, ~ listening st' i a) -> exists r, nth_error (u_states st') i = Some (IsOver r))
  /\ forall j, j <> i -> nth_error (u_states st') j = nth_error (u_states st) j.
Proof.
  intros net x services st st' i s Hi E. unfold unit_step in E. destruct (u_exit st); [discriminate|]. rewrite Hi in E.
  destruct (nth_error (u_states st) i) as [[| |]|] eqn:Eu; try discriminate. injection E as <-. unfold listening. cbn [u_states].
  splits.
  - intros a. rewrite nth_update, Nat.eqb_refl, Eu. cbn [option_map]. rewrite <- start_listens. split; [congruence|intros ->; reflexivity].
  - rewrite nth_update, Nat.eqb_refl, Eu. cbn [option_map]. destruct (start_unit net x (listened (u_states st)) s) as [|a|r] eqn:Es; eauto.
    + unfold start_unit in Es. destruct (bind_first net (listened (u_states st)) (t_addr (s_tcp s))); [|discriminate].
      destruct (run (with_bind x true) s) as [[|]| | | |]; discriminate.
    + intros H. now elim (H a).
  - intros j Hj. rewrite nth_update. destruct (Nat.eqb_spec i j); congruence.
Qed.
Print Assumptions C123_starts_partial.
Definition ex_net : network :=
  Network (fun t => match t with [] => [] | c :: _ => [N_of_ascii c] end) (fun a => negb (a =? 0)%N) N.eqb.
Definition ex_services : list service_config := map snd (c_services ex_loaded).
Lemma ex_net_sym : forall a b, n_clash ex_net a b = n_clash ex_net b a.
Proof. intros a b. apply N.eqb_sym. Qed.
Example C123_nonvacuous :
  loads (ex_dir ex_main) ex_fp ex_main ex_loaded /\ given (ex_dir ex_main) ex_main (chars "web") ex_found
  /\ In (chars "web", ex_at "web") (c_services ex_loaded) /\ t_addr (s_tcp ex_found) = [] /\ n_resolve ex_net [] = []
  /\ nth_error ex_services 1 = Some (ex_at "web") /\ nth_error ex_services 0 = Some (ex_at "files")
  /\ presentable ex_tls (ex_at "files")
  /\ exists st, units_run ex_net ex_tls ex_services (units_start ex_services) [StartUnit 1; StartUnit 0] = Some st
     /\ u_states st = [Listens 49; IsOver AnError].
Proof.
  split; [exact ex_loads|]. split; [exact (proj2 ex_given)|]. split; [exact (proj2 ex_at_in)|].
  split; [reflexivity|]. split; [reflexivity|]. split; [vm_compute; reflexivity|]. split; [vm_compute; reflexivity|].
  split; [split; [right; exists (chars "www")|exists None]; vm_compute; reflexivity|].
  eexists. split; vm_compute; reflexivity.
Qed.

(** C124 fails: of two services with the same address (with a fixed port) at most one listens at any
    time, whatever their hosts ... *)
Theorem C124_shared_refuted : forall net x services l st i j si sj a b, (forall a b, n_clash net a b = n_clash net b a) ->
  units_run net x services (units_start services) l = Some st -> i <> j ->
  nth_error services i = Some si -> nth_error services j = Some sj ->
  t_addr (s_tcp si) = t_addr (s_tcp sj) -> fixed_address net (t_addr (s_tcp si)) ->
  ~ (listening st i a /\ listening st j b).
Proof.
  intros net x services l st i j si sj a b Hs Hl Hij Hi Hj E (p & Hp & Hc) [La Lb].
  destruct (reached_sound net x services l st Hs Hl) as (_ & S2 & S3 & _).
  destruct (S2 i a si La Hi) as [A _]. destruct (S2 j b sj Lb Hj) as [B _]. rewrite <- E in B. rewrite Hp in A, B.
  destruct A as [<-|[]]. destruct B as [<-|[]]. rewrite (S3 i j p p Hij La Lb) in Hc. discriminate.
Qed.
Print Assumptions C124_shared_refuted.
(** ... and the host of a service makes no difference: neither to where it listens nor to whom it
    answers what. *)
Theorem C124_host_refuted : forall (K : codec) fuel x s host clients evs net taken,
  service_life (K := K) fuel x (with_host s host) clients evs = service_life fuel x s clients evs
  /\ start_unit net x taken (with_host s host) = start_unit net x taken s.
Proof. intros. split; reflexivity. Qed.
Print Assumptions C124_host_refuted.
(** C124, what holds: services at different addresses do not get into each other's way. *)
Theorem C124_apart_partial : forall net x services l st i s a, (forall a b, n_clash net a b = n_clash net b a) ->
  units_run net x services (units_start services) l = Some st -> nth_error services i = Some s ->
  nth_error (u_states st) i = Some Unstarted ->
  n_resolve net (t_addr (s_tcp s)) = [a] -> n_allows net a = true -> presentable x s ->
  (forall j t b, j <> i -> nth_error services j = Some t -> In b (n_resolve net (t_addr (s_tcp t))) -> n_clash net a b = false) ->
  exists st', unit_step net x services st (StartUnit i) = Some st' /\ listening st' i a.
Proof.
  intros net x services l st i s a Hs Hl Hi Hu Hr Ha Hp Hd.
  destruct (reached_sound net x services l st Hs Hl) as (S1 & S2 & _ & S4).
  assert (E : u_exit st = None).
  { destruct (u_exit st) as [e|]; [|reflexivity]. destruct (S4 e eq_refl) as [_ F]. rewrite Forall_forall in F.
    apply nth_error_In in Hu. apply F in Hu. discriminate. }
  unfold unit_step. rewrite E, Hi, Hu. eexists. split; [reflexivity|]. unfold listening. cbn [u_states].
  rewrite nth_update, Nat.eqb_refl, Hu. cbn [option_map]. f_equal. apply start_listens. split; [|exact Hp].
  exists [], []. splits; auto.
  split; [exact Ha|]. intros b Hb. apply listened_in in Hb as [j Hj].
  assert (j <> i) by congruence. destruct (nth_error services j) as [t|] eqn:Et.
  - apply (Hd j t b); auto. now apply (S2 j b t).
  - apply nth_error_None in Et. assert (j < length (u_states st)) by (apply nth_error_Some; congruence). lia.
Qed.
Print Assumptions C124_apart_partial.
Definition ex_twins : list service_config :=
  [with_host (ex_at "files") (chars "a.org"); with_host (ex_at "files") (chars "b.org")].
Example C124_nonvacuous :
  fixed_address ex_net (t_addr (s_tcp (ex_at "files")))
  /\ (exists st, units_run ex_net ex_tls ex_twins (units_start ex_twins) [StartUnit 1; StartUnit 0] = Some st
      /\ u_states st = [IsOver AnError; Listens 49])
  /\ exists st st', units_run ex_net ex_tls ex_twins (units_start ex_twins) [StartUnit 1; StopUnit 1] = Some st
      /\ unit_step ex_net ex_tls ex_twins st (StartUnit 0) = Some st' /\ listening st' 0 49.
Proof.
  split; [exists 49%N; split; vm_compute; reflexivity|].
  split; [eexists; split; vm_compute; reflexivity|].
  eexists. eexists. split; [vm_compute; reflexivity|]. split; vm_compute; reflexivity.
Qed.

(** C125 fails: when no service can listen, all end with an error, and the program ends with exit
    status 0, the one for success, ... *)
Theorem C125_success_refuted : forall net x services, (forall a, n_allows net a = false) ->
  exists l, units_run net x services (units_start services) l = Some (Units (map (fun _ => IsOver AnError) services) (Some 0%N)).
Proof.
  intros net x services H. exists (map StartUnit (seq 0 (length services)) ++ [MainEnds]).
  exact (all_refused net x services H [] services eq_refl).
Qed.
Print Assumptions C125_success_refuted.
(** ... as it does whatever becomes of its services. *)
Theorem C125_always_refuted : forall net x services l st e, (forall a b, n_clash net a b = n_clash net b a) ->
  units_run net x services (units_start services) l = Some st -> u_exit st = Some e -> e = 0%N.
Proof.
  intros net x services l st e Hs Hl He. destruct (reached_sound net x services l st Hs Hl) as (_ & _ & _ & S4). now apply S4.
Qed.
Print Assumptions C125_always_refuted.
(** C125, what holds: a configuration that is refused gives exit status 1; and the program does not end
    as long as a service listens. *)
Theorem C125_config_partial : forall u no w fp, load_config w fp = None -> early_exit (program u no w fp) = Some 1%N.
Proof. intros u no w fp H. now rewrite (C89_refused u no w fp H). Qed.
Print Assumptions C125_config_partial.
Theorem C125_runs_partial : forall net x services l st i a, (forall a b, n_clash net a b = n_clash net b a) ->
  units_run net x services (units_start services) l = Some st -> listening st i a -> u_exit st = None.
Proof.
  intros net x services l st i a Hs Hl La. destruct (reached_sound net x services l st Hs Hl) as (_ & _ & _ & S4).
  destruct (u_exit st) as [e|]; [|reflexivity]. destruct (S4 e eq_refl) as [_ F]. rewrite Forall_forall in F.
  apply nth_error_In in La. apply F in La. discriminate.
Qed.
Print Assumptions C125_runs_partial.
(** A service that is stopped gives its address back; once none is left main can come to its end. *)
Theorem C125_ends_partial : forall net x services l st, (forall a b, n_clash net a b = n_clash net b a) ->
  units_run net x services (units_start services) l = Some st ->
  (forall i a, listening st i a -> exists st', unit_step net x services st (StopUnit i) = Some st'
     /\ (forall b, ~ listening st' i b) /\ forall j, j <> i -> nth_error (u_states st') j = nth_error (u_states st) j)
  /\ (u_exit st = None -> (forall i, i < length services -> exists r, nth_error (u_states st) i = Some (IsOver r)) ->
      exists st', unit_step net x services st MainEnds = Some st' /\ u_exit st' <> None).
Proof.
  intros net x services l st Hs Hl. destruct (reached_sound net x services l st Hs Hl) as (S1 & _). split.
  - intros i a La. unfold unit_step. rewrite (C125_runs_partial net x services l st i a Hs Hl La). unfold listening in La. rewrite La.
    eexists. split; [reflexivity|]. unfold listening. cbn [u_states]. split.
    + intros b. rewrite nth_update, Nat.eqb_refl, La. discriminate.
    + intros j Hj. rewrite nth_update. destruct (Nat.eqb_spec i j); congruence.
  - intros E H. unfold unit_step. rewrite E.
    replace (forallb is_over (u_states st)) with true; [eexists; split; [reflexivity|discriminate]|].
    symmetry. apply forallb_forall. intros u Hu. apply In_nth_error in Hu as [i Hi].
    destruct (H i) as [r Hr]; [rewrite <- S1; apply nth_error_Some; congruence|]. rewrite Hi in Hr. now injection Hr as ->.
Qed.
Print Assumptions C125_ends_partial.
Example C125_nonvacuous :
  (exists st, units_run ex_net ex_tls ex_services (units_start ex_services) [StartUnit 0; StartUnit 1; StopUnit 0; MainEnds] = Some st
     /\ u_exit st = Some 0%N)
  /\ load_config (ex_dir ex_main) (chars "other.toml") = None.
Proof. split; [eexists; split; vm_compute; reflexivity|vm_compute; reflexivity]. Qed.
