(** C132: every accepted service name can be used. *)
From Verif Require Import M_Threads S_Load F_Load F_LogStart F_LogPlace.

Lemma no_nul s : existsb (N.eqb 0) (name_of_thread s) = existsb (N.eqb 0) (s_name s).
Proof. unfold name_of_thread. rewrite existsb_app. reflexivity. Qed.
Lemma nul_in l : existsb (N.eqb 0) l = true <-> In 0%N l.
Proof.
  rewrite existsb_exists. split; [intros (x & H & E); apply N.eqb_eq in E; now subst|intros H; exists 0%N; auto].
Qed.

(** C132 is violated: any name with a NUL character (which a TOML key can contain) is accepted, logging
    is set up, and then, with one thread per service, creating the thread panics. *)
Theorem C132_crash_refuted : forall u no order can fp name, (forall x, Permutation (no x) x) ->
  (forall x, Permutation (order x) x) -> ~ blank fp -> trimmed name name -> In 0%N name ->
  exists w c0 c k s, e_order w = order /\ loads w fp c0 c /\ map fst (c_services c0) = [name]
    /\ program u no w fp = Ret (Some (k, PerCore [s])) /\ s_name s = name
    /\ create_threads can 0 [s] = ([], NamePanic).
Proof.
  intros u no order can fp name Hno Ho Hb Ht Hz.
  pose (c0 := Config [] (RuntimeConfig 0 (Some true)) logging_default [] None tcp_default http_default [] []
                [(name, service_default)] []).
  pose (w := World (fun _ => Some c0) (fun _ => true) (fun _ => None) (fun _ => true) order (LogEnv (fun _ => true) true)).
  assert (W : world_ok w).
  { split; [exact Ho|]. intros f c [= <-]. split; [repeat constructor; intros []|reflexivity]. }
  assert (T : trim_str name = name) by now apply trim_spec.
  assert (L : exists c s, load_config w fp = Some c /\ c_services c = [(name, s)] /\ s_name s = name
            /\ s_logging s = logging_autofix logging_default name 1
            /\ c_logging c = logging_autofix logging_default [] 0 /\ c_runtime c = RuntimeConfig 0 (Some true)).
  { unfold load_config. destruct (trim_str fp) eqn:E; [apply trim_blank in E; contradiction|].
    unfold config_load. cbn [w e_file c0 c_workdir c_include c_includes include_patterns c_services].
    unfold config_autofix. cbv zeta. cbn [set_services c_services e_order w].
    rewrite (Permutation_length_1_inv (Permutation_sym (Ho [(name, service_default)]))).
    cbn [autofix_services]. rewrite T. destruct name as [|a name]; [destruct Hz|].
    unfold service_autofix. cbn [service_default s_kind kind_ok]. eexists _, _. split; [reflexivity|]. splits; reflexivity. }
  destruct L as (c & s & L & S & N & G & R & P).
  assert (A : exists a l, all_appenders w c = Ret (Some (a :: l))).
  { unfold all_appenders. rewrite S, R. cbn [map snd section_appenders]. rewrite G. eexists _, _. reflexivity. }
  destruct A as (a & l & A). destruct (logging_starts u no w fp c (a :: l) W Hno L A) as (k & E & _); [discriminate|].
  exists w, c0, c, k, s. splits; auto; try reflexivity.
  - unfold loads. splits; auto.
  - unfold program. rewrite L, E. cbn [obind]. rewrite S, P. reflexivity.
  - cbn [create_threads]. rewrite no_nul, N, (proj2 (nul_in name) Hz). reflexivity.
Qed.
Print Assumptions C132_crash_refuted.

(** The services before it have been given their threads by then. *)
Theorem C132_earlier_refuted : forall l1 s l2, In 0%N (s_name s) -> Forall (fun x => ~ In 0%N (s_name x)) l1 ->
  create_threads (fun _ => true) 0 (l1 ++ s :: l2) = (map (fun x => chars "httpd.service:" ++ s_name x) l1, NamePanic).
Proof.
  intros l1 s l2 Hz Hl. generalize 0. induction Hl as [|x l1 Hx _ IH]; intros i; cbn [app create_threads map]; rewrite no_nul.
  - now rewrite (proj2 (nul_in _) Hz).
  - destruct (existsb (N.eqb 0) (s_name x)) eqn:E; [apply nul_in in E; contradiction|]. rewrite (IH (S i)). reflexivity.
Qed.
Print Assumptions C132_earlier_refuted.

(** What holds: without such a name among the keys of the services nothing panics: every service
    gets a thread that bears its name, or the first thread that cannot be created is reported. *)
Theorem C132_named_partial : forall u no w fp c0 c k l can, loads w fp c0 c ->
  (forall key s, In (key, s) (c_services c) -> ~ In 0%N key) ->
  program u no w fp = Ret (Some (k, PerCore l)) ->
  exists n, fst (create_threads can 0 l) = map (fun s => chars "httpd.service:" ++ s_name s) (firstn n l)
    /\ (forall i, i < n -> can i = true)
    /\ ((snd (create_threads can 0 l) = AllCreated /\ n = length l)
        \/ (snd (create_threads can 0 l) = NotCreated /\ n < length l /\ can n = false)).
Proof.
  intros u no w fp c0 c k l can Hl Hk Hp.
  assert (El : l = map snd (c_services c)).
  { destruct Hl as (_ & _ & _ & Hl). unfold program in Hp. rewrite Hl in Hp.
    destruct (config_logging u no w c) as [[[lv q]|]| | | |]; try discriminate. cbn [obind] in Hp.
    destruct (map snd (c_services c)); [discriminate|]. destruct (rt_per_core (c_runtime c)) as [[]|]; congruence. }
  assert (N : Forall (fun s => ~ In 0%N (s_name s)) l).
  { subst l. apply Forall_forall. intros s Hs. apply in_map_iff in Hs as ([key s'] & <- & Hi). cbn [snd].
    intros Hz. apply (Hk key s' Hi). pose proof Hl as (W & _ & _ & Hl').
    destruct (names_trimmed w fp c W Hl') as (_ & T). rewrite Forall_forall in T. destruct (T _ Hi) as [(a & b & E & _) _]. cbn [fst snd] in E. rewrite E. rewrite !in_app_iff. auto. }
  clear - N. assert (G : forall i, exists n, fst (create_threads can i l) = map (fun s => chars "httpd.service:" ++ s_name s) (firstn n l)
    /\ (forall j, j < n -> can (i + j) = true)
    /\ ((snd (create_threads can i l) = AllCreated /\ n = length l)
        \/ (snd (create_threads can i l) = NotCreated /\ n < length l /\ can (i + n) = false))).
  { induction N as [|s l Hs _ IH]; intros i; cbn [create_threads].
    - exists 0. splits; [reflexivity|intros j Hj; lia|now left].
    - rewrite no_nul. destruct (existsb (N.eqb 0) (s_name s)) eqn:E; [apply nul_in in E; contradiction|].
      destruct (can i) eqn:C.
      + destruct (IH (S i)) as (n & A & D & F). exists (S n). cbn [fst snd firstn map length]. rewrite A. splits; auto.
        * intros [|j] Hj; [now rewrite Nat.add_0_r|]. rewrite Nat.add_succ_r. apply D. lia.
        * rewrite Nat.add_succ_r. destruct F as [[F1 F2]|(F1 & F2 & F3)]; [left|right]; splits; auto; lia.
      + exists 0. cbn [fst snd firstn map length]. splits; [reflexivity|intros j Hj; lia|].
        right. rewrite Nat.add_0_r. splits; auto. lia. }
  exact (G 0).
Qed.
Print Assumptions C132_named_partial.

Example C132_nonvacuous :
  let c0 := Config [] (RuntimeConfig 0 (Some true)) logging_default [] None tcp_default http_default [] []
              [(chars "web", service_default); (chars "a" ++ [0%N], service_default)] [] in
  let w c := World (fun _ => Some c) (fun _ => true) (fun _ => None) (fun _ => true) (fun l => l) (LogEnv (fun _ => true) true) in
  let u := Unicode (fun _ => false) (fun c => [c]) in
  let threads c := match program u (fun l => l) (w c) (chars "f") with
                   | Ret (Some (_, PerCore l)) => Some (create_threads (fun _ => true) 0 l)
                   | _ => None
                   end in
  trimmed (chars "a" ++ [0%N]) (chars "a" ++ [0%N])
  /\ threads c0 = Some ([chars "httpd.service:web"], NamePanic)
  /\ threads (set_services c0 [(chars "web", service_default)]) = Some ([chars "httpd.service:web"], AllCreated).
Proof. cbv zeta. splits; [apply trim_spec; reflexivity|vm_compute; reflexivity|vm_compute; reflexivity]. Qed.
