(** Facts about loading a configuration again. *)
From Verif Require Export F_Load F_Consumer S_Restart.

Definition er_l (l : logging_config) : logging_config :=
  LoggingConfig (l_service_name l) 0 (l_disable l) (l_timelayout l) (l_appenders l).
Definition er_s (s : service_config) : service_config :=
  ServiceConfig 0 (s_name s) (s_host s) (s_kind s) (er_l (s_logging s)) (s_tcp s) (s_http s).
Definition er_e (e : str * service_config) := (fst e, er_s (snd e)).
Definition er_a (a : appender) : appender := Appender 0 (a_renderer a) (a_filter a) (a_sink a).
Definition fixed_e tcp http (e : str * service_config) : str * service_config :=
  (fst e, ServiceConfig 0 (trim_str (fst e)) (s_host (snd e)) (s_kind (snd e))
            (logging_autofix (s_logging (snd e)) (trim_str (fst e)) 0)
            (tcp_autofix (s_tcp (snd e)) (Some tcp)) (http_autofix (s_http (snd e)) (Some http))).

Lemma er_same s s' : er_s s = er_s s' -> same_unnumbered s s'.
Proof. unfold er_s, er_l. intros [= ? ? ? ? ? ? ? ? ?]. unfold same_unnumbered. splits; congruence. Qed.

Lemma autofix_erased w tcp http : forall l slab l' slab', autofix_services w tcp http l slab = Some (l', slab') ->
  map er_e l' = map (fixed_e tcp http) l /\ length slab' = length slab + length l.
Proof.
  induction l as [|[k s] l IH]; intros slab l' slab' H; cbn [autofix_services] in H.
  - injection H as <- <-. cbn. split; [easy|lia].
  - cbv zeta in H. destruct (trim_str k) as [|x t] eqn:Et; [discriminate|]. rewrite <- Et in H. unfold service_autofix in H.
    destruct (kind_ok w (s_kind s)); [|discriminate].
    destruct (autofix_services w tcp http l (slab ++ [[]])) as [[r' sl']|] eqn:E; [|discriminate].
    injection H as <- <-. destruct (IH _ _ _ E) as [A B]. rewrite app_length in B. cbn [map length] in *. split; [|lia].
    rewrite A. reflexivity.
Qed.

Lemma forall2_map_eq {A C} (f : A -> C) (R : A -> A -> Prop) (Hf : forall a b, f a = f b -> R a b) :
  forall l l', map f l = map f l' -> Forall2 R l l'.
Proof.
  induction l as [|a l IH]; intros [|b l'] H; try discriminate; constructor; injection H; auto.
Qed.
Lemma forall2_map_in {A C} (f : A -> C) (R : A -> A -> Prop) : forall l l', map f l = map f l' ->
  (forall a b, In a l -> In b l' -> f a = f b -> R a b) -> Forall2 R l l'.
Proof.
  induction l as [|a l IH]; intros [|b l'] H Hf; try discriminate; constructor; injection H; intros.
  - apply Hf; auto; now left.
  - apply IH; auto. intros; apply Hf; auto; now right.
Qed.
Lemma perm_map {A C} (f : A -> C) (R : A -> A -> Prop) (Hf : forall a b, f a = f b -> R a b) l l' :
  Permutation (map f l) (map f l') -> exists p, Permutation l' p /\ Forall2 R l p.
Proof.
  intros H. apply Permutation_map_inv in H as (p & E & P). exists p. split; [easy|]. eapply forall2_map_eq; eauto.
Qed.
Lemma er_services l l' : Permutation (map er_e l) (map er_e l') ->
  exists p, Permutation l' p /\ Forall2 (fun e e' => fst e' = fst e /\ same_unnumbered (snd e) (snd e')) l p.
Proof.
  apply perm_map. intros [k s] [k' s'] H. unfold er_e in H. cbn [fst snd] in *. split; [congruence|].
  apply er_same. congruence.
Qed.

Definition same_but c c' : Prop := same_settings c c' /\ c_include c' = c_include c /\ c_includes c' = c_includes c
  /\ length (c_slab c') = length (c_slab c) /\ Permutation (map er_e (c_services c)) (map er_e (c_services c')).

Lemma autofix_services_world w w' tcp http : e_exists w' = e_exists w -> forall l slab,
  autofix_services w' tcp http l slab = autofix_services w tcp http l slab.
Proof.
  intros E. induction l as [|[k s] l IH]; intros slab; cbn [autofix_services]; [easy|].
  unfold service_autofix, kind_ok. rewrite E, IH. reflexivity.
Qed.
Lemma autofix_again w w' c c1 : (forall l, Permutation (e_order w l) l) -> another_run w w' -> config_autofix w c = Some c1 ->
  exists c2, config_autofix w' c = Some c2 /\ same_but c1 c2.
Proof.
  intros Ho (_ & _ & _ & Ex & _ & Ho'). unfold config_autofix. cbv zeta.
  destruct (autofix_services w _ _ (e_order w (c_services c)) _) as [[l1 s1]|] eqn:E; [|discriminate]. intros [= <-].
  destruct (autofix_services w' (tcp_autofix (c_tcp c) None) (http_autofix (c_http c) None)
              (e_order w' (c_services c)) (c_slab c ++ [[]])) as [[l2 s2]|] eqn:E2.
  - eexists. split; [reflexivity|]. rewrite (autofix_services_world w w' _ _ Ex) in E2.
    apply autofix_erased in E as [A B]. apply autofix_erased in E2 as [A2 B2].
    unfold same_but, same_settings. cbn. splits; try reflexivity.
    + rewrite B, B2, (Permutation_length (Ho _)), (Permutation_length (Ho' _)). reflexivity.
    + rewrite A, A2. apply Permutation_map. etransitivity; [apply Ho|symmetry; apply Ho'].
  - exfalso. rewrite (autofix_services_world w w' _ _ Ex) in E2.
    destruct (autofix_services_some w (tcp_autofix (c_tcp c) None) (http_autofix (c_http c) None)
                (e_order w' (c_services c)) (c_slab c ++ [[]])) as (r & Er); [|congruence].
    apply Forall_forall. intros [k s] Hin. apply (Permutation_in _ (Ho' _)) in Hin.
    apply (Permutation_in _ (Permutation_sym (Ho _))) in Hin. apply In_nth_error in Hin as (i & Hi).
    apply autofix_services_spec in E as (_ & _ & Hn). destruct (Hn i k s Hi) as (H1 & H2 & _). cbn.
    split; [|now apply kind_root]. intros Hb. now apply trim_blank in Hb.
Qed.
Lemma include_patterns_world w w' : e_glob w' = e_glob w -> forall ps l, include_patterns w' l ps = include_patterns w l ps.
Proof.
  intros E. induction ps as [|p ps IH]; intros l; cbn [include_patterns]; [easy|]. unfold include_pattern. rewrite E.
  destruct (e_glob w p); [|easy]. destruct (include_all l l0); [apply IH|easy].
Qed.
Lemma load_again w w' arg c : (forall l, Permutation (e_order w l) l) -> another_run w w' -> load_config w arg = Some c ->
  exists c', load_config w' arg = Some c' /\ same_but c c'.
Proof.
  intros Ho A. unfold load_config. destruct (trim_str arg); [now apply autofix_again|].
  unfold config_load. pose proof A as (-> & -> & Eg & _). destruct (e_file w arg) as [c0|]; [|discriminate].
  destruct (match c_workdir c0 with [] => false | d => negb (e_chdir w d) end); [discriminate|].
  unfold include_pattern at 2. rewrite Eg. fold (include_pattern w).
  assert (G : forall p, match e_glob w p with Some es => include_all (c_services c0) es | None => None end
                        = include_pattern w (c_services c0) p) by reflexivity.
  destruct (c_include c0) as [|x p].
  - rewrite (include_patterns_world w w' Eg). destruct (include_patterns w (c_services c0) (c_includes c0)); [|discriminate].
    now apply autofix_again.
  - rewrite ?G. destruct (include_pattern w (c_services c0) (x :: p)); [|discriminate].
    rewrite (include_patterns_world w w' Eg). destruct (include_patterns w l0 (c_includes c0)); [|discriminate].
    now apply autofix_again.
Qed.

(** logging *)
Definition omap {A C} (f : A -> C) (x : outcome (option A)) : outcome (option C) := r <- x ;; Ret (option_map f r).
Lemma init_erased e p name n : forall cfgs idx fps,
  init_appenders e p name 0 cfgs idx fps = omap (map er_a) (init_appenders e p name n cfgs idx fps).
Proof.
  unfold omap. induction cfgs as [|[lv|lv eq d b] cfgs IH]; intros idx fps; cbn [init_appenders]; [reflexivity| |].
  - rewrite IH. destruct (init_appenders e p name n cfgs (S idx) fps) as [[r|]| | | |]; reflexivity.
  - cbv zeta. match goal with |- context [negb (can_open e ?q)] => destruct (negb (can_open e q)); [reflexivity|] end.
    destruct (d && negb (midnight_known e)); [reflexivity|].
    match goal with |- context [d && is_none ?q] => destruct (d && is_none q); [reflexivity|] end.
    rewrite IH. match goal with |- context [init_appenders e p name n cfgs (S idx) ?q] =>
      destruct (init_appenders e p name n cfgs (S idx) q) as [[r|]| | | |]; reflexivity end.
Qed.
Lemma section_erased e p : forall ss, section_appenders e p (map er_l ss) = omap (map er_a) (section_appenders e p ss).
Proof.
  induction ss as [|s ss IH]; [reflexivity|]. cbn [map section_appenders]. unfold logging_init.
  cbn [er_l l_disable l_service_name l_service_idx l_appenders]. rewrite IH. unfold omap.
  destruct (l_disable s) as [[|]|]; cbn [obind option_map]; try rewrite (init_erased e p (l_service_name s) (l_service_idx s));
    unfold omap; try (destruct (init_appenders _ _ _ _ _ _ _) as [[r|]| | | |]; cbn [obind option_map]; try reflexivity);
    destruct (section_appenders e p ss) as [[r'|]| | | |]; cbn [obind option_map unwrap_or]; try reflexivity;
    rewrite map_app; reflexivity.
Qed.
Lemma section_perm e p ss ss' : Permutation ss ss' -> forall l, section_appenders e p ss = Ret (Some l) ->
  exists l', section_appenders e p ss' = Ret (Some l') /\ Permutation l l'.
Proof.
  induction 1 as [|s ss ss' _ IH|s t ss|ss1 ss2 ss3 _ IH1 _ IH2]; intros l H.
  - exists l. auto.
  - cbn [section_appenders] in *. destruct (logging_init e s p) as [[o|]| | | |]; try discriminate. cbn [obind] in *.
    destruct (section_appenders e p ss) as [[r|]| | | |]; try discriminate. injection H as <-.
    destruct (IH r eq_refl) as (r' & -> & P). eexists. split; [reflexivity|]. now apply Permutation_app_head.
  - cbn [section_appenders] in *. destruct (logging_init e t p) as [[o|]| | | |]; try discriminate. cbn [obind] in *.
    destruct (logging_init e s p) as [[o'|]| | | |]; try discriminate. cbn [obind] in *.
    destruct (section_appenders e p ss) as [[r|]| | | |]; try discriminate. cbn [obind option_map] in *. injection H as <-.
    eexists. split; [reflexivity|]. rewrite !app_assoc. apply Permutation_app_tail, Permutation_app_comm.
  - destruct (IH1 l H) as (l1 & H1 & P1). destruct (IH2 l1 H1) as (l2 & H2 & P2). exists l2. split; [easy|]. now transitivity l1.
Qed.
Lemma init_one_erased e p s s' o o' : er_l s = er_l s' -> logging_init e s p = Ret (Some o) -> logging_init e s' p = Ret (Some o') ->
  map er_a (unwrap_or o []) = map er_a (unwrap_or o' []).
Proof.
  intros E H H'. pose proof (section_erased e p [s]) as A. pose proof (section_erased e p [s']) as A'.
  cbn [map] in A, A'. rewrite <- E in A'. rewrite A in A'. cbn [section_appenders] in A'. rewrite H, H' in A'. cbn in A'.
  rewrite !app_nil_r in A'. congruence.
Qed.
Lemma filter_all {A} (f : A -> bool) l : Forall (fun a => f a = true) l -> filter f l = l.
Proof. induction 1 as [|a l Ha _ IH]; cbn; [easy|]. now rewrite Ha, IH. Qed.
Lemma filter_no {A} (f : A -> bool) l : Forall (fun a => f a = false) l -> filter f l = [].
Proof. induction 1 as [|a l Ha _ IH]; cbn; [easy|]. now rewrite Ha, IH. Qed.
Lemma part_of e p : forall ss l s, section_appenders e p ss = Ret (Some l) -> NoDup (map l_service_idx ss) -> In s ss ->
  exists o, logging_init e s p = Ret (Some o) /\ outputs_of l (l_service_idx s) = unwrap_or o [].
Proof.
  assert (No : forall ss l n, section_appenders e p ss = Ret (Some l) -> ~ In n (map l_service_idx ss) -> outputs_of l n = []).
  { induction ss as [|t ss IH]; intros l n H Hn; cbn [section_appenders] in H; [injection H as <-; reflexivity|].
    destruct (logging_init e t p) as [[o|]| | | |] eqn:E; try discriminate. cbn [obind] in H.
    destruct (section_appenders e p ss) as [[r|]| | | |] eqn:E2; try discriminate. injection H as <-.
    unfold outputs_of. rewrite filter_app. fold (outputs_of r n). rewrite (IH r n eq_refl) by (intros A; apply Hn; now right). rewrite app_nil_r.
    apply filter_no. apply logging_init_service in E. eapply Forall_impl; [|exact E]. cbn. intros a Ha. apply Nat.eqb_neq.
    intros A. apply Hn. left. congruence. }
  induction ss as [|t ss IH]; intros l s H N I; [easy|]. cbn [section_appenders] in H.
  destruct (logging_init e t p) as [[o|]| | | |] eqn:E; try discriminate. cbn [obind] in H.
  destruct (section_appenders e p ss) as [[r|]| | | |] eqn:E2; try discriminate. injection H as <-. cbn [map] in N.
  inversion N as [|? ? N1 N2]; subst. pose proof (logging_init_service _ _ _ _ E) as F. unfold outputs_of. rewrite filter_app.
  destruct I as [->|I].
  - exists o. split; [easy|]. rewrite filter_all.
    2:{ eapply Forall_impl; [|exact F]. cbn. intros a Ha. now apply Nat.eqb_eq. }
    fold (outputs_of r (l_service_idx s)). rewrite (No ss r) by easy. apply app_nil_r.
  - destruct (IH r s eq_refl N2 I) as (o' & E' & A). exists o'. split; [easy|]. rewrite filter_no; [exact A|].
    eapply Forall_impl; [|exact F]. cbn. intros a Ha. apply Nat.eqb_neq. intros B. apply N1. rewrite <- Ha, B.
    apply in_map_iff. eauto.
Qed.
Lemma sections_nodup w arg c : world_ok w -> load_config w arg = Some c ->
  NoDup (map l_service_idx (c_logging c :: map (fun e => s_logging (snd e)) (c_services c))) /\ l_service_idx (c_logging c) = 0
  /\ forall e, In e (c_services c) -> l_service_idx (s_logging (snd e)) = s_idx (snd e).
Proof.
  intros W L. destruct (indices w arg c W L) as (N & F & Z). rewrite Forall_forall in F.
  assert (M : map l_service_idx (map (fun e => s_logging (snd e)) (c_services c)) = map (fun e => s_idx (snd e)) (c_services c)).
  { rewrite map_map. apply map_ext_in. intros e He. now apply F. }
  splits; [|easy|intros e He; now apply F]. cbn [map]. rewrite M, Z. constructor; [|easy].
  intros I. apply in_map_iff in I as (e & E & He). apply F in He. lia.
Qed.
Lemma another_ok w w' : world_ok w -> another_run w w' -> world_ok w'.
Proof. intros [_ H] (E & _ & _ & _ & _ & Ho). split; [easy|]. now rewrite E. Qed.
Lemma er_outputs l l' : map er_a l = map er_a l' -> same_outputs l l'.
Proof. apply forall2_map_eq. intros [? ? ? ?] [? ? ? ?] [= ? ? ?]. cbn. splits; congruence. Qed.

Lemma outputs_same w w' arg c c' l : world_ok w -> world_ok w' -> e_log w' = e_log w -> load_config w arg = Some c ->
  load_config w' arg = Some c' -> same_settings c c' -> Permutation (map er_e (c_services c)) (map er_e (c_services c')) ->
  all_appenders w c = Ret (Some l) -> exists l', all_appenders w' c' = Ret (Some l') /\ same_logs c l c' l'.
Proof.
  intros W W' El Hc Hc' (_ & _ & L & P & _) S.
  destruct (sections_nodup w arg c W Hc) as (N & Z & I). destruct (sections_nodup w' arg c' W' Hc') as (N' & Z' & I').
  unfold all_appenders. rewrite El, P. rewrite L in *. intros H.
  set (ss := c_logging c :: map (fun e => s_logging (snd e)) (c_services c)) in *.
  set (ss' := c_logging c :: map (fun e => s_logging (snd e)) (c_services c')) in *.
  assert (Q : Permutation (map er_l ss) (map er_l ss')).
  { cbn [ss ss' map]. apply perm_skip. rewrite !map_map.
    apply (Permutation_map (fun e => s_logging (snd e))) in S. rewrite !map_map in S. exact S. }
  pose proof (section_erased (e_log w) (c_logpath c) ss) as E. rewrite H in E. cbn in E.
  destruct (section_perm _ _ _ _ Q _ E) as (l1 & E1 & P1). rewrite section_erased in E1. unfold omap in E1.
  destruct (section_appenders (e_log w) (c_logpath c) ss') as [[l'|]| | | |] eqn:E2; try discriminate.
  injection E1 as <-. exists l'. split; [reflexivity|]. unfold same_logs. splits.
  - apply Permutation_length in P1. now rewrite !map_length in P1.
  - destruct (part_of _ _ _ _ (c_logging c) H N (or_introl eq_refl)) as (o & O & ->%(eq_trans (f_equal _ (eq_sym Z)))).
    destruct (part_of _ _ _ _ (c_logging c) E2 N' (or_introl eq_refl)) as (o' & O' & ->%(eq_trans (f_equal _ (eq_sym Z)))).
    apply er_outputs. congruence.
  - apply Permutation_map_inv in S as (p & Ep & Pp). exists p. split; [easy|].
    assert (I2 : forall e, In e p -> In e (c_services c')) by (intros e; apply Permutation_in; now symmetry).
    apply (forall2_map_in er_e); [exact Ep|]. intros [k s] [k' s'] Ha Hb Hab. apply I2 in Hb. unfold er_e in Hab.
    cbn [fst snd] in *. assert (Hk : k' = k) by congruence.
    assert (Hs : er_s s = er_s s') by congruence. splits; [easy|now apply er_same|].
    destruct (part_of _ _ _ _ (s_logging s) H N) as (o & O & Q1).
    { right. apply in_map_iff. exists (k, s). auto. }
    destruct (part_of _ _ _ _ (s_logging s') E2 N') as (o' & O' & Q2).
    { right. apply in_map_iff. exists (k', s'). auto. }
    apply I in Ha. apply I' in Hb. cbn [snd] in Ha, Hb. rewrite <- Ha, <- Hb, Q1, Q2. apply er_outputs.
    eapply init_one_erased; [|exact O|exact O']. exact (f_equal s_logging Hs).
Qed.
Lemma outputs_again w w' arg c c' l : world_ok w -> another_run w w' -> load_config w arg = Some c ->
  load_config w' arg = Some c' -> same_but c c' -> all_appenders w c = Ret (Some l) ->
  exists l', all_appenders w' c' = Ret (Some l') /\ same_logs c l c' l'.
Proof.
  intros W A Hc Hc' (S & _ & _ & _ & P) H. apply (outputs_same w w' arg); auto; [now apply (another_ok w)|apply A].
Qed.
