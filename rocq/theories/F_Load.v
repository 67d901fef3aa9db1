(** Facts about whole configurations. *)
From Verif Require Export F_Config F_Settings S_Load.

Lemma include_patterns_from w : forall ps services services', include_patterns w services ps = Some services' ->
  exists added, services' = services ++ added
  /\ (forall k s, In (k, s) added -> exists p es e s0, In p ps /\ e_glob w p = Some es /\ In e es
        /\ service_file e k s0 /\ s = with_name s0 k)
  /\ (forall p es e k s, In p ps -> e_glob w p = Some es -> In e es -> service_file e k s ->
        In (k, with_name s k) added).
Proof.
  induction ps as [|p ps IH]; intros services services'; cbn [include_patterns].
  - intros [= <-]. exists []. splits; [now rewrite app_nil_r|easy|easy].
  - unfold include_pattern. destruct (e_glob w p) as [es|] eqn:Eg; [|discriminate].
    destruct (include_all services es) as [s1|] eqn:E; [|discriminate].
    apply include_all_spec in E as (added & Hg & -> & Hn & Hd). intros H.
    apply IH in H as (added' & -> & H1 & H2). exists (added ++ added'). splits; [now rewrite app_assoc| |].
    + intros k s Hin. apply in_app_or in Hin as [Hin|Hin].
      * clear - Hg Hin Eg. exists p, es.
        assert (G : exists e s0, In e es /\ service_file e k s0 /\ s = with_name s0 k).
        { clear Eg. induction Hg as [|e es l Hp Hg IHg|e es l name s0 Hf Hg IHg]; [easy| |].
          - destruct (IHg Hin) as (e' & s0 & H1 & H2 & H3). exists e', s0. splits; auto. now right.
          - destruct Hin as [Hin|Hin].
            + injection Hin as <- <-. exists e, s0. splits; auto. now left.
            + destruct (IHg Hin) as (e' & s1 & H1 & H2 & H3). exists e', s1. splits; auto. now right. }
        destruct G as (e & s0 & G1 & G2 & G3). exists e, s0. splits; auto. now left.
      * destruct (H1 k s Hin) as (p' & es' & e & s0 & G1 & G2). exists p', es', e, s0. split; [now right|easy].
    + intros q eq e k s [<-|Hq] Hgq He Hs; apply in_or_app; [left|right; eauto].
      rewrite Eg in Hgq. injection Hgq as <-. clear - Hg He Hs.
      induction Hg as [|e' es l Hp Hg IHg|e' es l name s0 Hf Hg IHg]; [easy| |].
      * destruct He as [->|He]; [exfalso; eapply service_file_not_passed; eassumption|auto].
      * destruct He as [->|He]; [|now right; auto]. left.
        destruct (include_one_kind [] e) as [Hp E|Hnp Hno E|name1 s1 Hs1 Hu E].
        -- exfalso. eapply service_file_not_passed; eassumption.
        -- exfalso. eapply Hno; eassumption.
        -- destruct (Hu _ _ Hs) as [-> ->]. destruct (Hu _ _ Hf) as [-> ->]. reflexivity.
Qed.

(** what becomes of a given service *)
Definition becomes (c : config) (s0 s : service_config) : Prop :=
  s_kind s = s_kind s0 /\ s_host s = s_host s0
  /\ s_tcp s = tcp_autofix (s_tcp s0) (Some (c_tcp c))
  /\ s_http s = http_autofix (s_http s0) (Some (c_http c))
  /\ l_appenders (s_logging s) = l_appenders (s_logging s0)
  /\ l_disable (s_logging s) = l_disable (s_logging s0).
Lemma autofix_becomes w c c' : world_ok w -> config_autofix w c = Some c' ->
  c_tcp c' = tcp_autofix (c_tcp c) None /\ c_http c' = http_autofix (c_http c) None
  /\ c_runtime c' = c_runtime c /\ c_loglevel c' = c_loglevel c
  /\ l_appenders (c_logging c') = l_appenders (c_logging c) /\ l_disable (c_logging c') = l_disable (c_logging c)
  /\ (forall k s, In (k, s) (c_services c') -> exists s0, In (k, s0) (c_services c) /\ becomes c' s0 s)
  /\ (forall k s0, In (k, s0) (c_services c) -> exists s, In (k, s) (c_services c') /\ becomes c' s0 s)
  /\ Forall (fun e => kind_ok w (s_kind (snd e)) = true) (c_services c').
Proof.
  intros [Ho _]. unfold config_autofix. cbv zeta.
  destruct (autofix_services w _ _ _ _) as [[services slab]|] eqn:E; [|discriminate].
  intros [= <-]. apply autofix_services_spec in E as (_ & Hlen & Hnth).
  cbn [c_tcp c_http c_runtime c_loglevel c_logging c_services]. unfold becomes. cbn [c_tcp c_http].
  assert (B : forall k s, In (k, s) services -> exists i s0, nth_error (e_order w (c_services c)) i = Some (k, s0)
    /\ kind_ok w (s_kind s0) = true /\ s_kind s = s_kind s0 /\ s_host s = s_host s0
    /\ s_tcp s = tcp_autofix (s_tcp s0) (Some (tcp_autofix (c_tcp c) None))
    /\ s_http s = http_autofix (s_http s0) (Some (http_autofix (c_http c) None))
    /\ l_appenders (s_logging s) = l_appenders (s_logging s0)
    /\ l_disable (s_logging s) = l_disable (s_logging s0)).
  { intros k s Hin. apply In_nth_error in Hin as (i & Hi).
    assert (Hlt : i < length (e_order w (c_services c))) by (rewrite <- Hlen; apply nth_error_Some; congruence).
    destruct (nth_error (e_order w (c_services c)) i) as [[k0 s0]|] eqn:El; [|apply nth_error_None in El; lia].
    destruct (Hnth i k0 s0 El) as (_ & H1 & H2). rewrite H2 in Hi. injection Hi as <- <-. exists i, s0. cbn. splits; easy. }
  splits; try reflexivity.
  - intros k s Hin. destruct (B k s Hin) as (i & s0 & Hi & _ & H). exists s0. split; [|exact H].
    apply (Permutation_in _ (Ho (c_services c))). eapply nth_error_In; eauto.
  - intros k s0 Hin. apply (Permutation_in _ (Permutation_sym (Ho _))) in Hin. apply In_nth_error in Hin as (i & Hi).
    destruct (Hnth i k s0 Hi) as (_ & _ & H). eexists. split; [eapply nth_error_In; exact H|]. cbn. splits; easy.
  - apply Forall_forall. intros [k s] Hin. destruct (B k s Hin) as (i & s0 & _ & Hk & E & _). cbn. now rewrite E.
Qed.

(** the whole of it *)
Lemma becomes_named c s0 k s : becomes c (with_name s0 k) s <-> becomes c s0 s.
Proof. unfold becomes, with_name. cbn. reflexivity. Qed.
Lemma load_parts w fp c0 c : loads w fp c0 c ->
  c_tcp c = tcp_autofix (c_tcp c0) None /\ c_http c = http_autofix (c_http c0) None
  /\ c_runtime c = c_runtime c0 /\ c_loglevel c = c_loglevel c0
  /\ l_appenders (c_logging c) = l_appenders (c_logging c0) /\ l_disable (c_logging c) = l_disable (c_logging c0)
  /\ (forall k s, In (k, s) (c_services c) -> exists s0, becomes c s0 s
        /\ (given w c0 k s0 \/ k = chars "helloworld" /\ s0 = hello_service /\ forall k' s', ~ given w c0 k' s'))
  /\ (forall k s0, given w c0 k s0 -> exists s, In (k, s) (c_services c) /\ becomes c s0 s)
  /\ Forall (fun e => kind_ok w (s_kind (snd e)) = true) (c_services c)
  /\ NoDup (map fst (c_services c)).
Proof.
  intros (Hw & Hb & Ef & Hl). pose proof (proj1 (names_trimmed w fp c Hw Hl)) as Hnd. unfold load_config in Hl.
  destruct (trim_str fp) as [|x t] eqn:Et; [apply trim_blank in Et; contradiction|].
  rewrite (config_load_eq w fp c0 Ef) in Hl.
  destruct (match c_workdir c0 with [] => false | d => negb (e_chdir w d) end); [discriminate|].
  destruct (include_patterns w (c_services c0) (patterns c0)) as [s2|] eqn:E2; [|discriminate].
  apply include_patterns_from in E2 as (added & -> & A1 & A2).
  apply (autofix_becomes w _ c Hw) in Hl as (B1 & B2 & B3 & B4 & B5 & B6 & B7 & B8 & B9).
  cbn [set_services c_services c_tcp c_http c_runtime c_loglevel c_logging] in *. splits; auto.
  - intros k s Hin. apply B7 in Hin as (s0 & Hin & Hbec).
    assert (D : In (k, s0) (c_services c0 ++ added) \/ c_services c0 ++ added = [] /\ k = chars "helloworld" /\ s0 = hello_service).
    { destruct (c_services c0 ++ added) as [|y l]; [|now left]. right. destruct Hin as [Hin|[]]. injection Hin as <- <-. easy. }
    destruct D as [D|(D & -> & ->)].
    + apply in_app_or in D as [D|D]; [exists s0; split; [easy|left; now left]|].
      destruct (A1 k s0 D) as (p & es & e & s1 & H1 & H2 & H3 & H4 & ->).
      exists s1. split; [now apply becomes_named in Hbec|]. left. right. exists p, es, e. easy.
    + exists hello_service. split; [easy|]. right. splits; try reflexivity.
      apply app_eq_nil in D as [D1 D2]. intros k' s' [H|(p & es & e & H1 & H2 & H3 & H4)].
      * rewrite D1 in H. easy.
      * pose proof (A2 p es e k' s' H1 H2 H3 H4) as H. now rewrite D2 in H.
  - intros k s0 Hc.
    assert (D : exists s1, In (k, s1) (c_services c0 ++ added) /\ forall s, becomes c s1 s <-> becomes c s0 s).
    { destruct Hc as [Hc|(p & es & e & H1 & H2 & H3 & H4)].
      - exists s0. split; [apply in_or_app; now left|reflexivity].
      - exists (with_name s0 k). split; [apply in_or_app; right; eauto|]. intros s. apply becomes_named. }
    destruct D as (s1 & D1 & D2).
    destruct (B8 k s1) as (s & H1 & H2).
    + destruct (c_services c0 ++ added); easy.
    + exists s. split; [easy|]. now apply D2.
Qed.
Lemma load_paths w fp c0 c : loads w fp c0 c -> c_workdir c = c_workdir c0
  /\ c_logpath c = match c_logpath c0 with [] => chars "./logs/" | p => p end
  /\ l_timelayout (c_logging c) = l_timelayout (c_logging c0).
Proof.
  intros (Hw & Hb & Ef & Hl). unfold load_config in Hl.
  destruct (trim_str fp) as [|x t] eqn:Et; [apply trim_blank in Et; contradiction|].
  rewrite (config_load_eq w fp c0 Ef) in Hl.
  destruct (match c_workdir c0 with [] => false | d => negb (e_chdir w d) end); [discriminate|].
  destruct (include_patterns w (c_services c0) (patterns c0)) as [s2|] eqn:E2; [|discriminate].
  unfold config_autofix in Hl. cbv zeta in Hl.
  destruct (autofix_services w _ _ _ _) as [[services slab]|]; [|discriminate].
  injection Hl as <-. repeat split; reflexivity.
Qed.
(** the loaded service under a given key *)
Lemma load_service w fp c0 c k s0 s : loads w fp c0 c -> given w c0 k s0 -> In (k, s) (c_services c) -> becomes c s0 s.
Proof.
  intros H Hc Hin. destruct (load_parts w fp c0 c H) as (_ & _ & _ & _ & _ & _ & _ & H2 & _ & Hnd).
  destruct (H2 k s0 Hc) as (s' & Hin' & Hb). enough (s' = s) by congruence.
  clear - Hin Hin' Hnd. induction (c_services c) as [|[k1 s1] l IH]; [easy|]. cbn in Hnd. inversion Hnd as [|? ? Hni Hnd']; subst.
  assert (G : forall s, In (k, s) l -> In k (map fst l)) by (intros s2 G; apply in_map_iff; exists (k, s2); easy).
  destruct Hin as [Hin|Hin], Hin' as [Hin'|Hin']; try congruence.
  - injection Hin as -> ->. destruct Hni. eauto.
  - injection Hin' as -> ->. destruct Hni. eauto.
  - auto.
Qed.

(** when loading succeeds *)
Lemma nodup_app_iff {A} (a b : list A) : NoDup (a ++ b) <-> NoDup a /\ NoDup b /\ forall x, In x b -> ~ In x a.
Proof.
  induction a as [|x a IH]; cbn.
  - split; [intros H; splits; auto; constructor|tauto].
  - rewrite !NoDup_cons_iff, IH, in_app_iff. split.
    + intros (H1 & H2 & H3 & H4). splits; auto. intros y Hy [<-|Hin]; [tauto|now apply (H4 y)].
    + intros ((H1 & H2) & H3 & H4). splits; auto.
      * intros [H|H]; [tauto|]. apply (H4 x H). now left.
      * intros y Hy Hin. apply (H4 y Hy). now right.
Qed.
Lemma include_patterns_iff w : forall ps services, NoDup (map fst services) ->
  forall services', include_patterns w services ps = Some services' <->
  exists ess added, Forall2 (fun p es => e_glob w p = Some es) ps ess /\ gives (concat ess) added
    /\ services' = services ++ added /\ NoDup (map fst (services ++ added)).
Proof.
  induction ps as [|p ps IH]; intros services Hn services'; cbn [include_patterns].
  - split.
    + intros [= <-]. exists [], []. splits; [constructor|constructor|now rewrite app_nil_r|now rewrite app_nil_r].
    + intros (ess & added & H & Hg & -> & _). inversion H; subst. cbn in Hg. inversion Hg; subst. now rewrite app_nil_r.
  - unfold include_pattern. destruct (e_glob w p) as [es|] eqn:Eg.
    2:{ split; [discriminate|]. intros (ess & added & H & _). inversion H; subst. congruence. }
    destruct (include_all services es) as [s1|] eqn:E.
    + apply include_all_spec in E as (a1 & G1 & -> & N1 & D1).
      assert (N : NoDup (map fst (services ++ a1))) by (rewrite map_app; apply nodup_app_iff; splits; auto).
      rewrite (IH _ N). split.
      * intros (ess & a2 & F & G2 & -> & N2). exists (es :: ess), (a1 ++ a2).
        splits; [now constructor| |now rewrite app_assoc|now rewrite app_assoc].
        cbn. clear - G1 G2. induction G1; cbn; auto; [now apply gives_skip|now apply gives_add].
      * intros (ess & a & F & G & -> & N2). inversion F as [|? es' ? ess' Ee Fs]; subst.
        rewrite Eg in Ee. injection Ee as <-. cbn in G. apply gives_app in G as (b1 & b2 & -> & Gb1 & Gb2).
        assert (b1 = a1) as ->.
        { assert (E1 : include_all services es = Some (services ++ a1)) by (apply include_all_spec; exists a1; splits; auto).
          assert (E2 : include_all services es = Some (services ++ b1)).
          { apply include_all_spec. exists b1. rewrite app_assoc, map_app, nodup_app_iff in N2. destruct N2 as (N2 & _).
            rewrite map_app in N2. apply nodup_app_iff in N2 as (_ & N3 & N4). splits; auto. }
          rewrite E1 in E2. injection E2 as E2. now apply app_inv_head in E2. }
        exists ess', b2. splits; auto; now rewrite <- app_assoc.
    + split; [discriminate|]. intros (ess & a & F & G & -> & N2). exfalso.
      inversion F as [|? es' ? ess' Ee Fs]; subst. rewrite Eg in Ee. injection Ee as <-. cbn in G.
      apply gives_app in G as (b1 & b2 & -> & Gb1 & Gb2).
      assert (E2 : include_all services es = Some (services ++ b1)); [|congruence].
      apply include_all_spec. exists b1. rewrite app_assoc, map_app, nodup_app_iff in N2. destruct N2 as (N2 & _).
      rewrite map_app in N2. apply nodup_app_iff in N2 as (_ & N3 & N4). splits; auto.
Qed.
Lemma kind_root w s : kind_ok w (s_kind s) = true <-> root_fine w s.
Proof.
  unfold kind_ok, root_fine. destruct (s_kind s) as [|root| |]; try (split; [intros _ r; discriminate|reflexivity]).
  destruct root as [|x root].
  - split; [discriminate|]. intros H. now destruct (H [] eq_refl).
  - split; [intros H r [= <-]; easy|]. intros H. now apply (H (x :: root)).
Qed.
Lemma autofix_services_some w tcp http : forall l slab,
  Forall (fun e => ~ blank (fst e) /\ root_fine w (snd e)) l -> exists r, autofix_services w tcp http l slab = Some r.
Proof.
  induction l as [|[k s] l IH]; intros slab H; cbn [autofix_services]; [eauto|].
  inversion H as [|? ? [Hk Hr] Hl]; subst. cbn in Hk, Hr.
  destruct (trim_str k) as [|x t] eqn:Et; [now apply trim_blank in Et|]. unfold service_autofix.
  apply kind_root in Hr. rewrite Hr. destruct (IH (slab ++ [[]]) Hl) as ([r' s'] & ->). eauto.
Qed.
Lemma autofix_iff w c : world_ok w -> (exists c', config_autofix w c = Some c') <->
  Forall (fun e => ~ blank (fst e) /\ root_fine w (snd e)) (c_services c).
Proof.
  intros [Ho _]. unfold config_autofix. cbv zeta. split.
  - intros (c' & H). destruct (autofix_services w _ _ _ _) as [[services slab]|] eqn:E; [|discriminate].
    apply autofix_services_spec in E as (_ & _ & Hnth). apply Forall_forall. intros [k s] Hin.
    apply (Permutation_in _ (Permutation_sym (Ho _))) in Hin. apply In_nth_error in Hin as (i & Hi).
    destruct (Hnth i k s Hi) as (H1 & H2 & _). cbn. split; [|now apply kind_root]. intros Hb. now apply trim_blank in Hb.
  - intros H. assert (H' : Forall (fun e => ~ blank (fst e) /\ root_fine w (snd e)) (e_order w (c_services c))).
    { apply Forall_forall. intros e He. rewrite Forall_forall in H. apply H. now apply (Permutation_in _ (Ho _)). }
    destruct (autofix_services_some w (tcp_autofix (c_tcp c) None) (http_autofix (c_http c) None) _ (c_slab c ++ [[]]) H') as ([a b] & ->).
    eauto.
Qed.
Lemma load_iff w fp c0 : world_ok w -> ~ blank fp -> e_file w fp = Some c0 ->
  ((exists c, load_config w fp = Some c) <->
   (c_workdir c0 = [] \/ e_chdir w (c_workdir c0) = true)
   /\ exists ess added, Forall2 (fun p es => e_glob w p = Some es) (patterns c0) ess /\ gives (concat ess) added
      /\ NoDup (map fst (c_services c0 ++ added))
      /\ Forall (fun e => ~ blank (fst e) /\ root_fine w (snd e)) (c_services c0 ++ added)).
Proof.
  intros Hw Hb Ef. unfold load_config.
  destruct (trim_str fp) as [|x t] eqn:Et; [apply trim_blank in Et; contradiction|].
  rewrite (config_load_eq w fp c0 Ef). destruct (proj2 Hw fp c0 Ef) as [Hn Hs].
  destruct (match c_workdir c0 with [] => false | d => negb (e_chdir w d) end) eqn:Ew.
  { split; [now intros (c & H)|]. intros [[H|H] _].
    - now rewrite H in Ew.
    - destruct (c_workdir c0); [discriminate|]. now rewrite H in Ew. }
  assert (Hwd : c_workdir c0 = [] \/ e_chdir w (c_workdir c0) = true).
  { destruct (c_workdir c0); [now left|right]. now destruct (e_chdir w (n :: l)). }
  assert (Hdef : Forall (fun e => ~ blank (fst e) /\ root_fine w (snd e)) [(chars "helloworld", hello_service)]).
  { constructor; [split; cbn|constructor].
    - intros H. inversion H. discriminate.
    - intros r; discriminate. }
  split.
  - intros (c & H). split; [easy|].
    destruct (include_patterns w (c_services c0) (patterns c0)) as [s2|] eqn:E; [|discriminate].
    apply (include_patterns_iff w _ _ Hn) in E as (ess & added & F & G & -> & N). exists ess, added. splits; auto.
    destruct (c_services c0 ++ added) as [|y l]; [constructor|].
    assert (H' : exists c', config_autofix w (set_services c0 (y :: l)) = Some c') by eauto.
    apply (autofix_iff w _ Hw) in H'. exact H'.
  - intros (_ & ess & added & F & G & N & K).
    assert (E : include_patterns w (c_services c0) (patterns c0) = Some (c_services c0 ++ added)).
    { apply (include_patterns_iff w _ _ Hn). exists ess, added. easy. }
    rewrite E. apply (autofix_iff w _ Hw). cbn [set_services c_services]. destruct (c_services c0 ++ added); easy.
Qed.
Lemma load_some w fp c0 c : loads w fp c0 c -> c_services c <> [].
Proof.
  intros H E. pose proof H as (Hw & Hb & Ef & Hl). unfold load_config in Hl.
  destruct (trim_str fp) as [|x t] eqn:Et; [apply trim_blank in Et; contradiction|].
  rewrite (config_load_eq w fp c0 Ef) in Hl.
  destruct (match c_workdir c0 with [] => false | d => negb (e_chdir w d) end); [discriminate|].
  destruct (include_patterns w (c_services c0) (patterns c0)) as [s2|] eqn:E2; [|discriminate].
  apply (autofix_becomes w _ c Hw) in Hl as (_ & _ & _ & _ & _ & _ & _ & B8 & _). rewrite E in B8.
  cbn [set_services c_services] in B8.
  destruct s2 as [|[k s] l]; [destruct (B8 (chars "helloworld") hello_service) as (s & [] & _); now left|].
  destruct (B8 k s) as (s' & [] & _). now left.
Qed.
