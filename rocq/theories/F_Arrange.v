(** Facts about configurations written in another order. *)
From Verif Require Export F_Restart S_Arrange.

Lemma autofix_perm w w' c c2 c1 : (forall l, Permutation (e_order w l) l) -> (forall l, Permutation (e_order w' l) l) ->
  e_exists w' = e_exists w -> same_settings c c2 -> c_slab c = [] -> c_slab c2 = [] ->
  Permutation (c_services c) (c_services c2) -> config_autofix w c = Some c1 ->
  exists c3, config_autofix w' c2 = Some c3 /\ same_settings c1 c3 /\ length (c_slab c3) = length (c_slab c1)
    /\ Permutation (map er_e (c_services c1)) (map er_e (c_services c3)).
Proof.
  intros Ho Ho' Ex (S1 & S2 & S3 & S4 & S5 & S6 & S7) Z Z2 P. unfold config_autofix. cbv zeta. rewrite S1, S2, S3, S4, S5, S6, S7, Z, Z2.
  destruct (autofix_services w _ _ (e_order w (c_services c)) _) as [[l1 s1]|] eqn:E; [|discriminate]. intros [= <-].
  assert (PP : Permutation (e_order w (c_services c)) (e_order w' (c_services c2))).
  { etransitivity; [apply Ho|]. etransitivity; [exact P|symmetry; apply Ho']. }
  destruct (autofix_services w' (tcp_autofix (c_tcp c) None) (http_autofix (c_http c) None)
              (e_order w' (c_services c2)) ([] ++ [[]])) as [[l2 s2]|] eqn:E2.
  - eexists. split; [reflexivity|]. rewrite (autofix_services_world w w' _ _ Ex) in E2.
    apply autofix_erased in E as [A B]. apply autofix_erased in E2 as [A2 B2].
    unfold same_settings. cbn. splits; try reflexivity.
    + rewrite B, B2, (Permutation_length PP). reflexivity.
    + rewrite A, A2. now apply Permutation_map.
  - exfalso. rewrite (autofix_services_world w w' _ _ Ex) in E2.
    destruct (autofix_services_some w (tcp_autofix (c_tcp c) None) (http_autofix (c_http c) None)
                (e_order w' (c_services c2)) ([] ++ [[]])) as (r & Er); [|congruence].
    apply Forall_forall. intros [k s] Hin. apply (Permutation_in _ (Permutation_sym PP)) in Hin. apply In_nth_error in Hin as (i & Hi).
    apply autofix_services_spec in E as (_ & _ & Hn). destruct (Hn i k s Hi) as (H1 & H2 & _). cbn.
    split; [|now apply kind_root]. intros Hb. now apply trim_blank in Hb.
Qed.

Lemma gives_perm es es' : Permutation es es' -> forall l, gives es l -> exists l', gives es' l' /\ Permutation l l'.
Proof.
  induction 1 as [|e es es' _ IH|e f es|es1 es2 es3 _ IH1 _ IH2]; intros l H.
  - exists l. auto.
  - inversion H as [|? ? ? S G|? ? ? n s S G]; subst; destruct (IH _ G) as (l' & G' & P).
    + exists l'. split; [now apply gives_skip|easy].
    + eexists. split; [apply gives_add; eassumption|]. now apply perm_skip.
  - inversion H as [|? ? ? S G|? ? ? n s S G]; subst; inversion G as [|? ? ? S' G'|? ? ? n' s' S' G']; subst.
    + eexists. split; [apply gives_skip; [|apply gives_skip]; eassumption|reflexivity].
    + eexists. split; [apply gives_add; [|apply gives_skip]; eassumption|reflexivity].
    + eexists. split; [apply gives_skip; [|apply gives_add]; eassumption|reflexivity].
    + eexists. split; [apply gives_add; [|apply gives_add]; eassumption|apply perm_swap].
  - destruct (IH1 _ H) as (l1 & G1 & P1). destruct (IH2 _ G1) as (l2 & G2 & P2). exists l2. split; [easy|]. now transitivity l1.
Qed.
Lemma globs_perm w w' ps ps' : (forall p, same_matches (e_glob w p) (e_glob w' p)) -> Permutation ps ps' ->
  forall ess, Forall2 (fun p es => e_glob w p = Some es) ps ess ->
  exists ess', Forall2 (fun p es => e_glob w' p = Some es) ps' ess' /\ Permutation (concat ess) (concat ess').
Proof.
  intros M P ess F.
  assert (Q : exists ess1, Forall2 (fun p es => e_glob w p = Some es) ps' ess1 /\ Permutation (concat ess) (concat ess1)).
  { revert ess F. induction P as [|p ps ps' _ IH|p q ps|ps1 ps2 ps3 _ IH1 _ IH2]; intros ess F.
    - exists ess. auto.
    - inversion F as [|? es ? ess2 A F2]; subst. destruct (IH _ F2) as (e1 & F1 & P1). exists (es :: e1).
      split; [now constructor|]. now apply Permutation_app_head.
    - inversion F as [|? es ? ess2 A F2]; subst. inversion F2 as [|? es' ? ess3 A' F3]; subst. exists (es' :: es :: ess3).
      split; [now repeat constructor|]. cbn. rewrite !app_assoc. apply Permutation_app_tail, Permutation_app_comm.
    - destruct (IH1 _ F) as (e1 & F1 & P1). destruct (IH2 _ F1) as (e2 & F2 & P2). exists e2. split; [easy|]. now transitivity (concat e1). }
  destruct Q as (ess1 & F1 & P1). enough (G : exists ess', Forall2 (fun p es => e_glob w' p = Some es) ps' ess' /\ Permutation (concat ess1) (concat ess')).
  { destruct G as (ess' & F' & P'). exists ess'. split; [easy|]. now transitivity (concat ess1). }
  clear - M F1. induction F1 as [|p es ps ess A _ (ess' & F & P)].
  - exists []. auto.
  - specialize (M p). rewrite A in M. cbn in M. destruct (e_glob w' p) as [es'|] eqn:E; [|easy]. exists (es' :: ess').
    split; [now constructor|]. cbn. now apply Permutation_app.
Qed.

Lemma load_rearranged w w' fp c0 c0' c : world_ok w -> world_ok w' -> ~ blank fp -> e_file w fp = Some c0 ->
  e_file w' fp = Some c0' -> rearranged w c0 w' c0' -> load_config w fp = Some c ->
  exists c', load_config w' fp = Some c' /\ same_settings c c' /\ length (c_slab c') = length (c_slab c)
    /\ Permutation (map er_e (c_services c)) (map er_e (c_services c')).
Proof.
  intros W W' Hb Ef Ef' (S & P & PP & M & Ec & Ex & _). unfold load_config.
  destruct (trim_str fp) as [|x t] eqn:Et; [apply trim_blank in Et; contradiction|].
  rewrite (config_load_eq w fp c0 Ef), (config_load_eq w' fp c0' Ef').
  destruct (proj2 W fp c0 Ef) as [Hn Hs]. destruct (proj2 W' fp c0' Ef') as [Hn' Hs'].
  pose proof S as (-> & _). rewrite Ec.
  destruct (match c_workdir c0 with [] => false | d => negb (e_chdir w d) end); [discriminate|].
  destruct (include_patterns w (c_services c0) (patterns c0)) as [s2|] eqn:E; [|discriminate].
  apply (include_patterns_iff w _ _ Hn) in E as (ess & added & F & G & -> & N).
  destruct (globs_perm w w' _ _ M PP ess F) as (ess' & F' & Pe). destruct (gives_perm _ _ Pe _ G) as (added' & G' & Pa).
  assert (Pall : Permutation (c_services c0 ++ added) (c_services c0' ++ added')) by now apply Permutation_app.
  assert (E' : include_patterns w' (c_services c0') (patterns c0') = Some (c_services c0' ++ added')).
  { apply (include_patterns_iff w' _ _ Hn'). exists ess', added'. splits; auto.
    eapply Permutation_NoDup; [|exact N]. now apply Permutation_map. }
  rewrite E'. intros H. eapply (autofix_perm w w'); try exact H; try apply W; try apply W'; auto.
  - destruct (c_services c0 ++ added) as [|y l] eqn:E1.
    + apply Permutation_nil in Pall. now rewrite Pall.
    + destruct (c_services c0' ++ added') as [|y' l'] eqn:E2; [apply Permutation_sym, Permutation_nil in Pall; discriminate|].
      exact Pall.
Qed.
Lemma rearranged_sym w c0 w' c0' : rearranged w c0 w' c0' -> rearranged w' c0' w c0.
Proof.
  intros ((? & ? & ? & ? & ? & ? & ?) & P & PP & M & ? & ? & ?). unfold rearranged, same_settings. splits; auto; try now symmetry.
  intros p. specialize (M p). destruct (e_glob w p), (e_glob w' p); cbn in *; auto. now symmetry.
Qed.
