(** Proofs about the directory the program works in. *)
From Verif Require Export S_Workdir F_Load F_LogStart F_LogPlace.

Lemma from_dir_spec cwd p q : stands_for cwd p q <-> q = from_dir cwd p.
Proof.
  unfold stands_for, rooted, from_dir. destruct p as [|c p].
  - split; [intros [[[r [=]] _]|[(_ & H & _)|[_ H]]]; [now elim H|exact H]|intros ->; auto].
  - destruct (N.eqb_spec c slash) as [->|Hc]; split.
    + intros [[_ H]|[(H & _)|[[=] _]]]; [exact H|]. elim H. now exists p.
    + intros ->. left. split; [now exists p|reflexivity].
    + intros [[[r [= E _]] _]|[(_ & _ & H)|[[=] _]]]; [contradiction|exact H].
    + intros ->. right; left. splits; [intros [r [= E _]]; contradiction|discriminate|reflexivity].
Qed.
Lemma from_dir_rooted cwd p : rooted p -> from_dir cwd p = p.
Proof. intros H. symmetry. apply from_dir_spec. left. auto. Qed.

Lemma dir_after_spec y cwd fp c0 b : ~ blank fp -> says_in y cwd fp c0 ->
  work_base cwd c0 b <-> b = dir_after y cwd fp.
Proof.
  intros Hb (f & Hf & Hc). apply from_dir_spec in Hf as ->. unfold work_base, dir_after.
  destruct (trim_str fp) eqn:E; [apply trim_blank in E; contradiction|]. rewrite Hc.
  destruct (c_workdir c0) as [|a d].
  - split; [intros [[_ H]|[H _]]; [exact H|now elim H]|auto].
  - rewrite from_dir_spec. split; [intros [[[=] _]|[_ H]]; exact H|intros H; right; split; [discriminate|exact H]].
Qed.

Lemma rooted_given fp : rooted fp -> ~ blank fp.
Proof. intros [r ->] H. inversion_clear H as [|? ? X _]. vm_compute in X. discriminate. Qed.

Lemma world_in_ok y order midnight cwd fp : tree_ok y -> (forall l, Permutation (order l) l) ->
  world_ok (world_in y order midnight cwd fp).
Proof. intros Hy Ho. split; [exact Ho|]. intros p c H. exact (Hy _ _ H). Qed.

Section Two.
  Context (w w' : world) (fp : str).
  Hypothesis Hf : e_file w fp = e_file w' fp.
  Hypothesis Hc : forall c, e_file w fp = Some c -> e_chdir w (c_workdir c) = e_chdir w' (c_workdir c).
  Hypothesis Hg : e_glob w = e_glob w'.
  Hypothesis He : e_exists w = e_exists w'.
  Hypothesis Ho : e_order w = e_order w'.
  Hypothesis Hl : e_log w = e_log w'.

  Lemma autofix_services_same tcp http l : forall slab,
    autofix_services w tcp http l slab = autofix_services w' tcp http l slab.
  Proof.
    induction l as [|[k s] l IH]; intros slab; [reflexivity|]. cbn [autofix_services].
    unfold service_autofix, kind_ok. rewrite He. destruct (trim_str k); [reflexivity|].
    rewrite IH. reflexivity.
  Qed.
  Lemma autofix_same c : config_autofix w c = config_autofix w' c.
  Proof. unfold config_autofix. cbv zeta. now rewrite Ho, autofix_services_same. Qed.
  Lemma patterns_same ps : forall l, include_patterns w l ps = include_patterns w' l ps.
  Proof.
    induction ps as [|p ps IH]; intros l; [reflexivity|]. cbn [include_patterns]. unfold include_pattern.
    rewrite Hg. destruct (e_glob w' p); [|reflexivity]. destruct (include_all l l0); [apply IH|reflexivity].
  Qed.
  Lemma load_same : load_config w fp = load_config w' fp.
  Proof.
    unfold load_config, config_load. destruct (trim_str fp); [apply autofix_same|].
    destruct (e_file w fp) as [c|] eqn:E; rewrite <- Hf; [|reflexivity]. pose proof (Hc c eq_refl) as X.
    assert (Y : match c_workdir c with [] => false | d => negb (e_chdir w d) end
      = match c_workdir c with [] => false | d => negb (e_chdir w' d) end)
      by (destruct (c_workdir c); [reflexivity|now rewrite X]).
    revert Y. generalize (match c_workdir c with [] => false | d => negb (e_chdir w d) end).
    generalize (match c_workdir c with [] => false | d => negb (e_chdir w' d) end).
    intros b' b ->. destruct b'; [reflexivity|].
    unfold include_pattern. rewrite Hg.
    destruct (match c_include c with [] => _ | _ => _ end); [|reflexivity].
    rewrite patterns_same. destruct (include_patterns w' _ _); [apply autofix_same|reflexivity].
  Qed.
  Lemma program_same u no : program u no w fp = program u no w' fp.
  Proof.
    unfold program. rewrite load_same. destruct (load_config w' fp); [|reflexivity].
    unfold config_logging, all_appenders. now rewrite Hl.
  Qed.
End Two.

Lemma absolute_same y order midnight d1 d2 fp c0 : rooted fp -> says_in y d1 fp c0 -> rooted (c_workdir c0) ->
  let w d := world_in y order midnight d fp in
  load_config (w d1) fp = load_config (w d2) fp
  /\ (forall u no, program u no (w d1) fp = program u no (w d2) fp)
  /\ forall x, tls_in y x d1 fp = tls_in y x d2 fp.
Proof.
  intros Hr (f & Hf & Hc) Hw w. apply from_dir_spec in Hf as ->. rewrite (from_dir_rooted d1 fp Hr) in Hc.
  assert (D : dir_after y d1 fp = dir_after y d2 fp).
  { unfold dir_after. rewrite !(from_dir_rooted _ fp Hr), Hc. destruct (trim_str fp) eqn:E.
    - apply trim_blank in E. elim (rooted_given fp Hr E).
    - destruct (c_workdir c0) eqn:E'; [destruct Hw as [r [=]]|]. now rewrite !from_dir_rooted. }
  assert (F : e_file (w d1) fp = e_file (w d2) fp) by (cbn; now rewrite !(from_dir_rooted _ fp Hr)).
  assert (C : forall c, e_file (w d1) fp = Some c -> e_chdir (w d1) (c_workdir c) = e_chdir (w d2) (c_workdir c)).
  { cbn. rewrite (from_dir_rooted _ fp Hr), Hc. intros c [= <-]. now rewrite !from_dir_rooted. }
  splits.
  - apply load_same; auto; cbn; now rewrite D.
  - intros u no. apply program_same; auto; cbn; now rewrite D.
  - intros x. unfold tls_in. now rewrite D.
Qed.

Lemma each_weaker {A C} (P Q : A -> C -> Prop) l l' : (forall a b, P a b -> Q a b) -> Forall2 P l l' -> Forall2 Q l l'.
Proof. intros H. induction 1; auto. Qed.

Lemma base_accepts y order midnight cwd fp c0 b : tree_ok y -> (forall l, Permutation (order l) l) -> ~ blank fp ->
  says_in y cwd fp c0 -> work_base cwd c0 b ->
  ((exists c, load_config (world_in y order midnight cwd fp) fp = Some c) <->
   (c_workdir c0 = [] \/ y_dir y b = true)
   /\ exists ess added,
      Forall2 (fun p es => exists q, stands_for b p q /\ y_match y q = Some es) (patterns c0) ess
      /\ gives (concat ess) added /\ NoDup (map fst (c_services c0 ++ added))
      /\ Forall (fun e => ~ blank (fst e) /\ forall root, s_kind (snd e) = FileService root ->
           root <> [] /\ exists q, stands_for b root q /\ y_exists y q = true) (c_services c0 ++ added)).
Proof.
  intros Hy Ho Hb Hs Hw. pose proof (proj1 (dir_after_spec y cwd fp c0 b Hb Hs) Hw) as D.
  assert (F : e_file (world_in y order midnight cwd fp) fp = Some c0).
  { destruct Hs as (f & Hf & Hc). apply from_dir_spec in Hf as ->. exact Hc. }
  rewrite (load_iff _ fp c0 (world_in_ok y order midnight cwd fp Hy Ho) Hb F). cbn [world_in e_chdir e_glob].
  rewrite <- D.
  assert (A : c_workdir c0 = [] \/ y_dir y (from_dir cwd (c_workdir c0)) = true <-> c_workdir c0 = [] \/ y_dir y b = true).
  { destruct Hw as [[-> ->]|[_ H]]; [tauto|]. apply from_dir_spec in H as ->. tauto. }
  assert (R : forall s, root_fine (world_in y order midnight cwd fp) s
    <-> forall root, s_kind s = FileService root -> root <> [] /\ exists q, stands_for b root q /\ y_exists y q = true).
  { intros s. unfold root_fine. cbn [world_in e_exists]. rewrite <- D.
    split; intros H root E; destruct (H root E) as [H1 H2]; (split; [exact H1|]).
    - exists (from_dir b root). split; [now apply from_dir_spec|exact H2].
    - destruct H2 as (q & Q & H2). apply from_dir_spec in Q as ->. exact H2. }
  split; intros (H1 & ess & added & H2 & H3 & H4 & H5); (split; [tauto|]); exists ess, added; splits; auto.
  - eapply each_weaker; [|exact H2]. intros p es E. exists (from_dir b p). split; [now apply from_dir_spec|exact E].
  - eapply Forall_impl; [|exact H5]. intros e [E1 E2]. split; [exact E1|]. now apply R.
  - eapply each_weaker; [|exact H2]. intros p es (q & Q & E). apply from_dir_spec in Q as ->. exact E.
  - eapply Forall_impl; [|exact H5]. intros e [E1 E2]. split; [exact E1|]. now apply R.
Qed.
