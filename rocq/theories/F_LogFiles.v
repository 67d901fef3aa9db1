(** Facts about where log files are. *)
From Verif Require Export F_LogStart.

Lemma pieces_unique p l m : pieces p l -> pieces p m -> l = m.
Proof.
  revert p m; induction l as [|x l IH]; intros p m (E & Hl & Hf) (E' & Hm & Hf'); [easy|].
  destruct m as [|y m]; [easy|]. inversion Hf as [|? ? Hx Hf1]; subst. inversion Hf' as [|? ? Hy Hf2]; subst.
  destruct l as [|x' l], m as [|y' m]; cbn [join] in *.
  - congruence.
  - exfalso. apply Hx. rewrite <- E'. apply in_or_app. right. now left.
  - exfalso. apply Hy. rewrite E'. apply in_or_app. right. now left.
  - cbn [app] in E'. apply first_split in E' as [E1 E2]; [|easy|easy]. subst y. f_equal.
    eapply IH; [split; [reflexivity|split; [discriminate|exact Hf1]]|split; [exact E2|split; [discriminate|exact Hf2]]].
Qed.
Lemma pieces_snoc p l x : pieces p l -> ~ In slash x -> pieces (p ++ [slash] ++ x) (l ++ [x]).
Proof.
  intros (E & Hl & Hf) Hx. unfold pieces. splits; [|now destruct l|apply Forall_app; split; [easy|now constructor]].
  subst p. clear Hf. induction l as [|y l IH]; [easy|]. destruct l as [|z l]; [reflexivity|].
  cbn [app join] in *. rewrite IH by easy. now rewrite <- !app_assoc.
Qed.
Lemma pieces_exist p : exists l, pieces p l.
Proof.
  induction p as [|c p (l & E & Hl & Hf)].
  - exists [[]]. unfold pieces. splits; [easy|easy|]. constructor; [easy|constructor].
  - destruct (N.eq_dec c slash) as [->|Hc].
    + exists ([] :: l). unfold pieces. splits; [|easy|now constructor]. destruct l; [easy|]. cbn [join app] in *. congruence.
    + destruct l as [|x l]; [easy|]. exists ((c :: x) :: l). unfold pieces. splits; [|easy|].
      * destruct l; cbn [join app] in *; congruence.
      * inversion Hf; subst. constructor; [|easy]. intros [H'|H']; auto.
Qed.
Lemma walk_fun a l b : walk a l b -> forall c, walk a l c -> b = c.
Proof.
  assert (D1 : chars ".." <> []) by discriminate. assert (D2 : chars ".." <> chars ".") by discriminate.
  induction 1 as [a|a x l b Hx _ IH|a l b _ IH|a x l b H1 H2 H3 _ IH]; intros c Hc;
  inversion Hc as [|? ? ? ? Hx' Hc'|? ? ? Hc'|? ? ? ? N1 N2 N3 Hc']; subst; auto; exfalso; tauto.
Qed.
Lemma walk_app a l m c : walk a (l ++ m) c -> exists b, walk a l b /\ walk b m c.
Proof.
  revert a; induction l as [|x l IH]; intros a H; cbn [app] in H; [exists a; split; [constructor|easy]|].
  inversion H as [|? ? ? ? Hx H'|? ? ? H'|? ? ? ? N1 N2 N3 H']; subst; destruct (IH _ H') as (b & Hb1 & Hb2); exists b; (split; [|easy]).
  - now apply walk_stay.
  - now apply walk_up.
  - now apply walk_down.
Qed.
Lemma walk_total l : forall a, exists b, walk a l b.
Proof.
  induction l as [|x l IH]; intros a; [exists a; constructor|].
  destruct (list_eq_dec N.eq_dec x []) as [->|H1]; [destruct (IH a) as [b Hb]; exists b; apply walk_stay; auto|].
  destruct (list_eq_dec N.eq_dec x (chars ".")) as [->|H2]; [destruct (IH a) as [b Hb]; exists b; apply walk_stay; auto|].
  destruct (list_eq_dec N.eq_dec x (chars "..")) as [->|H3]; [destruct (IH (removelast a)) as [b Hb]; exists b; apply walk_up; auto|].
  destruct (IH (a ++ [x])) as [b Hb]; exists b; apply walk_down; auto.
Qed.
Lemma leads_fun cwd p a b : leads cwd p a -> leads cwd p b -> a = b.
Proof. intros (l & Hl & Ha) (m & Hm & Hb). rewrite (pieces_unique p l m Hl Hm) in Ha. eapply walk_fun; eassumption. Qed.
Lemma leads_total cwd p : exists a, leads cwd p a.
Proof. destruct (pieces_exist p) as [l Hl]. destruct (walk_total l (match p with c :: _ => if (c =? slash)%N then [] else cwd | [] => cwd end)) as [a Ha]. exists a, l. auto. Qed.

Lemma walk_one a x b : proper x -> walk a [x] b -> b = a ++ [x].
Proof.
  intros (_ & H1 & H2 & H3) H. inversion H as [|? ? ? ? Hx H'|? ? ? H'|? ? ? ? N1 N2 N3 H']; subst; [exfalso; tauto|exfalso; tauto|].
  now inversion H'.
Qed.
Definition start (cwd : list str) (p : str) : list str :=
  match p with c :: _ => if (c =? slash)%N then [] else cwd | [] => cwd end.
(** an empty directory name is the root *)
Lemma leads_below cwd d x there : proper x -> leads cwd (d ++ [slash] ++ x) there ->
  exists at_, there = at_ ++ [x] /\ (d <> [] -> leads cwd d at_) /\ (d = [] -> at_ = []).
Proof.
  intros Hx (l & Hl & Hw). destruct (pieces_exist d) as [m Hm].
  pose proof (pieces_snoc d m x Hm (proj1 Hx)) as Hs. rewrite (pieces_unique _ _ _ Hl Hs) in Hw.
  apply walk_app in Hw as (b & Hb & Hw). apply walk_one in Hw; [|easy]. exists b. splits; [easy| |].
  - intros Hd. exists m. split; [easy|]. destruct d; [easy|]. exact Hb.
  - intros ->. cbn [app] in Hb. rewrite N.eqb_refl in Hb.
    assert (m = [[]]) as ->.
    { apply (pieces_unique []); [easy|]. unfold pieces. splits; [easy|easy|]. now constructor. }
    inversion Hb as [|? ? ? ? Hx0 H'|? ? ? H'|? ? ? ? N1 N2 N3 H']; subst; [now inversion H'|easy].
Qed.

(** the file part of a log path is a proper name *)
Lemma file_part_proper (b : str) : ~ In slash b -> b <> [] -> proper (b ++ chars ".log").
Proof.
  intros Hb Hne. unfold proper. splits.
  - intros Hi. apply in_app_or in Hi as [Hi|Hi]; [easy|]. revert Hi. not_in_chars.
  - destruct b; discriminate.
  - intros E. apply (f_equal (@length N)) in E. rewrite app_length in E. cbn in E. lia.
  - intros E. apply (f_equal (@length N)) in E. rewrite app_length in E. cbn in E. lia.
Qed.
Lemma own_file_leads cwd logpath name idx p there : logpath <> [] -> (name <> [] -> proper name) ->
  own_file logpath name idx p -> leads cwd p there ->
  exists at_ f, leads cwd logpath at_ /\ there = at_ ++ match name with [] => [] | _ => [name] end ++ [f]
  /\ (exists b, f = b ++ chars ".log").
Proof.
  intros Hlp Hn Ho Hl. apply own_file_split in Ho as Hs. destruct Hs as (f & Hf & Ep).
  apply own_file_parts in Ho as (d & b & Ep' & Hd & Hb & Hbne).
  assert (Ef : f = b ++ chars ".log").
  { assert (Hbl : ~ In slash (b ++ chars ".log")) by apply (file_part_proper b Hb Hbne).
    destruct Hd as [->|(d' & ->)].
    - exfalso. apply Hbl. rewrite <- (app_nil_l (b ++ chars ".log")), <- Ep', Ep. apply in_or_app. right. now left.
    - rewrite Ep in Ep'. rewrite <- app_assoc in Ep'. cbn [app] in Ep'. now apply last_split in Ep'. }
  assert (Hfp : proper f) by (subst f; now apply file_part_proper).
  rewrite Ep in Hl. apply (leads_below cwd _ f there Hfp) in Hl as (at_ & -> & Hat & _).
  destruct name as [|n0 name0] eqn:En.
  - exists at_, f. splits; [now apply Hat|easy|now exists b].
  - rewrite <- En in *. assert (Hnn : name <> []) by now rewrite En.
    assert (Hne : logpath ++ chars "/" ++ name <> []) by (destruct logpath; easy).
    apply Hat in Hne. apply (leads_below cwd logpath name at_ (Hn Hnn)) in Hne as (at0 & -> & Hat0 & _).
    exists at0, f. splits; [now apply Hat0|rewrite En; now rewrite <- app_assoc|now exists b].
Qed.

(** C76 *)
Lemma logpath_nonempty w arg c : load_config w arg = Some c -> c_logpath c <> [].
Proof.
  assert (H : forall c0, config_autofix w c0 = Some c -> c_logpath c <> []).
  { intros c0. unfold config_autofix. destruct (autofix_services _ _ _ _ _) as [[ss sl]|]; [|discriminate].
    intros [= <-]. cbn [c_logpath]. destruct (c_logpath c0); discriminate. }
  unfold load_config. destruct (trim_str arg); [apply H|]. unfold config_load.
  destruct (e_file w arg) as [c0|]; [|discriminate].
  destruct (match c_workdir c0 with [] => false | d => negb (e_chdir w d) end); [discriminate|].
  destruct (match c_include c0 with [] => _ | _ => _ end); [|discriminate].
  destruct (include_patterns w l0 (c_includes c0)); [|discriminate]. apply H.
Qed.
Lemma own_same cwd logpath n m i j p q there : logpath <> [] -> (n <> [] -> proper n) -> (m <> [] -> proper m) ->
  own_file logpath n i p -> own_file logpath m j q -> leads cwd p there -> leads cwd q there -> n = m /\ p = q.
Proof.
  intros Hlp Hn Hm Hp Hq Lp Lq.
  pose proof (own_file_split _ _ _ _ Hp) as (f & Hf & Ep). pose proof (own_file_split _ _ _ _ Hq) as (g & Hg & Eq).
  assert (G : forall name idx r h, (name <> [] -> proper name) -> own_file logpath name idx r -> ~ In slash h ->
     r = match name with [] => logpath | _ => logpath ++ chars "/" ++ name end ++ slash :: h -> leads cwd r there ->
     exists at_, leads cwd logpath at_ /\ there = at_ ++ match name with [] => [] | _ => [name] end ++ [h]).
  { clear - Hlp. intros name idx r h Hn Ho Hh Er Lr.
    assert (Hhp : proper h).
    { apply own_file_parts in Ho as (d & b & Ep' & Hd & Hb & Hbne).
      assert (Eh : h = b ++ chars ".log"); [|subst h; now apply file_part_proper].
      assert (Hbl : ~ In slash (b ++ chars ".log")) by apply (file_part_proper b Hb Hbne).
      destruct Hd as [->|(d' & ->)].
      - exfalso. apply Hbl. rewrite <- (app_nil_l (b ++ chars ".log")), <- Ep', Er. apply in_or_app. right. now left.
      - rewrite Er in Ep'. rewrite <- app_assoc in Ep'. cbn [app] in Ep'. now apply last_split in Ep'. }
    rewrite Er in Lr. apply (leads_below cwd _ h there Hhp) in Lr as (at_ & -> & Hat & _).
    destruct name as [|n0 name0] eqn:En.
    - exists at_. split; [now apply Hat|easy].
    - rewrite <- En in *. assert (Hnn : name <> []) by now rewrite En.
      assert (Hne : logpath ++ chars "/" ++ name <> []) by (destruct logpath; easy).
      apply Hat in Hne. apply (leads_below cwd logpath name at_ (Hn Hnn)) in Hne as (at0 & -> & Hat0 & _).
      exists at0. split; [now apply Hat0|rewrite En; now rewrite <- app_assoc]. }
  destruct (G n i p f Hn Hp Hf Ep Lp) as (a & La & Ea). destruct (G m j q g Hm Hq Hg Eq Lq) as (b & Lb & Eb).
  assert (a = b) by (eapply leads_fun; eassumption). subst b. rewrite Ea in Eb. apply app_inv_head in Eb.
  assert (n = m /\ f = g) as [-> ->].
  { destruct n, m; cbn in Eb; try (split; congruence); exfalso; congruence. }
  split; congruence.
Qed.
Lemma leads_distinct cwd w c l : (c_logpath c <> []) -> NoDup (map l_service_name (sections c)) ->
  Forall (fun s => l_service_name s <> [] -> proper (l_service_name s)) (sections c) ->
  all_appenders w c = Ret (Some l) ->
  forall locs, Forall2 (leads cwd) (files l) locs -> NoDup locs.
Proof.
  intros Hlp Hn Hpr Ha locs Hf. pose proof (files_distinct w c l Hn Ha) as Hd.
  assert (Hown : forall p, In p (files l) -> exists s, In s (sections c) /\ own_file (c_logpath c) (l_service_name s) 0 p).
  { intros p Hp. apply section_appenders_spec in Ha as (parts & -> & Hps).
    change (Forall2 (fun s p => exists r, logging_init (e_log w) s (c_logpath c) = Ret (Some r) /\ p = unwrap_or r [])
            (sections c) parts) in Hps. clear - Hps Hp.
    induction Hps as [|s q ss ps (r & Hr & ->) _ IH]; cbn [concat] in Hp; [easy|].
    rewrite files_app in Hp. apply in_app_or in Hp as [Hp|Hp].
    - apply logging_init_files in Hr as [_ F]. exists s. split; [now left|auto].
    - destruct (IH Hp) as (s' & H1 & H2). exists s'. split; [now right|easy]. }
  rewrite Forall_forall in Hpr.
  revert Hd Hown. induction Hf as [|p loc ps locs Hp Hps IH]; intros Hd Hown; [constructor|].
  inversion Hd as [|? ? Hd1 Hd2]; subst. constructor; [|apply IH; [easy|intros; apply Hown; now right]].
  intros Hi. apply Hd1.
  assert (exists q, In q ps /\ leads cwd q loc) as (q & Hq & Lq).
  { clear - Hi Hps. induction Hps as [|x y xs ys Hxy _ IH]; [easy|]. destruct Hi as [->|Hi].
    - exists x. split; [now left|easy].
    - destruct (IH Hi) as (q & H1 & H2). exists q. split; [now right|easy]. }
  destruct (Hown p (or_introl eq_refl)) as (s & Hs & Os). destruct (Hown q (or_intror Hq)) as (t & Ht & Ot).
  destruct (own_same cwd _ _ _ _ _ p q loc Hlp (Hpr s Hs) (Hpr t Ht) Os Ot Hp Lq) as [_ ->]. exact Hq.
Qed.
Lemma loaded_leads cwd w arg c l : world_ok w -> load_config w arg = Some c ->
  NoDup (map (fun e => s_name (snd e)) (c_services c)) ->
  Forall (fun e => proper (s_name (snd e))) (c_services c) ->
  all_appenders w c = Ret (Some l) ->
  forall locs, Forall2 (leads cwd) (files l) locs -> NoDup locs.
Proof.
  intros Hw Hl Hn Hp. pose proof (section_names w arg c Hw Hl) as E. apply leads_distinct.
  - eapply logpath_nonempty; eassumption.
  - rewrite E. constructor; [|easy]. intros H. apply in_map_iff in H as (e & Ee & He).
    destruct (names_trimmed w arg c Hw Hl) as [_ Ht]. rewrite Forall_forall in Ht. now apply Ht in He.
  - apply Forall_forall. intros s Hs Hne. assert (Hi : In (l_service_name s) (map l_service_name (sections c))) by now apply in_map.
    rewrite E in Hi. destruct Hi as [Hi|Hi]; [congruence|]. apply in_map_iff in Hi as (e & Ee & He).
    rewrite <- Ee. rewrite Forall_forall in Hp. auto.
Qed.
Lemma loaded_below cwd w arg c l p there : world_ok w -> load_config w arg = Some c ->
  Forall (fun e => proper (s_name (snd e))) (c_services c) ->
  all_appenders w c = Ret (Some l) -> In p (files l) -> leads cwd p there ->
  exists dir rest, leads cwd (c_logpath c) dir /\ there = dir ++ rest /\ rest <> [].
Proof.
  intros Hw Hl Hp Ha Hi Hle. pose proof (section_names w arg c Hw Hl) as E.
  assert (exists s, In s (sections c) /\ own_file (c_logpath c) (l_service_name s) 0 p) as (s & Hs & Os).
  { apply section_appenders_spec in Ha as (parts & -> & Hps).
    change (Forall2 (fun s p => exists r, logging_init (e_log w) s (c_logpath c) = Ret (Some r) /\ p = unwrap_or r [])
            (sections c) parts) in Hps. clear - Hps Hi.
    induction Hps as [|s q ss ps (r & Hr & ->) _ IH]; cbn [concat] in Hi; [easy|].
    rewrite files_app in Hi. apply in_app_or in Hi as [Hp|Hp].
    - apply logging_init_files in Hr as [_ F]. exists s. split; [now left|auto].
    - destruct (IH Hp) as (s' & H1 & H2). exists s'. split; [now right|easy]. }
  assert (Hpn : l_service_name s <> [] -> proper (l_service_name s)).
  { intros Hne. assert (Hin : In (l_service_name s) (map l_service_name (sections c))) by now apply in_map.
    rewrite E in Hin. destruct Hin as [Hin|Hin]; [congruence|]. apply in_map_iff in Hin as (e & Ee & He).
    rewrite <- Ee. rewrite Forall_forall in Hp. auto. }
  destruct (own_file_leads cwd _ _ _ p there (logpath_nonempty w arg c Hl) Hpn Os Hle) as (dir & f & Hd & -> & _).
  exists dir. eexists. splits; [easy|reflexivity|]. destruct (l_service_name s); discriminate.
Qed.
