(** Which appenders are created, and when this fails. *)
From Verif Require Import S_LogPlace F_LogFiles.

Lemma in_place_path logpath name l : in_place logpath name (chars (capitals l) ++ chars ".log") = log_path logpath name l.
Proof. now destruct l. Qed.
Lemma in_place_idx logpath name l i :
  in_place logpath name (chars (capitals l) ++ chars "." ++ dec_str i ++ chars ".log") = log_path_idx logpath name l i.
Proof. now destruct l. Qed.
Lemma log_file_own logpath name before l path : log_file logpath name before l path -> own_file logpath name 0 path.
Proof.
  intros [[_ ->]|[_ ->]].
  - rewrite in_place_path. left. now exists l.
  - rewrite in_place_idx. right. exists l, (length before). split; [easy|lia].
Qed.
Lemma own_file_log_name logpath name idx p : own_file logpath name idx p -> is_none (log_name p) = false.
Proof.
  intros Hs. apply own_file_parts in Hs as (d & b & -> & Hd & Hb & Hne).
  rewrite log_name_of; [reflexivity|easy|]. unfold proper. splits.
  + intros Hi. apply in_app_or in Hi as [Hi|Hi]; [easy|]. revert Hi. not_in_chars.
  + destruct b; discriminate.
  + intros E. apply (f_equal (@length N)) in E. rewrite app_length in E. cbn in E. lia.
  + intros E. apply (f_equal (@length N)) in E. rewrite app_length in E. cbn in E. lia.
Qed.
Lemma taken_app a b l : taken (a ++ b) l <-> taken a l \/ taken b l.
Proof.
  unfold taken. split.
  - intros (o & e & d & n & H & H'). apply in_app_or in H as [H|H]; [left|right]; eauto 7.
  - intros [(o & e & d & n & H & H')|(o & e & d & n & H & H')]; exists o, e, d, n; split; auto using in_or_app.
Qed.
(** the paths the loop remembers *)
Definition remembers (logpath name : str) (before : list appender_cfg) (fps : list str) : Prop :=
  forall l, In (log_path logpath name l) fps <-> taken before l.
Lemma remembers_console logpath name before fps o :
  remembers logpath name before fps -> remembers logpath name (before ++ [ConsoleCfg o]) fps.
Proof.
  intros H l. rewrite (H l), taken_app. split; [auto|]. intros [X|(o' & e & d & n & [X|[]] & _)]; [easy|discriminate].
Qed.
Definition chosen (logpath name : str) (fps : list str) (l : level) (idx : nat) : str :=
  if existsb (chars_eqb (log_path logpath name l)) fps then log_path_idx logpath name l idx else log_path logpath name l.
Lemma chosen_spec logpath name before fps l :
  remembers logpath name before fps -> log_file logpath name before l (chosen logpath name fps l (length before)).
Proof.
  intros H. unfold chosen, log_file. rewrite in_place_path, in_place_idx, <- (H l).
  destruct (existsb (chars_eqb (log_path logpath name l)) fps) eqn:E.
  - right. split; [|easy]. apply existsb_exists in E as (x & Hx & E). apply chars_eqb_eq in E. now subst.
  - left. split; [|easy]. intros Hi. assert (existsb (chars_eqb (log_path logpath name l)) fps = true); [|congruence].
    apply existsb_exists. exists (log_path logpath name l). split; [easy|now apply chars_eqb_eq].
Qed.
Lemma log_file_fun logpath name before l p q : log_file logpath name before l p -> log_file logpath name before l q -> p = q.
Proof. intros [[A ->]|[A ->]] [[B ->]|[B ->]]; easy. Qed.
Lemma remembers_file logpath name before fps o e d n : remembers logpath name before fps ->
  remembers logpath name (before ++ [FileCfg o e d n]) (chosen logpath name fps (level_of o) (length before) :: fps).
Proof.
  intros H l. rewrite taken_app, <- (H l). pose proof (chosen_spec logpath name before fps (level_of o) H) as Hc.
  assert (T : taken [FileCfg o e d n] l <-> level_of o = l).
  { rewrite level_of_spec. split.
    - intros (o' & e' & d' & n' & [[= -> -> -> ->]|[]] & X). easy.
    - intros X. exists o, e, d, n. split; [now left|easy]. }
  rewrite T. cbn [In]. unfold log_file in Hc. rewrite in_place_path, in_place_idx in Hc.
  split.
  - intros [E|X]; [|auto]. destruct Hc as [[_ Y]|[_ Y]]; rewrite Y in E.
    + right. now apply log_path_inj in E.
    + symmetry in E. now apply log_path_idx_neq in E.
  - intros [X|<-]; [auto|]. destruct Hc as [[_ Y]|[X _]]; [now left|]. right. now apply H.
Qed.

(** the files the settings [cfgs] ask for after [before] *)
Definition asks (logpath name : str) (before cfgs : list appender_cfg) (path : str) : Prop :=
  exists i o equal daily n l, nth_error cfgs i = Some (FileCfg o equal daily n) /\ asks_for o l
  /\ log_file logpath name (before ++ firstn i cfgs) l path.
Lemma asks_tail logpath name before c cfgs path :
  asks logpath name (before ++ [c]) cfgs path -> asks logpath name before (c :: cfgs) path.
Proof.
  intros (i & o & e & d & n & l & H & Ha & Hf). exists (S i), o, e, d, n, l. cbn [nth_error firstn].
  splits; [easy|easy|]. now rewrite <- app_assoc in Hf.
Qed.
Lemma asks_inv logpath name before c cfgs path : asks logpath name before (c :: cfgs) path ->
  (exists o e d n l, c = FileCfg o e d n /\ asks_for o l /\ log_file logpath name before l path)
  \/ asks logpath name (before ++ [c]) cfgs path.
Proof.
  intros ([|i] & o & e & d & n & l & H & Ha & Hf); cbn [nth_error firstn] in *.
  - left. injection H as ->. rewrite app_nil_r in Hf. eauto 8.
  - right. exists i, o, e, d, n, l. splits; [easy|easy|]. now rewrite <- app_assoc.
Qed.

Lemma init_file e logpath name service o eq d n cfgs before fps :
  init_appenders e logpath name service (FileCfg o eq d n :: cfgs) (length before) fps =
  let path := chosen logpath name fps (level_of o) (length before) in
  if negb (can_open e path) then Ret None
  else if d && negb (midnight_known e) then Panic
  else r <- init_appenders e logpath name service cfgs (length (before ++ [FileCfg o eq d n])) (path :: fps) ;;
       Ret (option_map (cons (Appender service (chars "json") (FilterConfig (level_of o) (unwrap_or eq false))
                                (if d then Daily path n else Plain path n))) r).
Proof.
  cbn [init_appenders]. cbv zeta. fold (chosen logpath name fps (level_of o) (length before)).
  assert (H : is_none (log_name (chosen logpath name fps (level_of o) (length before))) = false).
  { unfold chosen. apply own_file_log_name with logpath name 0. destruct (existsb _ _).
    - right. exists (level_of o), (length before). split; [easy|lia].
    - left. now exists (level_of o). }
  rewrite H, andb_false_r. rewrite app_length. cbn [length]. now rewrite Nat.add_1_r.
Qed.
Lemma init_console e logpath name service o cfgs before fps :
  init_appenders e logpath name service (ConsoleCfg o :: cfgs) (length before) fps =
  (r <- init_appenders e logpath name service cfgs (length (before ++ [ConsoleCfg o])) fps ;;
   Ret (option_map (cons (Appender service (chars "colored") (FilterConfig (level_of o) false) Stdout)) r)).
Proof. cbn [init_appenders]. rewrite app_length. cbn [length]. now rewrite Nat.add_1_r. Qed.

Lemma init_laid e logpath name service : forall cfgs before fps l, remembers logpath name before fps ->
  init_appenders e logpath name service cfgs (length before) fps = Ret (Some l) ->
  length l = length cfgs
  /\ (forall i cfg, nth_error cfgs i = Some cfg -> exists a, nth_error l i = Some a
       /\ laid_out logpath name (before ++ firstn i cfgs) cfg a)
  /\ forall path, asks logpath name before cfgs path -> can_open e path = true.
Proof.
  induction cfgs as [|cfg cfgs IH]; intros before fps l Hr.
  - intros [= <-]. splits; [easy|intros []; easy|]. intros path ([|i] & o & e' & d & n & lv & H & _); discriminate.
  - destruct cfg as [o|o eq d n].
    + rewrite init_console. destruct (init_appenders e logpath name service cfgs _ fps) as [[r|]| | | |] eqn:E;
        cbn [obind option_map]; intros [= <-].
      destruct (IH _ _ _ (remembers_console _ _ _ _ o Hr) E) as (H1 & H2 & H3). splits.
      * cbn [length]. now rewrite H1.
      * intros [|i] cfg; cbn [nth_error firstn].
        -- intros [= <-]. eexists. split; [reflexivity|]. reflexivity.
        -- intros H. destruct (H2 i cfg H) as (a & Ha & Hl). exists a. split; [easy|]. now rewrite <- app_assoc in Hl.
      * intros path [(o' & e' & d & n & lv & X & _)|X]%asks_inv; [discriminate|auto].
    + rewrite init_file. cbv zeta. set (path := chosen logpath name fps (level_of o) (length before)).
      destruct (can_open e path) eqn:Ho; cbn [negb]; [|discriminate].
      destruct (d && negb (midnight_known e)); [discriminate|].
      destruct (init_appenders e logpath name service cfgs _ (path :: fps)) as [[r|]| | | |] eqn:E;
        cbn [obind option_map]; intros [= <-].
      destruct (IH _ _ _ (remembers_file _ _ _ _ o eq d n Hr) E) as (H1 & H2 & H3).
      assert (Hl : asks_for o (level_of o)) by now apply level_of_spec. splits.
      * cbn [length]. now rewrite H1.
      * intros [|i] cfg; cbn [nth_error firstn].
        -- intros [= <-]. eexists. split; [reflexivity|]. exists (level_of o), path. rewrite app_nil_r.
           splits; [easy| |easy]. now apply chosen_spec.
        -- intros H. destruct (H2 i cfg H) as (a & Ha & Hl'). exists a. split; [easy|]. now rewrite <- app_assoc in Hl'.
      * intros q [(o' & e' & d' & n' & lv & [= <- <- <- <-] & Ha & Hf)|X]%asks_inv; [|auto].
        rewrite (asks_for_fun _ _ _ Ha Hl) in Hf.
        now rewrite (log_file_fun _ _ _ _ _ _ Hf (chosen_spec _ _ _ _ _ Hr)).
Qed.

(** success, failure and panic *)
Lemma init_total e logpath name service : forall cfgs idx fps,
  midnight_known e = true \/ (forall o eq n, ~ In (FileCfg o eq true n) cfgs) ->
  exists r, init_appenders e logpath name service cfgs idx fps = Ret r.
Proof.
  induction cfgs as [|cfg cfgs IH]; intros idx fps Hm; [now exists (Some [])|].
  assert (Hm' : midnight_known e = true \/ (forall o eq n, ~ In (FileCfg o eq true n) cfgs)).
  { destruct Hm as [H|H]; [now left|right]. intros o eq n X. apply (H o eq n). now right. }
  destruct cfg as [o|o eq d n]; cbn [init_appenders].
  - destruct (IH (S idx) fps Hm') as [r ->]. now eexists.
  - cbv zeta. set (path := if existsb _ _ then _ else _). destruct (negb (can_open e path)); [now eexists|].
    destruct (d && negb (midnight_known e)) eqn:E.
    { exfalso. apply andb_prop in E as [-> E]. destruct Hm as [H|H]; [now rewrite H in E|].
      apply (H o eq n). now left. }
    destruct (d && is_none (log_name path)); [now eexists|].
    destruct (IH (S idx) (path :: fps) Hm') as [r ->]. now eexists.
Qed.
Lemma init_opens e logpath name service : forall cfgs before fps, remembers logpath name before fps ->
  (forall path, asks logpath name before cfgs path -> can_open e path = true) ->
  (midnight_known e = true \/ (forall o eq n, ~ In (FileCfg o eq true n) cfgs) ->
   exists l, init_appenders e logpath name service cfgs (length before) fps = Ret (Some l))
  /\ (midnight_known e = false -> (exists o eq n, In (FileCfg o eq true n) cfgs) ->
      init_appenders e logpath name service cfgs (length before) fps = Panic).
Proof.
  induction cfgs as [|cfg cfgs IH]; intros before fps Hr Ho.
  - split; [intros _; now exists []|]. intros _ (o & eq & n & []).
  - destruct cfg as [o|o eq d n].
    + rewrite init_console. destruct (IH (before ++ [ConsoleCfg o]) fps) as [H1 H2].
      { now apply remembers_console. }
      { intros path X. apply Ho. now apply asks_tail. }
      split.
      * intros Hm. destruct H1 as [l ->]; [|now eexists].
        destruct Hm as [H|H]; [now left|right]. intros o' eq n X. apply (H o' eq n). now right.
      * intros Hm (o' & eq & n & [X|X]); [discriminate|]. now rewrite H2 by eauto.
    + rewrite init_file. cbv zeta.
      assert (Hp : can_open e (chosen logpath name fps (level_of o) (length before)) = true).
      { apply Ho. exists 0, o, eq, d, n, (level_of o). cbn [nth_error firstn]. rewrite app_nil_r.
        splits; [easy|now apply level_of_spec|now apply chosen_spec]. }
      rewrite Hp. cbn [negb]. destruct (IH (before ++ [FileCfg o eq d n]) (chosen logpath name fps (level_of o) (length before) :: fps)) as [H1 H2].
      { now apply remembers_file. }
      { intros path X. apply Ho. now apply asks_tail. }
      split.
      * intros Hm. destruct (d && negb (midnight_known e)) eqn:E.
        { exfalso. apply andb_prop in E as [-> E]. destruct Hm as [H|H]; [now rewrite H in E|].
          apply (H o eq n). now left. }
        destruct H1 as [l ->]; [|now eexists].
        destruct Hm as [H|H]; [now left|right]. intros o' eq' n' X. apply (H o' eq' n'). now right.
      * intros Hm Hd. rewrite Hm. destruct d; [reflexivity|]. cbn [negb andb].
        rewrite H2; [easy|easy|]. destruct Hd as (o' & eq' & n' & [X|X]); [discriminate|eauto].
Qed.

Lemma remembers_nil logpath name : remembers logpath name [] [].
Proof. intros l. split; [easy|]. intros (o & e & d & n & [] & _). Qed.
Definition disabled (s : logging_config) : bool := match l_disable s with Some true => true | _ => false end.
Lemma disabled_spec s : disabled s = false <-> l_disable s <> Some true.
Proof. unfold disabled. destruct (l_disable s) as [[]|]; easy. Qed.
Lemma logging_init_eq e s logpath : logging_init e s logpath =
  if disabled s then Ret (Some None)
  else r <- init_appenders e logpath (l_service_name s) (l_service_idx s) (l_appenders s) (length (@nil appender_cfg)) [] ;;
       Ret (option_map Some r).
Proof. unfold logging_init, disabled. now destruct (l_disable s) as [[]|]. Qed.
Lemma section_laid_eq logpath s p : section_laid_out logpath s p <->
  if disabled s then p = []
  else length p = length (l_appenders s)
         /\ forall i cfg, nth_error (l_appenders s) i = Some cfg -> exists a, nth_error p i = Some a
            /\ laid_out logpath (l_service_name s) (firstn i (l_appenders s)) cfg a.
Proof. unfold section_laid_out, disabled. now destruct (l_disable s) as [[]|]. Qed.

Lemma section_laid e s logpath r : logging_init e s logpath = Ret (Some r) ->
  section_laid_out logpath s (unwrap_or r []) /\ forall path, asked_for logpath s path -> can_open e path = true.
Proof.
  rewrite logging_init_eq, section_laid_eq. unfold asked_for. pose proof (disabled_spec s) as D. destruct (disabled s).
  - intros [= <-]. split; [easy|]. intros path [X _]. apply D in X. discriminate.
  - destruct (init_appenders _ _ _ _ _ _ _) as [[l|]| | | |] eqn:E; cbn [obind option_map]; intros [= <-].
    apply init_laid in E as (H1 & H2 & H3); [|apply remembers_nil]. cbn [unwrap_or]. splits; try easy.
    intros path [_ X]. now apply H3.
Qed.
Lemma laid_appenders w c l : all_appenders w c = Ret (Some l) ->
  (exists parts, l = concat parts /\ Forall2 (section_laid_out (c_logpath c)) (sections c) parts)
  /\ forall s path, In s (sections c) -> asked_for (c_logpath c) s path -> can_open (e_log w) path = true.
Proof.
  intros H. apply section_appenders_spec in H as (parts & -> & Hp). unfold sections. split.
  - exists parts. split; [easy|]. clear - Hp.
    induction Hp as [|s p ss ps (r & Hr & ->) _ IH]; constructor; [|easy]. exact (proj1 (section_laid _ _ _ _ Hr)).
  - clear - Hp. induction Hp as [|s p ss ps (r & Hr & ->) _ IH]; [easy|]. intros s' path [<-|X]; [|now apply IH].
    now apply (section_laid _ _ _ _ Hr).
Qed.

Lemma section_total e s logpath : midnight_known e = true \/ ~ rotates s ->
  exists r, logging_init e s logpath = Ret r.
Proof.
  intros Hm. rewrite logging_init_eq. unfold rotates in Hm. rewrite <- disabled_spec in Hm.
  destruct (disabled s); [now eexists|].
  destruct (init_total e logpath (l_service_name s) (l_service_idx s) (l_appenders s) (length (@nil appender_cfg)) []) as [r ->];
    [|now eexists].
  destruct Hm as [H|H]; [now left|right]. intros o eq n X. apply H. split; [easy|eauto].
Qed.
Lemma section_opens e s logpath : (forall path, asked_for logpath s path -> can_open e path = true) ->
  (midnight_known e = true \/ ~ rotates s -> exists r, logging_init e s logpath = Ret (Some r))
  /\ (midnight_known e = false -> rotates s -> logging_init e s logpath = Panic).
Proof.
  intros Ho. rewrite logging_init_eq. unfold rotates, asked_for in *. pose proof (disabled_spec s) as D.
  destruct (disabled s). { split; [intros _; now eexists|]. intros _ [X _]. apply D in X. discriminate. }
  assert (D' : l_disable s <> Some true) by now apply D.
  destruct (init_opens e logpath (l_service_name s) (l_service_idx s) (l_appenders s) [] []) as [H1 H2].
  { apply remembers_nil. }
  { intros path X. apply Ho. split; [easy|exact X]. }
  split.
  - intros Hm. destruct H1 as [l ->]; [|now eexists].
    destruct Hm as [H|H]; [now left|right]. intros o eq n X. apply H. split; [easy|eauto].
  - intros Hm [_ Hd]. now rewrite H2.
Qed.
Lemma sections_total e logpath : forall ss, midnight_known e = true \/ (forall s, In s ss -> ~ rotates s) ->
  exists r, section_appenders e logpath ss = Ret r.
Proof.
  induction ss as [|s ss IH]; intros Hm; [now eexists|]. cbn [section_appenders].
  destruct (section_total e s logpath) as [[o|] ->].
  { destruct Hm as [H|H]; [now left|right]. apply H. now left. }
  - cbn [obind]. destruct IH as [r ->]; [|now eexists].
    destruct Hm as [H|H]; [now left|right]. intros s' Hs. apply H. now right.
  - now eexists.
Qed.
Lemma sections_open e logpath : forall ss,
  (forall s path, In s ss -> asked_for logpath s path -> can_open e path = true) ->
  (midnight_known e = true \/ (forall s, In s ss -> ~ rotates s) ->
   exists l, section_appenders e logpath ss = Ret (Some l))
  /\ (midnight_known e = false -> (exists s, In s ss /\ rotates s) -> section_appenders e logpath ss = Panic).
Proof.
  induction ss as [|s ss IH]; intros Ho.
  - split; [intros _; now eexists|]. intros _ (s & [] & _).
  - cbn [section_appenders]. destruct (section_opens e s logpath) as [S1 S2].
    { intros path X. apply (Ho s); [now left|easy]. }
    destruct IH as [H1 H2]. { intros s' path X. apply Ho. now right. }
    split.
    + intros Hm. destruct S1 as [r ->]. { destruct Hm as [H|H]; [now left|right]. apply H. now left. }
      cbn [obind]. destruct H1 as [l ->]; [|now eexists].
      destruct Hm as [H|H]; [now left|right]. intros s' Hs. apply H. now right.
    + intros Hm Hd. destruct (disabled s) eqn:Ed.
      * assert (Es : logging_init e s logpath = Ret (Some None)) by (rewrite logging_init_eq; now rewrite Ed).
        rewrite Es. cbn [obind]. rewrite H2; [easy|easy|].
        destruct Hd as (s' & [<-|X] & [R1 R2]); [|exists s'; split; [easy|now split]].
        apply disabled_spec in R1. congruence.
      * destruct (existsb (fun c => match c with FileCfg _ _ true _ => true | _ => false end) (l_appenders s)) eqn:Ex.
        -- apply existsb_exists in Ex as ([o|o eq [] n] & X & Y); try discriminate.
           rewrite S2; [easy|easy|]. split; [now apply disabled_spec|eauto].
        -- assert (N : ~ rotates s).
           { intros [_ (o & eq & n & X)].
             assert (Y : existsb (fun c => match c with FileCfg _ _ true _ => true | _ => false end) (l_appenders s) = true);
               [|congruence]. apply existsb_exists. eexists. split; [exact X|easy]. }
           destruct S1 as [r ->]; [now right|]. cbn [obind]. rewrite H2; [easy|easy|].
           destruct Hd as (s' & [<-|X] & R); [easy|eauto].
Qed.
Lemma started w c : midnight_known (e_log w) = true \/ (forall s, In s (sections c) -> ~ rotates s) ->
  ((forall s path, In s (sections c) -> asked_for (c_logpath c) s path -> can_open (e_log w) path = true) ->
   exists l, all_appenders w c = Ret (Some l))
  /\ forall s path, In s (sections c) -> asked_for (c_logpath c) s path -> can_open (e_log w) path = false ->
     all_appenders w c = Ret None.
Proof.
  intros Hm. split.
  - intros Ho. now apply (sections_open _ _ _ Ho).
  - intros s path Hs Hp Hf. destruct (sections_total (e_log w) (c_logpath c) (sections c) Hm) as [[l|] E]; [|exact E].
    destruct (laid_appenders w c l E) as [_ X]. rewrite (X s path Hs Hp) in Hf. discriminate.
Qed.
Lemma no_midnight w c s : midnight_known (e_log w) = false -> In s (sections c) -> rotates s ->
  (forall s path, In s (sections c) -> asked_for (c_logpath c) s path -> can_open (e_log w) path = true) ->
  all_appenders w c = Panic.
Proof. intros Hm Hs Hr Ho. apply (sections_open _ _ _ Ho); [easy|]. eauto. Qed.
