(** Facts about log sections: levels, filters, file names. *)
From Verif Require Export F_Paths S_Log.

Lemma case_ascii_lower c : ascii_lower c = case_char c.
Proof. reflexivity. Qed.
Lemma eq_nocase_spec a b : eq_nocase a b = true <-> map case_char a = map case_char b.
Proof. unfold eq_nocase. rewrite chars_eqb_eq. reflexivity. Qed.

Lemma named_eq_nocase n s : eq_nocase (chars n) s = true <-> map case_char s = map case_char (chars n).
Proof. rewrite eq_nocase_spec. split; congruence. Qed.

Lemma named_inj s l l' : named_as s (level_name l) -> named_as s (level_name l') -> l = l'.
Proof.
  unfold named_as. intros H H'. rewrite H in H'. apply chars_inj in H'.
  destruct l, l'; try easy; discriminate.
Qed.

Lemma level_from_str_spec s l : level_from_str s = Some l <-> named_as s (level_name l).
Proof.
  assert (Hn : forall n, eq_nocase (chars n) s = true <-> map case_char s = map case_char (chars n)) by
    (intros; apply named_eq_nocase).
  unfold level_from_str, level_names. cbn [position].
  pose proof (Hn "OFF"%string) as H0. pose proof (Hn "ERROR"%string) as H1.
  pose proof (Hn "WARN"%string) as H2. pose proof (Hn "INFO"%string) as H3.
  pose proof (Hn "DEBUG"%string) as H4. pose proof (Hn "TRACE"%string) as H5.
  change (map case_char (chars "OFF")) with (chars "off") in H0.
  change (map case_char (chars "ERROR")) with (chars (level_name Error)) in H1.
  change (map case_char (chars "WARN")) with (chars (level_name Warn)) in H2.
  change (map case_char (chars "INFO")) with (chars (level_name Info)) in H3.
  change (map case_char (chars "DEBUG")) with (chars (level_name Debug)) in H4.
  change (map case_char (chars "TRACE")) with (chars (level_name Trace)) in H5.
  change (map case_char s = chars (level_name Error)) with (named_as s (level_name Error)) in H1.
  change (map case_char s = chars (level_name Warn)) with (named_as s (level_name Warn)) in H2.
  change (map case_char s = chars (level_name Info)) with (named_as s (level_name Info)) in H3.
  change (map case_char s = chars (level_name Debug)) with (named_as s (level_name Debug)) in H4.
  change (map case_char s = chars (level_name Trace)) with (named_as s (level_name Trace)) in H5.
  clear Hn.
  destruct (eq_nocase (chars "OFF") s).
  { cbn. split; [discriminate|]. intros H. assert (E : map case_char s = chars "off") by now apply H0.
    unfold named_as in H. rewrite E in H. apply chars_inj in H. destruct l; discriminate. }
  clear H0.
  repeat match goal with
  | H : (?b = true <-> named_as s (level_name ?k)) |- context [if ?b then _ else _] =>
      destruct b; cbn [option_map];
      [ assert (named_as s (level_name k)) by (apply H; reflexivity);
        split; [intros [= <-]; assumption|intros Hl; f_equal; eapply named_inj; eassumption]
      | ]
  end.
  split; [discriminate|]. intros H. exfalso.
  destruct l; [apply H1 in H|apply H2 in H|apply H3 in H|apply H4 in H|apply H5 in H]; discriminate.
Qed.
Lemma level_from_str_none s : level_from_str s = None <-> forall l, ~ named_as s (level_name l).
Proof.
  split.
  - intros E l H. apply level_from_str_spec in H. congruence.
  - intros H. destruct (level_from_str s) eqn:E; [|easy]. apply level_from_str_spec in E. now apply H in E.
Qed.
Lemma level_of_spec o l : level_of o = l <-> asks_for o l.
Proof.
  unfold level_of, asks_for. destruct o as [s|]; cbn [unwrap_or].
  - destruct (level_from_str s) as [k|] eqn:E; cbn [unwrap_or].
    + pose proof E as H. apply level_from_str_spec in H. split; [intros <-; now left|].
      intros [H'|[-> H']]; [now apply (named_inj s)|]. now apply H' in H.
    + pose proof E as H. rewrite level_from_str_none in H. split; [intros <-; now right|].
      intros [H'|[-> H']]; [now apply H in H'|easy].
  - change (unwrap_or (level_from_str (chars "trace")) Trace) with Trace. split; congruence.
Qed.
Lemma asks_for_fun o l l' : asks_for o l -> asks_for o l' -> l = l'.
Proof. intros H H'. apply level_of_spec in H, H'. congruence. Qed.

Lemma max_level_spec c l : max_level c = l <-> asks_for (c_loglevel c) l.
Proof.
  unfold max_level. destruct (c_loglevel c) as [s|].
  - rewrite <- level_of_spec. reflexivity.
  - cbn. split; congruence.
Qed.

Lemma filter_spec cfg lv : filter_accepts (match cfg with
    | ConsoleCfg s => FilterConfig (level_of s) false
    | FileCfg s e _ _ => FilterConfig (level_of s) (unwrap_or e false)
    end) lv = true <-> selects cfg lv.
Proof.
  assert (Hs : forall s, level_leb lv (level_of s) = true <-> exists l, asks_for s l /\ severity l <= severity lv).
  { intros s. pose proof (proj1 (level_of_spec s (level_of s)) eq_refl) as H. split.
    - intros E. exists (level_of s). split; [easy|].
      destruct lv, (level_of s); cbn in E |- *; try discriminate; lia.
    - intros (l & Hl & Hs). rewrite (asks_for_fun _ _ _ H Hl).
      destruct lv, l; cbn in Hs |- *; try reflexivity; lia. }
  assert (He : forall s, level_eqb lv (level_of s) = true <-> exists l, asks_for s l /\ lv = l).
  { intros s. pose proof (proj1 (level_of_spec s (level_of s)) eq_refl) as H. split.
    - intros E. exists (level_of s). split; [easy|].
      destruct lv, (level_of s); cbn in E |- *; try discriminate; reflexivity.
    - intros (l & Hl & ->). rewrite (asks_for_fun _ _ _ H Hl). destruct l; reflexivity. }
  destruct cfg as [s|s [[]|] d b]; cbn [selects unwrap_or]; unfold filter_accepts; cbn [f_level f_level_equal]; auto.
Qed.

Lemma init_filters e logpath name service : forall cfgs idx fps l,
  init_appenders e logpath name service cfgs idx fps = Ret (Some l) ->
  Forall2 (fun cfg a => a_service a = service /\ forall lv, filter_accepts (a_filter a) lv = true <-> selects cfg lv)
    cfgs l.
Proof.
  induction cfgs as [|cfg cfgs IH]; intros idx fps l; cbn [init_appenders].
  - intros [= <-]. constructor.
  - pose proof (filter_spec cfg) as Hf. destruct cfg as [s|s eq d b].
    + destruct (init_appenders e logpath name service cfgs (S idx) fps) as [[r|]| | | |] eqn:E; cbn [obind option_map]; intros [= <-].
      constructor; [split; [easy|exact Hf]|eapply IH, E].
    + cbv zeta. destruct (can_open e _); cbn [negb]; [|discriminate].
      destruct (d && negb (midnight_known e)); [discriminate|].
      destruct (d && is_none _); [discriminate|].
      destruct (init_appenders e logpath name service cfgs (S idx) _) as [[r|]| | | |] eqn:E; cbn [obind option_map]; intros [= <-].
      constructor; [split; [easy|exact Hf]|eapply IH, E].
Qed.

(** file names *)
Lemma first_split (c : N) a b x y : a ++ c :: x = b ++ c :: y -> ~ In c a -> ~ In c b -> a = b /\ x = y.
Proof.
  revert b; induction a as [|p a IH]; intros [|q b] E Ha Hb; cbn [app] in E.
  - injection E as E. auto.
  - injection E as E0 E. exfalso. apply Hb. left. easy.
  - injection E as E0 E. exfalso. apply Ha. left. easy.
  - injection E as E0 E. destruct (IH b E) as [-> ->]; [intros H; apply Ha; now right|intros H; apply Hb; now right|]. subst. auto.
Qed.
Lemma last_split (c : N) a b x y : a ++ c :: x = b ++ c :: y -> ~ In c x -> ~ In c y -> a = b /\ x = y.
Proof.
  intros E Hx Hy. apply (f_equal (@rev N)) in E. rewrite !rev_app_distr in E. cbn [rev] in E.
  rewrite <- !app_assoc in E. cbn [app] in E.
  apply first_split in E as [E1 E2]; [|rewrite <- in_rev; easy|rewrite <- in_rev; easy].
  apply (f_equal (@rev N)) in E1, E2. rewrite !rev_involutive in E1, E2. auto.
Qed.

Lemma dec_str_digits n : Forall dig (dec_str n).
Proof. apply digs. apply dec_value. Qed.
Lemma dec_str_no c n : (c < 48 \/ 57 < c)%N -> ~ In c (dec_str n).
Proof.
  intros Hc Hi. pose proof (dec_str_digits n) as H. rewrite Forall_forall in H. apply H in Hi.
  unfold dig in Hi. lia.
Qed.
Lemma dec_str_nonempty n : dec_str n <> [].
Proof.
  unfold dec_str. pose proof (dec_value (N.of_nat n)) as (H & _). destruct (dec (N.of_nat n)); [easy|discriminate].
Qed.
Lemma map_code_inj a : forall b, map code a = map code b -> a = b.
Proof.
  induction a as [|x a IH]; intros [|y b]; cbn [map]; try easy.
  intros [= E1 E2]. apply code_inj in E1. subst. f_equal. now apply IH.
Qed.
Lemma dec_str_inj a b : dec_str a = dec_str b -> a = b.
Proof. intros E. apply map_code_inj, dec_inj in E. lia. Qed.

Lemma in_chars_b c s : In c (chars s) <-> existsb (N.eqb c) (chars s) = true.
Proof.
  rewrite existsb_exists. split.
  - intros H. exists c. split; [easy|apply N.eqb_refl].
  - intros (x & H & E). apply N.eqb_eq in E. now subst.
Qed.
Ltac not_in_chars := let H := fresh in intros H%in_chars_b; vm_compute in H; discriminate.
Lemma level_str_no_dot l : ~ In dot (level_str l).
Proof. destruct l; not_in_chars. Qed.
Lemma level_str_no_slash l : ~ In slash (level_str l).
Proof. destruct l; not_in_chars. Qed.
Lemma level_str_inj a b : level_str a = level_str b -> a = b.
Proof. destruct a, b; intros H; try reflexivity; vm_compute in H; discriminate. Qed.

(** the directory of a section *)
Definition section_dir (logpath name : str) : str :=
  match name with [] => logpath ++ chars "/httpd." | _ => logpath ++ chars "/" ++ name ++ chars "/" end.
Lemma log_path_dir logpath name lv : log_path logpath name lv = section_dir logpath name ++ level_str lv ++ chars ".log".
Proof. unfold log_path, section_dir. destruct name; rewrite <- !app_assoc; reflexivity. Qed.
Lemma log_path_idx_dir logpath name lv idx : log_path_idx logpath name lv idx
  = section_dir logpath name ++ level_str lv ++ chars "." ++ dec_str idx ++ chars ".log".
Proof. unfold log_path_idx, section_dir. destruct name; rewrite <- !app_assoc; reflexivity. Qed.

Lemma log_path_inj logpath name a b : log_path logpath name a = log_path logpath name b -> a = b.
Proof.
  rewrite !log_path_dir. intros E. apply app_inv_head in E. apply app_inv_tail in E. now apply level_str_inj.
Qed.
Lemma log_path_idx_neq logpath name a b i : log_path logpath name a <> log_path_idx logpath name b i.
Proof.
  rewrite log_path_dir, log_path_idx_dir. intros E. apply app_inv_head in E.
  change (chars ".log") with (dot :: chars "log") in E at 1. change (chars ".") with [dot] in E. cbn [app] in E.
  apply first_split in E as [_ E]; [|apply level_str_no_dot|apply level_str_no_dot].
  apply (f_equal (@length N)) in E. rewrite app_length in E. cbn in E.
  pose proof (dec_str_nonempty i). destruct (dec_str i); [easy|]. cbn in E. lia.
Qed.
Lemma log_path_idx_inj logpath name a b i j :
  log_path_idx logpath name a i = log_path_idx logpath name b j -> i = j.
Proof.
  rewrite !log_path_idx_dir. intros E. apply app_inv_head in E.
  change (chars ".") with [dot] in E. cbn [app] in E.
  apply first_split in E as [_ E]; [|apply level_str_no_dot|apply level_str_no_dot].
  apply app_inv_tail in E. now apply dec_str_inj.
Qed.

(** the files of one section *)
Definition own_file (logpath name : str) (idx : nat) (p : str) : Prop :=
  (exists lv, p = log_path logpath name lv) \/ exists lv i, p = log_path_idx logpath name lv i /\ idx <= i.
Definition used_file (logpath name : str) (idx : nat) (p : str) : Prop :=
  (exists lv, p = log_path logpath name lv) \/ exists lv i, p = log_path_idx logpath name lv i /\ i < idx.

Lemma section_files e logpath name service : forall cfgs idx fps l,
  init_appenders e logpath name service cfgs idx fps = Ret (Some l) ->
  Forall (used_file logpath name idx) fps ->
  NoDup (files l) /\ (forall p, In p (files l) -> ~ In p fps /\ own_file logpath name idx p).
Proof.
  induction cfgs as [|cfg cfgs IH]; intros idx fps l; cbn [init_appenders].
  - intros [= <-] _. split; [constructor|]. intros p [].
  - assert (Hup : forall fps, Forall (used_file logpath name idx) fps -> Forall (used_file logpath name (S idx)) fps).
    { intros fps'. apply Forall_impl. intros p [H|(lv & i & E & H)]; [now left|right; exists lv, i; split; [easy|lia]]. }
    assert (Hdown : forall p, own_file logpath name (S idx) p -> own_file logpath name idx p).
    { intros p [H|(lv & i & E & H)]; [now left|right; exists lv, i; split; [easy|lia]]. }
    destruct cfg as [s|s eq d b].
    + destruct (init_appenders e logpath name service cfgs (S idx) fps) as [[r|]| | | |] eqn:E; cbn [obind option_map]; intros [= <-] Hu.
      destruct (IH _ _ _ E (Hup _ Hu)) as [Hn Hi]. unfold files in *. cbn [map concat file_of a_sink app].
      split; [easy|]. intros p Hp. apply Hi in Hp as [Hp1 Hp2]. auto.
    + cbv zeta. set (path0 := log_path logpath name (level_of s)).
      set (path := if existsb (chars_eqb path0) fps then log_path_idx logpath name (level_of s) idx else path0).
      assert (Hnew : forall fps', fps' = fps -> Forall (used_file logpath name idx) fps ->
                 ~ In path fps /\ own_file logpath name idx path /\ used_file logpath name (S idx) path).
      { intros _ _ Hu. unfold path. destruct (existsb (chars_eqb path0) fps) eqn:Ex.
        - splits.
          + intros Hi. rewrite Forall_forall in Hu. apply Hu in Hi as [(lv & E)|(lv & i & E & H)].
            * symmetry in E. now apply log_path_idx_neq in E.
            * apply log_path_idx_inj in E. lia.
          + right. exists (level_of s), idx. split; [easy|lia].
          + right. exists (level_of s), idx. split; [easy|lia].
        - splits.
          + intros Hi. assert (Et : existsb (chars_eqb path0) fps = true).
            { apply existsb_exists. exists path0. split; [easy|now apply chars_eqb_eq]. }
            congruence.
          + left. now exists (level_of s).
          + left. now exists (level_of s). }
      destruct (can_open e path); cbn [negb]; [|discriminate].
      destruct (d && negb (midnight_known e)); [discriminate|].
      destruct (d && is_none (log_name path)); [discriminate|].
      destruct (init_appenders e logpath name service cfgs (S idx) (path :: fps)) as [[r|]| | | |] eqn:E; cbn [obind option_map]; intros [= <-] Hu.
      destruct (Hnew fps eq_refl Hu) as (H1 & H2 & H3).
      destruct (IH _ _ _ E) as [Hn Hi]; [constructor; [easy|now apply Hup]|].
      assert (Ef : files (Appender service (chars "json") (FilterConfig (level_of s) (unwrap_or eq false))
                     (if d then Daily path b else Plain path b) :: r) = path :: files r).
      { unfold files. cbn [map concat]. unfold file_of at 1. cbn [a_sink]. destruct d; reflexivity. }
      rewrite Ef. split.
      * constructor; [|easy]. intros Hp. apply Hi in Hp as [Hp _]. apply Hp. now left.
      * intros p [<-|Hp]; [auto|]. apply Hi in Hp as [Hp1 Hp2]. split; [|auto].
        intros Hf. apply Hp1. now right.
Qed.

(** directory and file part of every log file *)
Lemma own_file_split logpath name idx p : own_file logpath name idx p ->
  exists f, ~ In slash f /\ p = match name with [] => logpath | _ => logpath ++ chars "/" ++ name end ++ slash :: f.
Proof.
  assert (Hl : forall lv, ~ In slash (level_str lv ++ chars ".log")).
  { intros lv H. apply in_app_or in H as [H|H]; [now apply level_str_no_slash in H|revert H; not_in_chars]. }
  assert (Hi : forall lv i, ~ In slash (level_str lv ++ chars "." ++ dec_str i ++ chars ".log")).
  { intros lv i H. apply in_app_or in H as [H|H]; [now apply level_str_no_slash in H|].
    apply in_app_or in H as [H|H]; [revert H; not_in_chars|].
    apply in_app_or in H as [H|H]; [apply dec_str_no in H; [easy|unfold slash; lia]|revert H; not_in_chars]. }
  assert (Hh : forall x, ~ In slash x -> ~ In slash (chars "httpd." ++ x)).
  { intros x Hx H. apply in_app_or in H as [H|H]; [revert H; not_in_chars|easy]. }
  intros [(lv & ->)|(lv & i & -> & _)].
  - rewrite log_path_dir. unfold section_dir. destruct name as [|c name].
    + exists (chars "httpd." ++ level_str lv ++ chars ".log"). split; [apply Hh, Hl|].
      rewrite <- app_assoc. reflexivity.
    + exists (level_str lv ++ chars ".log"). split; [apply Hl|]. rewrite <- !app_assoc. reflexivity.
  - rewrite log_path_idx_dir. unfold section_dir. destruct name as [|c name].
    + exists (chars "httpd." ++ level_str lv ++ chars "." ++ dec_str i ++ chars ".log"). split; [apply Hh, Hi|].
      rewrite <- app_assoc. reflexivity.
    + exists (level_str lv ++ chars "." ++ dec_str i ++ chars ".log"). split; [apply Hi|]. rewrite <- !app_assoc. reflexivity.
Qed.
Lemma names_apart logpath n m i j p : own_file logpath n i p -> own_file logpath m j p -> n = m.
Proof.
  intros Hn Hm. apply own_file_split in Hn as (f & Hf & En), Hm as (g & Hg & Em). subst p.
  apply last_split in Em as [E _]; [|easy|easy].
  assert (Ha : forall x : str, match x with [] => logpath | _ => logpath ++ chars "/" ++ x end = logpath ++ match x with [] => [] | _ => chars "/" ++ x end).
  { intros [|]; [now rewrite app_nil_r|easy]. }
  rewrite !Ha in E. apply app_inv_head in E. destruct n, m; [easy|discriminate|discriminate|].
  now apply app_inv_head in E.
Qed.
