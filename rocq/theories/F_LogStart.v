(** Facts about starting the logging system and about what reaches the appenders. *)
From Verif Require Export F_Consumer.
From Verif Require F_Render.

Definition name_of (a : appender) : str :=
  match a_sink a with Stdout => chars "colored" | _ => chars "json" end.
Lemma init_names e logpath name service : forall cfgs idx fps l,
  init_appenders e logpath name service cfgs idx fps = Ret (Some l) -> Forall (fun a => a_renderer a = name_of a) l.
Proof.
  induction cfgs as [|[lv|lv eq d bs] cfgs IH]; intros idx fps l; cbn [init_appenders].
  - intros [= <-]. constructor.
  - destruct (init_appenders _ _ _ _ cfgs _ _) as [[r|]| | | |] eqn:E; cbn [obind option_map]; intros [= <-].
    constructor; [reflexivity|]. eapply IH; eassumption.
  - destruct (negb (can_open e _)); [discriminate|]. destruct (d && negb (midnight_known e)); [discriminate|].
    destruct (d && is_none _); [discriminate|].
    destruct (init_appenders _ _ _ _ cfgs _ _) as [[r|]| | | |] eqn:E; cbn [obind option_map]; intros [= <-].
    constructor; [now destruct d|]. eapply IH; eassumption.
Qed.
Lemma all_names w c l : all_appenders w c = Ret (Some l) -> Forall (fun a => a_renderer a = name_of a) l.
Proof.
  intros H. apply section_appenders_spec in H as (parts & -> & Hp). apply Forall_concat.
  clear - Hp. induction Hp as [|s p ss ps (r & Hr & ->) _ IH]; constructor; [|easy].
  unfold logging_init in Hr.
  assert (G : (r0 <- init_appenders (e_log w) (c_logpath c) (l_service_name s) (l_service_idx s) (l_appenders s) 0 [];;
      Ret (option_map Some r0)) = Ret (Some r) -> Forall (fun a => a_renderer a = name_of a) (unwrap_or r [])).
  { destruct (init_appenders _ _ _ _ (l_appenders s) 0 []) as [[x|]| | | |] eqn:E;
    cbn [obind option_map]; intros [= <-]. cbn [unwrap_or]. eapply init_names; eassumption. }
  destruct (l_disable s) as [[]|]; [|auto|auto]. injection Hr as <-. constructor.
Qed.

Lemma dedup_in x l : In x (dedup l) <-> In x l.
Proof.
  induction l as [|y l IH]; cbn [dedup]; [easy|]. destruct (existsb (chars_eqb y) l) eqn:E.
  - rewrite IH. split; [now right|]. intros [<-|H]; [|easy].
    apply existsb_exists in E as (z & Hz & Ez). apply chars_eqb_eq in Ez. now subst.
  - cbn [In]. now rewrite IH.
Qed.
Lemma dedup_nodup l : NoDup (dedup l).
Proof.
  induction l as [|y l IH]; cbn [dedup]; [constructor|]. destruct (existsb (chars_eqb y) l) eqn:E; [easy|].
  constructor; [|easy]. rewrite dedup_in. intros H.
  assert (existsb (chars_eqb y) l = true); [|congruence]. apply existsb_exists. exists y.
  split; [easy|]. now apply chars_eqb_eq.
Qed.
Lemma dedup_id l : NoDup l -> dedup l = l.
Proof.
  induction 1 as [|x l Hn _ IH]; cbn [dedup]; [easy|]. destruct (existsb (chars_eqb x) l) eqn:E; [|now rewrite IH].
  apply existsb_exists in E as (z & Hz & Ez). apply chars_eqb_eq in Ez. now subst.
Qed.

Definition std_names : list str := [chars "colored"; chars "json"].
Definition std (n : str) : Prop := In n std_names.
Definition std_kind (n : str) : renderer_kind := if chars_eqb n (chars "json") then Json else Colorful.
Lemma renderer_of_std u n : std n -> renderer_of u n = Some (std_kind n).
Proof. intros [<-|[<-|[]]]; reflexivity. Qed.
Lemma renderers_of_std u layout ns : Forall std ns ->
  renderers_of u layout ns = Some (map (fun n => Renderer n (std_kind n) layout) ns).
Proof.
  induction 1 as [|n ns Hn _ IH]; cbn [renderers_of map]; [easy|]. now rewrite renderer_of_std, IH.
Qed.
Lemma str_lower_std u n : std n -> str_lower u n = n.
Proof. intros [<-|[<-|[]]]; reflexivity. Qed.
Lemma renderer_name_std layout n : std n -> renderer_name (Renderer n (std_kind n) layout) = n.
Proof. intros [<-|[<-|[]]]; reflexivity. Qed.
Lemma eq_nocase_std a b : std a -> std b -> eq_nocase a b = true -> a = b.
Proof. intros [<-|[<-|[]]] [<-|[<-|[]]]; vm_compute; congruence. Qed.
Lemma eq_nocase_refl a : eq_nocase a a = true.
Proof. unfold eq_nocase. now apply chars_eqb_eq. Qed.

Lemma ridx_in rs n : (exists r, In r rs /\ eq_nocase (renderer_name r) n = true) -> exists i, ridx rs n = Some i.
Proof.
  intros (r & Hi & E). unfold ridx. induction rs as [|r0 rs IH]; [easy|]. cbn [position].
  destruct (eq_nocase (renderer_name r0) n) eqn:E0; [now exists 0|].
  destruct Hi as [->|Hi]; [congruence|]. destruct (IH Hi) as [i ->]. now exists (S i).
Qed.
Lemma build_armap_some rs l : (forall a, In a l -> exists r, In r rs /\ eq_nocase (renderer_name r) (a_renderer a) = true) ->
  exists m, build_armap rs l = Some m.
Proof.
  induction l as [|a l IH]; intros H; cbn [build_armap]; [now exists []|].
  destruct (ridx_in rs (a_renderer a)) as [i ->]; [apply H; now left|].
  destruct IH as [m ->]; [intros b Hb; apply H; now right|]. now exists (i :: m).
Qed.

Section Start.
Variables (u : unicode) (no : list str -> list str) (w : world) (arg : str) (c : config) (l : list appender).
Hypothesis Hw : world_ok w.
Hypothesis Hno : forall x, Permutation (no x) x.
Hypothesis Hl : load_config w arg = Some c.
Hypothesis Ha : all_appenders w c = Ret (Some l).

Let names := no (dedup (map a_renderer l)).
Let layout := l_timelayout (c_logging c).

Lemma name_of_std a : std (name_of a).
Proof. unfold name_of. destruct (a_sink a); cbn; auto. Qed.
Lemma names_in n : In n names <-> exists a, In a l /\ name_of a = n.
Proof.
  unfold names. split.
  - intros H. apply (Permutation_in _ (Hno _)) in H. rewrite dedup_in in H. apply in_map_iff in H as (a & <- & Hi).
    exists a. split; [easy|]. pose proof (all_names w c l Ha) as Hn. rewrite Forall_forall in Hn. symmetry. auto.
  - intros (a & Hi & <-). apply (Permutation_in _ (Permutation_sym (Hno _))). rewrite dedup_in.
    apply in_map_iff. exists a. split; [|easy]. pose proof (all_names w c l Ha) as Hn. rewrite Forall_forall in Hn. auto.
Qed.
Lemma names_std : Forall std names.
Proof. apply Forall_forall. intros n Hn. apply names_in in Hn as (a & _ & <-). apply name_of_std. Qed.
Lemma names_nodup : NoDup names.
Proof. unfold names. eapply Permutation_NoDup; [apply Permutation_sym, Hno|apply dedup_nodup]. Qed.

Lemma logging_blocked : l = [] -> config_logging u no w c = Blocked.
Proof.
  intros ->. unfold config_logging. rewrite Ha. cbn [obind route].
  cbn [map dedup]. assert (E : no [] = []) by (apply Permutation_nil, Permutation_sym, Hno). rewrite E. reflexivity.
Qed.
Lemma logging_starts : l <> [] -> exists k, config_logging u no w c = Ret (Some (max_level c, k))
  /\ k_appenders k = l /\ k_renderers k = map (fun n => Renderer n (std_kind n) layout) names.
Proof.
  intros Hne. unfold config_logging. rewrite Ha. cbn [obind].
  destruct (route_spec l 0 (c_slab c) (appender_bounds w arg c l Hw Hl Ha)) as (slab & -> & _ & _). cbn [obind].
  fold names layout. rewrite (renderers_of_std u layout names names_std).
  assert (Hex : exists a0, In a0 l) by (clear - Hne; destruct l as [|a0 l0]; [easy|exists a0; now left]).
  destruct Hex as [a0 Hi0].
  assert (Hn0 : names <> []).
  { intros E. assert (H : In (name_of a0) names) by (apply names_in; exists a0; auto).
    rewrite E in H. easy. }
  set (rs := map (fun n => Renderer n (std_kind n) layout) names).
  assert (Hrn : map renderer_name rs = names).
  { unfold rs. rewrite map_map. rewrite <- (map_id names) at 2. apply map_ext_in. intros n Hn.
    apply renderer_name_std. pose proof names_std as Hs. rewrite Forall_forall in Hs. auto. }
  assert (Hu : unique u (map renderer_name rs) = true).
  { rewrite Hrn. unfold unique. apply Nat.eqb_eq. f_equal. transitivity (dedup names); [|apply dedup_id, names_nodup].
    f_equal. rewrite <- (map_id names) at 2. apply map_ext_in. intros n Hn.
    apply str_lower_std. pose proof names_std as Hs. rewrite Forall_forall in Hs. auto. }
  destruct (build_armap_some rs l) as [m Em].
  { intros a Hi. exists (Renderer (name_of a) (std_kind (name_of a)) layout). split.
    - unfold rs. apply in_map_iff. exists (name_of a). split; [easy|]. apply names_in. now exists a.
    - rewrite renderer_name_std by apply name_of_std. pose proof (all_names w c l Ha) as Hn. rewrite Forall_forall in Hn.
      rewrite (Hn a Hi). apply eq_nocase_refl. }
  unfold consumer_init. rewrite Hu, Em. cbn [negb option_map].
  exists (Consumer l rs m slab). destruct rs as [|r rs'] eqn:Er.
  { unfold rs in Er. destruct names; [easy|discriminate]. }
  clear - Hne. destruct l; [easy|]. auto.
Qed.
End Start.

Lemma nodup_all_same {A} (l : list A) x : NoDup l -> l <> [] -> (forall y, In y l -> y = x) -> l = [x].
Proof.
  intros Hn He H. destruct l as [|a [|b l]]; [easy|f_equal; apply H; now left|].
  exfalso. inversion Hn as [|? ? H1 _]; subst. apply H1. left.
  rewrite (H a), (H b); [easy|now right; left|now left].
Qed.

Lemma renders fmt layout r it : layout_ok fmt layout -> r_timelayout r = layout -> exists b, render fmt r it = Ret b.
Proof.
  intros H <-. destruct (H (i_time it)) as [t Ht]. change usual_layout with default_layout in Ht. unfold render, render_json, render_color, time_text. rewrite Ht.
  destruct (r_kind r); cbn [obind]; eauto.
Qed.
Lemma render_line fmt layout a it b : 
  render fmt (Renderer (name_of a) (std_kind (name_of a)) layout) it = Ret b <-> line fmt layout a it b.
Proof.
  set (r := Renderer _ _ _). destruct (F_Render.rendered_shown fmt r it) as [H1 H2].
  assert (E : forall t, shown_time fmt layout it t -> render fmt r it
    = Ret ((match a_sink a with Stdout => shown_coloured usual_colours t it | _ => shown_json t it end) ++ CRLF)).
  { intros t Ht. rewrite (H1 t Ht). unfold r, name_of. now destruct (a_sink a). }
  split.
  - intros H. destruct (fmt (i_time it) (match layout with [] => usual_layout | _ => layout end)) as [t|] eqn:Et.
    + exists t. split; [exact Et|]. rewrite (E t Et) in H. congruence.
    + rewrite H2 in H; [discriminate|]. intros t Ht. unfold shown_time in Ht. cbn [r_timelayout r] in Ht. congruence.
  - intros (t & Ht & ->). now apply E.
Qed.

Section Running.
Variables (u : unicode) (no : list str -> list str) (w : world) (arg : str) (c : config) (lv : level) (k : consumer).
Variable fmt : formatter.
Hypothesis Hw : world_ok w.
Hypothesis Hno : forall x, Permutation (no x) x.
Hypothesis Hl : load_config w arg = Some c.
Hypothesis Hk : config_logging u no w c = Ret (Some (lv, k)).
Let layout := l_timelayout (c_logging c).
Hypothesis Hfmt : layout_ok fmt layout.

Let names := no (dedup (map a_renderer (k_appenders k))).
Lemma running : all_appenders w c = Ret (Some (k_appenders k)) /\ k_appenders k <> []
  /\ k_renderers k = map (fun n => Renderer n (std_kind n) layout) names /\ routed k
  /\ build_armap (k_renderers k) (k_appenders k) = Some (k_armap k).
Proof.
  destruct (config_logging_inv u no w arg c lv k Hw Hl Hk) as (Ha & _ & _ & Hm & _ & Hne & _ & Hr).
  destruct (logging_starts u no w arg c (k_appenders k) Hw Hno Hl Ha Hne) as (k' & Ek & _ & Er).
  rewrite Hk in Ek. injection Ek as _ <-. auto.
Qed.
Lemma running_ok it : renders_ok fmt k it.
Proof.
  destruct running as (_ & _ & Er & _). intros r Hr. rewrite Er in Hr. apply in_map_iff in Hr as (n & <- & _).
  now apply (renders fmt layout).
Qed.
Lemma bufs_length : length (empty_bufs k) = length (k_renderers k).
Proof. unfold empty_bufs. apply map_length. Qed.

Lemma running_name a : In a (k_appenders k) -> In (name_of a) names.
Proof.
  intros Hi. destruct running as (Ha & _). unfold names. rewrite (names_in no w c _ Hno Ha). exists a. auto.
Qed.
Lemma names_from n : In n names -> exists a, In a (k_appenders k) /\ name_of a = n.
Proof. intros Hi. destruct running as (Ha & _). unfold names in Hi. now rewrite (names_in no w c _ Hno Ha) in Hi. Qed.

Lemma one_kind : (forall a b, In a (k_appenders k) -> In b (k_appenders k) -> (console a <-> console b)) ->
  exists n, k_renderers k = [Renderer n (std_kind n) layout] /\ forall a, In a (k_appenders k) -> name_of a = n.
Proof.
  intros Hs. destruct running as (Ha & Hne & Er & _).
  assert (Hex : exists a0, In a0 (k_appenders k)) by (clear - Hne; destruct (k_appenders k) as [|a0 l0]; [easy|exists a0; now left]).
  destruct Hex as [a0 Hi0].
  assert (Hall : forall a, In a (k_appenders k) -> name_of a = name_of a0).
  { intros a Hi. specialize (Hs a a0 Hi Hi0). unfold console, name_of in *.
    destruct (a_sink a), (a_sink a0); try reflexivity; exfalso; destruct Hs as [Hs1 Hs2];
    try (now discriminate (Hs1 eq_refl)); now discriminate (Hs2 eq_refl). }
  exists (name_of a0). split; [|exact Hall].
  assert (En : names = [name_of a0]).
  { apply nodup_all_same.
    - unfold names. now apply names_nodup.
    - intros E. pose proof (running_name a0 Hi0) as H. rewrite E in H. easy.
    - intros n Hn. apply names_from in Hn as (a & Hi & <-). now apply Hall. }
  rewrite Er, En. reflexivity.
Qed.
Lemma two_kinds a b : In a (k_appenders k) -> In b (k_appenders k) -> console a -> ~ console b ->
  length (k_renderers k) <> 1.
Proof.
  intros Hi Hj Ha Hb E. destruct running as (_ & _ & Er & _). rewrite Er, map_length in E.
  pose proof (running_name a Hi) as H1. pose proof (running_name b Hj) as H2.
  destruct names as [|n [|? ?]]; try discriminate. destruct H1 as [H1|[]], H2 as [H2|[]].
  rewrite H1 in H2. unfold name_of, console in *. destruct (a_sink a), (a_sink b); try easy; try discriminate.
Qed.

Lemma deliver (it : item) ws :
  map fst ws = the_targets k it ->
  (forall i b, In (i, b) ws -> exists a, nth_error (k_appenders k) i = Some a /\ line fmt layout a it b) ->
  delivered fmt layout (k_appenders k) it ws.
Proof.
  intros Hf Hb. destruct running as (_ & _ & _ & Hr & _). split.
  - rewrite Hf. now apply increasing_nodup, targets_increasing.
  - intros i b. split.
    + intros Hi. destruct (Hb i b Hi) as (a & Ha & Hline). exists a. splits; [easy| |easy].
      assert (Ht : In i (the_targets k it)) by (rewrite <- Hf; apply in_map_iff; exists (i, b); auto).
      apply targets_spec in Ht as (a' & Ha' & Hbel); [|easy]. congruence.
    + intros (a & Ha & Hbel & Hline).
      assert (Ht : In i (the_targets k it)) by (apply targets_spec; [easy|exists a; auto]).
      rewrite <- Hf in Ht. apply in_map_iff in Ht as ([i' b'] & Ei & Hi). cbn in Ei. subst i'.
      destruct (Hb i b' Hi) as (a' & Ha' & Hline'). rewrite Ha in Ha'. injection Ha' as <-.
      assert (b = b'); [|congruence]. apply render_line in Hline, Hline'. congruence.
Qed.

(** C54 *)
Lemma single_all : (forall a b, In a (k_appenders k) -> In b (k_appenders k) -> (console a <-> console b)) ->
  forall items, exists wss, consume_all fmt k items (empty_bufs k) = Ret wss
    /\ Forall2 (delivered fmt layout (k_appenders k)) items wss.
Proof.
  intros Hs. destruct (one_kind Hs) as (n & Er & Hn). destruct running as (_ & _ & _ & Hr & _).
  assert (Hb : length (empty_bufs k) = 1) by (rewrite bufs_length, Er; reflexivity).
  intros items. generalize (empty_bufs k) Hb. clear Hb.
  induction items as [|it items IH]; intros bufs Hb; cbn [consume_all]; [exists []; auto|].
  destruct (renders fmt layout (Renderer n (std_kind n) layout) it Hfmt eq_refl) as [b Eb].
  destruct (consume_single_ok fmt k _ it bufs b Hr Er Hb Eb) as (bufs' & Ec & Hb').
  rewrite Ec. cbn [obind fst snd]. destruct (IH bufs' Hb') as (wss & -> & Hwss). cbn [obind].
  eexists. split; [reflexivity|]. constructor; [|easy]. apply deliver.
  - now rewrite map_map, map_id.
  - intros i b' Hi. apply in_map_iff in Hi as (j & [= <- <-] & Hj).
    apply targets_spec in Hj as (a & Ha & _); [|easy]. exists a. split; [easy|].
    apply render_line. rewrite (Hn a (nth_error_In _ _ Ha)). exact Eb.
Qed.

(** C55 *)
Lemma several_cases it bufs : length bufs = length (k_renderers k) -> length (k_renderers k) <> 1 ->
  (~ prefix_targets (the_targets k it) /\ consume fmt k it bufs = UB)
  \/ (prefix_targets (the_targets k it) /\ exists ws bufs', consume fmt k it bufs = Ret (ws, bufs')
      /\ length bufs' = length (k_renderers k) /\ delivered fmt layout (k_appenders k) it ws).
Proof.
  intros Hb Hn1. destruct running as (Ha & _ & Er & Hr & Hm).
  destruct (comsume_cases fmt k it bufs Hr Hm Hn1 Hb (running_ok it)) as [H|(Hp & ws & bufs' & E & Hlen & Hf & Hws)]; [now left|right].
  split; [easy|]. exists ws, bufs'. splits; [easy|easy|]. apply deliver; [easy|].
  intros i b Hi. destruct (Hws i b Hi) as (a & r & H1 & H2 & H3 & H4). exists a. split; [easy|].
  apply render_line. rewrite Er in H2. apply in_map_iff in H2 as (n & <- & Hn).
  assert (Hsn : std n).
  { apply names_from in Hn as (a' & _ & <-). apply name_of_std. }
  rewrite renderer_name_std in H3 by easy.
  assert (Ern : a_renderer a = name_of a).
  { pose proof (all_names w c _ Ha) as Hall. rewrite Forall_forall in Hall. apply Hall. eapply nth_error_In; eassumption. }
  rewrite Ern in H3. apply eq_nocase_std in H3; [|easy|apply name_of_std]. subst n. exact H4.
Qed.
Lemma prefix_belongs it : prefix_targets (the_targets k it) <->
  (forall i j a b, i < j -> nth_error (k_appenders k) i = Some a -> nth_error (k_appenders k) j = Some b ->
     belongs b it -> belongs a it).
Proof.
  destruct running as (_ & _ & _ & Hr & _). split.
  - intros Hp i j a b Hij Ea Eb Hb.
    assert (Hj : In j (the_targets k it)) by (apply targets_spec; [easy|exists b; auto]).
    assert (Hi : In i (the_targets k it)). { rewrite Hp in *. apply in_seq in Hj. apply in_seq. lia. }
    apply targets_spec in Hi as (a' & Ea' & Hbel); [|easy]. congruence.
  - intros H. apply increasing_bound; [now apply targets_increasing| |intros; lia].
    intros j Hj. cbn [plus]. pose proof Hj as Hj0. apply targets_spec in Hj as (b & Eb & Hb); [|easy].
    assert (Hall : forall i, i <= j -> In i (the_targets k it)).
    { intros i Hi. apply targets_spec; [easy|]. destruct (Nat.eq_dec i j) as [->|Hne]; [exists b; auto|].
      assert (Hlt : i < length (k_appenders k)). { assert (j < length (k_appenders k)) by (apply nth_error_Some; congruence). lia. }
      destruct (nth_error (k_appenders k) i) as [a|] eqn:Ea; [|apply nth_error_None in Ea; lia].
      exists a. split; [easy|]. apply (H i j a b); [lia|easy|easy|easy]. }
    assert (Hincl : incl (seq 0 (S j)) (the_targets k it)) by (intros i Hi; apply in_seq in Hi; apply Hall; lia).
    apply NoDup_incl_length in Hincl; [|apply seq_NoDup]. rewrite seq_length in Hincl. lia.
Qed.
Lemma several_bad a b : In a (k_appenders k) -> In b (k_appenders k) -> console a -> ~ console b ->
  forall it i j x y bufs, length bufs = length (k_renderers k) -> i < j ->
  nth_error (k_appenders k) i = Some x -> nth_error (k_appenders k) j = Some y -> ~ belongs x it -> belongs y it ->
  consume fmt k it bufs = UB.
Proof.
  intros Hi Hj Ca Cb it i j x y bufs Hb Hij Ex Ey Hx Hy.
  destruct (several_cases it bufs Hb (two_kinds a b Hi Hj Ca Cb)) as [[_ H]|[Hp _]]; [easy|].
  exfalso. apply Hx. eapply prefix_belongs; eassumption.
Qed.
Lemma several_good a b : In a (k_appenders k) -> In b (k_appenders k) -> console a -> ~ console b ->
  forall items, Forall (fun it => forall i j x y, i < j -> nth_error (k_appenders k) i = Some x ->
    nth_error (k_appenders k) j = Some y -> belongs y it -> belongs x it) items ->
  exists wss, consume_all fmt k items (empty_bufs k) = Ret wss /\ Forall2 (delivered fmt layout (k_appenders k)) items wss.
Proof.
  intros Hi Hj Ca Cb items. generalize (empty_bufs k) bufs_length.
  induction items as [|it items IH]; intros bufs Hb H; cbn [consume_all]; [exists []; auto|].
  inversion H as [|? ? H1 H2]; subst.
  destruct (several_cases it bufs Hb (two_kinds a b Hi Hj Ca Cb)) as [[Hn _]|(_ & ws & bufs' & E & Hb' & Hd)].
  { exfalso. apply Hn. now apply prefix_belongs. }
  rewrite E. cbn [obind fst snd]. destruct (IH bufs' Hb' H2) as (wss & -> & Hwss). cbn [obind].
  eexists. split; [reflexivity|]. constructor; easy.
Qed.
End Running.

(** C53 *)
Lemma routing u no w arg c lv k : world_ok w -> load_config w arg = Some c ->
  config_logging u no w c = Ret (Some (lv, k)) ->
  length (k_samap k) = S (length (c_services c))
  /\ (forall i j, In i (nth j (k_samap k) []) <-> exists a, nth_error (k_appenders k) i = Some a /\ a_service a = j)
  /\ Forall increasing (k_samap k).
Proof.
  intros Hw Hl Hk. destruct (config_logging_inv u no w arg c lv k Hw Hl Hk) as (Ha & _ & _ & _ & _ & _ & Hlen & H1 & H2).
  destruct (loaded w arg c Hw Hl) as (before & Hf & _).
  splits.
  - rewrite Hlen, (fx_slab _ _ _ Hf), repeat_length. f_equal.
    pose proof (fx_idx _ _ _ Hf) as E. apply (f_equal (@length nat)) in E. rewrite map_length, seq_length in E. auto.
  - intros i j. destruct (Nat.lt_ge_cases j (length (k_samap k))) as [Hj|Hj].
    + rewrite (nth_error_nth _ _ _ (H2 j Hj)), idxs_of_in. split.
      * intros (a & _ & E & Es). rewrite Nat.sub_0_r in E. eauto.
      * intros (a & E & Es). exists a. rewrite Nat.sub_0_r. splits; [lia|easy|easy].
    + rewrite nth_overflow by lia. split; [easy|]. intros (a & E & <-). apply nth_error_In, H1 in E. lia.
  - apply Forall_forall. intros x Hx. apply In_nth_error in Hx as [j Ej].
    assert (Hj : j < length (k_samap k)) by (apply nth_error_Some; congruence).
    rewrite (H2 j Hj) in Ej. injection Ej as <-. apply idxs_of_increasing.
Qed.
Lemma logging_init_configured e s logpath r : logging_init e s logpath = Ret (Some r) -> configured s (unwrap_or r []).
Proof.
  unfold logging_init, configured.
  assert (H : (r0 <- init_appenders e logpath (l_service_name s) (l_service_idx s) (l_appenders s) 0 [];;
      Ret (option_map Some r0)) = Ret (Some r) -> Forall2 (fun cfg a => a_service a = l_service_idx s
           /\ forall lv, filter_accepts (a_filter a) lv = true <-> selects cfg lv) (l_appenders s) (unwrap_or r [])).
  { destruct (init_appenders _ _ _ _ (l_appenders s) 0 []) as [[x|]| | | |] eqn:E;
    cbn [obind option_map]; intros [= <-]. cbn [unwrap_or]. now apply init_filters in E. }
  destruct (l_disable s) as [[]|]; auto. intros [= <-]. reflexivity.
Qed.
Lemma appenders_configured w c l : all_appenders w c = Ret (Some l) ->
  exists parts, l = concat parts /\ Forall2 configured (sections c) parts.
Proof.
  intros H. apply section_appenders_spec in H as (parts & -> & Hp). exists parts. split; [easy|].
  unfold sections. clear - Hp. induction Hp as [|s p ss ps (r & Hr & ->) _ IH]; constructor; [|easy].
  eapply logging_init_configured; eassumption.
Qed.

(** C51 *)
Lemma files_app a b : files (a ++ b) = files a ++ files b.
Proof. unfold files. now rewrite map_app, concat_app. Qed.
Lemma nodup_app {A} (a b : list A) : NoDup a -> NoDup b -> (forall x, In x a -> In x b -> False) -> NoDup (a ++ b).
Proof.
  induction 1 as [|x a Hx _ IH]; intros Hb Hd; [easy|]. cbn. constructor.
  - intros H. apply in_app_or in H as [H|H]; [easy|]. apply (Hd x); [now left|easy].
  - apply IH; [easy|]. intros y Hy. apply Hd. now right.
Qed.
Lemma logging_init_files e s logpath r : logging_init e s logpath = Ret (Some r) ->
  NoDup (files (unwrap_or r [])) /\ forall p, In p (files (unwrap_or r [])) -> own_file logpath (l_service_name s) 0 p.
Proof.
  unfold logging_init.
  assert (H : (r0 <- init_appenders e logpath (l_service_name s) (l_service_idx s) (l_appenders s) 0 [];;
      Ret (option_map Some r0)) = Ret (Some r) -> NoDup (files (unwrap_or r [])) /\ forall p, In p (files (unwrap_or r [])) -> own_file logpath (l_service_name s) 0 p).
  { destruct (init_appenders _ _ _ _ (l_appenders s) 0 []) as [[x|]| | | |] eqn:E;
    cbn [obind option_map]; intros [= <-]. cbn [unwrap_or]. apply section_files in E as [H1 H2]; [|constructor].
    split; [easy|]. intros p Hp. now apply H2. }
  destruct (l_disable s) as [[]|]; auto. intros [= <-]. split; [constructor|easy].
Qed.
Lemma files_distinct w c l : NoDup (map l_service_name (sections c)) -> all_appenders w c = Ret (Some l) -> NoDup (files l).
Proof.
  intros Hn H. apply section_appenders_spec in H as (parts & -> & Hp).
  change (Forall2 (fun s p => exists r, logging_init (e_log w) s (c_logpath c) = Ret (Some r) /\ p = unwrap_or r [])
            (sections c) parts) in Hp.
  assert (G : NoDup (files (concat parts)) /\ forall p, In p (files (concat parts)) -> exists s, In s (sections c)
            /\ own_file (c_logpath c) (l_service_name s) 0 p); [|easy].
  revert Hn. induction Hp as [|s p ss ps (r & Hr & ->) _ IH]; intros Hn; cbn [map concat].
  - split; [constructor|easy].
  - cbn [map] in Hn. inversion Hn as [|? ? Hn1 Hn2]; subst. apply logging_init_files in Hr as [F1 F2].
    destruct (IH Hn2) as [G1 G2]. rewrite files_app. split.
    + apply nodup_app; [easy|easy|]. intros p H1 H2. apply F2 in H1. apply G2 in H2 as (s' & Hs' & H2).
      apply Hn1. apply in_map_iff. exists s'. split; [|easy]. eapply names_apart; eassumption.
    + intros p Hi. apply in_app_or in Hi as [Hi|Hi]; [exists s; split; [now left|auto]|].
      apply G2 in Hi as (s' & Hs' & H'). exists s'. split; [now right|easy].
Qed.
Lemma section_names w arg c : world_ok w -> load_config w arg = Some c ->
  map l_service_name (sections c) = [] :: map (fun e => s_name (snd e)) (c_services c).
Proof.
  intros Hw Hl. destruct (loaded w arg c Hw Hl) as (before & Hf & _). unfold sections. cbn [map].
  rewrite (proj2 (fx_root _ _ _ Hf)), map_map. f_equal. apply map_ext_in. intros e He.
  pose proof (fx_names _ _ _ Hf) as Hn. rewrite Forall_forall in Hn. now apply Hn.
Qed.
Lemma loaded_files w arg c l : world_ok w -> load_config w arg = Some c ->
  NoDup (map (fun e => s_name (snd e)) (c_services c)) -> all_appenders w c = Ret (Some l) -> NoDup (files l).
Proof.
  intros Hw Hl Hn. apply files_distinct. rewrite (section_names w arg c Hw Hl). constructor; [|easy].
  intros H. apply in_map_iff in H as (e & E & He). destruct (names_trimmed w arg c Hw Hl) as [_ Ht].
  rewrite Forall_forall in Ht. now apply Ht in He.
Qed.

(** C70 *)
Lemma sections_own w c l p : all_appenders w c = Ret (Some l) -> In p (files l) ->
  exists s, own_file (c_logpath c) (l_service_name s) 0 p.
Proof.
  intros H Hp. apply section_appenders_spec in H as (parts & -> & Hps).
  clear - Hps Hp. induction Hps as [|s q ss ps (r & Hr & ->) _ IH]; cbn [concat] in Hp; [easy|].
  rewrite files_app in Hp. apply in_app_or in Hp as [Hp|Hp]; [|auto].
  apply logging_init_files in Hr as [_ F]. exists s. auto.
Qed.
Lemma own_file_parts logpath name idx p : own_file logpath name idx p ->
  exists d b, p = d ++ b ++ chars ".log" /\ directory d /\ ~ In slash b /\ b <> [].
Proof.
  intros H. assert (Hs : forall lv, level_str lv <> []) by (intros []; discriminate).
  assert (Hi : forall lv i, ~ In slash (level_str lv ++ chars "." ++ dec_str i)).
  { intros lv i Hi. apply in_app_or in Hi as [Hi|Hi]; [now apply level_str_no_slash in Hi|].
    apply in_app_or in Hi as [Hi|Hi]; [revert Hi; not_in_chars|]. apply dec_str_no in Hi; [easy|]. unfold slash. lia. }
  assert (Hc : forall x, ~ In slash x -> ~ In slash (chars "httpd." ++ x)).
  { intros x Hx Hn. apply in_app_or in Hn as [Hn|Hn]; [revert Hn; not_in_chars|easy]. }
  destruct H as [(lv & ->)|(lv & i & -> & _)]; unfold log_path, log_path_idx; destruct name as [|n name].
  - exists (logpath ++ chars "/"), (chars "httpd." ++ level_str lv). splits.
    + rewrite <- !app_assoc. reflexivity.
    + right. now exists logpath.
    + apply Hc, level_str_no_slash.
    + discriminate.
  - exists (logpath ++ chars "/" ++ (n :: name) ++ chars "/"), (level_str lv). splits.
    + rewrite <- !app_assoc. reflexivity.
    + right. exists (logpath ++ chars "/" ++ n :: name). rewrite <- !app_assoc. reflexivity.
    + apply level_str_no_slash.
    + apply Hs.
  - exists (logpath ++ chars "/"), (chars "httpd." ++ level_str lv ++ chars "." ++ dec_str i). splits.
    + rewrite <- !app_assoc. reflexivity.
    + right. now exists logpath.
    + apply Hc, Hi.
    + discriminate.
  - exists (logpath ++ chars "/" ++ (n :: name) ++ chars "/"), (level_str lv ++ chars "." ++ dec_str i). splits.
    + rewrite <- !app_assoc. reflexivity.
    + right. exists (logpath ++ chars "/" ++ n :: name). rewrite <- !app_assoc. reflexivity.
    + apply Hi.
    + destruct lv; discriminate.
Qed.
Lemma rotated_names w c l p : all_appenders w c = Ret (Some l) -> In p (files l) ->
  exists d b n, p = d ++ b ++ chars ".log" /\ directory d /\ ~ In slash b /\ b <> [] /\ log_name p = Some n
  /\ (forall stamp, rotated_name n stamp = d ++ b ++ stamp ++ chars ".log")
  /\ (forall stamp nanos, rotated_name_again n stamp nanos = d ++ b ++ stamp ++ [dot] ++ nanos ++ chars ".log").
Proof.
  intros H Hp. destruct (sections_own w c l p H Hp) as [s Hs].
  apply own_file_parts in Hs as (d & b & -> & Hd & Hb & Hne). exists d, b, (d, b, chars "log").
  splits; try easy.
  rewrite log_name_of; [|easy|].
  - assert (E : rsplit_dot (b ++ chars ".log") = Some (b, chars "log")).
    { clear. induction b as [|x b IH]; [reflexivity|]. cbn [app rsplit_dot]. now rewrite IH. }
    rewrite E. destruct b; [easy|]. reflexivity.
  - unfold proper. splits.
    + intros Hi. apply in_app_or in Hi as [Hi|Hi]; [easy|]. revert Hi. not_in_chars.
    + destruct b; discriminate.
    + intros E. apply (f_equal (@length N)) in E. rewrite app_length in E. cbn in E. lia.
    + intros E. apply (f_equal (@length N)) in E. rewrite app_length in E. cbn in E. lia.
Qed.
