(** Facts about routing records to appenders. *)
From Verif Require Export F_Config S_Log.

(** the indices of the appenders of one service *)
Fixpoint idxs_of (j : nat) (l : list appender) (idx : nat) : list nat :=
  match l with
  | [] => []
  | a :: rest => if a_service a =? j then idx :: idxs_of j rest (S idx) else idxs_of j rest (S idx)
  end.
Lemma idxs_of_in j i : forall l idx, In i (idxs_of j l idx) <->
  exists a, idx <= i /\ nth_error l (i - idx) = Some a /\ a_service a = j.
Proof.
  induction l as [|a l IH]; intros idx; cbn [idxs_of].
  - split; [easy|]. intros (a & _ & H & _). destruct (i - idx); discriminate.
  - assert (Hs : In i (idxs_of j l (S idx)) <-> exists b, S idx <= i /\ nth_error (a :: l) (i - idx) = Some b /\ a_service b = j).
    { rewrite IH. split; intros (b & H1 & H2 & H3); exists b; (split; [easy|split; [|easy]]).
      - replace (i - idx) with (S (i - S idx)) by lia. exact H2.
      - replace (i - idx) with (S (i - S idx)) in H2 by lia. exact H2. }
    destruct (a_service a =? j) eqn:E.
    + cbn [In]. rewrite Hs. apply Nat.eqb_eq in E. split.
      * intros [<-|(b & H1 & H2)]; [|exists b; split; [lia|easy]].
        exists a. rewrite Nat.sub_diag. auto.
      * intros (b & H1 & H2 & H3). destruct (Nat.eq_dec idx i) as [->|Hn]; [now left|right].
        exists b. split; [lia|easy].
    + rewrite Hs. apply Nat.eqb_neq in E. split.
      * intros (b & H1 & H2). exists b. split; [lia|easy].
      * intros (b & H1 & H2 & H3). destruct (Nat.eq_dec idx i) as [->|Hn].
        -- rewrite Nat.sub_diag in H2. cbn in H2. congruence.
        -- exists b. split; [lia|easy].
Qed.
Lemma increasing_cons x l : (forall y, In y l -> x < y) -> increasing l -> increasing (x :: l).
Proof. destruct l; [easy|]. intros H Hl. split; [apply H; now left|easy]. Qed.
Lemma idxs_of_increasing j : forall l idx, increasing (idxs_of j l idx).
Proof.
  induction l as [|a l IH]; intros idx; cbn [idxs_of]; [easy|].
  destruct (a_service a =? j); [|apply IH]. apply increasing_cons; [|apply IH].
  intros y Hy. apply idxs_of_in in Hy as (b & H & _). lia.
Qed.
Lemma increasing_tail x l : increasing (x :: l) -> increasing l /\ forall y, In y l -> x < y.
Proof.
  revert x; induction l as [|z l IH]; intros x; [easy|]. intros [H1 H2]. split; [easy|].
  intros y [<-|Hy]; [easy|]. apply IH in H2 as [_ H2]. specialize (H2 y Hy). lia.
Qed.
Lemma increasing_nodup l : increasing l -> NoDup l.
Proof.
  induction l as [|x l IH]; intros H; [constructor|]. apply increasing_tail in H as [H1 H2].
  constructor; [|auto]. intros Hi. apply H2 in Hi. lia.
Qed.

Lemma update_nth_same {A} (f : A -> A) : forall n l, nth_error (update_nth n f l) n = option_map f (nth_error l n).
Proof. induction n as [|n IH]; intros [|x l]; cbn; auto. Qed.
Lemma update_nth_other {A} (f : A -> A) : forall n m l, n <> m -> nth_error (update_nth n f l) m = nth_error l m.
Proof. induction n as [|n IH]; intros [|m] [|x l] H; cbn; try easy. apply IH. lia. Qed.
Lemma update_nth_length {A} (f : A -> A) : forall n l, length (update_nth n f l) = length l.
Proof. induction n as [|n IH]; intros [|x l]; cbn; auto. Qed.

Lemma route_spec : forall l idx slab,
  Forall (fun a => a_service a < length slab) l ->
  exists slab', route l idx slab = Ret slab' /\ length slab' = length slab
  /\ forall j old, nth_error slab j = Some old -> nth_error slab' j = Some (old ++ idxs_of j l idx).
Proof.
  induction l as [|a l IH]; intros idx slab H; cbn [route].
  - exists slab. splits; [easy|easy|]. intros j old E. cbn [idxs_of]. now rewrite app_nil_r.
  - inversion H as [|? ? Ha Hl]; subst. apply Nat.ltb_lt in Ha. rewrite Ha. apply Nat.ltb_lt in Ha.
    destruct (IH (S idx) (update_nth (a_service a) (fun l => l ++ [idx]) slab)) as (slab' & E1 & E2 & E3).
    { rewrite update_nth_length. exact Hl. }
    exists slab'. splits; [exact E1|now rewrite E2, update_nth_length|].
    intros j old Ej. cbn [idxs_of]. destruct (a_service a =? j) eqn:Es.
    + apply Nat.eqb_eq in Es. subst j. rewrite (E3 _ (old ++ [idx])).
      * now rewrite <- app_assoc.
      * now rewrite update_nth_same, Ej.
    + apply Nat.eqb_neq in Es. apply E3. now rewrite update_nth_other.
Qed.

(** the sections' appenders *)
Lemma logging_init_service e l logpath r : logging_init e l logpath = Ret (Some r) ->
  Forall (fun a => a_service a = l_service_idx l) (unwrap_or r []).
Proof.
  unfold logging_init. assert (H : (r0 <- init_appenders e logpath (l_service_name l) (l_service_idx l) (l_appenders l) 0 [];;
      Ret (option_map Some r0)) = Ret (Some r) -> Forall (fun a => a_service a = l_service_idx l) (unwrap_or r [])).
  { destruct (init_appenders e logpath (l_service_name l) (l_service_idx l) (l_appenders l) 0 []) as [[x|]| | | |] eqn:E;
    cbn [obind option_map]; intros [= <-]. cbn [unwrap_or]. apply init_filters in E.
    induction E as [|? ? ? ? [H _] _ IH]; constructor; auto. }
  destruct (l_disable l) as [[]|]; [|exact H|exact H]. intros [= <-]. constructor.
Qed.
Lemma section_appenders_spec e logpath : forall sections l,
  section_appenders e logpath sections = Ret (Some l) ->
  exists parts, l = concat parts
  /\ Forall2 (fun s p => exists r, logging_init e s logpath = Ret (Some r) /\ p = unwrap_or r []) sections parts.
Proof.
  induction sections as [|s sections IH]; intros l; cbn [section_appenders].
  - intros [= <-]. exists []. split; [easy|constructor].
  - destruct (logging_init e s logpath) as [[o|]| | | |] eqn:E; cbn [obind]; try discriminate.
    destruct (section_appenders e logpath sections) as [[l'|]| | | |] eqn:E'; cbn [obind option_map]; intros [= <-].
    destruct (IH l' eq_refl) as (parts & -> & Hp). exists (unwrap_or o [] :: parts).
    split; [easy|]. constructor; [exists o; auto|easy].
Qed.
Lemma appender_sections w c l : all_appenders w c = Ret (Some l) ->
  exists parts, l = concat parts
  /\ Forall2 (fun s p => Forall (fun a => a_service a = l_service_idx s) p) (sections c) parts.
Proof.
  intros H. apply section_appenders_spec in H as (parts & -> & Hp). exists parts. split; [easy|].
  unfold sections. clear - Hp. induction Hp as [|s p ss ps (r & Hr & ->) _ IH]; constructor; [|easy].
  now apply logging_init_service in Hr.
Qed.
Lemma appender_bounds w arg c l : world_ok w -> load_config w arg = Some c -> all_appenders w c = Ret (Some l) ->
  Forall (fun a => a_service a < length (c_slab c)) l.
Proof.
  intros Hw Hl Ha. destruct (indices w arg c Hw Hl) as (_ & Hi & H0).
  destruct (loaded w arg c Hw Hl) as (before & Hf & _). pose proof (fx_slab _ _ _ Hf) as Hs.
  apply appender_sections in Ha as (parts & -> & Hp).
  assert (Hsec : Forall (fun s => l_service_idx s < length (c_slab c)) (sections c)).
  { unfold sections. constructor; [rewrite H0, Hs; cbn; lia|].
    apply Forall_map. eapply Forall_impl; [|exact Hi]. intros e [H1 H2]. cbn. lia. }
  clear - Hp Hsec. revert Hsec. induction Hp as [|s p ss ps H _ IH]; intros Hsec; [constructor|].
  cbn [concat]. inversion Hsec; subst. apply Forall_app. split; [|auto].
  eapply Forall_impl; [|exact H]. cbn. intros a ->. easy.
Qed.

(** a running logging system *)
Definition routed (k : consumer) : Prop :=
  (forall a, In a (k_appenders k) -> a_service a < length (k_samap k))
  /\ forall j, j < length (k_samap k) -> nth_error (k_samap k) j = Some (idxs_of j (k_appenders k) 0).
Lemma config_logging_inv u no w arg c lv k : world_ok w -> load_config w arg = Some c ->
  config_logging u no w c = Ret (Some (lv, k)) ->
  all_appenders w c = Ret (Some (k_appenders k)) /\ lv = max_level c
  /\ renderers_of u (l_timelayout (c_logging c)) (no (dedup (map a_renderer (k_appenders k)))) = Some (k_renderers k)
  /\ build_armap (k_renderers k) (k_appenders k) = Some (k_armap k)
  /\ k_renderers k <> [] /\ k_appenders k <> []
  /\ length (k_samap k) = length (c_slab c) /\ routed k.
Proof.
  intros Hw Hl. unfold config_logging.
  destruct (all_appenders w c) as [[l|]| | | |] eqn:Ea; cbn [obind]; try discriminate.
  pose proof (appender_bounds w arg c l Hw Hl Ea) as Hb.
  destruct (route_spec l 0 (c_slab c) Hb) as (slab & Er & Hlen & Hnth). rewrite Er. cbn [obind].
  destruct (renderers_of u _ _) as [rs|] eqn:Ers; [|discriminate].
  unfold consumer_init. destruct rs as [|r rs]; [discriminate|]. destruct l as [|a l]; [discriminate|].
  destruct (negb (unique u (map renderer_name (r :: rs)))); [discriminate|].
  destruct (build_armap (r :: rs) (a :: l)) as [m|] eqn:Em; cbn [option_map]; [|discriminate].
  intros [= <- <-]. cbn [k_appenders k_renderers k_armap k_samap].
  destruct (loaded w arg c Hw Hl) as (before & Hf & _). pose proof (fx_slab _ _ _ Hf) as Hs.
  splits; try easy.
  split; cbn [k_samap k_appenders].
  - intros b Hi. rewrite Forall_forall in Hb. rewrite Hlen. now apply Hb.
  - intros j Hj. rewrite Hlen, Hs, repeat_length in Hj.
    rewrite (Hnth j []); [reflexivity|]. rewrite Hs. now apply nth_error_repeat.
Qed.

(** targets *)
Definition accepting (k : consumer) (it : item) (l : list nat) : list nat :=
  filter (fun i => match nth_error (k_appenders k) i with
                   | Some a => filter_accepts (a_filter a) (i_level it) | None => false end) l.
Lemma passing_ok k it l : Forall (fun i => i < length (k_appenders k)) l -> passing k it l = Ret (accepting k it l).
Proof.
  induction 1 as [|i l Hi _ IH]; cbn [passing]; [easy|]. unfold get_unchecked.
  destruct (nth_error (k_appenders k) i) as [a|] eqn:E; [|apply nth_error_None in E; lia].
  cbn [obind]. rewrite IH. cbn [obind]. unfold accepting. cbn [filter]. rewrite E. reflexivity.
Qed.
Definition the_targets (k : consumer) (it : item) : list nat :=
  match nth_error (k_samap k) (N.to_nat (i_service it)) with
  | None => [] | Some l => accepting k it l end.
Lemma targets_ok k it : routed k -> targets k it = Ret (the_targets k it).
Proof.
  intros [H1 H2]. unfold targets, the_targets. destruct (nth_error (k_samap k) (N.to_nat (i_service it))) as [l|] eqn:E; [|easy].
  apply passing_ok. assert (Hlt : N.to_nat (i_service it) < length (k_samap k)) by (apply nth_error_Some; congruence).
  rewrite (H2 _ Hlt) in E. injection E as <-. apply Forall_forall. intros i Hi.
  apply idxs_of_in in Hi as (a & _ & Ha & _). rewrite Nat.sub_0_r in Ha. apply nth_error_Some. congruence.
Qed.
Lemma filter_increasing f l : increasing l -> increasing (filter f l).
Proof.
  induction l as [|x l IH]; [easy|]. intros H. apply increasing_tail in H as [H1 H2]. cbn [filter].
  destruct (f x); [|auto]. apply increasing_cons; [|auto]. intros y Hy. apply filter_In in Hy as [Hy _]. auto.
Qed.
Lemma targets_spec k it i : routed k -> (In i (the_targets k it) <->
  exists a, nth_error (k_appenders k) i = Some a /\ belongs a it).
Proof.
  intros [H1 H2]. unfold the_targets, belongs. destruct (nth_error (k_samap k) (N.to_nat (i_service it))) as [l|] eqn:E.
  - assert (Hlt : N.to_nat (i_service it) < length (k_samap k)) by (apply nth_error_Some; congruence).
    rewrite (H2 _ Hlt) in E. injection E as <-. unfold accepting. rewrite filter_In, idxs_of_in. split.
    + intros [(a & _ & Ha & Hs) Hf]. rewrite Nat.sub_0_r in Ha. rewrite Ha in Hf. exists a. splits; [easy|lia|easy].
    + intros (a & Ha & Hs & Hf). rewrite Ha. split; [|easy]. exists a. rewrite Nat.sub_0_r. splits; [lia|easy|lia].
  - split; [easy|]. intros (a & Ha & Hs & _). apply nth_error_None in E. apply nth_error_In in Ha.
    apply H1 in Ha. lia.
Qed.
Lemma targets_increasing k it : routed k -> increasing (the_targets k it).
Proof.
  intros [H1 H2]. unfold the_targets. destruct (nth_error (k_samap k) (N.to_nat (i_service it))) as [l|] eqn:E; [|easy].
  assert (Hlt : N.to_nat (i_service it) < length (k_samap k)) by (apply nth_error_Some; congruence).
  rewrite (H2 _ Hlt) in E. injection E as <-. apply filter_increasing, idxs_of_increasing.
Qed.
Lemma targets_bound k it : routed k -> Forall (fun i => i < length (k_appenders k)) (the_targets k it).
Proof.
  intros H. apply Forall_forall. intros i Hi. apply targets_spec in Hi as (a & Ha & _); [|easy].
  apply nth_error_Some. congruence.
Qed.

Lemma write_to_ok k buf l : Forall (fun i => i < length (k_appenders k)) l ->
  write_to k buf l = Ret (map (fun i => (i, buf)) l).
Proof.
  induction 1 as [|i l Hi _ IH]; cbn [write_to]; [easy|]. unfold get_unchecked.
  destruct (nth_error (k_appenders k) i) as [a|] eqn:E; [|apply nth_error_None in E; lia].
  cbn [obind]. rewrite IH. reflexivity.
Qed.

(** one renderer *)
Lemma consume_single_ok fmt k r it bufs txt : routed k -> k_renderers k = [r] -> length bufs = 1 ->
  render fmt r it = Ret txt ->
  exists bufs', consume fmt k it bufs = Ret (map (fun i => (i, txt)) (the_targets k it), bufs') /\ length bufs' = 1.
Proof.
  intros Hr Hk Hb Ht. unfold consume. rewrite Hk. cbn [length]. rewrite Nat.eqb_refl.
  unfold consume_single. rewrite targets_ok by easy. cbn [obind].
  pose proof (targets_bound k it Hr) as Hbd.
  destruct (the_targets k it) as [|i l] eqn:El; [exists bufs; auto|].
  rewrite Hk. cbn [get_unchecked nth_error obind]. unfold get_unchecked.
  destruct bufs as [|b [|? ?]]; [discriminate| |discriminate]. cbn [nth_error obind].
  rewrite Ht. cbn [obind]. rewrite write_to_ok by exact Hbd. cbn [obind]. eexists. split; [reflexivity|]. reflexivity.
Qed.

(** several renderers *)
Lemma build_armap_spec rs : forall l m, build_armap rs l = Some m ->
  Forall2 (fun a i => exists r, nth_error rs i = Some r /\ eq_nocase (renderer_name r) (a_renderer a) = true) l m.
Proof.
  induction l as [|a l IH]; intros m; cbn [build_armap].
  - intros [= <-]. constructor.
  - destruct (ridx rs (a_renderer a)) as [i|] eqn:E; [|discriminate].
    destruct (build_armap rs l) as [m'|]; [|discriminate]. intros [= <-]. constructor; [|auto].
    unfold ridx in E. clear - E. revert i E. induction rs as [|r rs IH]; intros i; cbn [position]; [discriminate|].
    destruct (eq_nocase (renderer_name r) (a_renderer a)) eqn:Er.
    + intros [= <-]. exists r. auto.
    + destruct (position _ rs) as [j|] eqn:Ep; cbn [option_map]; [|discriminate]. intros [= <-].
      destruct (IH j eq_refl) as (r' & H1 & H2). exists r'. auto.
Qed.

Lemma lookup_ok k l : Forall (fun i => i < length (k_armap k)) l -> forall rl,
  exists rl', lookup_renderers k l rl = Ret (map (fun i => nth i (k_armap k) 0) l, rl')
  /\ (forall r, In r rl' <-> In r rl \/ exists i, In i l /\ nth i (k_armap k) 0 = r).
Proof.
  induction 1 as [|i l Hi _ IH]; intros rl; cbn [lookup_renderers].
  - exists rl. split; [easy|]. intros r. split; [now left|]. intros [H|(j & [] & _)]. easy.
  - unfold get_unchecked. destruct (nth_error (k_armap k) i) as [r0|] eqn:E; [|apply nth_error_None in E; lia].
    cbn [obind]. assert (Er : nth i (k_armap k) 0 = r0) by now apply nth_error_nth.
    destruct (IH (if existsb (Nat.eqb r0) rl then rl else rl ++ [r0])) as (rl' & E' & Hrl').
    rewrite E'. cbn [obind fst snd]. exists rl'. split; [cbn [map]; now rewrite Er|].
    intros r. rewrite Hrl'. assert (Hadd : In r (if existsb (Nat.eqb r0) rl then rl else rl ++ [r0]) <-> In r rl \/ r0 = r).
    { destruct (existsb (Nat.eqb r0) rl) eqn:Ex.
      - apply existsb_exists in Ex as (x & Hx & Exx). apply Nat.eqb_eq in Exx. subst x.
        split; [now left|]. intros [H|<-]; easy.
      - rewrite in_app_iff. cbn [In]. tauto. }
    rewrite Hadd. split.
    + intros [[H|H]|(j & Hj & Ej)]; [now left|right; exists i; split; [now left|congruence]|right; exists j; split; [now right|easy]].
    + intros [H|(j & [<-|Hj] & Ej)]; [now left; left|left; right; congruence|right; exists j; auto].
Qed.
Lemma render_all_ok fmt k it : forall rl bufs,
  Forall (fun r => r < length bufs) rl ->
  Forall (fun r => exists rr txt, nth_error (k_renderers k) r = Some rr /\ render fmt rr it = Ret txt) rl ->
  exists bufs', render_all fmt k it rl bufs = Ret bufs' /\ length bufs' = length bufs
  /\ (forall r rr txt, In r rl -> nth_error (k_renderers k) r = Some rr -> render fmt rr it = Ret txt ->
      nth_error bufs' r = Some txt)
  /\ (forall r, ~ In r rl -> nth_error bufs' r = nth_error bufs r).
Proof.
  induction rl as [|r rl IH]; intros bufs Hb Hr; cbn [render_all].
  - exists bufs. splits; easy.
  - inversion Hb as [|? ? Hb1 Hb2]; subst. inversion Hr as [|? ? (rr & txt & E1 & E2) Hr2]; subst.
    unfold get_unchecked. destruct (nth_error bufs r) as [b|] eqn:Eb; [|apply nth_error_None in Eb; lia].
    cbn [obind]. rewrite E1. cbn [obind]. rewrite E2. cbn [obind].
    destruct (IH (set_nth r txt bufs)) as (bufs' & H1 & H2 & H3 & H4).
    { unfold set_nth. rewrite update_nth_length. exact Hb2. }
    { exact Hr2. }
    exists bufs'. rewrite H2. unfold set_nth in *. rewrite update_nth_length. splits; [exact H1|easy| |].
    + intros r' rr' txt' [<-|Hi] Er Et.
      * destruct (in_dec Nat.eq_dec r rl) as [Hi|Hn]; [now apply (H3 r rr' txt')|].
        rewrite (H4 r Hn), update_nth_same, Eb. cbn. congruence.
      * now apply (H3 r' rr' txt').
    + intros r' Hn. cbn [In] in Hn. rewrite H4 by tauto. apply update_nth_other. intros ->. tauto.
Qed.

Definition prefix_targets (l : list nat) : Prop := l = seq 0 (length l).
Lemma increasing_bound l : increasing l -> forall b, (forall x, In x l -> x < b + length l) ->
  (forall x, In x l -> b <= x) -> l = seq b (length l).
Proof.
  induction l as [|x l IH]; intros H b Hu Hl; [easy|]. apply increasing_tail in H as [H1 H2].
  cbn [length] in *.
  assert (Hx : forall (l : list nat) a, increasing l -> (forall y, In y l -> a < y) -> forall m, (forall y, In y l -> y < m) -> l <> [] -> a + length l < m).
  { clear. induction l as [|z l IHl]; intros a Hi Ha m Hm Hne; [easy|].
    apply increasing_tail in Hi as [Hi1 Hi2]. cbn [length].
    destruct l as [|z' l'].
    - specialize (Ha z (or_introl eq_refl)). specialize (Hm z (or_introl eq_refl)). cbn. lia.
    - assert (z + length (z' :: l') < m). { apply IHl; [easy|easy| |discriminate]. intros y Hy. apply Hm. now right. }
      specialize (Ha z (or_introl eq_refl)). lia. }
  assert (Exb : x = b).
  { specialize (Hl x (or_introl eq_refl)) as Hlx. destruct l as [|y l'].
    - specialize (Hu x (or_introl eq_refl)). cbn in Hu. lia.
    - assert (x + length (y :: l') < b + S (length (y :: l'))).
      { apply (Hx (y :: l') x); [easy|easy| |discriminate]. intros z Hz. apply Hu. now right. }
      lia. }
  subst x. cbn [seq]. f_equal. apply IH; [easy| |].
  - intros y Hy. specialize (Hu y (or_intror Hy)). lia.
  - intros y Hy. apply H2 in Hy. lia.
Qed.

Definition renders_ok (fmt : formatter) (k : consumer) (it : item) : Prop :=
  forall r, In r (k_renderers k) -> exists txt, render fmt r it = Ret txt.

Lemma write_each_ub k arm bufs l : (exists i, In i l /\ length arm <= i) ->
  Forall (fun i => i < length (k_appenders k)) l -> Forall (fun r => r < length bufs) arm ->
  write_each k arm bufs l = UB.
Proof.
  induction l as [|i l IH]; intros (j & Hj & Hlt) Ha Hb; [easy|]. cbn [write_each]. unfold get_unchecked.
  inversion Ha as [|? ? Ha1 Ha2]; subst.
  destruct (nth_error arm i) as [r|] eqn:E; [|easy]. cbn [obind].
  assert (Hr : r < length bufs). { rewrite Forall_forall in Hb. apply Hb. eapply nth_error_In; eassumption. }
  destruct (nth_error bufs r) as [b|] eqn:Eb; [|apply nth_error_None in Eb; lia]. cbn [obind].
  destruct (nth_error (k_appenders k) i) as [a|] eqn:Ea; [|apply nth_error_None in Ea; lia]. cbn [obind].
  rewrite IH; [easy| |easy|easy]. destruct Hj as [<-|Hj]; [|exists j; auto].
  assert (i < length arm) by (apply nth_error_Some; congruence). lia.
Qed.
Lemma write_each_ok k arm bufs (f : nat -> bytes) l :
  Forall (fun i => i < length (k_appenders k) /\ exists r, nth_error arm i = Some r /\ nth_error bufs r = Some (f i)) l ->
  write_each k arm bufs l = Ret (map (fun i => (i, f i)) l).
Proof.
  induction 1 as [|i l (Hi & r & Er & Eb) _ IH]; cbn [write_each]; [easy|]. unfold get_unchecked.
  rewrite Er. cbn [obind]. rewrite Eb. cbn [obind].
  destruct (nth_error (k_appenders k) i) as [a|] eqn:Ea; [|apply nth_error_None in Ea; lia]. cbn [obind].
  rewrite IH. reflexivity.
Qed.

Section Several.
Variables (fmt : formatter) (k : consumer) (it : item) (bufs : list bytes).
Hypothesis Hr : routed k.
Hypothesis Hmap : build_armap (k_renderers k) (k_appenders k) = Some (k_armap k).
Hypothesis Hmany : length (k_renderers k) <> 1.
Hypothesis Hbufs : length bufs = length (k_renderers k).
Hypothesis Hfmt : renders_ok fmt k it.

Lemma armap_length : length (k_armap k) = length (k_appenders k).
Proof. pose proof (build_armap_spec _ _ _ Hmap) as H. clear - H. induction H; cbn; auto. Qed.
Lemma armap_nth i a : nth_error (k_appenders k) i = Some a ->
  exists r, nth_error (k_renderers k) (nth i (k_armap k) 0) = Some r /\ eq_nocase (renderer_name r) (a_renderer a) = true.
Proof.
  pose proof (build_armap_spec _ _ _ Hmap) as H. clear - H. revert i. revert H.
  generalize (k_appenders k) (k_armap k). intros la lm H. induction H as [|x y l m Hxy _ IH]; intros [|i]; cbn; try discriminate.
  - intros [= <-]. exact Hxy.
  - apply IH.
Qed.
Lemma armap_bound i : i < length (k_appenders k) -> nth i (k_armap k) 0 < length (k_renderers k).
Proof.
  intros Hi. destruct (nth_error (k_appenders k) i) as [a|] eqn:E; [|apply nth_error_None in E; lia].
  apply armap_nth in E as (r & E & _). apply nth_error_Some. congruence.
Qed.

Lemma comsume_cases : 
  (~ prefix_targets (the_targets k it) /\ consume fmt k it bufs = UB)
  \/ (prefix_targets (the_targets k it) /\ exists ws bufs', consume fmt k it bufs = Ret (ws, bufs')
      /\ length bufs' = length (k_renderers k) /\ map fst ws = the_targets k it
      /\ forall i b, In (i, b) ws -> exists a r, nth_error (k_appenders k) i = Some a
         /\ In r (k_renderers k) /\ eq_nocase (renderer_name r) (a_renderer a) = true /\ render fmt r it = Ret b).
Proof.
  unfold consume. destruct (length (k_renderers k) =? 1) eqn:E1; [apply Nat.eqb_eq in E1; contradiction|].
  unfold comsume. rewrite targets_ok by easy. cbn [obind].
  pose proof (targets_bound k it Hr) as Hbd. pose proof (targets_increasing k it Hr) as Hinc.
  assert (Hlk : Forall (fun i => i < length (k_armap k)) (the_targets k it)) by (rewrite armap_length; exact Hbd).
  destruct (the_targets k it) as [|i0 l0] eqn:El.
  { right. split; [reflexivity|]. exists [], bufs. splits; easy. }
  rewrite <- El in *. clear i0 l0 El. set (l := the_targets k it) in *.
  destruct (lookup_ok k l Hlk []) as (rl & E2 & Hrl). rewrite E2. cbn [obind fst snd].
  assert (Hin : forall r, In r rl -> r < length (k_renderers k)).
  { intros r Hi. apply Hrl in Hi as [[]|(i & Hi & <-)]. apply armap_bound. rewrite Forall_forall in Hbd. auto. }
  destruct (render_all_ok fmt k it rl bufs) as (bufs' & E3 & Hlen & Hget & _).
  { apply Forall_forall. intros r Hi. rewrite Hbufs. auto. }
  { apply Forall_forall. intros r Hi. apply Hin in Hi.
    destruct (nth_error (k_renderers k) r) as [rr|] eqn:Er; [|apply nth_error_None in Er; lia].
    destruct (Hfmt rr (nth_error_In _ _ Er)) as [txt Ht]. exists rr, txt. auto. }
  rewrite E3. cbn [obind].
  assert (Hcase : (exists i, In i l /\ length l <= i) \/ prefix_targets l).
  { destruct (existsb (fun i => length l <=? i) l) eqn:Ex.
    - left. apply existsb_exists in Ex as (i & Hi & Hle). apply Nat.leb_le in Hle. eauto.
    - right. apply increasing_bound; [easy| |intros; lia]. intros x Hx.
      destruct (Nat.lt_ge_cases x (0 + length l)) as [H|H]; [easy|exfalso].
      assert (existsb (fun i => length l <=? i) l = true); [|congruence].
      apply existsb_exists. exists x. split; [easy|]. apply Nat.leb_le. lia. }
  destruct Hcase as [(i & Hi & Hle)|Hp].
  - left. split.
    + intros Hp. rewrite Hp in Hi. apply in_seq in Hi. lia.
    + rewrite write_each_ub; [easy| |easy|].
      * exists i. rewrite map_length. auto.
      * apply Forall_forall. intros r Hr'. apply in_map_iff in Hr' as (j & <- & Hj).
        rewrite Hlen, Hbufs. apply armap_bound. rewrite Forall_forall in Hbd. auto.
  - right. split; [easy|].
    assert (Hbuf : forall i, In i l -> exists r txt, nth_error (k_renderers k) (nth i (k_armap k) 0) = Some r
               /\ render fmt r it = Ret txt /\ nth_error bufs' (nth i (k_armap k) 0) = Some txt).
    { intros i Hi. assert (Hlt : i < length (k_appenders k)) by (rewrite Forall_forall in Hbd; auto).
      pose proof (armap_bound i Hlt) as Hb'.
      destruct (nth_error (k_renderers k) (nth i (k_armap k) 0)) as [r|] eqn:Er; [|apply nth_error_None in Er; lia].
      destruct (Hfmt r (nth_error_In _ _ Er)) as [txt Ht]. exists r, txt. splits; [easy|easy|].
      apply (Hget _ r txt); [|easy|easy]. apply Hrl. right. exists i. auto. }
    rewrite (write_each_ok k _ bufs' (fun i => nth (nth i (k_armap k) 0) bufs' [])).
    + cbn [obind]. eexists. eexists. splits; [reflexivity|congruence|now rewrite map_map, map_id|].
      intros i b Hi. apply in_map_iff in Hi as (j & [= <- <-] & Hj).
      destruct (Hbuf j Hj) as (r & txt & H1 & H2 & H3).
      assert (Hlt : j < length (k_appenders k)) by (rewrite Forall_forall in Hbd; auto).
      destruct (nth_error (k_appenders k) j) as [a|] eqn:Ea; [|apply nth_error_None in Ea; lia].
      destruct (armap_nth j a Ea) as (r' & Hr1 & Hr2). rewrite H1 in Hr1. injection Hr1 as <-.
      exists a, r. splits; [easy|eapply nth_error_In; exact H1|easy|].
      rewrite H2. f_equal. symmetry. now apply nth_error_nth.
    + apply Forall_forall. intros i Hi. split; [rewrite Forall_forall in Hbd; auto|].
      exists (nth i (k_armap k) 0). destruct (Hbuf i Hi) as (r & txt & _ & _ & H3). split.
      * erewrite map_nth_error; [reflexivity|]. rewrite Hp. 
        assert (Hil : i < length l) by (rewrite Hp in Hi; apply in_seq in Hi; lia).
        rewrite (nth_error_nth' _ 0) by (rewrite seq_length; lia). rewrite seq_nth by lia. reflexivity.
      * rewrite H3. f_equal. symmetry. now apply nth_error_nth.
Qed.
End Several.
