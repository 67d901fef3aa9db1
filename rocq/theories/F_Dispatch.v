(** Facts about the dispatcher. *)
From Verif Require Export F_Files S_Dispatch.

Fixpoint sent (l : list action) : list message :=
  match l with
  | [] => []
  | Log x :: r => LogItem x :: sent r
  | FlushCall f :: r => FlushRequest f :: sent r
  | _ :: r => sent r
  end.
Fixpoint text (i : nat) (l : list message) : bytes :=
  match l with
  | [] => []
  | LogItem (Some b) :: r => lines_for i b ++ text i r
  | _ :: r => text i r
  end.
Fixpoint reqs (l : list message) : list nat :=
  match l with [] => [] | FlushRequest f :: r => f :: reqs r | _ :: r => reqs r end.
Lemma text_sent i l : text i (sent l) = logged i l.
Proof. induction l as [|[[b|]|f|f| | | | | |] l IH]; simpl; auto. now rewrite IH. Qed.
Lemma reqs_sent l : reqs (sent l) = flush_calls l.
Proof. induction l as [|[[b|]|f|f| | | | | |] l IH]; simpl; auto. now rewrite IH. Qed.
Lemma sent_app a b : sent (a ++ b) = sent a ++ sent b.
Proof. induction a as [|[[x|]|f|f| | | | | |] a IH]; simpl; auto; now rewrite IH. Qed.
Lemma text_app i a b : text i (a ++ b) = text i a ++ text i b.
Proof. induction a as [|[[x|]|f] a IH]; simpl; auto. now rewrite IH, app_assoc. Qed.
Lemma reqs_app a b : reqs (a ++ b) = reqs a ++ reqs b.
Proof. induction a as [|[[x|]|f] a IH]; simpl; auto. now rewrite IH. Qed.
Lemma logged_app i a b : logged i (a ++ b) = logged i a ++ logged i b.
Proof. now rewrite <- !text_sent, sent_app, text_app. Qed.
Lemma reqs_in l f : In (FlushRequest f) l <-> In f (reqs l).
Proof.
  induction l as [|[[x|]|g] l IH]; simpl; [easy| | |]; rewrite <- ?IH.
  - split; [now intros [|]|auto].
  - split; [now intros [|]|auto].
  - split; intros [H|H]; auto; left; congruence.
Qed.
Lemma schedule_app e m a b : schedule e m (a ++ b) =
  match schedule e m a with Next m' => schedule e m' b | r => r end.
Proof. revert m. induction a as [|x a IH]; intros m; simpl; [easy|]. destruct (step e m x); auto. Qed.

Lemma begins_refl {A} (a : list A) : begins a a. Proof. exists []. now rewrite app_nil_r. Qed.
Lemma begins_app {A} (a b c : list A) : begins a b -> begins a (b ++ c).
Proof. intros (x & ->). exists (x ++ c). now rewrite app_assoc. Qed.

Lemma writeall_calm e s b : calm e -> sound s -> exists s', file_writeall e s b = (s', true) /\ sound s'
  /\ current s' ++ pending s' = current s ++ pending s ++ b /\ begins (current s) (current s').
Proof.
  intros Hc Hs. destruct (file_writeall e s b) as [s' ok] eqn:E.
  apply writeall_moves in E as (((F1 & F2 & F3 & F4 & F5) & w & A1 & A2 & A3) & Hs'); [|easy].
  destruct (A3 Hc) as [-> A4]. exists s'. splits; auto; [|rewrite A1; now exists w].
  rewrite A1, <- A4. now rewrite <- app_assoc.
Qed.
Lemma flush_calm e s : calm e -> sound s -> exists s', file_flush e s = (s', true) /\ sound s'
  /\ current s' = current s ++ pending s /\ pending s' = [].
Proof.
  intros Hc Hs. destruct (file_flush e s) as [s' ok] eqn:E.
  apply file_flush_moves in E as (((F1 & F2 & F3 & F4 & F5) & w & A1 & A2 & A3) & Hs' & P); [|easy].
  destruct (A3 Hc) as [-> A4]. exists s'. specialize (P eq_refl). splits; auto.
  rewrite P, !app_nil_r in A4. now rewrite A1, A4.
Qed.
Lemma nth_error_update_same {A} (f : A -> A) : forall n l, nth_error (update_nth n f l) n = option_map f (nth_error l n).
Proof. induction n as [|n IH]; intros [|x l]; simpl; auto. Qed.
Lemma nth_error_update_other {A} (f : A -> A) : forall n m l, n <> m -> nth_error (update_nth n f l) m = nth_error l m.
Proof. induction n as [|n IH]; intros [|m] [|x l] H; simpl; auto; congruence. Qed.
Lemma write_lines_calm e lines : forall fs i s, all_calm e -> nth_error fs i = Some s -> sound s ->
  exists s', nth_error (write_lines e fs lines) i = Some s' /\ sound s'
  /\ current s' ++ pending s' = current s ++ pending s ++ lines_for i lines /\ begins (current s) (current s').
Proof.
  induction lines as [|[j b] lines IH]; intros fs i s Hc Hi Hs; cbn [write_lines lines_for].
  - exists s. rewrite app_nil_r. splits; auto. apply begins_refl.
  - destruct (j =? i) eqn:Ej.
    + apply Nat.eqb_eq in Ej. subst j. destruct (writeall_calm (e i) s b (Hc i) Hs) as (s1 & E1 & Hs1 & A1 & x & A2).
      destruct (IH (update_nth i (fun t => fst (file_writeall (e i) t b)) fs) i s1) as (s2 & E2 & Hs2 & B1 & y & B2); auto.
      { rewrite nth_error_update_same, Hi. cbn. now rewrite E1. }
      exists s2. splits; auto.
      * rewrite B1, app_assoc, A1. now rewrite <- !app_assoc.
      * rewrite B2, A2, <- app_assoc. now eexists.
    + apply Nat.eqb_neq in Ej. apply IH; auto. now rewrite nth_error_update_other.
Qed.
Lemma flush_files_nth e fs : forall k i, nth_error (flush_files e k fs) i = option_map (fun s => fst (file_flush (e (k + i)) s)) (nth_error fs i).
Proof.
  induction fs as [|s fs IH]; intros k [|i]; cbn [flush_files nth_error option_map]; auto; [now rewrite Nat.add_0_r|].
  rewrite IH. now rewrite Nat.add_succ_r.
Qed.

(** the invariant, for the file of one appender *)
Definition inv (i : nat) (base : bytes) (hist : list message) (m : machine) : Prop :=
  exists s done, nth_error (outs m) i = Some s /\ sound s /\ hist = done ++ queue m
  /\ ~ In (LogItem None) hist
  /\ phase m <> Dead
  /\ current s ++ pending s = base ++ text i done
  /\ (phase m = Consuming \/ queue m = [])
  /\ (phase m = Consuming \/ sender m = false)
  /\ (signal m = true -> phase m <> Consuming)
  /\ (phase m = Finished -> pending s = [])
  /\ (guard m = Gone -> signal m = true)
  /\ (exited m = true -> guard m = Gone)
  /\ forall f, In f (flags m) -> exists p q, done = p ++ FlushRequest f :: q
       /\ begins (base ++ text i p) (current s).
Lemma step_inv e i base hist m a m' : all_calm e -> inv i base hist m -> ~ In (LogItem None) (sent [a]) ->
  step e m a = Next m' -> inv i base (hist ++ sent [a]) m'.
Proof.
  intros Hc (s & done & I0 & Hs & I1 & I2 & I3 & I4 & I5 & I6 & I7 & I8 & I9 & I10 & I11) Hr H. unfold step in H.
  destruct (exited m) eqn:Ex; [discriminate|].
  assert (I2' : ~ In (LogItem None) (hist ++ sent [a])) by (rewrite in_app_iff; tauto).
  assert (SEND : forall x, sent [a] = [x] -> send m x = Next m' -> inv i base (hist ++ sent [a]) m').
  { intros x E Hx. rewrite E in *. unfold send in Hx. destruct (sender m) eqn:Es; [|discriminate]. cbn [negb] in Hx.
    destruct (phase m) eqn:Ep; try discriminate. injection Hx as <-. unfold inv, put. cbn.
    exists s, done. splits; auto; try (intuition congruence); try (rewrite I1; now rewrite <- app_assoc). }
  destruct a as [line|f|f| | | | | |]; cbn [sent] in *; try rewrite app_nil_r in *.
  - now apply (SEND (LogItem line)).
  - now apply (SEND (FlushRequest f)).
  - destruct (existsb (Nat.eqb f) (flags m)); [|discriminate]. injection H as <-. unfold inv. exists s, done. splits; auto; try (intuition congruence).
  - destruct (phase m) eqn:Ep; try discriminate. destruct (queue m) as [|[[line|]|f] q] eqn:Eq; try discriminate; injection H as <-.
    + destruct (write_lines_calm e line (outs m) i s Hc I0 Hs) as (s' & E & Hs' & A1 & A2).
      unfold inv, with_phase. cbn. exists s', (done ++ [LogItem (Some line)]). rewrite text_app. cbn [text].
      rewrite app_nil_r. splits; auto; try (intuition congruence).
      * now rewrite <- app_assoc.
      * rewrite A1, app_assoc, I4. now rewrite <- app_assoc.
      * intros g Hg. destruct (I11 g Hg) as (p & q0 & E1 & x & E2). exists p, (q0 ++ [LogItem (Some line)]). split; [rewrite E1; now rewrite <- app_assoc|].
        destruct A2 as (y & A2). rewrite A2, E2, <- app_assoc. now eexists.
    + exfalso. apply I2. rewrite I1, in_app_iff. right. now left.
    + destruct (flush_calm (e i) s (Hc i) Hs) as (s' & E & Hs' & A1 & A2).
      unfold inv, with_phase. cbn. exists s', (done ++ [FlushRequest f]). rewrite text_app. cbn [text].
      rewrite app_nil_r. splits; auto; try (intuition congruence).
      * rewrite flush_files_nth, I0. cbn. now rewrite E.
      * now rewrite <- app_assoc.
      * rewrite A2, app_nil_r, A1. now rewrite I4.
      * intros g [<-|Hg]; [exists done, []; split; [easy|]; rewrite A1, I4; apply begins_refl|].
        destruct (I11 g Hg) as (p & q0 & E1 & x & E2). exists p, (q0 ++ [FlushRequest f]). split; [rewrite E1; now rewrite <- app_assoc|].
        rewrite A1, E2. rewrite <- app_assoc. now eexists.
  - destruct (phase m) eqn:Ep; try discriminate. destruct (queue m) eqn:Eq; try discriminate. destruct (sender m) eqn:Es; try discriminate.
    injection H as <-. unfold inv. cbn. exists s, done. splits; auto; try (intuition congruence).
  - destruct (phase m) eqn:Ep; try discriminate. injection H as <-.
    destruct (flush_calm (e i) s (Hc i) Hs) as (s' & E & Hs' & A1 & A2).
    unfold inv, with_phase. cbn. exists s', done. splits; auto; try (intuition congruence).
    + rewrite flush_files_nth, I0. cbn. now rewrite E.
    + rewrite A2, app_nil_r, A1. now rewrite I4.
    + intros g Hg. destruct (I11 g Hg) as (p & q0 & E1 & E2). exists p, q0. split; [easy|]. rewrite A1. now apply begins_app.
  - destruct (guard m) eqn:Eg; try discriminate. injection H as <-. unfold inv. cbn. exists s, done. splits; auto; try (intuition congruence).
  - destruct (guard m) eqn:Eg; try discriminate. destruct (signal m) eqn:Eg2; try discriminate. injection H as <-.
    unfold inv. cbn. exists s, done. splits; auto; try (intuition congruence).
  - destruct (guard m) eqn:Eg; try discriminate. injection H as <-. unfold inv. cbn. exists s, done. splits; auto; try (intuition congruence).
Qed.
Lemma schedule_inv e i base l : forall hist m m', all_calm e -> inv i base hist m -> ~ In (LogItem None) (sent l) ->
  schedule e m l = Next m' -> inv i base (hist ++ sent l) m'.
Proof.
  induction l as [|a l IH]; intros hist m m' Hc Hi Hr H.
  - injection H as <-. now rewrite app_nil_r.
  - cbn [schedule] in H. destruct (step e m a) as [| | |m1] eqn:E; try discriminate.
    change (a :: l) with ([a] ++ l) in *. rewrite sent_app in *. rewrite in_app_iff in Hr.
    apply (step_inv e i base hist m a m1) in E; [|easy|easy|tauto]. rewrite app_assoc. apply (IH _ m1); auto.
Qed.
Lemma sent_none l : In (LogItem None) (sent l) <-> In (Log None) l.
Proof.
  induction l as [|[[b|]|f|f| | | | | |] l IH]; simpl; rewrite ?IH; try tauto; split; intros H; auto; destruct H; auto; discriminate.
Qed.
Lemma started_inv i fs s : nth_error fs i = Some s -> sound s -> inv i (current s ++ pending s) [] (started fs).
Proof.
  intros Hi Hs. unfold inv, started. cbn. exists s, []. cbn. rewrite app_nil_r. splits; auto; try easy; try (now left).
Qed.
Lemma run_inv e fs i s l m : all_calm e -> nth_error fs i = Some s -> sound s -> renderable l -> schedule e (started fs) l = Next m ->
  inv i (current s ++ pending s) (sent l) m.
Proof.
  intros Hc Hi Hs Hr H. apply (schedule_inv e i _ l [] (started fs)); auto; [now apply started_inv|]. now rewrite sent_none.
Qed.

(** C62 *)
Lemma renderable_app a b : renderable (a ++ b) -> renderable a /\ renderable b.
Proof. unfold renderable. rewrite in_app_iff. tauto. Qed.
Lemma one_place f : forall a p b c, a ++ FlushRequest f :: b = p ++ FlushRequest f :: c ->
  NoDup (reqs (a ++ FlushRequest f :: b)) -> a = p.
Proof.
  intros a p b c E Hd. assert (Hd2 := Hd). rewrite E in Hd2. rewrite reqs_app in Hd, Hd2. cbn [reqs] in *.
  apply NoDup_remove_2 in Hd. apply NoDup_remove_2 in Hd2. rewrite in_app_iff in Hd, Hd2.
  assert (H1 : ~ In (FlushRequest f) a) by (rewrite reqs_in; tauto).
  assert (H2 : ~ In (FlushRequest f) p) by (rewrite reqs_in; tauto).
  clear Hd Hd2. revert p E H2. induction a as [|x a IH]; intros [|y p] E H2; auto; cbn [app] in E.
  - exfalso. injection E as E0 _. apply H2. now left.
  - exfalso. injection E as E0 _. apply H1. now left.
  - injection E as -> E. f_equal. apply IH; auto; intros Hx; [apply H1|apply H2]; now right.
Qed.
Lemma acked e fs i s l1 f l2 m : all_calm e -> nth_error fs i = Some s -> sound s -> renderable (l1 ++ FlushCall f :: l2) ->
  NoDup (flush_calls (l1 ++ FlushCall f :: l2)) ->
  schedule e (started fs) (l1 ++ FlushCall f :: l2) = Next m -> In f (flags m) ->
  exists s', nth_error (outs m) i = Some s' /\ begins (current s ++ pending s ++ logged i l1) (current s').
Proof.
  intros Hc Hi Hs Hr Hd H Hf.
  apply (run_inv e fs i s) in H as (s' & done & I0 & Hs1 & I1 & I2 & I3 & I4 & I5 & I6 & I7 & I8 & I9 & I10 & I11); auto.
  destruct (I11 f Hf) as (p & q & E1 & E2). rewrite <- app_assoc in E2.
  assert (Ep : sent l1 = p).
  { rewrite sent_app in I1. cbn [sent] in I1. rewrite E1, <- app_assoc in I1. cbn [app] in I1.
    rewrite <- reqs_sent, sent_app in Hd. cbn [sent] in Hd. now apply (one_place f _ _ (sent l2) (q ++ queue m)). }
  exists s'. split; [easy|]. rewrite <- text_sent, Ep. exact E2.
Qed.
Lemma barrier e fs i s l1 f l2 m : all_calm e -> nth_error fs i = Some s -> sound s -> renderable (l1 ++ FlushCall f :: l2) ->
  NoDup (flush_calls (l1 ++ FlushCall f :: l2)) ->
  schedule e (started fs) (l1 ++ FlushCall f :: l2 ++ [FlushReturn f]) = Next m ->
  exists s', nth_error (outs m) i = Some s' /\ begins (current s ++ pending s ++ logged i l1) (current s').
Proof.
  intros Hc Hi Hs Hr Hd H. set (l := l1 ++ FlushCall f :: l2) in *.
  replace (l1 ++ FlushCall f :: l2 ++ [FlushReturn f]) with (l ++ [FlushReturn f]) in H by (unfold l; now rewrite <- app_assoc).
  rewrite schedule_app in H. destruct (schedule e (started fs) l) as [| | |m1] eqn:E; try discriminate.
  cbn [schedule] in H. unfold step in H. destruct (exited m1); [discriminate|].
  destruct (existsb (Nat.eqb f) (flags m1)) eqn:Ef; [|discriminate]. injection H as <-.
  apply existsb_exists in Ef as (g & Hg & Efg). apply Nat.eqb_eq in Efg. subst g.
  now apply (acked e fs i s l1 f l2).
Qed.

(** C63 *)
Lemma at_exit e fs i s l m : all_calm e -> nth_error fs i = Some s -> sound s -> renderable l -> schedule e (started fs) l = Next m -> exited m = true ->
  exists s', nth_error (outs m) i = Some s' /\ current s' ++ pending s' = current s ++ pending s ++ logged i l.
Proof.
  intros Hc Hi Hs Hr H Hx.
  apply (run_inv e fs i s) in H as (s' & done & I0 & Hs1 & I1 & I2 & I3 & I4 & I5 & I6 & I7 & I8 & I9 & I10 & I11); auto.
  specialize (I7 (I9 (I10 Hx))). destruct I5 as [I5|I5]; [easy|]. rewrite I5, app_nil_r in I1. subst done.
  exists s'. split; [easy|]. rewrite I4, text_sent. now rewrite <- app_assoc.
Qed.
Lemma finished_stays e l : forall m m', schedule e m l = Next m' -> phase m = Finished -> phase m' = Finished.
Proof.
  induction l as [|a l IH]; intros m m' H Hp; [now injection H as <-|].
  cbn [schedule] in H. destruct (step e m a) as [| | |m1] eqn:E; try discriminate. apply (IH m1 m' H).
  unfold step, send in E. rewrite Hp in E. destruct (exited m); [discriminate|].
  destruct a as [line|f|f| | | | | |]; try discriminate;
  repeat match goal with E : context [match ?x with _ => _ end] |- _ => destruct x eqn:?; try discriminate end;
  injection E as <-; cbn; auto.
Qed.
Lemma last_flush_finishes e l : forall m m', schedule e m l = Next m' -> In LastFlush l -> phase m' = Finished.
Proof.
  induction l as [|a l IH]; intros m m' H Hl; [easy|].
  cbn [schedule] in H. destruct (step e m a) as [| | |m1] eqn:E; try discriminate.
  destruct Hl as [->|Hl]; [|now apply (IH m1)]. apply (finished_stays e l m1 m' H).
  unfold step in E. destruct (exited m); [discriminate|]. destruct (phase m); try discriminate. now injection E as <-.
Qed.
Lemma exit_flushed e fs i s l m : all_calm e -> nth_error fs i = Some s -> sound s -> renderable l -> schedule e (started fs) l = Next m -> exited m = true ->
  In LastFlush l -> exists s', nth_error (outs m) i = Some s' /\ current s' = current s ++ pending s ++ logged i l.
Proof.
  intros Hc Hi Hs Hr H Hx Hl. destruct (at_exit e fs i s l m Hc Hi Hs Hr H Hx) as (s' & E & A).
  pose proof (last_flush_finishes e l _ _ H Hl) as Hf.
  apply (run_inv e fs i s) in H as (s1 & done & I0 & Hs1 & I1 & I2 & I3 & I4 & I5 & I6 & I7 & I8 & _); auto.
  exists s'. split; [easy|]. rewrite E in I0. injection I0 as <-. now rewrite <- A, (I8 Hf), app_nil_r.
Qed.
Lemma logged_none i l : (forall x, ~ In (Log x) l) -> logged i l = [].
Proof.
  induction l as [|[[b|]|f|f| | | | | |] l IH]; intros H; simpl; auto; try (apply IH; intros x Hx; apply (H x); now right).
  destruct (H (Some b)). now left.
Qed.
Lemma flags_grow e l : forall m m' f, schedule e m l = Next m' -> In f (flags m) -> In f (flags m').
Proof.
  induction l as [|a l IH]; intros m m' f H Hp; [now injection H as <-|].
  cbn [schedule] in H. destruct (step e m a) as [| | |m1] eqn:E; try discriminate. apply (IH m1 m' f H).
  unfold step, send in E. destruct (exited m); [discriminate|].
  destruct a as [line|g|g| | | | | |]; try discriminate;
  repeat match goal with E : context [match ?x with _ => _ end] |- _ => destruct x eqn:?; try discriminate end;
  injection E as <-; cbn; auto.
Qed.
Lemma returned_flag e l : forall m m' f, schedule e m l = Next m' -> In (FlushReturn f) l -> In f (flags m').
Proof.
  induction l as [|a l IH]; intros m m' f H Hp; [easy|].
  cbn [schedule] in H. destruct (step e m a) as [| | |m1] eqn:E; try discriminate.
  destruct Hp as [->|Hp]; [|now apply (IH m1)]. apply (flags_grow e l m1 m' f H).
  unfold step in E. destruct (exited m); [discriminate|]. destruct (existsb (Nat.eqb f) (flags m)) eqn:Ef; [|discriminate].
  injection E as <-. apply existsb_exists in Ef as (g & Hg & Efg). apply Nat.eqb_eq in Efg. now subst g.
Qed.
Lemma explicit_flush e fs i s l1 f l2 m : all_calm e -> nth_error fs i = Some s -> sound s -> renderable (l1 ++ FlushCall f :: l2) ->
  NoDup (flush_calls (l1 ++ FlushCall f :: l2)) -> (forall x, ~ In (Log x) l2) -> In (FlushReturn f) l2 ->
  schedule e (started fs) (l1 ++ FlushCall f :: l2) = Next m -> exited m = true ->
  exists s', nth_error (outs m) i = Some s' /\ current s' = current s ++ pending s ++ logged i (l1 ++ FlushCall f :: l2).
Proof.
  intros Hc Hi Hs Hr Hd Hno Hret H Hx. destruct (at_exit e fs i s _ m Hc Hi Hs Hr H Hx) as (s' & E & A).
  pose proof (returned_flag e _ _ _ f H ltac:(rewrite in_app_iff; right; now right)) as Hf.
  destruct (acked e fs i s l1 f l2 m Hc Hi Hs Hr Hd H Hf) as (s1 & E1 & x & B).
  rewrite E in E1. injection E1 as <-. exists s'. split; [easy|].
  rewrite logged_app in *. cbn [logged] in *. rewrite (logged_none i l2 Hno), app_nil_r in *.
  rewrite B in A. rewrite <- app_assoc in A. rewrite <- (app_nil_r (current s ++ _)) in A at 2. apply app_inv_head in A.
  apply app_eq_nil in A as [-> A]. now rewrite app_nil_r in B.
Qed.

(** losing records at exit *)
Lemma buffered e s b : sound s -> b <> [] -> length b < cap s -> length (buf s) + length b <= cap s ->
  file_writeall e s b = (set_buf s (buf s ++ b), true).
Proof.
  intros Hs Hb Hl Hf. unfold file_writeall. destruct b as [|c b]; [easy|]. cbn [length write_all].
  unfold buf_write. replace (cap s <? length (buf s) + length (c :: b)) with false by (symmetry; apply Nat.ltb_ge; exact Hf).
  cbn [negb]. replace (cap s <=? length (c :: b)) with false by (symmetry; apply Nat.leb_gt; exact Hl).
  replace (S (length b)) with (length (c :: b)) by reflexivity. rewrite skipn_all. now destruct (length b).
Qed.
Definition to (i : nat) (b : bytes) : list (nat * bytes) := [(i, b)].
Lemma lines_for_to i b : lines_for i (to i b) = b.
Proof. unfold to. cbn. now rewrite Nat.eqb_refl, app_nil_r. Qed.
Lemma takes e i lines : forall m s, exited m = false -> phase m = Consuming -> nth_error (outs m) i = Some s -> sound s ->
  queue m = map (fun b => LogItem (Some (to i b))) lines ->
  Forall (fun b => b <> [] /\ length b < cap s) lines ->
  length (buf s) + length (concat lines) <= cap s ->
  exists fs, schedule e m (map (fun _ => Take) lines)
  = Next (Machine [] (sender m) fs Consuming (flags m) (signal m) (guard m) false)
  /\ nth_error fs i = Some (set_buf s (buf s ++ concat lines)).
Proof.
  induction lines as [|b lines IH]; intros m s Hx Hp Hi Hs Hq Hl Hc.
  - cbn. exists (outs m). rewrite app_nil_r, set_buf_same. destruct m. cbn in *. subst. auto.
  - cbn [map schedule] in *. unfold step. rewrite Hx, Hp, Hq. fold (step e). inversion Hl as [|? ? (Hb & Hbl) Hl']; subst.
    cbn [concat] in Hc. rewrite app_length in Hc.
    destruct (IH (with_phase m Consuming (map (fun b => LogItem (Some (to i b))) lines) (write_lines e (outs m) (to i b)) (flags m))
                 (set_buf s (buf s ++ b))) as (fs & E1 & E2); auto.
    + cbn. rewrite nth_error_update_same, Hi. cbn [option_map]. rewrite buffered by (auto; lia). reflexivity.
    + destruct Hs as (A & B & C & D). unfold sound. cbn. splits; auto. rewrite app_length. lia.
    + cbn. rewrite app_length. lia.
    + exists fs. split; [exact E1|]. rewrite E2. cbn [buf set_buf concat]. rewrite <- app_assoc. reflexivity.
Qed.
Lemma logs e i lines : forall m, exited m = false -> phase m = Consuming -> sender m = true ->
  schedule e m (map (fun b => Log (Some (to i b))) lines)
  = Next (Machine (queue m ++ map (fun b => LogItem (Some (to i b))) lines) true (outs m) Consuming (flags m) (signal m) (guard m) false).
Proof.
  induction lines as [|b lines IH]; intros m Hx Hp Hs.
  - cbn. rewrite app_nil_r. destruct m. cbn in *. subst. reflexivity.
  - cbn [map schedule]. unfold step at 1. rewrite Hx. unfold send. rewrite Hs, Hp. cbn [negb].
    rewrite IH; cbn [put exited phase sender outs queue flags signal guard]; auto.
    rewrite <- app_assoc. reflexivity.
Qed.
Lemma logged_logs i lines : logged i (map (fun b => Log (Some (to i b))) lines) = concat lines.
Proof. induction lines; simpl; auto. now rewrite Nat.eqb_refl, app_nil_r, IHlines. Qed.
Lemma exit_loses e fs i s lines : nth_error fs i = Some s -> sound s -> Forall (fun b => b <> [] /\ length b < cap s) lines ->
  length (buf s) + length (concat lines) <= cap s ->
  exists l m s', logged i l = concat lines /\ renderable l /\ schedule e (started fs) l = Next m /\ exited m = true
  /\ nth_error (outs m) i = Some s' /\ current s' = current s /\ data s' = data s.
Proof.
  intros Hi Hs Hl Hc.
  set (l1 := map (fun b => Log (Some (to i b))) lines). set (l2 := map (fun _ : bytes => Take) lines).
  destruct (takes e i lines (Machine (map (fun b => LogItem (Some (to i b))) lines) false fs Consuming [] false Waiting false) s) as (fs' & E1 & E2); auto.
  exists (l1 ++ DropGuard :: l2 ++ [Closed; GuardReturn; Exit]).
  exists (Machine [] false fs' Ending [] true Gone true), (set_buf s (buf s ++ concat lines)). splits; auto.
  - rewrite logged_app. unfold l1. rewrite logged_logs. cbn [logged]. rewrite logged_none; [now rewrite app_nil_r|].
    intros x. rewrite in_app_iff. unfold l2. rewrite in_map_iff. intros [(y & E & _)|H]; [discriminate|].
    cbn in H. repeat destruct H as [H|H]; discriminate || easy.
  - unfold renderable. rewrite in_app_iff. unfold l1. rewrite in_map_iff. intros [(y & E & _)|[H|H]]; try discriminate.
    rewrite in_app_iff in H. unfold l2 in H. rewrite in_map_iff in H. destruct H as [(y & E & _)|H]; [discriminate|].
    cbn in H. repeat destruct H as [H|H]; discriminate || easy.
  - rewrite schedule_app. unfold l1. rewrite logs by reflexivity. cbn [started queue app outs flags signal guard exited].
    cbn [schedule]. unfold step at 1. cbn [exited guard queue outs phase flags signal]. rewrite schedule_app. unfold l2. rewrite E1. reflexivity.
Qed.

(** C78 *)
Lemma dead_stays e l : forall m m', schedule e m l = Next m' -> phase m = Dead -> signal m = false -> guard m <> Gone -> exited m = false ->
  phase m' = Dead /\ signal m' = false /\ guard m' <> Gone /\ exited m' = false.
Proof.
  induction l as [|a l IH]; intros m m' H Hp Hs Hg Hx; [injection H as <-; auto|].
  cbn [schedule] in H. destruct (step e m a) as [| | |m1] eqn:E; try discriminate. apply (IH m1 m' H);
  unfold step, send in E; rewrite Hp, Hs, Hx in E;
  destruct a as [line|g|g| | | | | |]; try discriminate;
  repeat match goal with E : context [match ?x with _ => _ end] |- _ => destruct x eqn:?; try discriminate end;
  injection E as <-; cbn; auto; congruence.
Qed.
Lemma dead_files e l : forall m m', schedule e m l = Next m' -> phase m = Dead -> signal m = false -> guard m <> Gone -> exited m = false ->
  outs m' = outs m.
Proof.
  induction l as [|a l IH]; intros m m' H Hp Hs Hg Hx; [injection H as <-; auto|].
  cbn [schedule] in H. destruct (step e m a) as [| | |m1] eqn:E; try discriminate.
  assert (A : phase m1 = Dead /\ signal m1 = false /\ guard m1 <> Gone /\ exited m1 = false).
  { apply (dead_stays e [a] m); auto. cbn. now rewrite E. }
  rewrite (IH m1 m' H) by tauto.
  unfold step, send in E; rewrite Hp, Hs, Hx in E;
  destruct a as [line|g|g| | | | | |]; try discriminate;
  repeat match goal with E : context [match ?x with _ => _ end] |- _ => destruct x eqn:?; try discriminate end;
  injection E as <-; cbn; auto; congruence.
Qed.
Lemma flush_returns e m f q : exited m = false -> sender m = true -> phase m = Consuming -> queue m = q ->
  ~ In (LogItem None) q ->
  exists m', schedule e m (FlushCall f :: map (fun _ => Take) q ++ [Take; FlushReturn f]) = Next m'.
Proof.
  intros Hx Hs Hp Hq Hn. cbn [schedule]. unfold step at 1. rewrite Hx. unfold send. rewrite Hs, Hp. cbn [negb].
  assert (G : forall q m, exited m = false -> phase m = Consuming -> queue m = q ++ [FlushRequest f] -> ~ In (LogItem None) q ->
    exists m', schedule e m (map (fun _ => Take) q ++ [Take; FlushReturn f]) = Next m').
  { clear. induction q as [|x q IH]; intros m Hx Hp Hq Hn; cbn [map app] in *.
    - cbn [schedule]. unfold step at 1. rewrite Hx, Hp, Hq. unfold step. cbn. rewrite Hx, Nat.eqb_refl. now eexists.
    - cbn [schedule]. unfold step at 1. rewrite Hx, Hp, Hq.
      destruct x as [[lines|]|g]; [| |]; try (apply IH; cbn; auto; intros H; apply Hn; now right).
      destruct Hn. now left. }
  apply G; cbn; auto. now rewrite Hq.
Qed.
