(** Proofs about records waiting to be written. *)
From Verif Require Export S_Backlog F_Dispatch.

Lemma step_queue e m a m' : step e m a = Next m' ->
  match a with
  | Take => exists x, queue m = x :: queue m'
  | _ => queue m' = queue m ++ posted [a]
  end.
Proof.
  unfold step, send. destruct (exited m); [discriminate|].
  destruct a; cbn [posted]; rewrite ?app_nil_r.
  - destruct (sender m); [|discriminate]. cbn [negb]. destruct (phase m); try discriminate. now intros [= <-].
  - destruct (sender m); [|discriminate]. cbn [negb]. destruct (phase m); try discriminate. now intros [= <-].
  - destruct (existsb _ _); [now intros [= <-]|discriminate].
  - destruct (phase m); try discriminate. destruct (queue m) as [|[[ls|]|f] q]; try discriminate; intros [= <-]; eexists; reflexivity.
  - destruct (phase m); try discriminate. destruct (queue m); try discriminate. destruct (sender m); [discriminate|]. now intros [= <-].
  - destruct (phase m); try discriminate. now intros [= <-].
  - destruct (guard m); try discriminate. now intros [= <-].
  - destruct (guard m); try discriminate. destruct (signal m); [now intros [= <-]|discriminate].
  - destruct (guard m); try discriminate. now intros [= <-].
Qed.
Lemma posted_app a b : posted (a ++ b) = posted a ++ posted b.
Proof. induction a as [|[] a IH]; cbn; auto; now rewrite IH. Qed.

Lemma waiting e l : forall m m', schedule e m l = Next m' ->
  exists done, queue m ++ posted l = done ++ queue m' /\ length done = dealt_with l.
Proof.
  induction l as [|a l IH]; intros m m' H; cbn [schedule] in H.
  - injection H as <-. exists []. cbn. now rewrite app_nil_r.
  - destruct (step e m a) as [| | |m1] eqn:E; try discriminate. apply step_queue in E.
    destruct (IH m1 m' H) as (d & D1 & D2).
    destruct a; try (exists d; split; [|exact D2]; rewrite <- D1, E; cbn [posted]; rewrite <- ?app_assoc; reflexivity).
    destruct E as [x E]. exists (x :: d). cbn [posted dealt_with length app]. rewrite E. cbn [app]. now rewrite D1, D2.
Qed.

(** while the guard is held and everything can be rendered, the logger is running *)
Definition running (m : machine) : Prop :=
  sender m = true /\ phase m = Consuming /\ guard m = Held /\ exited m = false /\ ~ In (LogItem None) (queue m).
Lemma stays_running e l : forall m m', running m -> renderable l -> ~ In DropGuard l -> schedule e m l = Next m' -> running m'.
Proof.
  induction l as [|a l IH]; intros m m' Hm Hr Hd H; cbn [schedule] in H.
  - now injection H as <-.
  - destruct (step e m a) as [| | |m1] eqn:E; try discriminate. apply (IH m1 m'); auto.
    + clear H IH. destruct Hm as (H1 & H2 & H3 & H4 & H5). unfold step, send in E. rewrite H1, H2, H3, H4 in E. unfold running.
      destruct a; cbn [negb] in E; try discriminate.
      * injection E as <-. cbn. splits; auto. rewrite in_app_iff. cbn. intros [X|[X|[]]]; [now apply H5|].
        injection X as ->. apply Hr. now left.
      * injection E as <-. cbn. splits; auto. rewrite in_app_iff. cbn. intros [X|[X|[]]]; [now apply H5|discriminate].
      * destruct (existsb _ _); [injection E as <-; auto|discriminate].
      * destruct (queue m) as [|[[ls|]|f] q]; try discriminate; [|exfalso; apply H5; now left|]; injection E as <-; cbn;
          splits; auto; intros X; apply H5; now right.
      * destruct (queue m); discriminate.
      * elim Hd. now left.
    + intros X. apply Hr. now right.
    + intros X. apply Hd. now right.
Qed.
Lemma started_running fs : running (started fs).
Proof. unfold running. cbn. splits; auto. Qed.

Lemma running_logs e m lines : running m -> step e m (Log lines) = Next (put m (LogItem lines)).
Proof. intros (H1 & H2 & _ & H4 & _). unfold step, send. now rewrite H4, H1, H2. Qed.

Lemma piles_up e n lines : forall m, running m -> exists m',
  schedule e m (repeat (Log (Some lines)) n) = Next m' /\ queue m' = queue m ++ repeat (LogItem (Some lines)) n /\ outs m' = outs m.
Proof.
  induction n as [|n IH]; intros m Hm; cbn [repeat schedule].
  - exists m. now rewrite app_nil_r.
  - rewrite running_logs by exact Hm. destruct (IH (put m (LogItem (Some lines)))) as (m' & E & Q & O).
    + apply (stays_running e [Log (Some lines)] m); auto; [intros [[=]|[]]|intros [[=]|[]]|]. cbn [schedule]. now rewrite running_logs.
    + exists m'. splits; auto. rewrite Q. cbn [put queue]. now rewrite <- app_assoc.
Qed.

Lemma drains e : forall n m, running m -> length (queue m) = n ->
  exists m', schedule e m (repeat Take n) = Next m' /\ queue m' = [] /\ running m'.
Proof.
  induction n as [|n IH]; intros m Hm Hn; cbn [repeat schedule].
  - exists m. splits; auto. now destruct (queue m).
  - assert (S : exists m1, step e m Take = Next m1 /\ length (queue m1) = n).
    { destruct Hm as (H1 & H2 & H3 & H4 & H5). unfold step. rewrite H4, H2.
      destruct (queue m) as [|[[ls|]|f] q]; try discriminate; [|exfalso; apply H5; now left|];
        eexists; (split; [reflexivity|]); cbn in *; lia. }
    destruct S as (m1 & S & L). rewrite S. apply IH; auto.
    apply (stays_running e [Take] m); auto; [intros [[=]|[]]|intros [[=]|[]]|]. cbn [schedule]. now rewrite S.
Qed.
