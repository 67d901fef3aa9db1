(** Where services listen. *)
From Verif Require Import S_Listen F_Base F_Consumer F_Load.

Lemma bind_first_spec net taken text a : bind_first net taken text = Some a <-> first_of net taken text a.
Proof.
  unfold bind_first, first_of.
  assert (T : forall b, n_allows net b && forallb (fun d => negb (n_clash net b d)) taken = true <-> can_have net taken b).
  { intros b. unfold can_have. rewrite andb_true_iff, forallb_forall. split; intros [H1 H2]; split; auto.
    - intros d Hd. apply H2 in Hd. now destruct (n_clash net b d).
    - intros d Hd. now rewrite (H2 d Hd). }
  induction (n_resolve net text) as [|b l IH]; cbn [find].
  - split; [discriminate|]. intros (before & after & E & _). destruct before; discriminate.
  - destruct (n_allows net b && forallb (fun d => negb (n_clash net b d)) taken) eqn:Eb.
    + apply T in Eb. split.
      * intros [= <-]. exists [], l. splits; auto.
      * intros (before & after & E & H1 & H2). destruct before as [|c before]; [now injection E as <-|].
        injection E as <- _. exfalso. apply (H2 b); [now left|exact Eb].
    + rewrite IH. split.
      * intros (before & after & -> & H1 & H2). exists (b :: before), after. splits; auto.
        intros d [<-|Hd]; auto. intros C. apply T in C. congruence.
      * intros (before & after & E & H1 & H2). destruct before as [|c before].
        -- injection E as <- _. apply T in H1. congruence.
        -- injection E as <- ->. exists before, after. splits; auto. intros d Hd. apply H2. now right.
Qed.
Lemma first_in net taken text a : first_of net taken text a -> In a (n_resolve net text).
Proof. intros (b & c & -> & _). apply in_or_app. right. now left. Qed.
Lemma listened_in l a : In a (listened l) <-> exists i, nth_error l i = Some (Listens a).
Proof.
  unfold listened. rewrite in_concat. split.
  - intros (y & Hy & Ha). apply in_map_iff in Hy as (u & <- & Hu). destruct u as [|b|]; [easy| |easy].
    destruct Ha as [->|[]]. now apply In_nth_error in Hu.
  - intros [i Hi]. apply nth_error_In in Hi. exists [a]. split; [|now left]. apply in_map_iff. now exists (Listens a).
Qed.
Lemma start_listens net x taken s a : start_unit net x taken s = Listens a <-> first_of net taken (t_addr (s_tcp s)) a /\ presentable x s.
Proof.
  unfold start_unit, presentable, run. cbn [with_bind x_bind]. rewrite <- bind_first_spec.
  change (tls_load (with_bind x true) (t_tls (s_tcp s))) with (tls_load x (t_tls (s_tcp s))).
  destruct (bind_first net taken (t_addr (s_tcp s))) as [b|]; [|split; [discriminate|intros [H _]; discriminate]].
  destruct (tls_load x (t_tls (s_tcp s))) as [|tls].
  - split; [discriminate|]. intros (_ & _ & tls & H). discriminate.
  - split.
    + destruct (s_kind s); try discriminate; intros [= <-]; eauto 6.
    + intros (E & [->|[r ->]] & _); congruence.
Qed.

(** what every state reached satisfies *)
Definition sound_units (net : network) (services : list service_config) (st : units) : Prop :=
  length (u_states st) = length services
  /\ (forall i a s, listening st i a -> nth_error services i = Some s ->
        In a (n_resolve net (t_addr (s_tcp s))) /\ n_allows net a = true)
  /\ (forall i j a b, i <> j -> listening st i a -> listening st j b -> n_clash net a b = false)
  /\ (forall e, u_exit st = Some e -> e = 0%N /\ Forall (fun u => is_over u = true) (u_states st)).
Lemma start_sound net services : sound_units net services (units_start services).
Proof.
  unfold sound_units, units_start. cbn [u_states u_exit]. splits; try discriminate.
  - apply map_length.
  - intros i a s H. unfold listening in H. cbn [u_states] in H. rewrite nth_error_map in H.
    destruct (nth_error services i); discriminate.
  - intros i j a b _ H. unfold listening in H. cbn [u_states] in H. rewrite nth_error_map in H.
    destruct (nth_error services i); discriminate.
Qed.
Lemma nth_update {A} (f : A -> A) n m l : nth_error (update_nth n f l) m
  = if (n =? m)%nat then option_map f (nth_error l m) else nth_error l m.
Proof.
  destruct (Nat.eqb_spec n m) as [->|H]; [apply update_nth_same|now apply update_nth_other].
Qed.
Lemma step_sound net x services st ev st' : (forall a b, n_clash net a b = n_clash net b a) ->
  sound_units net services st -> unit_step net x services st ev = Some st' -> sound_units net services st'.
Proof.
  intros Hsym (S1 & S2 & S3 & S4) H. unfold unit_step in H. destruct (u_exit st) as [e|] eqn:Ee; [discriminate|].
  destruct ev as [i|i|].
  - destruct (nth_error services i) as [s|] eqn:Es; [|discriminate].
    destruct (nth_error (u_states st) i) as [[| |]|] eqn:Eu; try discriminate. injection H as <-.
    assert (G : forall j a, nth_error (update_nth i (fun _ => start_unit net x (listened (u_states st)) s) (u_states st)) j = Some (Listens a) ->
      i = j /\ first_of net (listened (u_states st)) (t_addr (s_tcp s)) a \/ i <> j /\ listening st j a).
    { intros j a. rewrite nth_update. destruct (Nat.eqb_spec i j) as [->|N]; [|auto].
      rewrite Eu. cbn [option_map]. intros [= E]. left. split; [easy|]. now apply start_listens in E as [E _]. }
    unfold sound_units, listening. cbn [u_states u_exit]. splits; try discriminate.
    + now rewrite update_nth_length.
    + intros j a t Hj Ht. apply G in Hj as [[<- Hf]|[_ Hj]]; [|now apply (S2 j a t)].
      assert (t = s) by congruence. subst t. split; [now apply first_in in Hf|]. destruct Hf as (b & c & _ & (Hc & _) & _). exact Hc.
    + intros j k a b N Hj Hk. apply G in Hj as [[<- Hj]|[N1 Hj]]; apply G in Hk as [[<- Hk]|[N2 Hk]]; try easy.
      * destruct Hj as (p & q & _ & (_ & Hc) & _). apply Hc. apply listened_in. now exists k.
      * rewrite Hsym. destruct Hk as (p & q & _ & (_ & Hc) & _). apply Hc. apply listened_in. now exists j.
      * now apply (S3 j k).
  - destruct (nth_error (u_states st) i) as [[| |]|] eqn:Eu; try discriminate. injection H as <-.
    assert (G : forall j a, nth_error (update_nth i (fun _ => IsOver CtrlC) (u_states st)) j = Some (Listens a) -> listening st j a).
    { intros j b. rewrite nth_update. destruct (Nat.eqb_spec i j) as [->|N]; [|auto]. rewrite Eu. discriminate. }
    unfold sound_units, listening. cbn [u_states u_exit]. splits; try discriminate.
    + now rewrite update_nth_length.
    + intros j b t Hj Ht. apply G in Hj. now apply (S2 j b t).
    + intros j k b c N Hj Hk. apply G in Hj. apply G in Hk. now apply (S3 j k).
  - destruct (forallb is_over (u_states st)) eqn:Ef; [|discriminate]. injection H as <-.
    unfold sound_units, listening. cbn [u_states u_exit]. splits; auto.
    intros e [= <-]. split; [reflexivity|]. apply Forall_forall. now apply forallb_forall.
Qed.
Lemma run_sound net x services : (forall a b, n_clash net a b = n_clash net b a) -> forall l st st',
  sound_units net services st -> units_run net x services st l = Some st' -> sound_units net services st'.
Proof.
  intros Hs. induction l as [|ev l IH]; intros st st' S H; cbn [units_run] in H; [congruence|].
  destruct (unit_step net x services st ev) as [st1|] eqn:E; [|discriminate].
  apply (IH st1 st'); auto. exact (step_sound net x services st ev st1 Hs S E).
Qed.
Lemma reached_sound net x services l st : (forall a b, n_clash net a b = n_clash net b a) ->
  units_run net x services (units_start services) l = Some st -> sound_units net services st.
Proof. intros Hs. apply run_sound; auto using start_sound. Qed.

(** when nothing can be bound *)
Lemma all_refused net x services : (forall a, n_allows net a = false) -> forall done todo,
  services = done ++ todo ->
  units_run net x services (Units (map (fun _ => IsOver AnError) done ++ map (fun _ => Unstarted) todo) None)
    (map StartUnit (seq (length done) (length todo)) ++ [MainEnds])
  = Some (Units (map (fun _ => IsOver AnError) services) (Some 0%N)).
Proof.
  intros Hn done todo. revert done. induction todo as [|s todo IH]; intros done E.
  - rewrite app_nil_r in E. subst. cbn [map seq length app units_run unit_step u_exit u_states]. rewrite app_nil_r.
    replace (forallb is_over (map (fun _ : service_config => IsOver AnError) done)) with true; [reflexivity|].
    symmetry. apply forallb_forall. intros u Hu. now apply in_map_iff in Hu as (? & <- & _).
  - cbn [map seq length app units_run]. unfold unit_step at 1. cbn [u_exit u_states].
    rewrite E at 1. rewrite nth_error_app2, Nat.sub_diag by easy. cbn [nth_error].
    rewrite nth_error_app2 by (now rewrite map_length). rewrite map_length, Nat.sub_diag. cbn [nth_error].
    rewrite <- (map_length (fun _ : service_config => IsOver AnError) done) at 1. rewrite update_nth_app.
    assert (A : forall taken, start_unit net x taken s = IsOver AnError).
    { intros taken. unfold start_unit. destruct (bind_first net taken (t_addr (s_tcp s))) as [a|] eqn:Eb; [|reflexivity].
      apply bind_first_spec in Eb as (p & q & _ & (C & _) & _). rewrite Hn in C. discriminate. }
    rewrite A. specialize (IH (done ++ [s])). rewrite app_length, map_app, <- !app_assoc in IH. cbn [app map length] in IH.
    rewrite Nat.add_1_r in IH. apply IH. exact E.
Qed.
