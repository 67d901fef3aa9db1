(** Proofs for C129. *)
From Verif Require Export S_Handshake F_Base F_Main.

Section H.
Variables (scfg : bytes) (timeout : N).
Notation step := (timed_step scfg timeout).
Notation runs := (timed_run scfg timeout).

Lemma run_snoc l : forall st st' e, runs st l = Some st' -> runs st (l ++ [e]) = step st' e.
Proof.
  induction l as [|x l IH]; intros st st' e H; cbn [timed_run app] in *.
  - injection H as ->. now destruct (step st' e).
  - destruct (step st x); [|discriminate]. now apply IH.
Qed.
Lemma run_cut l1 : forall l2 st st', runs st (l1 ++ l2) = Some st' -> exists st1, runs st l1 = Some st1 /\ runs st1 l2 = Some st'.
Proof.
  induction l1 as [|x l IH]; intros l2 st st' H; cbn [timed_run app] in *; [eauto|].
  destruct (step st x); [|discriminate]. now apply IH in H.
Qed.
Lemma passed_app a b : passed (a ++ b) = (passed a + passed b)%N.
Proof. induction a as [|x a IH]; [reflexivity|]. cbn [app passed]. rewrite IH. destruct x; lia. Qed.
Lemma loop_app a b : loop_events (a ++ b) = loop_events a ++ loop_events b.
Proof. induction a as [|x a IH]; [reflexivity|]. cbn [app loop_events]. rewrite IH. now destruct x. Qed.
Lemma accepted_app a b : accepted (a ++ b) = accepted a ++ accepted b.
Proof. induction a as [|x a IH]; [reflexivity|]. destruct x as [| |[c|]| |]; cbn [app accepted]; now rewrite ?IH. Qed.
Lemma taken_app a b : taken (a ++ b) = taken a ++ taken b.
Proof. unfold taken. now rewrite loop_app, accepted_app. Qed.

(** what is known about one task *)
Definition about (l : list timed) (k : shaker) : Prop :=
  let c := k_conn k in
  (forall b, k_begun k = Some b -> exists l1 l2, l = l1 ++ Runs c :: l2 /\ ~ In (Runs c) l1 /\ b = passed l1)
  /\ (k_begun k = None -> ~ In (Runs c) l)
  /\ (k_arrived k = None -> nothing_arrives c l)
  /\ (forall ok, k_arrived k = Some ok -> exists l1 l2, l = l1 ++ Arrives c ok :: l2 /\ nothing_arrives c l1 /\ ~ In (Runs c) l2)
  /\ (k_fired k = false -> ~ In (Fires c) l)
  /\ (k_fired k = true -> k_begun k <> None /\ (exists l1 l2, l = l1 ++ Fires c :: l2 /\ ~ In (Fires c) l1)
      /\ (forall l1 l2, l = l1 ++ Fires c :: l2 -> ~ In (Runs c) l2)
      /\ (forall l1 l2 b, l = l1 ++ Fires c :: l2 -> k_begun k = Some b -> (b + timeout <= passed l1)%N)).
(** how a handshake ended *)
Definition how (l : list timed) (p : conn * handshake) : Prop :=
  let c := fst p in
  match snd p with
  | TimedOut => exists l1 l2 l3 l4, l = l1 ++ Runs c :: l2 ++ Fires c :: l3 ++ Runs c :: l4
      /\ ~ In (Runs c) l1 /\ ~ In (Fires c) (l1 ++ l2) /\ ~ In (Runs c) l3 /\ (timeout <= passed l2)%N
      /\ nothing_arrives c (l1 ++ l2 ++ l3)
  | h => exists l1 l2 l3, l = l1 ++ Arrives c (match h with Established => true | _ => false end) :: l2 ++ Runs c :: l3
      /\ nothing_arrives c l1 /\ ~ In (Runs c) l2
  end.
Definition of (c : conn) (e : timed) : bool :=
  match e with Arrives d _ | Fires d | Runs d => d =? c | _ => false end.

Definition known (l : list timed) (st : timed_state) : Prop :=
  now st = passed l
  /\ Forall (about l) (shakers st)
  /\ Forall (how l) (ends st)
  /\ map k_conn (shakers st) = shaking (loop st)
  /\ NoDup (map k_conn (shakers st) ++ map fst (ends st))
  /\ (forall c, In c (taken l) <-> In c (map k_conn (shakers st) ++ map fst (ends st)))
  /\ (forall e c, In e l -> of c e = true -> In c (taken l)).


Lemma snoc_split {A} (l : list A) e l1 x l2 : l ++ [e] = l1 ++ x :: l2 ->
  (l2 = [] /\ e = x /\ l1 = l) \/ exists l2', l2 = l2' ++ [e] /\ l = l1 ++ x :: l2'.
Proof.
  destruct l2 as [|y l2 _] using rev_ind; intros H.
  - apply app_inj_tail in H as (-> & ->). now left.
  - right. exists l2. rewrite app_comm_cons, app_assoc in H. apply app_inj_tail in H as (-> & ->). auto.
Qed.
Lemma not_in_snoc {A} (x : A) l e : ~ In x l -> x <> e -> ~ In x (l ++ [e]).
Proof. rewrite in_app_iff. intros H Hn [Hi|[Hi|[]]]; auto. Qed.
Lemma nothing_snoc c l e : nothing_arrives c l -> (forall ok, Arrives c ok <> e) -> nothing_arrives c (l ++ [e]).
Proof. intros H Hn ok. apply not_in_snoc; auto. Qed.
Lemma of_runs c e : of c e = false -> Runs c <> e /\ Fires c <> e /\ forall ok, Arrives c ok <> e.
Proof. intros H. split; [|split; [|intros ok]]; intros <-; cbn in H; now rewrite Nat.eqb_refl in H. Qed.

Lemma about_other l k e : of (k_conn k) e = false -> about l k -> about (l ++ [e]) k.
Proof.
  intros Ho (A1 & A2 & A3 & A4 & A5 & A6). apply of_runs in Ho as (O1 & O2 & O3). unfold about. splits.
  - intros b Hb. destruct (A1 b Hb) as (l1 & l2 & -> & H). exists l1, (l2 ++ [e]). rewrite <- app_assoc. auto.
  - intros H. apply not_in_snoc; auto.
  - intros H. apply nothing_snoc; auto.
  - intros ok H. destruct (A4 ok H) as (l1 & l2 & -> & H1 & H2). exists l1, (l2 ++ [e]). rewrite <- app_assoc. splits; auto.
    now apply not_in_snoc.
  - intros H. apply not_in_snoc; auto.
  - intros H. destruct (A6 H) as (B0 & (l1 & l2 & E & B1) & B2 & B3). split; [easy|]. split; [|split].
    + exists l1, (l2 ++ [e]). rewrite E, <- app_assoc. auto.
    + intros x y Hs. apply snoc_split in Hs as [(_ & Hs & _)|(y' & -> & Hs)]; [now rewrite Hs in O2|]. apply not_in_snoc; eauto.
    + intros x y b Hs. apply snoc_split in Hs as [(_ & Hs & _)|(y' & -> & Hs)]; [now rewrite Hs in O2|]. eauto.
Qed.
Lemma about_arrives l k ok : about l k -> 
  about (l ++ [Arrives (k_conn k) ok]) (Shaker (k_conn k) (k_begun k) (match k_arrived k with Some o => Some o | None => Some ok end) (k_fired k)).
Proof.
  intros (A1 & A2 & A3 & A4 & A5 & A6). unfold about. cbn [k_conn k_begun k_arrived k_fired]. splits.
  - intros b Hb. destruct (A1 b Hb) as (l1 & l2 & -> & H). exists l1, (l2 ++ [Arrives (k_conn k) ok]). rewrite <- app_assoc. auto.
  - intros H. apply not_in_snoc; auto. discriminate.
  - destruct (k_arrived k); discriminate.
  - intros o. destruct (k_arrived k) as [o'|] eqn:E; intros [= <-].
    + destruct (A4 _ eq_refl) as (l1 & l2 & -> & H1 & H2). exists l1, (l2 ++ [Arrives (k_conn k) ok]). rewrite <- app_assoc. splits; auto.
      apply not_in_snoc; auto. discriminate.
    + exists l, []. auto.
  - intros H. apply not_in_snoc; auto. discriminate.
  - intros H. destruct (A6 H) as (B0 & (l1 & l2 & E & B1) & B2 & B3). split; [easy|]. split; [|split].
    + exists l1, (l2 ++ [Arrives (k_conn k) ok]). rewrite E, <- app_assoc. auto.
    + intros x y Hs. apply snoc_split in Hs as [(_ & Hs & _)|(y' & -> & Hs)]; [discriminate|]. apply not_in_snoc; eauto. discriminate.
    + intros x y b Hs. apply snoc_split in Hs as [(_ & Hs & _)|(y' & -> & Hs)]; [discriminate|]. eauto.
Qed.
Lemma first_in (c : conn) l : In (Fires c) l -> exists l1 l2, l = l1 ++ Fires c :: l2 /\ ~ In (Fires c) l1.
Proof.
  induction l as [|e l IH]; [easy|]. intros H.
  assert (D : e = Fires c \/ e <> Fires c).
  { destruct e; try (right; discriminate). destruct (Nat.eq_dec c0 c) as [->|N]; [now left|right; congruence]. }
  destruct D as [->|D]; [exists [], l; auto|]. destruct H as [H|H]; [easy|].
  destruct (IH H) as (l1 & l2 & -> & N). exists (e :: l1), l2. split; [reflexivity|]. intros [X|X]; auto.
Qed.
Lemma about_fires l k b : about l k -> k_begun k = Some b -> (b + timeout <= passed l)%N ->
  about (l ++ [Fires (k_conn k)]) (Shaker (k_conn k) (k_begun k) (k_arrived k) true).
Proof.
  intros (A1 & A2 & A3 & A4 & A5 & A6) Hb Ht. unfold about. cbn [k_conn k_begun k_arrived k_fired]. splits.
  - intros b' Hb'. destruct (A1 b' Hb') as (l1 & l2 & -> & H). exists l1, (l2 ++ [Fires (k_conn k)]). rewrite <- app_assoc. auto.
  - intros H. apply not_in_snoc; auto. discriminate.
  - intros H. apply nothing_snoc; auto. discriminate.
  - intros o H. destruct (A4 _ H) as (l1 & l2 & -> & H1 & H2). exists l1, (l2 ++ [Fires (k_conn k)]). rewrite <- app_assoc. splits; auto.
    apply not_in_snoc; auto. discriminate.
  - discriminate.
  - intros _. split; [congruence|]. split; [|split].
    + apply first_in. rewrite in_app_iff. right. now left.
    + intros x y Hs. apply snoc_split in Hs as [(-> & _)|(y' & -> & Hs)]; [easy|]. apply not_in_snoc; [|discriminate].
      destruct (k_fired k) eqn:F; [destruct (A6 eq_refl) as (_ & _ & B & _); eauto|].
      exfalso. apply (A5 eq_refl). rewrite Hs, in_app_iff. right. now left.
    + intros x y b' Hs Hb'. assert (b' = b) as -> by congruence.
      apply snoc_split in Hs as [(_ & _ & ->)|(y' & -> & Hs)]; [easy|].
      destruct (k_fired k) eqn:F; [destruct (A6 eq_refl) as (_ & _ & _ & B); eauto|].
      exfalso. apply (A5 eq_refl). rewrite Hs, in_app_iff. right. now left.
Qed.
Lemma about_runs l k : about l k -> k_arrived k = None -> k_fired k = false ->
  about (l ++ [Runs (k_conn k)]) (Shaker (k_conn k) (Some (match k_begun k with Some b => b | None => passed l end)) None false).
Proof.
  intros (A1 & A2 & A3 & A4 & A5 & A6) Ha Hf. unfold about. cbn [k_conn k_begun k_arrived k_fired]. splits; try discriminate.
  - intros b [= <-]. destruct (k_begun k) as [b|].
    + destruct (A1 b eq_refl) as (l1 & l2 & -> & H). exists l1, (l2 ++ [Runs (k_conn k)]). rewrite <- app_assoc. auto.
    + exists l, []. auto.
  - intros _. apply nothing_snoc; auto. discriminate.
  - intros _. apply not_in_snoc; auto. discriminate.
Qed.
Lemma how_snoc l p e : how l p -> how (l ++ [e]) p.
Proof.
  unfold how. destruct (snd p).
  - intros (l1 & l2 & l3 & -> & H). exists l1, l2, (l3 ++ [e]). split; [|exact H]. now rewrite <- !app_assoc, <- app_comm_cons, <- app_assoc, <- app_comm_cons.
  - intros (l1 & l2 & l3 & -> & H). exists l1, l2, (l3 ++ [e]). split; [|exact H]. now rewrite <- !app_assoc, <- app_comm_cons, <- app_assoc, <- app_comm_cons.
  - intros (l1 & l2 & l3 & l4 & -> & H). exists l1, l2, l3, (l4 ++ [e]). split; [|exact H].
    now rewrite <- app_assoc, <- app_comm_cons, <- app_assoc, <- app_comm_cons, <- app_assoc, <- app_comm_cons.
Qed.
Lemma how_ended l k h : about l k -> run_shaker (passed l) k = inr h -> how (l ++ [Runs (k_conn k)]) (k_conn k, h).
Proof.
  intros (A1 & A2 & A3 & A4 & A5 & A6) H. unfold run_shaker in H.
  destruct (k_arrived k) as [ok|] eqn:Ha.
  - injection H as <-. destruct (A4 ok eq_refl) as (l1 & l2 & -> & H1 & H2).
    destruct ok; unfold how; cbn [fst snd]; exists l1, l2, []; rewrite <- app_assoc, <- app_comm_cons; auto.
  - destruct (k_fired k) eqn:Hf; [|discriminate]. injection H as <-. unfold how. cbn [fst snd].
    destruct (A6 eq_refl) as (B0 & (x & y & E & B1) & B2 & B3). destruct (k_begun k) as [b|]; [|easy].
    destruct (A1 b eq_refl) as (l1 & l2 & E2 & H1 & H2). specialize (A3 eq_refl).
    pose proof (B3 _ _ _ E eq_refl) as T. pose proof (B2 _ _ E) as N.
    rewrite E in E2. pose proof E2 as E3. apply app_eq_app in E3 as (u & [[-> E3]|[-> E3]]).
    + destruct u as [|r u]; [discriminate|]. cbn in E3. injection E3 as <- ->.
      exists l1, u, y, []. split; [rewrite E; now rewrite <- !app_assoc|]. splits; auto.
      * intros Hi. apply B1. rewrite in_app_iff in *. destruct Hi; [now left|right; now right].
      * rewrite passed_app in T. cbn [passed] in T. lia.
      * intros ok Hi. apply (A3 ok). rewrite E. rewrite !in_app_iff in *. destruct Hi as [Hi|[Hi|Hi]]; [left; now left|left; right; now right|right; now right].
    + exfalso. destruct u as [|f u]; [discriminate|]. cbn in E3. injection E3 as <- ->. apply N. rewrite in_app_iff. right. now left.
Qed.

Lemma conns_update c f l : (forall k, k_conn k = c -> k_conn (f k) = c) -> map k_conn (update_shaker c f l) = map k_conn l.
Proof.
  intros H. unfold update_shaker. rewrite map_map. apply map_ext_in. intros k _.
  destruct (Nat.eqb_spec (k_conn k) c) as [E|]; [|reflexivity]. now rewrite H.
Qed.
Lemma conns_drop c l : map k_conn (drop_shaker c l) = remove_conn c (map k_conn l).
Proof.
  unfold drop_shaker, remove_conn. induction l as [|k l IH]; [reflexivity|]. cbn [filter map].
  destruct (negb (k_conn k =? c)); cbn [map]; now rewrite IH.
Qed.
Lemma find_in c l k : find_shaker c l = Some k -> In k l /\ k_conn k = c.
Proof. intros H. apply find_some in H as (H & E). split; [easy|]. now apply Nat.eqb_eq. Qed.
Lemma find_unique c l k k2 : find_shaker c l = Some k -> NoDup (map k_conn l) -> In k2 l -> k_conn k2 = c -> k2 = k.
Proof.
  induction l as [|x l IH]; [easy|]. unfold find_shaker. cbn [find map]. intros Hf Hd Hi Hc.
  inversion Hd as [|? ? Hn Hd']; subst. destruct (Nat.eqb_spec (k_conn x) (k_conn k2)) as [E|E].
  - injection Hf as ->. destruct Hi as [Hi|Hi]; [auto|]. exfalso. apply Hn. rewrite E. now apply in_map.
  - destruct Hi as [Hi|Hi]; [congruence|]. now apply IH.
Qed.
Lemma nodup_l {A} (a b : list A) : NoDup (a ++ b) -> NoDup a.
Proof. induction a; [constructor|]. cbn. intros H. inversion H; subst. constructor; auto. rewrite in_app_iff in *. tauto. Qed.
Lemma find_some_of c l : In c (map k_conn l) -> exists k, find_shaker c l = Some k.
Proof.
  unfold find_shaker. induction l as [|x l IH]; [easy|]. cbn [map find]. intros [H|H].
  - rewrite H, Nat.eqb_refl. eauto.
  - destruct (k_conn x =? c); eauto.
Qed.
Lemma Forall_update (P Q : shaker -> Prop) c f l : Forall P l ->
  (forall k, In k l -> P k -> k_conn k <> c -> Q k) -> (forall k, In k l -> P k -> k_conn k = c -> Q (f k)) ->
  Forall Q (update_shaker c f l).
Proof.
  intros H H1 H2. rewrite Forall_forall in *. unfold update_shaker. intros k Hk. apply in_map_iff in Hk as (k0 & <- & Hk).
  destruct (Nat.eqb_spec (k_conn k0) c); auto.
Qed.
Lemma of_other c d e : of c e = true -> c <> d -> of d e = false.
Proof. destruct e; cbn; auto; rewrite Nat.eqb_eq; intros -> N; now apply Nat.eqb_neq. Qed.

Lemma taken_snoc l e : (forall c, e <> Loop (Accept (Some c))) -> taken (l ++ [e]) = taken l.
Proof.
  intros H. rewrite taken_app. unfold taken at 2. destruct e as [d|[| |[c|]| |]|c ok|c|c]; cbn; rewrite ?app_nil_r; try reflexivity.
  now elim (H c).
Qed.
Lemma ofs_snoc l e : (forall x c, In x l -> of c x = true -> In c (taken l)) ->
  (forall c, of c e = true -> In c (taken l)) -> (forall x c, In x (l ++ [e]) -> of c x = true -> In c (taken (l ++ [e]))).
Proof.
  intros H1 H2 x c Hi Ho. rewrite taken_app, in_app_iff. left. apply in_app_iff in Hi as [Hi|[<-|[]]]; eauto.
Qed.

Lemma known_quiet l st e lp : known l st -> (forall c, of c e = false) -> (forall c, e <> Loop (Accept (Some c))) ->
  shaking lp = shaking (loop st) ->
  known (l ++ [e]) (TimedState (now st + passed [e]) lp (shakers st) (ends st)).
Proof.
  intros (K1 & K2 & K3 & K4 & K5 & K6 & K7) Ho Ha Hs. unfold known. cbn [now loop shakers ends].
  splits; try congruence; auto.
  - rewrite passed_app, K1. reflexivity.
  - eapply Forall_impl; [|exact K2]. intros k. apply about_other; auto.
  - eapply Forall_impl; [|exact K3]. intros k. apply how_snoc.
  - intros c. rewrite taken_snoc by easy. apply K6.
  - apply ofs_snoc; auto. intros c. now rewrite Ho.
Qed.

Lemma known_step l st e st' : known l st -> NoDup (taken (l ++ [e])) -> step st e = Some st' -> known (l ++ [e]) st'.
Proof.
  intros K Hd H. destruct e as [d|ev|c ok|c|c].
  - injection H as <-. pose proof (known_quiet l st (Later d) (loop st) K) as Q. cbn [passed] in Q.
    rewrite N.add_0_r in Q. apply Q; auto. discriminate.
  - assert (G : forall lp, (forall c, Loop ev <> Loop (Accept (Some c))) -> shaking lp = shaking (loop st) ->
      known (l ++ [Loop ev]) (TimedState (now st) lp (shakers st ++ []) (ends st))).
    { intros lp H1 H2. pose proof (known_quiet l st (Loop ev) lp K) as Q. cbn [passed] in Q.
      rewrite N.add_0_r in Q. rewrite app_nil_r. apply Q; auto. }
    destruct ev as [| |[c|]| |c h]; cbn [timed_step] in H; [| | | | |discriminate].
    + destruct (loop_step _ _ _) eqn:E; [|discriminate]. injection H as <-. apply G; [discriminate|].
      cbn in E. destruct (stopped (loop st)); [discriminate|]. now injection E as <-.
    + destruct (loop_step _ _ _) eqn:E; [|discriminate]. injection H as <-. apply G; [discriminate|].
      cbn in E. now injection E as <-.
    + destruct (loop_step _ _ _) eqn:E; [|discriminate]. injection H as <-.
      cbn in E. destruct (stopped (loop st)); [discriminate|]. injection E as <-.
      destruct K as (K1 & K2 & K3 & K4 & K5 & K6 & K7).
      assert (Et : taken (l ++ [Loop (Accept (Some c))]) = taken l ++ [c]) by (rewrite taken_app; reflexivity).
      rewrite Et in Hd.
      assert (Hc : ~ In c (taken l)).
      { apply NoDup_remove_2 in Hd. now rewrite app_nil_r in Hd. }
      assert (Hx : forall e, In e l -> of c e = false).
      { intros e He. destruct (of c e) eqn:Eo; [|reflexivity]. elim Hc. eauto. }
      unfold known. cbn [now loop shakers ends next_round shaking]. splits.
      * rewrite passed_app, K1. cbn. lia.
      * apply Forall_app. split.
        -- eapply Forall_impl; [|exact K2]. intros k. apply about_other; auto.
        -- constructor; [|constructor]. unfold about. cbn [k_conn k_begun k_arrived k_fired].
           assert (N : forall e, of c e = true -> ~ In e (l ++ [Loop (Accept (Some c))])).
           { intros e He Hi. apply in_app_iff in Hi as [Hi|[<-|[]]]; [apply Hx in Hi; congruence|discriminate]. }
           splits; try discriminate; intros _; [|intros ok|]; apply N; cbn; apply Nat.eqb_refl.
      * eapply Forall_impl; [|exact K3]. intros k. apply how_snoc.
      * rewrite map_app. cbn. now rewrite K4.
      * rewrite map_app. cbn [map]. rewrite <- app_assoc. cbn [app]. apply NoDup_Add with (a := c) (l := map k_conn (shakers st) ++ map fst (ends st)).
        -- apply Add_app.
        -- split; [easy|]. now rewrite <- K6.
      * intros d. rewrite Et, map_app, !in_app_iff, K6, in_app_iff. cbn. tauto.
      * apply ofs_snoc; auto. discriminate.
    + destruct (loop_step _ _ _) eqn:E; [|discriminate]. injection H as <-. apply G; [discriminate|].
      cbn in E. destruct (stopped (loop st)); [discriminate|]. now injection E as <-.
    + destruct (loop_step _ _ _) eqn:E; [|discriminate]. injection H as <-. apply G; [discriminate|].
      cbn in E. destruct (negb (stopped (loop st)) && delivered (loop st)); [|discriminate]. now injection E as <-.
  - cbn [timed_step] in H. destruct (existsb _ _) eqn:Ex; [|discriminate]. injection H as <-.
    apply existsb_exists in Ex as (c' & Ex & Ec). apply Nat.eqb_eq in Ec as <-.
    destruct K as (K1 & K2 & K3 & K4 & K5 & K6 & K7). unfold known. cbn [now loop shakers ends].
    rewrite conns_update by easy. splits; auto.
    + rewrite passed_app, K1. cbn. lia.
    + eapply Forall_update; [exact K2| |]; cbn beta.
      * intros k _ Hk Hn. apply about_other; auto. cbn. apply Nat.eqb_neq. auto.
      * intros k _ Hk <-. now apply about_arrives.
    + eapply Forall_impl; [|exact K3]. intros k. apply how_snoc.
    + intros d. rewrite taken_snoc by discriminate. apply K6.
    + apply ofs_snoc; auto. intros d Ho. cbn in Ho. apply Nat.eqb_eq in Ho as <-. now apply K6.
  - cbn [timed_step] in H. destruct (find_shaker c (shakers st)) as [[c' [b|] a f]|] eqn:Ef; try discriminate.
    destruct (N.leb_spec (b + timeout) (now st)) as [Ht|]; [|discriminate]. injection H as <-.
    pose proof (find_in _ _ _ Ef) as (Hi & Hc). cbn in Hc. subst c'.
    destruct K as (K1 & K2 & K3 & K4 & K5 & K6 & K7). unfold known. cbn [now loop shakers ends].
    rewrite conns_update by easy. splits; auto.
    + rewrite passed_app, K1. cbn. lia.
    + eapply Forall_update; [exact K2| |]; cbn beta.
      * intros k _ Hk Hn. apply about_other; auto. cbn. apply Nat.eqb_neq. auto.
      * intros k Hk Ha Hkc. pose proof (find_unique _ _ _ _ Ef (nodup_l _ _ K5) Hk Hkc) as Ek.
        rewrite <- Hkc. apply about_fires with (b := b); auto; [now rewrite Ek|lia].
    + eapply Forall_impl; [|exact K3]. intros k. apply how_snoc.
    + intros d. rewrite taken_snoc by discriminate. apply K6.
    + apply ofs_snoc; auto. intros d Ho. cbn in Ho. apply Nat.eqb_eq in Ho as <-. apply K6, in_app_iff. left.
      apply in_map_iff. eexists. split; [|exact Hi]. reflexivity.
  - cbn [timed_step] in H. destruct (find_shaker c (shakers st)) as [k|] eqn:Ef; try discriminate.
    pose proof (find_in _ _ _ Ef) as (Hi & Hc).
    assert (Hic : In c (map k_conn (shakers st))) by (rewrite <- Hc; now apply in_map).
    destruct K as (K1 & K2 & K3 & K4 & K5 & K6 & K7).
    assert (Hk : about l k) by (rewrite Forall_forall in K2; auto).
    assert (Hof : forall x d, In x (l ++ [Runs c]) -> of d x = true -> In d (taken (l ++ [Runs c]))).
    { apply ofs_snoc; auto. intros d Ho. cbn in Ho. apply Nat.eqb_eq in Ho as <-. apply K6, in_app_iff. now left. }
    destruct (run_shaker (now st) k) as [k'|h] eqn:Er.
    + injection H as <-. unfold run_shaker in Er. destruct (k_arrived k) eqn:Ea; [discriminate|].
      destruct (k_fired k) eqn:Ff; [discriminate|]. injection Er as <-.
      unfold known. cbn [now loop shakers ends]. rewrite conns_update by easy. splits; auto.
      * rewrite passed_app, K1. cbn. lia.
      * eapply Forall_update; [exact K2| |]; cbn beta.
        -- intros k2 _ Hk2 Hn. apply about_other; auto. cbn. apply Nat.eqb_neq. auto.
        -- intros _ _ _ _. rewrite <- Hc at 1. rewrite K1. now apply about_runs.
      * eapply Forall_impl; [|exact K3]. intros x. apply how_snoc.
      * intros d. rewrite taken_snoc by discriminate. apply K6.
    + destruct (loop_step _ _ _) as [lp|] eqn:E; [|discriminate]. injection H as <-.
      assert (Es : shaking lp = remove_conn c (shaking (loop st))).
      { cbn in E. destruct (existsb _ _); [|discriminate]. destruct h; now injection E as <-. }
      unfold known. cbn [now loop shakers ends]. splits; auto.
      * rewrite passed_app, K1. cbn. lia.
      * unfold drop_shaker. apply Forall_forall. intros k2 Hk2. apply filter_In in Hk2 as (Hk2 & Hn).
        rewrite Forall_forall in K2. apply about_other; auto. cbn. apply Nat.eqb_neq. apply negb_true_iff, Nat.eqb_neq in Hn. auto.
      * apply Forall_app. split; [eapply Forall_impl; [|exact K3]; intros x; apply how_snoc|].
        constructor; [|constructor]. rewrite <- Hc. rewrite K1 in Er. now apply how_ended.
      * now rewrite conns_drop, Es, K4.
      * rewrite conns_drop, map_app, app_assoc. cbn [map fst]. 
        assert (N : NoDup (remove_conn c (map k_conn (shakers st)) ++ map fst (ends st))).
        { clear -K5. unfold remove_conn. induction (map k_conn (shakers st)) as [|x m IH]; [exact K5|]. cbn in K5. inversion K5; subst.
          cbn. destruct (negb (x =? c)); [|auto]. cbn. constructor; auto. rewrite in_app_iff in *. rewrite filter_In. tauto. }
        apply NoDup_Add with (a := c) (l := remove_conn c (map k_conn (shakers st)) ++ map fst (ends st)).
        -- rewrite <- (app_nil_r (remove_conn c (map k_conn (shakers st)) ++ map fst (ends st))) at 1. apply Add_app.
        -- split; [easy|]. rewrite in_app_iff. unfold remove_conn. rewrite filter_In, Nat.eqb_refl. intros [(_ & X)|X]; [discriminate|].
           clear -K5 Hic X. induction (map k_conn (shakers st)) as [|x m IH]; [easy|]. cbn in K5. inversion K5; subst.
           destruct Hic as [->|Hic]; [rewrite in_app_iff in *; tauto|auto].
      * intros d. rewrite taken_snoc by discriminate. rewrite K6, conns_drop, map_app, !in_app_iff. cbn. unfold remove_conn.
        rewrite filter_In, negb_true_iff, Nat.eqb_neq. destruct (Nat.eq_dec d c) as [->|N]; [|intuition congruence].
        split; [auto|]. intros _. now left.
Qed.
Lemma taken_prefix l e : NoDup (taken (l ++ [e])) -> NoDup (taken l).
Proof. rewrite taken_app. apply nodup_l. Qed.
Lemma known_run l : forall st, runs timed_start l = Some st -> NoDup (taken l) -> known l st.
Proof.
  induction l as [|e l IH] using rev_ind; intros st H Hd.
  - injection H as <-. unfold known. cbn. splits; auto using NoDup_nil. intros c. tauto.
  - pose proof H as H0. apply run_cut in H as (st1 & H1 & H2).
    rewrite (run_snoc l _ _ e H1) in H0. apply known_step with (st := st1); auto. apply IH; auto. now apply taken_prefix in Hd.
Qed.
End H.

Lemma first_once {A} (x : A) l1 l2 m1 m2 : l1 ++ x :: l2 = m1 ++ x :: m2 -> ~ In x l1 -> ~ In x m1 -> l1 = m1 /\ l2 = m2.
Proof.
  revert m1. induction l1 as [|y l1 IH]; intros [|z m1] H H1 H2; cbn in H.
  - injection H as H. auto.
  - injection H as E H. elim H2. now left.
  - injection H as E H. elim H1. now left.
  - injection H as E H. subst z. destruct (IH m1 H) as (-> & ->); auto; intros X; [apply H1|apply H2]; now right.
Qed.
Lemma first_arrival c l1 ok l2 m1 ok' m2 : l1 ++ Arrives c ok :: l2 = m1 ++ Arrives c ok' :: m2 ->
  nothing_arrives c l1 -> nothing_arrives c m1 -> ok = ok' /\ l1 = m1 /\ l2 = m2.
Proof.
  revert m1. induction l1 as [|y l1 IH]; intros [|z m1] H H1 H2; cbn in H.
  - injection H as E H. auto.
  - injection H as E H. elim (H2 ok). now left.
  - injection H as E H. elim (H1 ok'). now left.
  - injection H as E H. subst z. destruct (IH m1 H) as (-> & -> & ->); auto; intros o X; [apply (H1 o)|apply (H2 o)]; now right.
Qed.

Section T.
Variables (scfg : bytes) (timeout : N).
Notation runs := (timed_run scfg timeout).

Lemma no_longer l1 c l2 st : runs timed_start (l1 ++ Fires c :: l2) = Some st -> NoDup (taken (l1 ++ Fires c :: l2)) ->
  In (Runs c) l2 -> ~ In c (shaking (loop st)).
Proof.
  intros H Hd Hr Hs. destruct (known_run _ _ _ _ H Hd) as (_ & K2 & _ & K4 & _). rewrite <- K4 in Hs.
  apply in_map_iff in Hs as (k & <- & Hk). rewrite Forall_forall in K2. destruct (K2 k Hk) as (_ & _ & _ & _ & A5 & A6).
  destruct (k_fired k); [|apply A5; [reflexivity|rewrite in_app_iff; right; now left]].
  destruct (A6 eq_refl) as (_ & _ & B & _). exact (B _ _ eq_refl Hr).
Qed.
Lemma not_early l st c : runs timed_start l = Some st -> NoDup (taken l) -> In (c, TimedOut) (ends st) ->
  exists l1 l2 l3 l4, l = l1 ++ Runs c :: l2 ++ Fires c :: l3 ++ Runs c :: l4
    /\ ~ In (Runs c) l1 /\ (timeout <= passed l2)%N /\ nothing_arrives c (l1 ++ l2 ++ l3).
Proof.
  intros H Hd Hi. destruct (known_run _ _ _ _ H Hd) as (_ & _ & K3 & _). rewrite Forall_forall in K3.
  destruct (K3 _ Hi) as (l1 & l2 & l3 & l4 & E & H1 & _ & _ & H2 & H3). exists l1, l2, l3, l4. auto.
Qed.
Lemma existsb_in c l : In c l -> existsb (Nat.eqb c) l = true.
Proof. intros H. apply existsb_exists. exists c. split; [easy|apply Nat.eqb_refl]. Qed.
Lemma find_update c f l k : find_shaker c l = Some k -> k_conn (f k) = c -> find_shaker c (update_shaker c f l) = Some (f k).
Proof.
  unfold find_shaker, update_shaker. induction l as [|x l IH]; [easy|]. cbn [find map]. intros H Hf.
  destruct (k_conn x =? c) eqn:E.
  - injection H as ->. now rewrite Hf, Nat.eqb_refl.
  - rewrite E. now apply IH.
Qed.
Lemma can_end l1 c l2 st : runs timed_start (l1 ++ Runs c :: l2) = Some st -> NoDup (taken (l1 ++ Runs c :: l2)) ->
  ~ In (Runs c) l1 -> (timeout <= passed l2)%N -> In c (shaking (loop st)) ->
  exists st', runs timed_start ((l1 ++ Runs c :: l2) ++ [Fires c; Runs c]) = Some st'
    /\ shaking (loop st') = remove_conn c (shaking (loop st)) /\ (exists h, ends st' = ends st ++ [(c, h)]).
Proof.
  intros H Hd Hn Ht Hs. pose proof (known_run _ _ _ _ H Hd) as (K1 & K2 & _ & K4 & _).
  assert (Hs' := Hs). rewrite <- K4 in Hs'. destruct (find_some_of _ _ Hs') as (k & Ef).
  pose proof (find_in _ _ _ Ef) as (Hi & Hc). rewrite Forall_forall in K2. destruct (K2 k Hi) as (A1 & A2 & _).
  destruct (k_begun k) as [b|] eqn:Eb.
  2:{ exfalso. apply (A2 eq_refl). rewrite Hc, in_app_iff. right. now left. }
  destruct (A1 b eq_refl) as (m1 & m2 & E & N & ->). rewrite Hc in *.
  destruct (first_once _ _ _ _ _ E Hn N) as (<- & <-).
  change [Fires c; Runs c] with ([Fires c] ++ [Runs c]). rewrite app_assoc.
  set (f := fun k => Shaker c (k_begun k) (k_arrived k) true).
  assert (E1 : runs timed_start ((l1 ++ Runs c :: l2) ++ [Fires c]) = Some (TimedState (now st) (loop st) (update_shaker c f (shakers st)) (ends st))).
  { rewrite (run_snoc _ _ _ _ _ _ H). cbn [timed_step]. rewrite Ef. destruct k as [kc kb ka kf]. cbn in Eb. subst kb.
    rewrite K1, passed_app. cbn [passed]. destruct (N.leb_spec (passed l1 + timeout) (passed l1 + passed l2)); [reflexivity|lia]. }
  rewrite (run_snoc _ _ _ _ _ _ E1). cbn [timed_step shakers].
  rewrite (find_update _ _ _ _ Ef) by reflexivity.
  assert (R : exists h, run_shaker (now st) (f k) = inr h).
  { unfold run_shaker, f. cbn. destruct (k_arrived k); eauto. }
  destruct R as (h & R). cbn [now]. rewrite R. cbn [loop_step loop].
  rewrite (existsb_in _ _ Hs).
  destruct h; eexists; (split; [reflexivity|]); cbn [loop ends shaking]; (split; [reflexivity|]); eauto.
Qed.
Lemma refines l : forall st, runs timed_start l = Some st ->
  exists evs, loop_run (Some scfg) loop_start evs = Some (loop st) /\ accepted evs = taken l
    /\ established evs = succeeded (ends st).
Proof.
  induction l as [|e l IH] using rev_ind; intros st H.
  - injection H as <-. exists []. splits; reflexivity.
  - pose proof H as H0. apply run_cut in H as (st1 & H1 & _). rewrite (run_snoc _ _ _ _ _ e H1) in H0.
    destruct (IH st1 H1) as (evs & E1 & E2 & E3).
    assert (G : forall ev s, loop_step (Some scfg) (loop st1) ev = Some s -> loop_run (Some scfg) loop_start (evs ++ [ev]) = Some s).
    { intros ev s Hs. clear -E1 Hs. revert E1. generalize loop_start. induction evs as [|x evs IH]; intros s0 E; cbn in *.
      - injection E as ->. now rewrite Hs.
      - destruct (loop_step (Some scfg) s0 x); [|discriminate]. auto. }
    assert (ea : forall ev, established (evs ++ [ev]) = established evs ++ established [ev]).
    { intros ev. clear. induction evs as [|x evs IH]; [reflexivity|]. cbn [app established]. destruct x as [| | | |d [| |]]; rewrite ?IH; reflexivity. }
    destruct e as [d|ev|c ok|c|c]; cbn [timed_step] in H0.
    + injection H0 as <-. exists evs. splits; auto. rewrite taken_snoc by discriminate. auto.
    + destruct ev as [| |o| |d h]; [| | | |discriminate];
      (destruct (loop_step _ _ _) as [s|] eqn:E; [|discriminate]; injection H0 as <-; cbn [loop ends];
       eexists; split; [apply (G _ _ E)|]; rewrite accepted_app, taken_app, ea, E2, E3; cbn; rewrite ?app_nil_r; split; reflexivity).
    + destruct (existsb _ _); [|discriminate]. injection H0 as <-. exists evs. splits; auto. rewrite taken_snoc by discriminate. auto.
    + destruct (find_shaker c (shakers st1)) as [[c' [b|] a f]|]; try discriminate. destruct (_ <=? _)%N; [|discriminate].
      injection H0 as <-. exists evs. splits; auto. rewrite taken_snoc by discriminate. auto.
    + destruct (find_shaker c (shakers st1)) as [k|]; [|discriminate]. destruct (run_shaker (now st1) k) as [k'|h].
      * injection H0 as <-. exists evs. splits; auto. rewrite taken_snoc by discriminate. auto.
      * destruct (loop_step _ _ _) as [s|] eqn:E; [|discriminate]. injection H0 as <-. cbn [loop ends].
        eexists; split; [apply (G _ _ E)|]. rewrite accepted_app, ea, E2, E3. rewrite taken_snoc by discriminate. cbn [accepted].
        rewrite app_nil_r. split; [reflexivity|]. unfold succeeded. rewrite filter_app, map_app. now destruct h.
Qed.
Lemma served_succeeded l st : runs timed_start l = Some st -> served (loop st) = map (fun c => (c, false)) (succeeded (ends st)).
Proof. intros H. destruct (refines l st H) as (evs & E1 & _ & E3). rewrite (served_tls scfg evs _ E1). now rewrite E3. Qed.

Lemma in_time l1 c l2 st : runs timed_start (l1 ++ Arrives c true :: l2) = Some st -> NoDup (taken (l1 ++ Arrives c true :: l2)) ->
  In c (taken l1) -> nothing_arrives c l1 -> ~ In (Fires c) l1 -> In (Runs c) l2 -> In (c, Established) (ends st).
Proof.
  intros H Hd Ht Ha Hf Hr. destruct (known_run _ _ _ _ H Hd) as (_ & K2 & K3 & _ & _ & K6 & _).
  assert (Hc : In c (map k_conn (shakers st) ++ map fst (ends st))) by (apply K6; rewrite taken_app, in_app_iff; now left).
  apply in_app_iff in Hc as [Hc|Hc]; apply in_map_iff in Hc as (k & Hc & Hk).
  - exfalso. rewrite Forall_forall in K2. destruct (K2 k Hk) as (_ & _ & A3 & A4 & _). rewrite Hc in *.
    destruct (k_arrived k) as [ok|].
    + destruct (A4 ok eq_refl) as (m1 & m2 & E & N1 & N2). destruct (first_arrival _ _ _ _ _ _ _ E Ha N1) as (_ & _ & <-). auto.
    + apply (A3 eq_refl true). rewrite in_app_iff. right. now left.
  - destruct k as [c' h]. cbn in Hc. subst c'. rewrite Forall_forall in K3. specialize (K3 _ Hk). unfold how in K3. cbn [fst snd] in K3.
    destruct h; [exact Hk| |]; exfalso.
    + destruct K3 as (m1 & m2 & m3 & E & N1 & _). destruct (first_arrival _ _ _ _ _ _ _ E Ha N1) as (X & _). discriminate.
    + destruct K3 as (x1 & x2 & x3 & x4 & E & _ & _ & _ & _ & N). 
      change (x1 ++ Runs c :: x2 ++ Fires c :: x3 ++ Runs c :: x4) with (x1 ++ (Runs c :: x2) ++ Fires c :: x3 ++ Runs c :: x4) in E.
      rewrite app_assoc in E. apply app_eq_app in E as (u & [[Eu E]|[Eu E]]); destruct u as [|y u]; try discriminate; cbn in E; injection E as <- E.
      * apply Hf. rewrite Eu, in_app_iff. right. now left.
      * apply (N true). assert (X : In (Arrives c true) (x1 ++ Runs c :: x2)) by (rewrite Eu, in_app_iff; right; now left).
        rewrite !in_app_iff in *. destruct X as [X|[X|X]]; [now left|discriminate|right; now left].
Qed.
End T.
