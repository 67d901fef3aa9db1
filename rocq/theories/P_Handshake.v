(** C129: the time a TLS client has for its handshake.
    In all statements [l] is what happens, in order: time passes, the accept loop goes on, messages
    arrive, timers fire, tasks run (M_Handshake.v). *)
From Verif Require Import F_Handshake.

(** C129: no client is dropped before its time is over: between the moment its handshake began and
    the moment its timer fired the configured time passed, and until it was dropped the last message
    of its handshake had not arrived. *)
Theorem C129_not_early : forall scfg timeout l st c,
  timed_run scfg timeout timed_start l = Some st -> NoDup (taken l) -> In (c, TimedOut) (ends st) ->
  exists l1 l2 l3 l4, l = l1 ++ Runs c :: l2 ++ Fires c :: l3 ++ Runs c :: l4
    /\ ~ In (Runs c) l1 /\ (timeout <= passed l2)%N /\ nothing_arrives c (l1 ++ l2 ++ l3).
Proof. exact not_early. Qed.
Print Assumptions C129_not_early.
(** A client whose last message arrives before its timer fires is served, once, however late its task runs. *)
Theorem C129_in_time : forall scfg timeout l1 c l2 st,
  timed_run scfg timeout timed_start (l1 ++ Arrives c true :: l2) = Some st ->
  NoDup (taken (l1 ++ Arrives c true :: l2)) ->
  In c (taken l1) -> nothing_arrives c l1 -> ~ In (Fires c) l1 -> In (Runs c) l2 ->
  exists s1 s2, served (loop st) = s1 ++ (c, false) :: s2 /\ ~ In c (map fst (s1 ++ s2)).
Proof.
  intros scfg timeout l1 c l2 st H Hd Ht Ha Hf Hr.
  pose proof (in_time _ _ _ _ _ _ H Hd Ht Ha Hf Hr) as Hi. pose proof (served_succeeded _ _ _ _ H) as Hs.
  pose proof (known_run _ _ _ _ H Hd) as (_ & _ & _ & _ & K5 & _).
  assert (Hin : In (c, false) (served (loop st))).
  { rewrite Hs. apply in_map_iff. exists c. split; [easy|]. unfold succeeded. apply in_map_iff. exists (c, Established). split; [easy|].
    apply filter_In. auto. }
  assert (Hn : NoDup (map fst (served (loop st)))).
  { rewrite Hs, map_map. cbn. rewrite map_id. unfold succeeded. assert (N : NoDup (map fst (ends st))).
    { clear -K5. induction (map k_conn (shakers st)); [exact K5|]. inversion K5; auto. }
    clear -N. induction (ends st) as [|[d h] m IH]; [constructor|]. cbn [map fst] in N. inversion N as [|? ? N1 N2]; subst.
    cbn [filter snd]. destruct h; auto. cbn [map fst]. constructor; auto. intros X. apply N1.
    apply in_map_iff in X as (p & E & X). apply filter_In in X as (X & _). rewrite <- E. now apply in_map. }
  apply in_split in Hin as (s1 & s2 & E). exists s1, s2. split; [easy|]. rewrite E, map_app in Hn. cbn in Hn.
  apply NoDup_remove_2 in Hn. now rewrite map_app.
Qed.
Print Assumptions C129_in_time.
(** Whatever is served, and whatever is refused, is so because of the first message that ended its handshake. *)
Theorem C129_by_message : forall scfg timeout l st c h,
  timed_run scfg timeout timed_start l = Some st -> NoDup (taken l) -> In (c, h) (ends st) -> h <> TimedOut ->
  exists l1 ok l2 l3, l = l1 ++ Arrives c ok :: l2 ++ Runs c :: l3
    /\ nothing_arrives c l1 /\ ~ In (Runs c) l2 /\ h = (if ok then Established else Rejected).
Proof.
  intros scfg timeout l st c h H Hd Hi Hh. destruct (known_run _ _ _ _ H Hd) as (_ & _ & K3 & _). rewrite Forall_forall in K3.
  specialize (K3 _ Hi). unfold how in K3. cbn [fst snd] in K3. destruct h; [| |easy];
    destruct K3 as (l1 & l2 & l3 & E & H1 & H2); eexists l1, _, l2, l3; splits; eauto.
Qed.
Print Assumptions C129_by_message.
(** A client that does not complete its handshake is dropped: once its time is over its timer can
    fire, and then its task ends the next time it runs, without effect on the other handshakes ... *)
Theorem C129_can_end : forall scfg timeout l1 c l2 st,
  timed_run scfg timeout timed_start (l1 ++ Runs c :: l2) = Some st -> NoDup (taken (l1 ++ Runs c :: l2)) ->
  ~ In (Runs c) l1 -> (timeout <= passed l2)%N -> In c (shaking (loop st)) ->
  exists st', timed_run scfg timeout timed_start ((l1 ++ Runs c :: l2) ++ [Fires c; Runs c]) = Some st'
    /\ shaking (loop st') = remove_conn c (shaking (loop st)) /\ (exists h, ends st' = ends st ++ [(c, h)]).
Proof. exact can_end. Qed.
Print Assumptions C129_can_end.
(** ... so that if timers and workers are at most [delay] late, every handshake still going on began
    at most the configured time and [delay] ago, whatever the clients send in between. *)
Theorem C129_bounded : forall scfg timeout delay l st c,
  timed_run scfg timeout timed_start l = Some st -> NoDup (taken l) -> prompt timeout delay l ->
  In c (shaking (loop st)) -> In (Runs c) l ->
  exists l1 l2, l = l1 ++ Runs c :: l2 /\ ~ In (Runs c) l1 /\ (passed l2 <= timeout + delay)%N.
Proof.
  intros scfg timeout delay l st c H Hd Hp Hs Hr.
  pose proof (known_run _ _ _ _ H Hd) as (_ & K2 & _ & K4 & _).
  assert (Hs' := Hs). rewrite <- K4 in Hs'. apply in_map_iff in Hs' as (k & Hc & Hk).
  rewrite Forall_forall in K2. destruct (K2 k Hk) as (A1 & A2 & _). rewrite Hc in *.
  destruct (k_begun k) as [b|]; [|elim (A2 eq_refl Hr)]. destruct (A1 b eq_refl) as (l1 & l2 & E & N & _).
  exists l1, l2. splits; auto. destruct (N.leb_spec (passed l2) (timeout + delay)) as [|Hlt]; [easy|]. exfalso.
  destruct (Hp l1 c l2 E ltac:(lia)) as (a & b' & -> & Hi). subst l.
  change (l1 ++ Runs c :: a ++ Fires c :: b') with (l1 ++ (Runs c :: a) ++ Fires c :: b') in *. rewrite app_assoc in *.
  now apply (no_longer scfg timeout _ c b' st H Hd Hi).
Qed.
Print Assumptions C129_bounded.
(** Everything else is as without the clock: the accept loop does what it does in C48-C50 and C77,
    and serves the clients whose handshakes succeeded, in that order. *)
Theorem C129_loop : forall scfg timeout l st, timed_run scfg timeout timed_start l = Some st ->
  served (loop st) = map (fun c => (c, false)) (succeeded (ends st))
  /\ exists evs, loop_run (Some scfg) loop_start evs = Some (loop st) /\ accepted evs = taken l
     /\ established evs = succeeded (ends st).
Proof. intros scfg timeout l st H. split; [now apply (served_succeeded scfg timeout l)|now apply (refines scfg timeout)]. Qed.
Print Assumptions C129_loop.
(** three clients: one in time, one mute, one that sends garbage *)
Definition ex_shakes : list timed :=
  [Loop (Accept (Some 1)); Loop (Accept (Some 2)); Runs 1; Later 3; Runs 2; Loop Poll; Loop (Accept (Some 3)); Arrives 3 false; Runs 3;
   Later 12; Arrives 1 true; Later 4; Fires 1; Fires 2; Runs 2; Runs 1; Arrives 2 true].
Example C129_nonvacuous : exists st, timed_run (B "cert") 15 timed_start ex_shakes = Some st
  /\ ends st = [(3, Rejected); (2, TimedOut); (1, Established)] /\ served (loop st) = [(1, false)] /\ shaking (loop st) = []
  /\ taken ex_shakes = [1; 2; 3] /\ timed_run (B "cert") 15 timed_start (firstn 12 ex_shakes ++ [Fires 2]) <> None
  /\ timed_run (B "cert") 15 timed_start (firstn 11 ex_shakes ++ [Later 2; Fires 2]) = None.
Proof. eexists. split; [vm_compute; reflexivity|]. splits; vm_compute; try reflexivity. discriminate. Qed.
Example C129_bounded_nonvacuous : prompt 15 4 (firstn 12 ex_shakes)
  /\ exists st, timed_run (B "cert") 15 timed_start (firstn 12 ex_shakes) = Some st /\ shaking (loop st) = [1; 2].
Proof.
  split; [|eexists; split; vm_compute; reflexivity].
  intros l1 c l2 E H. exfalso. cbn [ex_shakes firstn] in E.
  repeat (destruct l1 as [|? l1]; cbn in E;
    [first [discriminate E|injection E as _ E; subst l2; vm_compute in H; discriminate H]|first [discriminate E|injection E as _ E]]).
Qed.
