(** Facts about starting services and accepting connections. *)
From Verif Require Export F_Base S_Main.

Lemma loop_run_app tls a : forall st b, loop_run tls st (a ++ b) =
  match loop_run tls st a with Some st' => loop_run tls st' b | None => None end.
Proof. induction a as [|ev a IH]; intros st b; simpl; auto. destruct (loop_step tls st ev); auto. Qed.
Lemma accepted_app a b : accepted (a ++ b) = accepted a ++ accepted b.
Proof. induction a as [|[| |[c|]| |c [| |]] a IH]; simpl; auto. now rewrite IH. Qed.
Lemma established_app a b : established (a ++ b) = established a ++ established b.
Proof. induction a as [|[| |[c|]| |c [| |]] a IH]; simpl; auto. now rewrite IH. Qed.

(** C48 *)
Lemma load_none x t : tls_load x t = Done None <-> tls_cert t = [] /\ tls_key t = [].
Proof.
  unfold tls_load. split.
  - destruct (tls_cert t); [destruct (tls_key t); [auto|]|]; intros H; exfalso;
    repeat match goal with H : context [match ?x with _ => _ end] |- _ => destruct x; try discriminate end.
  - intros [-> ->]. reflexivity.
Qed.
Lemma run_mode x s tls : run x s = Ret (Done tls) -> tls_load x (t_tls (s_tcp s)) = Done tls.
Proof.
  unfold run. destruct (x_bind x _); [|discriminate]. destruct (tls_load x _); [discriminate|].
  destruct (s_kind s); congruence.
Qed.

(** what is served *)
Lemma loop_served tls l : forall st st', loop_run tls st l = Some st' ->
  served st' = served st ++ match tls with
                            | None => map (fun c => (c, true)) (accepted l) ++ [] 
                            | Some _ => map (fun c => (c, false)) (established l)
                            end \/ (tls = None /\ shaking st <> []).
Proof.
  induction l as [|ev l IH]; intros st st' H.
  - injection H as <-. left. destruct tls; simpl; now rewrite ?app_nil_r.
  - cbn [loop_run] in H. destruct (loop_step tls st ev) as [st1|] eqn:E; [|discriminate].
    destruct (IH _ _ H) as [A|[A1 A2]].
    + unfold loop_step in E. destruct tls as [b|].
      * left. rewrite A. destruct ev as [| |[c|]| |c h]; cbn [established];
        repeat match goal with E : context [match ?x with _ => _ end] |- _ => destruct x; try discriminate end;
        injection E as <-; cbn; rewrite ?app_nil_r; auto. now rewrite <- app_assoc.
      * destruct ev as [| |[c|]| |c h]; cbn [accepted];
        try (left; rewrite A; repeat match goal with E : context [match ?x with _ => _ end] |- _ => destruct x; try discriminate end;
        injection E as <-; cbn; rewrite ?app_nil_r; auto; rewrite <- app_assoc; reflexivity).
        right. split; auto. destruct (shaking st); [discriminate|easy].
    + right. split; auto. subst tls. unfold loop_step in E. intros Hn. apply A2.
      destruct ev as [| |[c|]| |c h]; rewrite ?Hn in E; cbn in E;
      repeat match goal with E : context [match ?x with _ => _ end] |- _ => destruct x; try discriminate end;
      try discriminate; injection E as <-; cbn; auto.
Qed.
Lemma served_plain l st : loop_run None loop_start l = Some st -> served st = map (fun c => (c, true)) (accepted l).
Proof. intros H. apply loop_served in H as [H|[_ H]]; [now rewrite H, app_nil_r|easy]. Qed.
Lemma served_tls b l st : loop_run (Some b) loop_start l = Some st -> served st = map (fun c => (c, false)) (established l).
Proof. intros H. apply loop_served in H as [H|[H _]]; [now rewrite H|easy]. Qed.

(** each connection once *)
Lemma in_remove c d l : In d (remove_conn c l) <-> In d l /\ d <> c.
Proof. unfold remove_conn. rewrite filter_In, negb_true_iff, Nat.eqb_neq. tauto. Qed.
Lemma shaking_sub b l : forall st st', loop_run (Some b) st l = Some st' ->
  NoDup (shaking st ++ accepted l) ->
  NoDup (shaking st') /\ NoDup (established l) /\ (forall c, In c (established l) -> In c (shaking st ++ accepted l) /\ ~ In c (shaking st'))
  /\ (forall c, In c (shaking st') -> In c (shaking st ++ accepted l)).
Proof.
  induction l as [|ev l IH]; intros st st' H Hd.
  - injection H as <-. cbn [accepted established] in *. rewrite app_nil_r in *. splits; auto; [constructor|easy].
  - cbn [loop_run] in H. destruct (loop_step (Some b) st ev) as [st1|] eqn:E; [|discriminate].
    assert (K : (shaking st1 ++ accepted l = shaking st ++ accepted (ev :: l) /\ established (ev :: l) = established l)
                \/ exists c h, ev = Shake c h /\ In c (shaking st) /\ shaking st1 = remove_conn c (shaking st)).
    { unfold loop_step in E. destruct ev as [| |[c|]| |c h]; cbn [accepted established];
      try (left; repeat match goal with E : context [match ?x with _ => _ end] |- _ => destruct x; try discriminate end;
      injection E as <-; cbn; split; auto; now rewrite <- app_assoc).
      right. destruct (existsb (Nat.eqb c) (shaking st)) eqn:Ec; [|discriminate].
      apply existsb_exists in Ec as (d & Hin & Ec). apply Nat.eqb_eq in Ec. subst d. exists c, h. splits; auto.
      destruct h; injection E as <-; reflexivity. }
    destruct K as [[K1 K2]|(c & h & -> & Hin & K)].
    + rewrite <- K1, K2 in *. now apply IH.
    + cbn [accepted] in *.
      assert (Hsub : forall d, In d (remove_conn c (shaking st) ++ accepted l) -> In d (shaking st ++ accepted l) /\ d <> c).
      { intros d. rewrite !in_app_iff, in_remove. intros [[A B]|A]; [auto|]. split; [auto|]. intros ->.
        apply in_split in Hin as (u & v & Ei). rewrite Ei, <- app_assoc in Hd. cbn [app] in Hd. apply NoDup_remove_2 in Hd.
        apply Hd. rewrite !in_app_iff. auto. }
      destruct (IH st1 st' H) as (A1 & A2 & A3 & A4).
      { rewrite K. clear - Hd. revert Hd. generalize (accepted l) as acc. induction (shaking st) as [|d s IH]; intros acc Hd; [exact Hd|].
        cbn [remove_conn filter app] in *. inversion Hd as [|? ? Hn Hd']; subst. destruct (negb (d =? c)); cbn [app]; [|now apply IH].
        constructor; [|now apply IH]. rewrite in_app_iff in *. intros [A|A]; apply Hn; auto. left. apply (in_remove c) in A. tauto. }
      rewrite K in A3, A4. splits; auto.
      * destruct h; cbn [established]; auto. constructor; auto. intros A. apply A3 in A as [A _]. apply Hsub in A. tauto.
      * intros d. destruct h; cbn [established]; [intros [<-|A]| |].
        -- split; [rewrite in_app_iff; auto|]. intros A. apply A4, Hsub in A. tauto.
        -- destruct (A3 d A) as [B1 B2]. split; auto. now apply Hsub in B1.
        -- intros A. destruct (A3 d A) as [B1 B2]. split; auto. now apply Hsub in B1.
        -- intros A. destruct (A3 d A) as [B1 B2]. split; auto. now apply Hsub in B1.
      * intros d A. apply A4, Hsub in A. tauto.
Qed.

(** failures leave no trace *)
Definition covers (st st' : loop_state) : Prop :=
  (subscribed st = true -> subscribed st' = true) /\ (delivered st = true -> delivered st' = true)
  /\ stopped st' = stopped st /\ served st' = served st /\ forall c, In c (shaking st) -> In c (shaking st').
Lemma failures_free tls l : forall st st1 st', covers st st1 -> loop_run tls st l = Some st' ->
  (match tls with None => shaking st = [] | _ => True end) ->
  exists st1', loop_run tls st1 (without_failures l) = Some st1' /\ covers st' st1'.
Proof.
  induction l as [|ev l IH]; intros st st1 st' Hc H Ht.
  - injection H as <-. exists st1. auto.
  - cbn [loop_run] in H. destruct (loop_step tls st ev) as [st2|] eqn:E; [|discriminate].
    destruct Hc as (C1 & C2 & C3 & C4 & C5). cbn [without_failures filter]. destruct (failure ev) eqn:Ef; cbn [negb].
    + apply (IH st2 st1 st'); auto.
      * unfold loop_step in E. destruct ev as [| |[c|]| |c [| |]]; try discriminate;
        repeat match goal with E : context [match ?x with _ => _ end] |- _ => destruct x eqn:?; try discriminate end;
        injection E as <-; unfold covers; cbn; splits; auto; try discriminate; try congruence;
        intros d Hd; apply C5; try apply (in_remove c) in Hd; tauto.
      * destruct tls; auto. unfold loop_step in E. destruct ev as [| |[c|]| |c [| |]]; rewrite ?Ht in E; cbn in E;
        repeat match goal with E : context [match ?x with _ => _ end] |- _ => destruct x eqn:?; try discriminate end;
        try discriminate; injection E as <-; cbn; auto.
    + assert (S : exists st3, loop_step tls st1 ev = Some st3 /\ covers st2 st3).
      { unfold loop_step in *. rewrite C3, C4. destruct ev as [| |[c|]| |c [| |]]; try discriminate.
        - destruct (stopped st); [discriminate|]. injection E as <-. eexists. split; [reflexivity|]. unfold covers. cbn. splits; auto.
        - injection E as <-. eexists. split; [reflexivity|]. unfold covers. cbn. splits; auto. rewrite !orb_true_iff. tauto.
        - destruct (stopped st) eqn:Es; [discriminate|]. destruct tls; injection E as <-; (eexists; split; [reflexivity|]); unfold covers; cbn; splits; auto; try congruence.
          intros d. rewrite !in_app_iff. intros [A|A]; auto.
        - destruct (negb (stopped st)); [|discriminate]. cbn in *. destruct (delivered st); [|discriminate]. rewrite C2 by easy.
          injection E as <-. eexists. split; [reflexivity|]. unfold covers. cbn. splits; auto.
        - destruct (existsb (Nat.eqb c) (shaking st)) eqn:Ec; [|discriminate].
          assert (Ec' : existsb (Nat.eqb c) (shaking st1) = true).
          { apply existsb_exists in Ec as (d & Hin & Ec). apply existsb_exists. eauto. }
          rewrite Ec'. injection E as <-. eexists. split; [reflexivity|]. unfold covers. cbn. splits; auto.
          intros d. rewrite !in_remove. intros [A B]. auto. }
      destruct S as (st3 & E3 & Hc3). cbn [loop_run]. rewrite E3. apply (IH st2 st3 st'); auto.
      destruct tls; auto. unfold loop_step in E. destruct ev as [| |[c|]| |c [| |]]; rewrite ?Ht in E; cbn in E;
      repeat match goal with E : context [match ?x with _ => _ end] |- _ => destruct x eqn:?; try discriminate end;
      try discriminate; injection E as <-; cbn; auto.
Qed.
Lemma failures_dont_matter tls l st : loop_run tls loop_start l = Some st ->
  exists st', loop_run tls loop_start (without_failures l) = Some st' /\ served st' = served st.
Proof.
  intros H. destruct (failures_free tls l loop_start loop_start st) as (st' & H1 & (_ & _ & _ & H2 & _)); auto.
  - unfold covers. auto.
  - now destruct tls.
  - eauto.
Qed.

(** stopping *)
Lemma stopped_stays tls l : forall st st', loop_run tls st l = Some st' -> stopped st = true -> stopped st' = true /\ accepted l = [] /\ ~ In (Accept None) l.
Proof.
  induction l as [|ev l IH]; intros st st' H Hs; [injection H as <-; auto|].
  cbn [loop_run] in H. destruct (loop_step tls st ev) as [st1|] eqn:E; [|discriminate].
  unfold loop_step in E. rewrite Hs in E. destruct ev as [| |[c|]| |c h]; try discriminate.
  - injection E as <-. destruct (IH _ _ H eq_refl) as (A & B & C). splits; auto. intros [D|D]; [discriminate|auto].
  - destruct (existsb (Nat.eqb c) (shaking st)); [|discriminate].
    assert (Hs1 : stopped st1 = true) by (destruct h; now injection E as <-).
    destruct (IH _ _ H Hs1) as (A & B & C). splits; auto. intros [D|D]; [discriminate|auto].
Qed.
Lemma stop_final tls l1 l2 st : loop_run tls loop_start (l1 ++ Stop :: l2) = Some st -> accepted l2 = [] /\ ~ In (Accept None) l2.
Proof.
  rewrite loop_run_app. destruct (loop_run tls loop_start l1) as [st1|]; [|discriminate]. cbn [loop_run].
  destruct (loop_step tls st1 Stop) as [st2|] eqn:E; [|discriminate]. intros H.
  assert (stopped st2 = true). { cbn in E. destruct (negb (stopped st1) && delivered st1); [|discriminate]. now injection E as <-. }
  apply stopped_stays in H; tauto.
Qed.
Lemma accepts tls l : forall st, stopped st = false -> 
  exists st', loop_run tls st (map (fun c => Accept (Some c)) l) = Some st' /\ stopped st' = false
  /\ served st' = served st ++ match tls with None => map (fun c => (c, true)) l | Some _ => [] end
  /\ shaking st' = shaking st ++ match tls with None => [] | Some _ => l end.
Proof.
  induction l as [|c l IH]; intros st Hs; cbn [map loop_run].
  - exists st. splits; auto; destruct tls; now rewrite app_nil_r.
  - cbn [loop_step]. rewrite Hs.
    destruct tls; match goal with |- context [loop_run _ ?s _] => destruct (IH s Hs) as (st' & A1 & A2 & A3 & A4) end;
    exists st'; splits; auto; rewrite ?A3, ?A4; cbn; now rewrite <- ?app_assoc.
Qed.
Lemma accepted_map l : accepted (map (fun c => Accept (Some c)) l) = l.
Proof. induction l; simpl; congruence. Qed.
Lemma interrupt_lost tls l1 st c l2 : loop_run tls loop_start l1 = Some st -> stopped st = false ->
  exists st', loop_run tls loop_start (l1 ++ Poll :: Interrupt :: map (fun c => Accept (Some c)) (c :: l2)) = Some st'
  /\ stopped st' = false
  /\ match tls with
     | None => served st' = served st ++ map (fun c => (c, true)) (c :: l2)
     | Some _ => shaking st' = shaking st ++ c :: l2
     end
  /\ forall l3 st'', loop_run tls st' l3 = Some st'' -> ~ In Interrupt l3 -> stopped st'' = false.
Proof.
  intros H Hs. rewrite loop_run_app, H. cbn [loop_run loop_step]. rewrite Hs.
  match goal with |- context [loop_run _ ?s (map _ _)] => destruct (accepts tls (c :: l2) s) as (st' & A1 & A2 & A3 & A4) end; [easy|].
  cbn in A3, A4. exists st'. splits; auto.
  - destruct tls; [exact A4|exact A3].
  - assert (Hd : delivered st' = false).
    { cbn [map loop_run loop_step] in A1. cbn in A1. clear - A1 .
      assert (G : forall l st, delivered st = false -> loop_run tls st (map (fun c => Accept (Some c)) l) = Some st' -> delivered st' = false).
      { clear. induction l as [|c l IH]; intros st Hd H; [now injection H as <-|]. cbn [map loop_run] in H.
        destruct (loop_step tls st (Accept (Some c))) as [st1|] eqn:E; [|discriminate]. apply (IH st1); auto.
        cbn in E. destruct (stopped st); [discriminate|]. destruct tls; now injection E as <-. }
      destruct tls; apply G in A1; auto. }
    intros l3. revert A2 Hd. clear. revert st'. induction l3 as [|ev l3 IH]; intros st' A2 Hd st'' H Hn; [now injection H as <-|].
    cbn [loop_run] in H. destruct (loop_step tls st' ev) as [st1|] eqn:E; [|discriminate].
    assert (K : stopped st1 = false /\ delivered st1 = false).
    { unfold loop_step in E. rewrite A2, Hd in E. destruct ev as [| |[d|]| |d h]; cbn in E; try discriminate;
      repeat match goal with E : context [match ?x with _ => _ end] |- _ => destruct x eqn:?; try discriminate end;
      try (injection E as <-; cbn; auto); destruct Hn; now left. }
    destruct K as [K1 K2]. apply (IH st1 K1 K2 st'' H). intros A. apply Hn. now right.
Qed.

(** C82 *)
Lemma autofix_services_from w tcp http l : forall slab l' slab' key s', autofix_services w tcp http l slab = Some (l', slab') ->
  In (key, s') l' -> exists s idx, In (key, s) l /\ service_autofix w tcp http (trim_str key) idx s = Some s'.
Proof.
  induction l as [|[k s] l IH]; intros slab l' slab' key s' H Hin; cbn [autofix_services] in H; [injection H as <- <-; easy|].
  destruct (trim_str k) eqn:Ek; [discriminate|]. rewrite <- Ek in H.
  destruct (service_autofix w tcp http (trim_str k) (length slab) s) as [s1|] eqn:E1; [|discriminate].
  destruct (autofix_services w tcp http l (slab ++ [[]])) as [[l1 slab1]|] eqn:E2; [|discriminate]. injection H as <- <-.
  destruct Hin as [Hin|Hin]; [injection Hin as <- <-|].
  - exists s, (length slab). split; [now left|easy].
  - destruct (IH _ _ _ _ _ E2 Hin) as (s0 & idx & A & B). exists s0, idx. split; [now right|easy].
Qed.
Lemma root_tls_ignored w c c' key s' x : config_autofix w c = Some c' -> In (key, s') (c_services c') ->
  exists s, In (key, s) (e_order w (c_services c))
  /\ (tls_cert (t_tls (s_tcp s)) = [] -> tls_key (t_tls (s_tcp s)) = [] ->
      forall tls, run x s' = Ret (Done tls) -> tls = None).
Proof.
  unfold config_autofix. destruct (autofix_services _ _ _ _ _) as [[services slab]|] eqn:E; [|discriminate].
  intros [= <-] Hin. cbn [c_services] in Hin. destruct (autofix_services_from _ _ _ _ _ _ _ _ _ E Hin) as (s & idx & H1 & H2).
  exists s. split; [easy|]. intros Hc Hk tls Hr. apply run_mode in Hr.
  unfold service_autofix in H2. destruct (kind_ok w (s_kind s)); [|discriminate]. injection H2 as <-. cbn [s_tcp] in Hr.
  assert (Hn : tls_load x (t_tls (tcp_autofix (s_tcp s) (Some (tcp_autofix (c_tcp c) None)))) = Done None).
  { apply load_none. unfold tcp_autofix, tls_autofix. cbn. auto. }
  congruence.
Qed.
Lemma load_files x t scfg : tls_load x t = Done (Some scfg) ->
  exists pem certs pem' key, x_open x (tls_cert t) = Some pem /\ x_certs x pem = map Some certs
  /\ x_open x (tls_key t) = Some pem' /\ x_key x pem' = Some (Some key) /\ x_server x certs key = Some scfg.
Proof.
  intros H. assert (E : match x_open x (tls_cert t) with
      | None => Fail
      | Some pem =>
          match all_certs (x_certs x pem) with
          | None => Fail
          | Some certs =>
              match x_open x (tls_key t) with
              | None => Fail
              | Some pem' =>
                  match x_key x pem' with
                  | Some (Some key) =>
                      match x_server x certs key with
                      | Some scfg => Done (Some scfg)
                      | None => Fail
                      end
                  | _ => Fail
                  end
              end
          end
      end = Done (Some scfg)).
  { unfold tls_load in H. destruct (tls_cert t); [destruct (tls_key t); [discriminate|exact H]|exact H]. }
  clear H. destruct (x_open x (tls_cert t)) as [pem|]; [|discriminate].
  destruct (all_certs (x_certs x pem)) as [certs|] eqn:Ec; [|discriminate].
  destruct (x_open x (tls_key t)) as [pem'|]; [|discriminate].
  destruct (x_key x pem') as [[key|]|] eqn:Ek; try discriminate.
  destruct (x_server x certs key) as [c|] eqn:Es; [|discriminate]. injection E as <-.
  exists pem, certs, pem', key. splits; auto.
  clear - Ec. revert certs Ec. induction (x_certs x pem) as [|[c|] l IH]; intros certs E; cbn [all_certs] in E; try discriminate.
  - now injection E as <-.
  - destruct (all_certs l) as [cs|]; [|discriminate]. injection E as <-. cbn. f_equal. now apply IH.
Qed.

(** connections in their handshake, and an open loop *)
Lemma still_shaking b c l : forall st st', loop_run (Some b) st l = Some st' -> (forall h, ~ In (Shake c h) l) ->
  In c (accepted l) \/ In c (shaking st) -> In c (shaking st').
Proof.
  induction l as [|ev l IH]; intros st st'; cbn [loop_run].
  - intros [= <-] _ [[]|H]. easy.
  - destruct (loop_step (Some b) st ev) as [st1|] eqn:E; [|discriminate]. intros H N Hc.
    apply (IH st1 st' H). { intros h X. apply (N h). now right. }
    destruct ev as [| |[d|]| |d h]; cbn [loop_step accepted] in *.
    + destruct (stopped st); [discriminate|]. injection E as <-. exact Hc.
    + injection E as <-. exact Hc.
    + destruct (stopped st); [discriminate|]. injection E as <-. cbn [next_round shaking].
      destruct Hc as [[->|Hc]|Hc]; [right; apply in_or_app; right; now left|now left|right; apply in_or_app; now left].
    + destruct (stopped st); [discriminate|]. injection E as <-. exact Hc.
    + destruct (negb (stopped st) && M_Main.delivered st); [|discriminate]. injection E as <-. exact Hc.
    + destruct (existsb (Nat.eqb d) (shaking st)); [|discriminate]. assert (Hd : c <> d).
      { intros <-. apply (N h). now left. }
      destruct Hc as [Hc|Hc]; [now left|right].
      destruct h; injection E as <-; cbn [shaking]; now apply in_remove.
Qed.
Lemma handshake_open b l st c : loop_run (Some b) loop_start l = Some st ->
  In c (accepted l) -> (forall h, ~ In (Shake c h) l) ->
  exists st', loop_run (Some b) loop_start (l ++ [Shake c Established]) = Some st'
  /\ served st' = served st ++ [(c, false)].
Proof.
  intros H Ha N. rewrite loop_run_app, H. cbn [loop_run loop_step].
  assert (E : existsb (Nat.eqb c) (shaking st) = true).
  { apply existsb_exists. exists c. split; [|apply Nat.eqb_refl]. eapply still_shaking; eauto. }
  rewrite E. eexists. split; reflexivity.
Qed.
Lemma open_loop tls l : forall st st', loop_run tls st l = Some st' -> ~ In Stop l -> stopped st = false -> stopped st' = false.
Proof.
  induction l as [|ev l IH]; intros st st'; cbn [loop_run]; [now intros [= <-]|].
  destruct (loop_step tls st ev) as [st1|] eqn:E; [|discriminate]. intros H N Hs.
  apply (IH st1 st' H). { intros X. apply N. now right. }
  destruct ev as [| |[d|]| |d h]; cbn [loop_step] in E.
  - rewrite Hs in E. now injection E as <-.
  - now injection E as <-.
  - rewrite Hs in E. destruct tls; now injection E as <-.
  - rewrite Hs in E. now injection E as <-.
  - exfalso. apply N. now left.
  - destruct (existsb (Nat.eqb d) (shaking st)); [|discriminate]. destruct h; now injection E as <-.
Qed.
Lemma goes_on tls l st x : loop_run tls loop_start l = Some st -> ~ In Stop l ->
  exists st', loop_run tls loop_start (l ++ [Accept x]) = Some st'.
Proof.
  intros H N. rewrite loop_run_app, H. cbn [loop_run loop_step]. rewrite (open_loop tls l _ _ H N eq_refl).
  destruct x, tls; now eexists.
Qed.
