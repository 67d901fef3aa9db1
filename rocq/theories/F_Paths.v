(** Facts about paths. *)
From Verif Require Export F_Units S_Paths.

Lemma chars_eqb_neq a b : chars_eqb a b = false <-> a <> b.
Proof. rewrite <- chars_eqb_eq. destruct (chars_eqb a b); split; congruence. Qed.

Lemma split_at_nonempty c s : split_at c s <> [].
Proof. destruct s as [|x s]; cbn [split_at]; [easy|]. destruct (x =? c)%N; [easy|]. destruct (split_at c s); easy. Qed.
Lemma split_at_none c s : ~ In c s -> split_at c s = [s].
Proof.
  induction s as [|x s IH]; cbn [split_at]; intros H; [easy|].
  destruct (x =? c)%N eqn:E; [exfalso; apply H; left; lia|].
  rewrite IH; [easy|]. intros Hi; apply H; now right.
Qed.
Lemma split_at_app c a b : split_at c (a ++ c :: b) = split_at c a ++ split_at c b.
Proof.
  induction a as [|x a IH]; cbn [split_at app].
  - now rewrite N.eqb_refl.
  - destruct (x =? c)%N; [cbn [app]; now rewrite IH|]. rewrite IH.
    pose proof (split_at_nonempty c a). destruct (split_at c a); [easy|]. reflexivity.
Qed.
(** joining again *)
Fixpoint join (c : N) (ps : list str) : str :=
  match ps with
  | [] => []
  | [p] => p
  | p :: ps' => p ++ c :: join c ps'
  end.
Lemma join_split c s : join c (split_at c s) = s.
Proof.
  induction s as [|x s IH]; cbn [split_at]; [easy|].
  destruct (x =? c)%N eqn:E.
  - pose proof (split_at_nonempty c s). destruct (split_at c s) eqn:Es; [easy|].
    cbn [join app]. rewrite <- Es in IH. rewrite Es in IH. cbn [join] in IH |- *. rewrite IH. f_equal. lia.
  - pose proof (split_at_nonempty c s). destruct (split_at c s) as [|p ps] eqn:Es; [easy|].
    destruct ps as [|q ps]; cbn [join app] in *; now rewrite IH.
Qed.
Lemma split_at_pieces c s p : In p (split_at c s) -> ~ In c p.
Proof.
  revert p; induction s as [|x s IH]; cbn [split_at]; intros p.
  - intros [<-|[]]. easy.
  - destruct (x =? c)%N eqn:E.
    + intros [<-|H]; [easy|]. now apply IH.
    + destruct (split_at c s) as [|q qs] eqn:Es.
      * intros [<-|[]] [->|[]]. lia.
      * intros [<-|H]; [|apply IH; now right].
        intros [->|H]; [lia|]. apply (IH q); [now left|easy].
Qed.
Lemma join_app c a b : a <> [] -> b <> [] -> join c (a ++ b) = join c a ++ c :: join c b.
Proof.
  intros Ha Hb. induction a as [|x a IH]; [easy|]. destruct a as [|y a].
  - cbn [app join]. destruct b; [easy|]. reflexivity.
  - cbn [app] in IH. change (join c ((x :: y :: a) ++ b)) with (x ++ c :: join c ((y :: a) ++ b)).
    cbn [app]. rewrite IH by easy. change (join c (x :: y :: a)) with (x ++ c :: join c (y :: a)).
    now rewrite <- app_assoc.
Qed.

Definition skipped (c : str) : Prop := c = [] \/ c = chars ".".
Lemma skipped_filter c : negb (chars_eqb c []) && negb (chars_eqb c (chars ".")) = false <-> skipped c.
Proof.
  unfold skipped. rewrite andb_false_iff, !negb_false_iff, !chars_eqb_eq. tauto.
Qed.
Lemma components_skipped l : Forall skipped l ->
  filter (fun c : str => negb (chars_eqb c []) && negb (chars_eqb c (chars "."))) l = [].
Proof.
  induction 1 as [|x l Hx _ IH]; cbn [filter]; [easy|].
  apply skipped_filter in Hx. now rewrite Hx.
Qed.

Lemma trailing_pieces t : trailing t -> t = [] \/ exists l, split_at slash t = [] :: l /\ Forall skipped l.
Proof.
  induction 1 as [|s H IH|s H IH]; [now left| |]; right.
  - exists (split_at slash s). change (slash :: s) with ([] ++ slash :: s).
    rewrite split_at_app. split; [reflexivity|].
    destruct IH as [->|[l [E F]]]; [repeat constructor|].
    rewrite E. constructor; [now left|easy].
  - exists (split_at slash (dot :: s)).
    split; [change (slash :: dot :: s) with ([] ++ slash :: dot :: s); now rewrite split_at_app|].
    cbn [split_at]. change (dot =? slash)%N with false. cbv iota.
    destruct IH as [->|[l [E F]]].
    + constructor; [now right|constructor].
    + rewrite E. constructor; [now right|easy].
Qed.
Lemma pieces_trailing l : Forall skipped l -> trailing (concat (map (cons slash) l)).
Proof.
  induction 1 as [|x l [->| ->] _ IH]; cbn [map concat app]; [constructor| |];
  [now apply tr_slash|now apply tr_dot].
Qed.
Lemma join_tail c p l : join c (p :: l) = p ++ concat (map (cons c) l).
Proof.
  revert p; induction l as [|q l IH]; intros p; [cbn; now rewrite app_nil_r|].
  change (join c (p :: q :: l)) with (p ++ c :: join c (q :: l)). rewrite IH. reflexivity.
Qed.

Lemma last_kept {A} (f : A -> bool) l c rest : rev (filter f l) = c :: rest ->
  exists a b, l = a ++ c :: b /\ f c = true /\ Forall (fun x => f x = false) b.
Proof.
  induction l as [|x l IH] using rev_ind; [discriminate|].
  rewrite filter_app, rev_app_distr. cbn [filter]. destruct (f x) eqn:E.
  - cbn. intros [= -> _]. exists l, []. auto.
  - cbn. intros H. destruct (IH H) as (a & b & -> & Hc & Hb).
    exists a, (b ++ [x]). splits; [now rewrite <- app_assoc|easy|].
    apply Forall_app. auto.
Qed.

Lemma file_name_sound p c : file_name p = Some c -> last_component p c.
Proof.
  unfold file_name. destruct (rev (components p)) as [|c' rest] eqn:E; [discriminate|].
  destruct (chars_eqb c' (chars "..")) eqn:Ed; [discriminate|]. intros [= ->].
  apply last_kept in E. destruct E as (a & b & Ep & Hc & Hb).
  apply andb_true_iff in Hc as [H1 H2]. apply negb_true_iff in H1, H2.
  apply chars_eqb_neq in H1, H2, Ed.
  split.
  - split; [|auto]. apply (split_at_pieces slash p). rewrite Ep. apply in_elt.
  - exists (join slash a ++ match a with [] => [] | _ => [slash] end), (concat (map (cons slash) b)).
    splits.
    + rewrite <- (join_split slash p), Ep. destruct a as [|q a].
      * cbn [app]. now rewrite join_tail.
      * rewrite join_app by easy. rewrite (join_tail _ c b), <- !app_assoc. reflexivity.
    + destruct a; [now left|right; eexists; reflexivity].
    + apply pieces_trailing. eapply Forall_impl; [|exact Hb]. intros q. apply skipped_filter.
Qed.
Lemma file_name_complete p c : last_component p c -> file_name p = Some c.
Proof.
  intros ((Hs & H1 & H2 & H3) & d & t & -> & Hd & Ht).
  assert (E : exists a b, split_at slash (d ++ c ++ t) = a ++ c :: b /\ Forall skipped b).
  { assert (E : exists b, split_at slash (c ++ t) = c :: b /\ Forall skipped b).
    { destruct Ht as [|s Ht|s Ht].
      - rewrite app_nil_r, split_at_none by easy. exists []. auto.
      - assert (Ht' : trailing (slash :: s)) by now constructor.
        rewrite split_at_app, split_at_none by easy.
        apply trailing_pieces in Ht' as [E|[l [E F]]]; [discriminate|].
        change (slash :: s) with ([] ++ slash :: s) in E. rewrite split_at_app in E.
        cbn [split_at app] in E. injection E as E. rewrite E. exists l. auto.
      - assert (Ht' : trailing (slash :: dot :: s)) by now constructor.
        rewrite split_at_app, split_at_none by easy.
        apply trailing_pieces in Ht' as [E|[l [E F]]]; [discriminate|].
        change (slash :: dot :: s) with ([] ++ slash :: dot :: s) in E. rewrite split_at_app in E.
        cbn [split_at] in E. cbn [app] in E. injection E as E. cbn [split_at]. rewrite E. exists l. auto. }
    destruct E as (b & E & F). destruct Hd as [->|[d' ->]].
    - exists [], b. auto.
    - exists (split_at slash d'), b. rewrite <- app_assoc. cbn [app]. rewrite split_at_app, E. auto. }
  destruct E as (a & b & E & F). unfold file_name, components. rewrite E.
  rewrite filter_app. cbn [filter].
  assert (Ek : negb (chars_eqb c []) && negb (chars_eqb c (chars ".")) = true).
  { apply andb_true_iff; split; apply negb_true_iff, chars_eqb_neq; easy. }
  rewrite Ek, (components_skipped b) by easy. rewrite rev_app_distr. cbn [rev app].
  apply chars_eqb_neq in H3. now rewrite H3.
Qed.

Lemma rsplit_dot_some s b e : rsplit_dot s = Some (b, e) <-> s = b ++ [dot] ++ e /\ ~ In dot e.
Proof.
  revert b e; induction s as [|x s IH]; intros b e; cbn [rsplit_dot].
  - split; [discriminate|]. intros [H _]. destruct b; discriminate.
  - destruct (rsplit_dot s) as [[b' e']|] eqn:E.
    + split.
      * intros [= <- <-]. destruct (proj1 (IH b' e') eq_refl) as [-> H]. auto.
      * intros [H Hn]. destruct b as [|y b]; cbn [app] in H; injection H as -> H.
        -- subst. destruct (proj1 (IH b' e') eq_refl) as [E' _]. exfalso; apply Hn.
           rewrite E'. apply in_elt.
        -- assert (Eb : Some (b', e') = Some (b, e)) by (apply IH; auto). injection Eb as -> ->. reflexivity.
    + destruct (x =? dot)%N eqn:Ex; split.
      * intros [= <- <-]. split; [cbn; f_equal; lia|]. intros Hi.
        assert (Hn : forall b e, ~ (s = b ++ [dot] ++ e /\ ~ In dot e)) by (intros b e H; apply (IH b e) in H; discriminate).
        clear IH. revert Hi Hn. clear. intros Hi Hn.
        induction s as [|y s IHs] using rev_ind; [easy|].
        destruct (N.eq_dec y dot) as [->|Hy]; [apply (Hn s []); easy|].
        apply in_app_or in Hi as [Hi|[->|[]]]; [|easy]. apply IHs; [easy|].
        intros b e [-> He]. apply (Hn b (e ++ [y])). rewrite <- !app_assoc. split; [easy|].
        intros Hi'. apply in_app_or in Hi' as [Hi'|[->|[]]]; easy.
      * intros [H Hn]. destruct b as [|y b]; cbn [app] in H; injection H as -> H; [now subst|].
        exfalso. assert (None = Some (b, e)) by (apply (IH b e); auto). discriminate.
      * discriminate.
      * intros [H Hn]. destruct b as [|y b]; cbn [app] in H; injection H as -> H; [lia|].
        assert (None = Some (b, e)) by (apply (IH b e); auto). discriminate.
Qed.
Lemma rsplit_dot_none s : rsplit_dot s = None <-> ~ In dot s.
Proof.
  induction s as [|x s IH]; cbn [rsplit_dot]; [easy|].
  destruct (rsplit_dot s) as [[b e]|] eqn:E.
  - split; [discriminate|]. intros H. exfalso. assert (Hn : ~ In dot s) by (intros Hi; apply H; now right).
    apply IH in Hn. discriminate.
  - destruct (x =? dot)%N eqn:Ex; split; try easy.
    + intros H. exfalso; apply H. left. lia.
    + intros _ [->|Hi]; [lia|]. now apply (proj1 IH).
Qed.

Lemma stem_spec c b : stem c b <->
  match rsplit_dot c with Some ((_ :: _) as b', _) => b = b' | _ => b = c end.
Proof.
  unfold stem. destruct (rsplit_dot c) as [[b' e']|] eqn:E.
  - pose proof E as E'. apply rsplit_dot_some in E' as [Ec He]. destruct b' as [|x b'].
    + split; [intros [(e & H & Hb & Hn)|[H _]]; [|easy]|intros ->; right; split; [easy|]].
      * assert (E2 : rsplit_dot c = Some (b, e)) by (apply rsplit_dot_some; auto). congruence.
      * intros b' e H. destruct b' as [|y b']; [easy|]. subst c. cbn [app] in H.
        injection H as Hd H. exfalso; apply He. rewrite H. apply in_elt.
    + split; [intros [(e & H & Hb & Hn)|[H H']]|intros ->; left; exists e'; splits; auto; discriminate].
      * assert (E2 : rsplit_dot c = Some (b, e)) by (apply rsplit_dot_some; auto). congruence.
      * specialize (H' _ _ Ec). discriminate.
  - apply rsplit_dot_none in E. split; [intros [(e & H & Hb & Hn)|[H H']]; [|easy]|intros ->; right; split; [easy|]].
    + exfalso; apply E. rewrite H. apply in_elt.
    + intros b' e H. exfalso; apply E. rewrite H. apply in_elt.
Qed.

Lemma namewithoutext_spec p b : namewithoutext p = Some b <-> exists c, last_component p c /\ stem c b.
Proof.
  assert (Hf : forall c, file_name p = Some c <-> last_component p c)
    by (intros c; split; [apply file_name_sound|apply file_name_complete]).
  unfold namewithoutext, extension. destruct (file_name p) as [c|] eqn:E.
  - assert (Hb : match match rsplit_dot c with Some (_ :: _, e) => Some e | _ => None end with
                 | Some ext => Some (firstn (length c - length ext - 1) c) | None => Some c end = Some b
                 <-> stem c b).
    { rewrite stem_spec. destruct (rsplit_dot c) as [[[|x b'] e]|] eqn:Er.
      - split; congruence.
      - apply rsplit_dot_some in Er as [-> _]. cbn [app length].
        rewrite app_length. cbn [length]. replace (S (length b' + S (length e)) - length e - 1) with (S (length b')) by lia.
        cbn [firstn]. rewrite firstn_app, Nat.sub_diag, firstn_all. cbn [firstn]. rewrite app_nil_r.
        split; congruence.
      - split; congruence. }
    rewrite Hb. split.
    + intros H. exists c. split; [now apply Hf|easy].
    + intros (c' & Hc & Hs). apply Hf in Hc. congruence.
  - split; [discriminate|]. intros (c & Hc & _). apply Hf in Hc. discriminate.
Qed.

Lemma log_name_of d c : directory d -> proper c ->
  log_name (d ++ c) = Some (match rsplit_dot c with
                            | Some ((_ :: _) as b, (_ :: _) as e) => (d, b, e)
                            | _ => (d, c, [])
                            end).
Proof.
  intros Hd Hc. unfold log_name, extension.
  assert (E : file_name (d ++ c) = Some c).
  { apply file_name_complete. split; [easy|]. exists d, []. rewrite app_nil_r. splits; [easy|easy|constructor]. }
  rewrite E.
  assert (Ep : firstn (length (d ++ c) - length c) (d ++ c) = d).
  { rewrite app_length. replace (length d + length c - length c) with (length d) by lia.
    rewrite firstn_app, Nat.sub_diag, firstn_all. cbn. apply app_nil_r. }
  rewrite Ep. destruct (rsplit_dot c) as [[[|x b] e]|] eqn:Er; [easy| |easy].
  destruct e as [|y e]; [easy|]. apply rsplit_dot_some in Er as [-> _].
  cbn [app length]. rewrite app_length. cbn [length].
  replace (S (length b + S (S (length e))) - S (length e) - 1) with (S (length b)) by lia.
  cbn [firstn]. rewrite firstn_app, Nat.sub_diag, firstn_all. cbn [firstn]. now rewrite app_nil_r.
Qed.
