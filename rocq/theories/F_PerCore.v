(** Facts about the per-core mode. *)
From Verif Require Export F_Base S_PerCore.

Lemma moves_app a : forall p b, moves_run p (a ++ b) = match moves_run p a with Some p' => moves_run p' b | None => None end.
Proof. induction a as [|m a IH]; intros p b; simpl; auto. destruct (move_step p m); auto. Qed.
Lemma len_update {A} (f : A -> A) : forall n l, length (update_nth n f l) = length l.
Proof. induction n as [|n IH]; intros [|x l]; simpl; auto. Qed.
Lemma nth_same {A} (f : A -> A) : forall n l, nth_error (update_nth n f l) n = option_map f (nth_error l n).
Proof. induction n as [|n IH]; intros [|x l]; simpl; auto. Qed.
Lemma nth_other {A} (f : A -> A) : forall n m l, n <> m -> nth_error (update_nth n f l) m = nth_error l m.
Proof. induction n as [|n IH]; intros [|m] [|x l] H; simpl; auto; congruence. Qed.

(** the late thread *)
Lemma spawns : forall k ts, moves_run (Process ts (Spawning k)) (repeat (Spawn true) k) = Some (Process (ts ++ repeat Starting k) (Spawning 0)).
Proof.
  induction k as [|k IH]; intros ts; cbn [repeat moves_run move_step main]; [now rewrite app_nil_r|].
  rewrite IH. cbn [threads]. now rewrite <- app_assoc.
Qed.
Lemma no_holding k : existsb is_holding (repeat Starting k) = false.
Proof. induction k; auto. Qed.
Lemma late k : exists l p, moves_run (per_core (2 + k)) l = Some p /\ main p = Returned true
  /\ threads p = Ended :: repeat Starting (1 + k).
Proof.
  exists (repeat (Spawn true) (2 + k) ++ [Begin 0; Look; End 0; Acquire]).
  exists (Process (Ended :: repeat Starting (1 + k)) (Returned true)). splits; auto.
  unfold per_core. rewrite moves_app, spawns. cbn. now rewrite no_holding.
Qed.

(** the hang *)
Lemma ended_no_holding ts : Forall (fun t => t = Ended) ts -> existsb is_holding ts = false.
Proof. induction 1 as [|t ts Ht _ IH]; auto. cbn. rewrite IH. now subst t. Qed.
Lemma hang l : forall p p', all_ended p -> (main p = Looking \/ main p = Spawning 0) -> moves_run p l = Some p' ->
  all_ended p' /\ (main p' = Looking \/ main p' = Spawning 0).
Proof.
  induction l as [|m l IH]; intros p p' Ha Hm H; [injection H as <-; auto|].
  cbn [moves_run] in H. destruct (move_step p m) as [p1|] eqn:E; [|discriminate].
  assert (N : forall i t, nth_error (threads p) i = Some t -> t = Ended).
  { intros i t Hi. unfold all_ended in Ha. rewrite Forall_forall in Ha. apply Ha. eapply nth_error_In; eauto. }
  assert (G : p1 = Process (threads p) Looking).
  { unfold move_step in E. destruct m as [ok|i|i| |].
    - destruct Hm as [Hm|Hm]; rewrite Hm in E; discriminate.
    - destruct (nth_error (threads p) i) as [t|] eqn:Et; [|discriminate]. rewrite (N i t Et) in E. discriminate.
    - destruct (nth_error (threads p) i) as [t|] eqn:Et; [|discriminate]. rewrite (N i t Et) in E. discriminate.
    - rewrite (ended_no_holding _ Ha) in E. destruct Hm as [Hm|Hm]; rewrite Hm in E; congruence.
    - destruct Hm as [Hm|Hm]; rewrite Hm in E; discriminate. }
  subst p1. apply (IH _ p') in H; auto.
Qed.
Lemma begins_ends : forall k ts ph, 
  exists l, moves_run (Process (ts ++ repeat Starting k) ph) l = Some (Process (ts ++ repeat Ended k) ph).
Proof.
  induction k as [|k IH]; intros ts ph; [exists []; reflexivity|].
  destruct (IH (ts ++ [Ended]) ph) as (l & Hl). rewrite <- !app_assoc in Hl. cbn [app] in Hl.
  exists (Begin (length ts) :: End (length ts) :: l). cbn [moves_run move_step threads main repeat].
  assert (E1 : forall x r, nth_error (ts ++ x :: r) (length ts) = Some x) by (intros x r; rewrite nth_error_app2, Nat.sub_diag by lia; reflexivity).
  rewrite E1. cbn [moves_run move_step threads main]. rewrite update_nth_app, E1. cbn [moves_run threads main]. rewrite update_nth_app. exact Hl.
Qed.
Lemma hangs k : exists l p, moves_run (per_core k) l = Some p /\ all_ended p /\ length (threads p) = k
  /\ forall l' p', moves_run p l' = Some p' -> all_ended p' /\ forall ok, main p' <> Returned ok.
Proof.
  destruct (begins_ends k [] (Spawning 0)) as (l & Hl). cbn [app] in Hl.
  exists (repeat (Spawn true) k ++ l), (Process (repeat Ended k) (Spawning 0)).
  assert (Ha : all_ended (Process (repeat Ended k) (Spawning 0))).
  { unfold all_ended. cbn. apply Forall_forall. intros t Ht. now apply repeat_spec in Ht. }
  splits; auto.
  - unfold per_core. now rewrite moves_app, spawns.
  - cbn. apply repeat_length.
  - intros l' p' H. apply hang in H as (A & B); auto. split; auto. intros ok E. destruct B; congruence.
Qed.

(** what holds *)
Definition ok_inv (k : nat) (p : process) : Prop :=
  match main p with
  | Spawning j => length (threads p) + j = k
  | Looking => length (threads p) = k
  | Blocking => length (threads p) = k /\ exists i, nth_error (threads p) i = Some Holding \/ nth_error (threads p) i = Some Ended
  | Returned true => length (threads p) = k /\ exists i, nth_error (threads p) i = Some Ended
  | Returned false => True
  end.
Lemma step_ok k p m p' : ok_inv k p -> move_step p m = Some p' -> ok_inv k p'.
Proof.
  intros Hi E. unfold move_step in E. destruct m as [ok|i|i| |].
  - unfold ok_inv in *. destruct (main p) as [[|j]| | |]; try discriminate. destruct ok; injection E as <-; cbn; auto.
    rewrite app_length. simpl. lia.
  - destruct (nth_error (threads p) i) as [[| |]|] eqn:Et; try discriminate. injection E as <-.
    unfold ok_inv in *. cbn [main threads]. rewrite len_update. destruct (main p) as [j| | |[|]]; auto.
    + destruct Hi as (A & x & B). split; auto. exists x. destruct (Nat.eq_dec i x) as [->|Hx]; [rewrite Et in B; destruct B; discriminate|].
      now rewrite nth_other.
    + destruct Hi as (A & x & B). split; auto. exists x. destruct (Nat.eq_dec i x) as [->|Hx]; [congruence|].
      now rewrite nth_other.
  - destruct (nth_error (threads p) i) as [[| |]|] eqn:Et; try discriminate. injection E as <-.
    unfold ok_inv in *. cbn [main threads]. rewrite len_update. destruct (main p) as [j| | |[|]]; auto.
    + destruct Hi as (A & x & B). split; auto. exists x. destruct (Nat.eq_dec i x) as [->|Hx]; [right; now rewrite nth_same, Et|].
      now rewrite nth_other.
    + destruct Hi as (A & x & B). split; auto. exists x. destruct (Nat.eq_dec i x) as [->|Hx]; [congruence|].
      now rewrite nth_other.
  - assert (Hl : length (threads p) = k /\ p' = Process (threads p) (if existsb is_holding (threads p) then Blocking else Looking)).
    { unfold ok_inv in Hi. destruct (main p) as [[|j]| | |]; try discriminate; injection E as <-; split; auto. lia. }
    destruct Hl as [Hl ->]. unfold ok_inv. cbn [main threads]. destruct (existsb is_holding (threads p)) eqn:Eh; auto.
    split; auto. apply existsb_exists in Eh as (t & Hin & Ht). apply In_nth_error in Hin as (i & Hin). exists i. left. now destruct t.
  - unfold ok_inv in *. destruct (main p) as [j| | |]; try discriminate. destruct (existsb is_holding (threads p)) eqn:Eh; [discriminate|].
    injection E as <-. cbn. destruct Hi as (A & i & [B|B]); split; auto; [|eauto]. exfalso.
    assert (existsb is_holding (threads p) = true) by (apply existsb_exists; exists Holding; split; [eapply nth_error_In; eauto|easy]). congruence.
Qed.
Lemma run_ok k l : forall p p', ok_inv k p -> moves_run p l = Some p' -> ok_inv k p'.
Proof.
  induction l as [|m l IH]; intros p p' Hi H; [now injection H as <-|].
  cbn [moves_run] in H. destruct (move_step p m) as [p1|] eqn:E; [|discriminate]. apply (IH p1); auto. eapply step_ok; eauto.
Qed.
Lemma return_ended k l p : moves_run (per_core k) l = Some p -> main p = Returned true ->
  length (threads p) = k /\ exists i, nth_error (threads p) i = Some Ended.
Proof.
  intros H Hm. apply (run_ok k) in H; [|reflexivity]. unfold ok_inv in H. now rewrite Hm in H.
Qed.
(** at the moment of returning nobody holds the lock *)
Lemma return_none_running k l p : moves_run (per_core k) (l ++ [Acquire]) = Some p -> Forall (fun t => t <> Holding) (threads p).
Proof.
  rewrite moves_app. destruct (moves_run (per_core k) l) as [p1|]; [|discriminate]. cbn [moves_run move_step].
  destruct (main p1); try discriminate. destruct (existsb is_holding (threads p1)) eqn:E; [discriminate|]. intros [= <-]. cbn.
  apply Forall_forall. intros t Ht ->. assert (existsb is_holding (threads p1) = true) by (apply existsb_exists; exists Holding; auto). congruence.
Qed.
(** threads that have begun never go back *)
Lemma begun_stays l : forall p p' i, moves_run p l = Some p' ->
  (exists t, nth_error (threads p) i = Some t /\ t <> Starting) -> exists t, nth_error (threads p') i = Some t /\ t <> Starting.
Proof.
  induction l as [|m l IH]; intros p p' i H Hi; [now injection H as <-|].
  cbn [moves_run] in H. destruct (move_step p m) as [p1|] eqn:E; [|discriminate]. apply (IH p1 p' i H).
  destruct Hi as (t & Hi & Ht). unfold move_step in E. destruct m as [ok|j|j| |].
  - destruct (main p) as [[|k]| | |]; try discriminate. destruct ok; injection E as <-; cbn; eauto.
    exists t. split; auto. rewrite nth_error_app1; auto. apply nth_error_Some. congruence.
  - destruct (nth_error (threads p) j) as [[| |]|] eqn:Ej; try discriminate. injection E as <-. cbn.
    destruct (Nat.eq_dec j i) as [->|Hn]; [congruence|]. rewrite nth_other by auto. eauto.
  - destruct (nth_error (threads p) j) as [[| |]|] eqn:Ej; try discriminate. injection E as <-. cbn.
    destruct (Nat.eq_dec j i) as [->|Hn]; [rewrite nth_same, Hi; cbn; eexists; split; [reflexivity|discriminate]|]. rewrite nth_other by auto. eauto.
  - destruct (main p) as [[|k]| | |]; try discriminate; injection E as <-; cbn; eauto.
  - destruct (main p) as [[|k]| | |]; try discriminate. destruct (existsb is_holding (threads p)); [discriminate|]. injection E as <-. cbn. eauto.
Qed.
Lemma begun l : forall p p' i, moves_run p l = Some p' -> In (Begin i) l -> exists t, nth_error (threads p') i = Some t /\ t <> Starting.
Proof.
  intros p p' i H Hin. apply in_split in Hin as (a & b & ->). rewrite moves_app in H.
  destruct (moves_run p a) as [p1|]; [|discriminate]. cbn [moves_run] in H.
  destruct (move_step p1 (Begin i)) as [p2|] eqn:E; [|discriminate]. apply (begun_stays b p2 p' i H).
  cbn in E. destruct (nth_error (threads p1) i) as [[| |]|] eqn:Ei; try discriminate. injection E as <-. cbn.
  rewrite nth_same, Ei. cbn. eexists. split; [reflexivity|discriminate].
Qed.
Lemma never_looked l : forall p p', moves_run p l = Some p' -> ~ In Look l -> main p <> Blocking -> main p <> Returned true ->
  main p' <> Blocking /\ main p' <> Returned true.
Proof.
  induction l as [|m l IH]; intros p p' H Hn H1 H2; [injection H as <-; auto|].
  cbn [moves_run] in H. destruct (move_step p m) as [p1|] eqn:E; [|discriminate]. apply (IH p1 p' H); try (intros A; apply Hn; now right);
  unfold move_step in E; destruct m as [ok|j|j| |]; try (destruct Hn; now left);
  repeat match goal with E : context [match ?x with _ => _ end] |- _ => destruct x eqn:?; try discriminate end; injection E as <-; cbn; congruence.
Qed.
Lemma prompt_waits k l p : moves_run (per_core k) (l ++ [Acquire]) = Some p -> prompt l k -> all_ended p.
Proof.
  intros H Hp. pose proof (return_none_running k l p H) as Hr.
  assert (Hm : main p = Returned true /\ exists l1 l2, l = l1 ++ Look :: l2).
  { pose proof H as H'. rewrite moves_app in H'. destruct (moves_run (per_core k) l) as [p1|] eqn:E1; [|discriminate].
    cbn [moves_run move_step] in H'. destruct (main p1) eqn:Em; try discriminate.
    destruct (existsb is_holding (threads p1)); [discriminate|]. injection H' as <-. split; auto.
    apply in_split. destruct (in_dec (fun a b : move => ltac:(decide equality; try decide equality; apply Bool.bool_dec)) Look l) as [A|A]; auto.
    exfalso. apply never_looked in E1; auto; try discriminate. destruct E1. congruence. }
  destruct Hm as (Hm & l1 & l2 & El). destruct (return_ended k _ p H Hm) as (Hlen & _).
  unfold all_ended. apply Forall_forall. intros t Ht. rewrite Forall_forall in Hr. specialize (Hr t Ht).
  destruct t; try easy. exfalso. apply In_nth_error in Ht as (i & Hi).
  assert (Hlt : i < k) by (rewrite <- Hlen; apply nth_error_Some; congruence).
  specialize (Hp l1 l2 El i Hlt).
  destruct (begun _ _ _ i H) as (t & Et & Hs); [rewrite El, !in_app_iff; auto|]. rewrite Hi in Et. congruence.
Qed.
