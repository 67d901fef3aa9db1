(** Facts about the multi-threaded mode. *)
From Coq Require Import Permutation.
From Verif Require Export F_Base S_Multi.

Lemma acts_app a : forall rt b, acts_run rt (a ++ b) = match acts_run rt a with Some rt' => acts_run rt' b | None => None end.
Proof. induction a as [|x a IH]; intros rt b; simpl; auto. destruct (act_step rt x); auto. Qed.
Lemma update_same {A} (f : A -> A) : forall n l, nth_error (update_nth n f l) n = option_map f (nth_error l n).
Proof. induction n as [|n IH]; intros [|x l]; simpl; auto. Qed.
Lemma update_other {A} (f : A -> A) : forall n m l, n <> m -> nth_error (update_nth n f l) m = nth_error l m.
Proof. induction n as [|n IH]; intros [|m] [|x l] H; simpl; auto; congruence. Qed.
Lemma update_length {A} (f : A -> A) : forall n l, length (update_nth n f l) = length l.
Proof. induction n as [|n IH]; intros [|x l]; simpl; auto. Qed.

(** what the history says about a task *)
Definition told (l : list act) (i : nat) (t : task) : Prop :=
  match t with
  | Running => forall r, ~ In (Return i r) l
  | Ended r | Joined r => In (Return i r) l /\ forall r', In (Return i r') l -> r' = r
  end.
Record known (k : nat) (l : list act) (rt : runtime) : Prop := {
  kn_len : length (tasks rt) = k;
  kn_told : forall i t, nth_error (tasks rt) i = Some t -> told l i t;
  kn_back : back rt = true -> forallb is_joined (tasks rt) = true;
  kn_nodup : NoDup (reports rt);
  kn_rep : forall i, In i (reports rt) <-> exists r, nth_error (tasks rt) i = Some (Joined r) /\ r <> Finished;
  kn_out : forall i r, In (Return i r) l -> i < k
}.
Lemma known_start k : known k [] (multi_threads k).
Proof.
  constructor; cbn; try easy.
  - apply repeat_length.
  - intros i t H. apply nth_error_In, repeat_spec in H. subst t. intros r [].
  - constructor.
  - intros i. split; [easy|]. intros (r & H & _). apply nth_error_In, repeat_spec in H. discriminate.
Qed.
Lemma told_snoc l i t a : told l i t -> (forall r, a <> Return i r) -> told (l ++ [a]) i t.
Proof.
  intros H Ha. destruct t; cbn in *.
  - intros r Hin. apply in_app_iff in Hin as [Hin|[E|[]]]; [now apply (H r)|now apply (Ha r)].
  - destruct H as [H1 H2]. split; [apply in_app_iff; auto|]. intros r' Hin.
    apply in_app_iff in Hin as [Hin|[E|[]]]; [auto|now destruct (Ha r')].
  - destruct H as [H1 H2]. split; [apply in_app_iff; auto|]. intros r' Hin.
    apply in_app_iff in Hin as [Hin|[E|[]]]; [auto|now destruct (Ha r')].
Qed.
Lemma nodup_snoc {A} (l : list A) x : NoDup l -> ~ In x l -> NoDup (l ++ [x]).
Proof.
  intros H Hx. refine (Permutation_NoDup _ (NoDup_cons x Hx H)).
  apply Permutation_cons_append.
Qed.
Lemma known_step k l rt a rt' : known k l rt -> act_step rt a = Some rt' -> known k (l ++ [a]) rt'.
Proof.
  intros K E. pose proof K as [K1 K2 K3 K4 K5 K6]. unfold act_step in E. destruct (back rt) eqn:Eb; [discriminate|].
  destruct a as [i|c|i r|i|].
  - destruct (nth_error (tasks rt) i) as [[| |]|] eqn:Ei; try discriminate. injection E as <-.
    constructor; cbn; auto; try easy.
    + intros j t H. apply told_snoc; [auto|discriminate].
    + intros j r H. apply in_app_iff in H as [H|[E|[]]]; [eauto|discriminate].
  - destruct (nth_error (conns rt) c) as [[i []]|] eqn:Ei; try discriminate. injection E as <-.
    constructor; cbn; auto; try easy.
    + intros j t H. apply told_snoc; [auto|discriminate].
    + intros j r H. apply in_app_iff in H as [H|[E|[]]]; [eauto|discriminate].
  - destruct (nth_error (tasks rt) i) as [[| |]|] eqn:Ei; try discriminate. injection E as <-.
    constructor; cbn; auto; try easy.
    + now rewrite update_length.
    + intros j t H. destruct (Nat.eq_dec i j) as [->|N].
      * rewrite update_same, Ei in H. injection H as <-. pose proof (K2 j _ Ei) as Hr. cbn in *.
        split; [apply in_app_iff; right; now left|]. intros r' Hin.
        apply in_app_iff in Hin as [Hin|[E|[]]]; [now destruct (Hr r')|congruence].
      * rewrite update_other in H by easy. apply told_snoc; [auto|congruence].
    + intros j. rewrite K5. split; intros (r' & H & Hf); exists r'; (split; [|easy]).
      * rewrite update_other; [easy|]. intros <-. congruence.
      * destruct (Nat.eq_dec i j) as [->|N]; [rewrite update_same, Ei in H; discriminate|]. now rewrite update_other in H.
    + intros j r' H. apply in_app_iff in H as [H|[E|[]]]; [eauto|]. injection E as <- <-.
      rewrite <- K1. apply nth_error_Some. congruence.
  - destruct (nth_error (tasks rt) i) as [[|r|]|] eqn:Ei; try discriminate. injection E as <-.
    assert (Hnew : ~ In i (reports rt)). { intros H. apply K5 in H as (r' & H & _). congruence. }
    constructor; cbn; auto; try easy.
    + now rewrite update_length.
    + intros j t H. apply told_snoc; [|discriminate]. destruct (Nat.eq_dec i j) as [->|N].
      * rewrite update_same, Ei in H. injection H as <-. exact (K2 j _ Ei).
      * rewrite update_other in H by easy. auto.
    + destruct r; auto using nodup_snoc.
    + intros j. destruct (Nat.eq_dec i j) as [->|N].
      * rewrite update_same, Ei. cbn. split.
        -- intros H. exists r. split; [easy|]. intros ->. easy.
        -- intros (r' & H & Hf). injection H as <-. destruct r; [easy| |]; apply in_app_iff; right; now left.
      * rewrite update_other by easy. rewrite <- K5. destruct r; [reflexivity| |];
          (rewrite in_app_iff; cbn; intuition congruence).
    + intros j r' H. apply in_app_iff in H as [H|[E|[]]]; [eauto|discriminate].
  - destruct (forallb is_joined (tasks rt)) eqn:Ef; [|discriminate]. injection E as <-.
    constructor; cbn; auto; try easy.
    + intros j t H. apply told_snoc; [auto|discriminate].
    + intros j r' H. apply in_app_iff in H as [H|[E|[]]]; [eauto|discriminate].
Qed.
Lemma known_from k : forall l h rt rt', known k h rt -> acts_run rt l = Some rt' -> known k (h ++ l) rt'.
Proof.
  induction l as [|a l IH]; intros h rt rt' K H; [injection H as <-; now rewrite app_nil_r|].
  cbn [acts_run] in H. destruct (act_step rt a) as [rt1|] eqn:E; [|discriminate].
  replace (h ++ a :: l) with ((h ++ [a]) ++ l) by now rewrite <- app_assoc.
  apply (IH _ rt1); auto. eapply known_step; eauto.
Qed.
Lemma known_run k l rt : acts_run (multi_threads k) l = Some rt -> known k l rt.
Proof. intros H. exact (known_from k l [] _ rt (known_start k) H). Qed.

Lemma joined_all rt : forallb is_joined (tasks rt) = true -> forall i, i < length (tasks rt) ->
  exists r, nth_error (tasks rt) i = Some (Joined r).
Proof.
  intros H i Hi. destruct (nth_error (tasks rt) i) as [t|] eqn:E; [|apply nth_error_None in E; lia].
  rewrite forallb_forall in H. specialize (H t (nth_error_In _ _ E)). destruct t; try discriminate. eauto.
Qed.
Lemma waits_all k l rt : acts_run (multi_threads k) l = Some rt -> back rt = true -> forall i, i < k -> has_ended i l.
Proof.
  intros H Hb i Hi. pose proof (known_run k l rt H) as K.
  destruct (joined_all rt (kn_back _ _ _ K Hb) i) as (r & E); [rewrite (kn_len _ _ _ K); easy|].
  apply (kn_told _ _ _ K) in E as [E _]. now exists r.
Qed.
Lemma back_final rt : back rt = true -> forall l rt', acts_run rt l = Some rt' -> l = [].
Proof. intros Hb [|a l] rt' H; auto. cbn [acts_run] in H. unfold act_step in H. rewrite Hb in H. discriminate. Qed.
Lemma reports_exact k l rt : acts_run (multi_threads k) l = Some rt -> back rt = true ->
  NoDup (reports rt) /\ forall i, In i (reports rt) <-> went_wrong i l.
Proof.
  intros H Hb. pose proof (known_run k l rt H) as K. split; [apply (kn_nodup _ _ _ K)|]. intros i.
  rewrite (kn_rep _ _ _ K). split.
  - intros (r & E & Hr). apply (kn_told _ _ _ K) in E as [E _]. destruct r; [easy|now left|now right].
  - intros Hw. assert (exists r, In (Return i r) l /\ r <> Finished) as (r & Hr & Hf).
    { destruct Hw as [Hw|Hw]; eexists; (split; [exact Hw|discriminate]). }
    destruct (joined_all rt (kn_back _ _ _ K Hb) i) as (r' & E);
      [rewrite (kn_len _ _ _ K); now apply (kn_out _ _ _ K i r)|].
    exists r'. split; [easy|]. apply (kn_told _ _ _ K) in E as [_ E]. now rewrite <- (E r Hr).
Qed.

(** joining what is left *)
Definition settled (rt : runtime) : Prop := Forall (fun t => t <> Running) (tasks rt).
Lemma joins_left : forall todo rt, settled rt -> back rt = false ->
  (forall i t, nth_error (tasks rt) i = Some t -> (forall r, t <> Joined r) -> In i todo) ->
  exists l rt', Forall (fun a => exists i, a = Join i) l /\ acts_run rt l = Some rt' /\ back rt' = false
    /\ conns rt' = conns rt /\ forallb is_joined (tasks rt') = true.
Proof.
  induction todo as [|i todo IH]; intros rt Hs Hb Ht.
  - exists [], rt. splits; auto. apply forallb_forall. intros t Hin. apply In_nth_error in Hin as (i & E).
    destruct t as [| |r]; try reflexivity; destruct (Ht i _ E); discriminate.
  - assert (D : {r | nth_error (tasks rt) i = Some (Ended r)} + {forall r, nth_error (tasks rt) i <> Some (Ended r)}).
    { destruct (nth_error (tasks rt) i) as [[|r|]|]; try (right; congruence). left. eauto. }
    destruct D as [[r E]|N].
    + set (rt1 := Runtime (update_nth i (fun _ => Joined r) (tasks rt)) (conns rt)
                   (match r with Finished => reports rt | _ => reports rt ++ [i] end) false).
      assert (E1 : act_step rt (Join i) = Some rt1) by (unfold act_step; rewrite Hb, E; reflexivity).
      destruct (IH rt1) as (l & rt' & H1 & H2 & H3 & H4 & H5).
      * unfold settled in *. rewrite Forall_forall in *. intros t Hin. apply In_nth_error in Hin as (j & Ej).
        unfold rt1 in Ej. cbn in Ej. destruct (Nat.eq_dec i j) as [->|N].
        -- rewrite update_same, E in Ej. injection Ej as <-. discriminate.
        -- rewrite update_other in Ej by easy. eapply Hs, nth_error_In; eauto.
      * reflexivity.
      * intros j t Ej Hj. unfold rt1 in Ej. cbn in Ej. destruct (Nat.eq_dec i j) as [->|N].
        -- rewrite update_same, E in Ej. injection Ej as <-. now destruct (Hj r).
        -- rewrite update_other in Ej by easy. destruct (Ht j t Ej Hj); [congruence|easy].
      * exists (Join i :: l), rt'. splits; auto; [constructor; eauto|]. cbn [acts_run]. now rewrite E1.
    + apply IH; auto. intros j t Ej Hj. destruct (Ht j t Ej Hj) as [<-|]; auto. exfalso.
      destruct t as [|r|r]; [|now destruct (N r)|now destruct (Hj r)].
      unfold settled in Hs. rewrite Forall_forall in Hs. now apply (Hs Running (nth_error_In _ _ Ej)).
Qed.
Lemma ended_settled k l rt : acts_run (multi_threads k) l = Some rt -> (forall i, i < k -> has_ended i l) -> settled rt.
Proof.
  intros H He. pose proof (known_run k l rt H) as K. apply Forall_forall. intros t Hin ->.
  apply In_nth_error in Hin as (i & E). assert (i < k) as Hi. { rewrite <- (kn_len _ _ _ K). apply nth_error_Some. congruence. }
  destruct (He i Hi) as (r & Hr). exact (kn_told _ _ _ K i _ E r Hr).
Qed.
Lemma can_return k l rt : acts_run (multi_threads k) l = Some rt -> back rt = false -> (forall i, i < k -> has_ended i l) ->
  exists l' rt', Forall (fun a => exists i, a = Join i) l' /\ acts_run rt (l' ++ [Empty]) = Some rt'
    /\ back rt' = true /\ conns rt' = conns rt.
Proof.
  intros H Hb He.
  destruct (joins_left (seq 0 (length (tasks rt))) rt (ended_settled k l rt H He) Hb) as (l' & rt' & H1 & H2 & H3 & H4 & H5).
  { intros i t E _. apply in_seq. split; [lia|]. cbn. apply nth_error_Some. congruence. }
  exists l', (Runtime (tasks rt') (conns rt') (reports rt') true). splits; auto.
  rewrite acts_app, H2. cbn [acts_run]. unfold act_step. now rewrite H3, H5.
Qed.
(** main's waiting is bounded: at most one join for each service, and then the end *)
Lemma unaffected k l rt j : acts_run (multi_threads k) l = Some rt -> j < k -> ~ has_ended j l ->
  exists rt', acts_run (multi_threads k) (l ++ [Connect j]) = Some rt' /\ conns rt' = conns rt ++ [(j, Busy)].
Proof.
  intros H Hj Hn. pose proof (known_run k l rt H) as K.
  destruct (nth_error (tasks rt) j) as [t|] eqn:E; [|apply nth_error_None in E; rewrite (kn_len _ _ _ K) in E; lia].
  assert (t = Running) as ->.
  { pose proof (kn_told _ _ _ K j t E) as T. destruct t as [|r|r]; auto; destruct T as [T _]; destruct Hn; now exists r. }
  destruct (back rt) eqn:Eb; [destruct Hn; now apply (waits_all k l rt)|].
  rewrite acts_app, H. cbn [acts_run]. unfold act_step. rewrite Eb, E. eexists. split; reflexivity.
Qed.
Lemma goes_on rt c i : back rt = false -> nth_error (conns rt) c = Some (i, Busy) ->
  exists rt', acts_run rt [Serve c] = Some rt' /\ nth_error (conns rt') c = Some (i, Through).
Proof.
  intros Hb E. cbn [acts_run]. unfold act_step. rewrite Hb, E. eexists. split; [reflexivity|]. cbn. now rewrite update_same, E.
Qed.
