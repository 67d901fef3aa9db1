(** A stream can be read as requests in one way only. *)
From Coq Require Import Lia.
From Verif Require Import S_Got.

Lemma piece_shorter e d lim s t r t' r' : piece e d lim s t r -> piece e d lim s t' r' ->
  length t < length t' -> False.
Proof.
  intros (E & _ & H) (E' & L' & H') L. subst s. pose proof E' as E. apply app_eq_app in E.
  destruct E as (u & [[-> ->]|[-> ->]]); rewrite app_length in L; [lia|].
  destruct H as [(a & -> & _)|[_ [H|[H _]]]].
  - destruct H' as [(a' & H' & N)|[N _]].
    + destruct u as [|c u _] using rev_ind; [cbn in L; lia|]. rewrite app_assoc in H'.
      apply app_inj_tail in H' as [<- _]. apply N. rewrite !in_app_iff. left. right. now left.
    + apply N. rewrite !in_app_iff. left. right. now left.
  - rewrite app_length in L'. lia.
  - destruct u; [cbn in L; lia|discriminate].
Qed.
Lemma piece_once e d lim s t r t' r' : piece e d lim s t r -> piece e d lim s t' r' -> t = t' /\ r = r'.
Proof.
  intros H H'. destruct (Nat.lt_trichotomy (length t) (length t')) as [L|[L|L]].
  - exfalso. exact (piece_shorter _ _ _ _ _ _ _ _ H H' L).
  - destruct H as (-> & _), H' as (E & _). apply app_eq_app in E as (u & [[-> ->]|[-> ->]]);
      rewrite app_length in L; (destruct u; [rewrite app_nil_r; auto|cbn in L; lia]).
  - exfalso. exact (piece_shorter _ _ _ _ _ _ _ _ H' H L).
Qed.

Lemma two_ends {A} (a b : list A) x y z w : a ++ [x; y] = b ++ [z; w] -> a = b.
Proof.
  intros H. change [x; y] with ([x] ++ [y]) in H. change [z; w] with ([z] ++ [w]) in H. rewrite !app_assoc in H.
  apply app_inj_tail in H as [H _]. now apply app_inj_tail in H as [H _].
Qed.
Lemma lines_once e lim s ls r : lines_at e lim s ls r -> forall ls' r', lines_at e lim s ls' r' -> ls = ls' /\ r = r'.
Proof.
  assert (Z : forall l (x y z w : byte), good_line l -> l ++ [x; y] = [z; w] -> False).
  { intros l x y z w [N _] H. apply N. now apply (two_ends l [] x y z w). }
  induction 1 as [s x y r P|s l x y s' ls r P G _ IH]; intros ls' r' H'; inversion H' as [? z w ? P'|? l' z w s2 ls2 ? P' G' Q']; subst;
    destruct (piece_once _ _ _ _ _ _ _ _ P P') as [E <-].
  - auto.
  - exfalso. eapply (Z l'); eauto.
  - exfalso. eapply (Z l); eauto.
  - apply two_ends in E as <-. destruct (IH _ _ Q') as [<- <-]. auto.
Qed.
Lemma head_once e url line count s me ta ve ls r me' ta' ve' ls' r' :
  head_at e url line count s me ta ve ls r -> head_at e url line count s me' ta' ve' ls' r' ->
  me = me' /\ ta = ta' /\ ve = ve' /\ ls = ls' /\ r = r'.
Proof.
  intros (x & y & z & w & s1 & s2 & s3 & A & _ & B & _ & C & _ & _ & _ & D & _)
         (x' & y' & z' & w' & t1 & t2 & t3 & A' & _ & B' & _ & C' & _ & _ & _ & D' & _).
  destruct (piece_once _ _ _ _ _ _ _ _ A A') as [EA <-]. destruct (piece_once _ _ _ _ _ _ _ _ B B') as [EB <-].
  destruct (piece_once _ _ _ _ _ _ _ _ C C') as [EC <-]. destruct (lines_once _ _ _ _ _ D _ _ D') as [<- <-].
  apply app_inj_tail in EA as [<- _]. apply app_inj_tail in EB as [<- _]. apply two_ends in EC as <-. auto.
Qed.
Lemma signed_once v n n' :
  (numeral v n \/ exists t, v = PLUS :: t /\ numeral t n) -> (numeral v n' \/ exists t, v = PLUS :: t /\ numeral t n') -> n = n'.
Proof.
  assert (P : forall t m, ~ numeral (PLUS :: t) m).
  { intros t m (_ & F & _). inversion F as [|? ? D _]. revert D. vm_compute. intros [D D']. apply D. reflexivity. }
  intros [A|(t & -> & A)] [A'|(t' & E & A')].
  - destruct A as (_ & _ & <-), A' as (_ & _ & <-). reflexivity.
  - subst v. now apply P in A.
  - now apply P in A'.
  - injection E as <-. destruct A as (_ & _ & <-), A' as (_ & _ & <-). reflexivity.
Qed.
Lemma announces_once ls n n' : announces ls n -> announces ls n' -> n = n'.
Proof.
  intros (h & T & H) (h' & T' & H'). unfold table_of in *. rewrite T in T'. injection T' as <-.
  destruct H as [[G ->]|(v & G & _ & H)], H' as [[G' ->]|(v' & G' & _ & H')]; rewrite G in G'; try discriminate; auto.
  injection G' as <-. now apply (signed_once v).
Qed.
Lemma requests_once e cfg s qs r : requests_at e cfg s qs r -> forall qs' r', requests_at e cfg s qs' r' ->
  length qs' = length qs -> qs' = qs /\ r' = r.
Proof.
  induction 1 as [s|s q s' qs r H A _ IH]; intros qs' r' H' L; inversion H' as [|? q2 s2 qs2 ? H2 A2 R2]; subst; try discriminate; auto.
  destruct (head_once _ _ _ _ _ _ _ _ _ _ _ _ _ _ _ H H2) as (E1 & E2 & E3 & E4 & E5).
  rewrite <- E4 in A2. pose proof (announces_once _ _ _ A A2) as E6. apply Nnat.Nat2N.inj in E6.
  apply app_eq_app in E5 as (u & E5).
  assert (u = []) as ->.
  { destruct E5 as [[E5 _]|[E5 _]]; rewrite E5, app_length in E6; destruct u; cbn in E6; auto; lia. }
  rewrite !app_nil_r in E5. cbn [app] in E5. destruct q, q2; cbn in *.
  destruct E5 as [[-> ->]|[-> ->]]; subst; destruct (IH _ _ R2) as [-> ->]; auto.
Qed.
Lemma requests_prefix e cfg s qs r : requests_at e cfg s qs r -> forall n,
  exists r', requests_at e cfg s (firstn n qs) r'.
Proof.
  induction 1 as [s|s q s' qs r H A _ IH]; intros n; [rewrite firstn_nil; eexists; constructor|].
  destruct n; [eexists; constructor|]. destruct (IH n) as [r' H']. exists r'. cbn. econstructor; eauto.
Qed.
(** any two readings agree as far as both go *)
Lemma unambiguous e cfg s qs r qs' r' : requests_at e cfg s qs r -> requests_at e cfg s qs' r' ->
  length qs <= length qs' -> qs = firstn (length qs) qs' /\ (length qs = length qs' -> r = r').
Proof.
  intros H H' L. destruct (requests_prefix _ _ _ _ _ H' (length qs)) as [r2 H2].
  destruct (requests_once _ _ _ _ _ H _ _ H2) as [E _]; [rewrite firstn_length; lia|]. split; [now symmetry|].
  intros E'. symmetry in E'. now destruct (requests_once _ _ _ _ _ H _ _ H' E').
Qed.
