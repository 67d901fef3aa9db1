(** Facts about the ends of days and hours. *)
From Verif Require Export F_Base S_Luxon F_Calendar.
From Coq Require Export ZifyBool ZifyNat ZifyN.
Ltac Zify.zify_post_hook ::= Z.to_euclidean_division_equations.
Local Open Scope Z_scope.

(** Going to year, month, day (and hour) and back is rounding down the local time. *)
Definition end_of (period : Z) (z : zone) (now : Z) : outcome (option Z) :=
  let l := local_secs z now in
  match instants z (l - l mod period) with
  | Single t => r <- unix_millis ((t + period) * nano) ;; Ret (Some r)
  | _ => Ret None
  end.
Lemma endofday_end z now : endofday z now = end_of day z now.
Proof.
  unfold endofday, end_of. set (l := local_secs z now). destruct (civil (l / day)) as [[y m] d] eqn:E.
  unfold local. rewrite (civil_back _ _ _ _ E). change (from_hms 0 0 0) with (Some 0). cbv iota beta.
  replace (l / day * day + 0) with (l - l mod day) by (unfold day; lia).
  destruct (instants z _); reflexivity.
Qed.
Lemma endofhour_end z now : endofhour z now = end_of hour z now.
Proof.
  unfold endofhour, end_of. set (l := local_secs z now). destruct (civil (l / day)) as [[y m] d] eqn:E. unfold hms.
  unfold local. rewrite (civil_back _ _ _ _ E).
  assert (H : from_hms (l mod day / 3600) 0 0 = Some (l mod day / 3600 * 3600 + 0 * 60 + 0)).
  { unfold from_hms. replace (l mod day / 3600 <? 24) with true by (unfold day; lia). reflexivity. }
  rewrite H. replace (l / day * day + (l mod day / 3600 * 3600 + 0 * 60 + 0)) with (l - l mod hour) by (unfold day, hour; lia).
  destruct (instants z _); reflexivity.
Qed.
Lemma end_of_single period z now t : 0 < period ->
  instants z (local_secs z now - local_secs z now mod period) = Single t -> 0 <= t + period ->
  end_of period z now = Ret (Some ((t + period) * 1000)).
Proof.
  intros Hp E Ht. unfold end_of. rewrite E. unfold unix_millis.
  replace ((t + period) * nano <? 0) with false by (unfold nano; lia). simpl obind.
  do 2 f_equal. unfold nano. replace ((t + period) * 1000000000) with ((t + period) * 1000 * 1000000) by lia.
  now apply Z.div_mul.
Qed.
Lemma end_of_inv period z now r : end_of period z now = Ret (Some r) ->
  exists t, instants z (local_secs z now - local_secs z now mod period) = Single t /\ 0 <= t + period
  /\ r = (t + period) * 1000.
Proof.
  unfold end_of. destruct (instants _ _) as [|t|] eqn:E; try discriminate. unfold unix_millis.
  destruct (Z.ltb_spec ((t + period) * nano) 0) as [H|H]; simpl obind; [discriminate|].
  intros [= <-]. exists t. unfold nano in *. splits; try easy; [lia|].
  replace ((t + period) * 1000000000) with ((t + period) * 1000 * 1000000) by lia. now rewrite Z.div_mul.
Qed.
Lemma calcnext_end k z now r : calcnext k z now = Ret r <-> end_of (length_of k) z now = Ret (Some r).
Proof.
  unfold calcnext. rewrite endofhour_end, endofday_end. unfold length_of, hour, day. destruct k.
  all: destruct (end_of _ z now) as [[m|]| | | |]; simpl; split; intros [= ->]; reflexivity.
Qed.
Lemma calcnext_panics k z now :
  (forall t, instants z (local_secs z now - local_secs z now mod length_of k) <> Single t) ->
  calcnext k z now = Panic.
Proof.
  intros H. unfold calcnext. rewrite endofhour_end, endofday_end. unfold end_of. unfold length_of in H.
  destruct k; unfold hour, day; destruct (instants _ _) as [|t|]; try reflexivity; now destruct (H t).
Qed.

(** with a steady offset *)
Lemma steady_start z now period : coherent z -> ordinary z -> steady z (secs now) -> 0 < period <= 86400 ->
  instants z (local_secs z now - local_secs z now mod period) = Single (secs now - local_secs z now mod period).
Proof.
  intros Hc Ho Hs Hp. set (l := local_secs z now). set (m := l mod period).
  assert (Hm : 0 <= m < period) by (apply Z.mod_pos_bound; lia).
  pose proof (Hs (secs now - m) ltac:(lia)) as Hoff.
  assert (Hsh : shows z (secs now - m) (l - m)). { unfold shows. rewrite Hoff. unfold l, local_secs. lia. }
  specialize (Hc (l - m)).
  assert (Hu : forall u, shows z u (l - m) -> u = secs now - m).
  { intros u H. unfold shows in *. pose proof (Ho u). pose proof (Ho (secs now)). unfold l, local_secs in *.
    pose proof (Hs u). lia. }
  destruct (instants z (l - m)) as [|t|a b].
  - now destruct (Hc (secs now - m)).
  - destruct Hc as [H1 H2]. now rewrite (H2 (secs now - m) Hsh).
  - destruct Hc as (H1 & H2 & H3). rewrite (Hu a H2), (Hu b H3) in H1. easy.
Qed.
Lemma next_ok k z now : coherent z -> ordinary z -> steady z (secs now) -> 0 <= now ->
  exists r, calcnext k z now = Ret r /\ now < r * 1000000 <= now + length_of k * nano
  /\ (exists t, r = t * 1000 /\ boundary z (length_of k) t).
Proof.
  intros Hc Ho Hs Hn. assert (Hp : 0 < length_of k <= 86400) by (destruct k; simpl; lia).
  set (p := length_of k) in *. pose proof (steady_start z now p Hc Ho Hs Hp) as E.
  set (l := local_secs z now) in *. set (m := l mod p) in *.
  assert (Hm : 0 <= m < p) by (apply Z.mod_pos_bound; lia).
  assert (Hq : l = p * (l / p) + m) by (apply Z.div_mod; lia).
  exists ((secs now - m + p) * 1000). splits.
  - apply calcnext_end. apply end_of_single; [easy..|]. unfold secs, nano in *. clear -Hn Hm. lia.
  - unfold secs, nano in *. clear - Hn Hm. lia.
  - unfold secs, nano in *. clear - Hn Hm. lia.
  - exists (secs now - m + p). split; [lia|]. exists (l / p + 1). unfold shows.
    rewrite Hs by lia. unfold l, local_secs in *. lia.
Qed.
(** in general: exactly one period after the start of the current one *)
Lemma next_exact k z now r : coherent z -> calcnext k z now = Ret r ->
  exists n s, in_period z (length_of k) (secs now) n /\ shows z s (n * length_of k)
  /\ (forall u, shows z u (n * length_of k) -> u = s) /\ r = (s + length_of k) * 1000.
Proof.
  intros Hc H. apply calcnext_end, end_of_inv in H as (t & E & Ht & ->).
  assert (Hp : 0 < length_of k) by (destruct k; simpl; lia). set (p := length_of k) in *.
  set (l := local_secs z now) in *. specialize (Hc (l - l mod p)). rewrite E in Hc. destruct Hc as [H1 H2].
  assert (Hq : l - l mod p = l / p * p) by (rewrite (Z.div_mod l p) at 1 by lia; lia).
  assert (Hm : 0 <= l mod p < p) by (apply Z.mod_pos_bound; lia).
  rewrite Hq in H1, H2.
  exists (l / p), t. splits; try easy; unfold in_period; fold (local_secs z now); unfold l, local_secs in *; lia.
Qed.
Lemma next_late k z now r n s : coherent z -> calcnext k z now = Ret r ->
  in_period z (length_of k) (secs now) n -> shows z s (n * length_of k) -> s + length_of k <= secs now ->
  r * 1000000 <= now.
Proof.
  intros Hc H Hn Hs Hl. apply next_exact in H as (n' & s' & H1 & H2 & H3 & ->); [|easy].
  assert (Hp : 0 < length_of k) by (destruct k; simpl; lia).
  assert (n' = n). { unfold in_period in *. set (q := length_of k) in *. clearbody q. nia. }
  subst n'. rewrite <- (H3 s Hs). unfold secs, nano in *. set (q := length_of k) in *. clearbody q. clear - Hl. lia.
Qed.
Lemma next_uneven k z now r : coherent z -> calcnext k z now = Ret r ->
  exists s t, r = t * 1000 /\ t = s + length_of k /\ boundary z (length_of k) s
  /\ (boundary z (length_of k) t <-> (length_of k | offset z t - offset z s)).
Proof.
  intros Hc H. apply next_exact in H as (n & s & H1 & H2 & H3 & ->); [|easy].
  exists s, (s + length_of k). splits; try easy; [now exists n|].
  unfold shows in H2. set (p := length_of k) in *. unfold boundary, shows. split.
  - intros (j & Hj). exists (j - n - 1). nia.
  - intros (j & Hj). exists (n + 1 + j). nia.
Qed.
