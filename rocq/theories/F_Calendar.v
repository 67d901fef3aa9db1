(** Facts about the calendar. *)
From Verif Require Export F_Base S_Calendar.
From Coq Require Export ZifyBool ZifyNat ZifyN.
Ltac Zify.zify_post_hook ::= Z.to_euclidean_division_equations.
Local Open Scope Z_scope.

Fixpoint all_from (p : Z -> bool) (n : nat) (c : Z) : bool :=
  match n with O => true | S k => p c && all_from p k (c + 1) end.
Lemma all_from_ok p : forall n c d, all_from p n c = true -> c <= d < c + Z.of_nat n -> p d = true.
Proof.
  induction n as [|n IH]; intros c d H Hd; [lia|]. cbn [all_from] in H. apply andb_true_iff in H as [H1 H2].
  destruct (Z.eq_dec c d) as [->|]; [exact H1|]. apply (IH (c + 1)); [exact H2|lia].
Qed.

(** the years of one cycle of 400 *)
Definition year_len (y : Z) : Z := if is_leap y then 366 else 365.
Definition delta_fine (y : Z) : bool :=
  (year_delta (y + 1) =? year_delta y + (year_len y - 365)) && (0 <=? year_delta y) && (year_delta y <=? 97).
Lemma delta_step y : 0 <= y < 400 ->
  year_delta (y + 1) = year_delta y + (year_len y - 365) /\ 0 <= year_delta y <= 97.
Proof.
  intros H. assert (E : delta_fine y = true).
  { apply (all_from_ok delta_fine 400 0); [vm_compute; reflexivity|lia]. }
  unfold delta_fine in E. lia.
Qed.
Lemma len_cases y : year_len y = 365 \/ year_len y = 366.
Proof. unfold year_len. destruct (is_leap y); auto. Qed.
Lemma cycle_yo c : 0 <= c < 146097 ->
  0 <= fst (cycle_to_yo c) < 400 /\ 1 <= snd (cycle_to_yo c) <= year_len (fst (cycle_to_yo c))
  /\ yo_to_cycle (fst (cycle_to_yo c)) (snd (cycle_to_yo c)) = c.
Proof.
  intros H. unfold cycle_to_yo, yo_to_cycle. set (y := c / 365). set (o := c mod 365).
  assert (Hc : c = 365 * y + o) by (apply Z.div_mod; lia).
  assert (Ho : 0 <= o < 365) by (apply Z.mod_pos_bound; lia).
  assert (Hy : 0 <= y <= 400) by lia. clearbody y o.
  destruct (Z.ltb_spec o (year_delta y)) as [L|L]; cbn [fst snd].
  - assert (1 <= y). { destruct (Z.eq_dec y 0) as [->|]; [change (year_delta 0) with 0 in L; lia|lia]. }
    destruct (delta_step (y - 1) ltac:(lia)) as [D1 D2]. replace (y - 1 + 1) with y in D1 by lia.
    pose proof (len_cases (y - 1)). splits; lia.
  - assert (y < 400). { destruct (Z.eq_dec y 400) as [->|]; [change (year_delta 400) with 97 in L; lia|lia]. }
    destruct (delta_step y ltac:(lia)) as [D1 D2]. pose proof (len_cases y). splits; lia.
Qed.
Lemma yo_cycle y o : 0 <= y < 400 -> 1 <= o <= year_len y -> 0 <= yo_to_cycle y o < 146097.
Proof.
  intros Hy Ho. unfold yo_to_cycle. destruct (delta_step y Hy) as [D1 D2]. pose proof (len_cases y).
  destruct (Z.eq_dec y 399) as [->|]; [change (year_delta 399) with 97 in *; change (year_len 399) with 365 in *; lia|].
  destruct (delta_step (y + 1) ltac:(lia)). lia.
Qed.
(** two numberings of the same day agree *)
Lemma yo_le y o y' o' : 0 <= y < 400 -> 0 <= y' < 400 -> 1 <= o <= year_len y -> 1 <= o' ->
  y < y' -> yo_to_cycle y o < yo_to_cycle y' o'.
Proof.
  intros Hy Hy' Ho Ho' L. unfold yo_to_cycle.
  assert (M : forall k, (0 <= k) -> y + k < 400 -> year_delta y <= year_delta (y + k)).
  { intros k Hk. pattern k. apply natlike_ind; [rewrite Z.add_0_r; lia| |exact Hk].
    intros x Hx IH Hb. destruct (delta_step (y + x) ltac:(lia)) as [D _]. pose proof (len_cases (y + x)).
    replace (y + Z.succ x) with (y + x + 1) by lia. lia. }
  destruct (delta_step y Hy) as [D1 _]. pose proof (len_cases y).
  assert (year_delta (y + 1) <= year_delta y').
  { specialize (M (y' - y)). destruct (Z.eq_dec y' (y + 1)) as [->|]; [lia|].
    assert (M2 : forall k, (0 <= k) -> y + 1 + k < 400 -> year_delta (y + 1) <= year_delta (y + 1 + k)).
    { intros k Hk. pattern k. apply natlike_ind; [rewrite Z.add_0_r; lia| |exact Hk].
      intros x Hx IH Hb. destruct (delta_step (y + 1 + x) ltac:(lia)) as [D _]. pose proof (len_cases (y + 1 + x)).
      replace (y + 1 + Z.succ x) with (y + 1 + x + 1) by lia. lia. }
    specialize (M2 (y' - y - 1) ltac:(lia) ltac:(lia)). replace (y + 1 + (y' - y - 1)) with y' in M2 by lia. exact M2. }
  lia.
Qed.
Lemma yo_inj y o y' o' : 0 <= y < 400 -> 0 <= y' < 400 -> 1 <= o <= year_len y -> 1 <= o' <= year_len y' ->
  yo_to_cycle y o = yo_to_cycle y' o' -> y = y' /\ o = o'.
Proof.
  intros Hy Hy' Ho Ho' E. destruct (Z.lt_trichotomy y y') as [L|[->|L]].
  - pose proof (yo_le y o y' o' Hy Hy' Ho ltac:(lia) L). lia.
  - unfold yo_to_cycle in E. lia.
  - pose proof (yo_le y' o' y o Hy' Hy Ho' ltac:(lia) L). lia.
Qed.

Lemma leap_mod y : is_leap (y mod 400) = is_leap y.
Proof.
  unfold is_leap. replace (y mod 400 mod 4) with (y mod 4) by lia. replace (y mod 400 mod 100) with (y mod 100) by lia.
  rewrite Z.mod_mod by lia. reflexivity.
Qed.
(** the number of a day given by year and day of the year *)
Definition day_no (y o : Z) : Z := y / 400 * 146097 + yo_to_cycle (y mod 400) o - days_to_epoch.
Lemma day_no_inj y o y' o' : 1 <= o <= year_len y -> 1 <= o' <= year_len y' ->
  day_no y o = day_no y' o' -> y = y' /\ o = o'.
Proof.
  intros Ho Ho'. unfold year_len in *. rewrite <- (leap_mod y) in Ho. rewrite <- (leap_mod y') in Ho'.
  assert (H1 : 0 <= y mod 400 < 400) by lia. assert (H2 : 0 <= y' mod 400 < 400) by lia.
  pose proof (yo_cycle _ _ H1 Ho). pose proof (yo_cycle _ _ H2 Ho'). unfold day_no. intros E.
  assert (Q : y / 400 = y' / 400 /\ yo_to_cycle (y mod 400) o = yo_to_cycle (y' mod 400) o') by lia.
  destruct Q as [Q1 Q2]. apply yo_inj in Q2 as [Q2 Q3]; [|assumption..]. split; [lia|exact Q3].
Qed.
Lemma day_no_back n : let (y, o) := year_ordinal n in 1 <= o <= year_len y /\ day_no y o = n.
Proof.
  unfold year_ordinal, day_no. set (d := n + days_to_epoch).
  pose proof (cycle_yo (d mod 146097) ltac:(lia)) as (H1 & H2 & H3). destruct (cycle_to_yo (d mod 146097)) as [y o].
  cbn [fst snd] in *.
  replace ((d / 146097 * 400 + y) / 400) with (d / 146097) by lia.
  replace ((d / 146097 * 400 + y) mod 400) with y by lia. rewrite H3. split.
  - unfold year_len in *. rewrite <- leap_mod. replace ((d / 146097 * 400 + y) mod 400) with y by lia. exact H2.
  - unfold d. lia.
Qed.
Lemma year_ordinal_no y o : 1 <= o <= year_len y -> year_ordinal (day_no y o) = (y, o).
Proof.
  intros Ho. pose proof (day_no_back (day_no y o)) as H. destruct (year_ordinal (day_no y o)) as [y' o'].
  destruct H as [H1 H2]. apply day_no_inj in H2 as [-> ->]; auto.
Qed.
(** the day after, by year and day of the year *)
Lemma day_no_next y o : 1 <= o -> (o < year_len y -> day_no y (o + 1) = day_no y o + 1)
  /\ (o = year_len y -> day_no (y + 1) 1 = day_no y o + 1).
Proof.
  intros Ho. split; intros H; [unfold day_no, yo_to_cycle; lia|]. subst o. unfold year_len. rewrite <- leap_mod. fold (year_len (y mod 400)).
  unfold day_no, yo_to_cycle. destruct (delta_step (y mod 400) ltac:(lia)) as [D _].
  destruct (Z.eq_dec (y mod 400) 399) as [E|N].
  - rewrite E in *. replace ((y + 1) / 400) with (y / 400 + 1) by lia. replace ((y + 1) mod 400) with 0 by lia.
    change (year_delta 0) with 0. change (year_delta 399) with 97. change (year_len 399) with 365. lia.
  - replace ((y + 1) / 400) with (y / 400) by lia. replace ((y + 1) mod 400) with (y mod 400 + 1) by lia. lia.
Qed.

(** months *)
Definition ml (leap : bool) (m : Z) : Z := nth (Z.to_nat (m - 1)) (month_lengths leap) 0.
Definition month_fine (leap : bool) (o : Z) : bool :=
  let (m, d) := month_day (month_lengths leap) 1 o in
  (1 <=? m) && (m <=? 12) && (1 <=? d) && (d <=? ml leap m) && (days_before (month_lengths leap) m + d =? o).
Lemma month_of (leap : bool) o : 1 <= o <= (if leap then 366 else 365) ->
  forall m d, month_day (month_lengths leap) 1 o = (m, d) ->
  1 <= m <= 12 /\ 1 <= d <= ml leap m /\ days_before (month_lengths leap) m + d = o.
Proof.
  intros Ho m d E. assert (H : month_fine leap o = true).
  { destruct leap; [apply (all_from_ok _ 366 1)|apply (all_from_ok _ 365 1)]; try (vm_compute; reflexivity); lia. }
  unfold month_fine in H. rewrite E in H. lia.
Qed.
Lemma month_cases m : 1 <= m <= 12 -> In m [1; 2; 3; 4; 5; 6; 7; 8; 9; 10; 11; 12].
Proof. intros H. cbn [In]. lia. Qed.
Ltac each_month H := apply month_cases in H; cbn [In] in H; repeat (destruct H as [<-|H]; [|]); [..|destruct H].
Lemma before_step (leap : bool) m : 1 <= m < 12 ->
  days_before (month_lengths leap) (m + 1) = days_before (month_lengths leap) m + ml leap m.
Proof. intros H. assert (H' : 1 <= m <= 12) by lia. each_month H'; try lia; destruct leap; vm_compute; reflexivity. Qed.
Lemma before_all (leap : bool) : days_before (month_lengths leap) 12 + ml leap 12 = if leap then 366 else 365.
Proof. destruct leap; vm_compute; reflexivity. Qed.
Lemma before_bounds (leap : bool) m : 1 <= m <= 12 -> 0 <= days_before (month_lengths leap) m
  /\ days_before (month_lengths leap) m + ml leap m <= if leap then 366 else 365.
Proof. intros H. each_month H; destruct leap; vm_compute; split; discriminate. Qed.
Lemma ml_bounds (leap : bool) m : 1 <= m <= 12 -> 28 <= ml leap m <= 31.
Proof. intros H. each_month H; destruct leap; vm_compute; split; discriminate. Qed.
Lemma before_lt (leap : bool) m m' : 1 <= m -> m < m' -> m' <= 12 ->
  days_before (month_lengths leap) m + ml leap m <= days_before (month_lengths leap) m'.
Proof.
  intros H1 H2 H3. assert (M : forall k, 0 <= k -> m + 1 + k <= 12 ->
    days_before (month_lengths leap) m + ml leap m <= days_before (month_lengths leap) (m + 1 + k)).
  { intros k Hk. pattern k. apply natlike_ind; [|intros x Hx IH Hb|exact Hk].
    - intros Hb. rewrite Z.add_0_r, before_step by lia. lia.
    - replace (m + 1 + Z.succ x) with (m + 1 + x + 1) by lia. rewrite before_step by lia.
      pose proof (ml_bounds leap (m + 1 + x) ltac:(lia)). lia. }
  specialize (M (m' - m - 1) ltac:(lia) ltac:(lia)). now replace (m + 1 + (m' - m - 1)) with m' in M by lia.
Qed.

(** dates *)
Definition real (d : date) : Prop :=
  1 <= in_month d <= 12 /\ 1 <= of_month d <= ml (is_leap (in_year d)) (in_month d).
Definition number (d : date) : Z := day_no (in_year d) (days_before (month_lengths (is_leap (in_year d))) (in_month d) + of_month d).
Lemma real_ordinal d : real d -> let o := days_before (month_lengths (is_leap (in_year d))) (in_month d) + of_month d in
  1 <= o <= year_len (in_year d).
Proof. intros [H1 H2]. pose proof (before_bounds (is_leap (in_year d)) _ H1). unfold year_len. cbv zeta. lia. Qed.
Lemma number_inj d d' : real d -> real d' -> number d = number d' -> d = d'.
Proof.
  intros H H' E. unfold number in E. apply day_no_inj in E as [Ey Eo]; [|now apply real_ordinal..].
  destruct d as [y m d], d' as [y' m' d']. cbn [in_year in_month of_month] in *. subst y'. destruct H as [H1 H2], H' as [H1' H2'].
  cbn [in_year in_month of_month] in *. set (lp := is_leap y) in *.
  destruct (Z.lt_trichotomy m m') as [L|[->|L]].
  - pose proof (before_lt lp m m' ltac:(lia) L ltac:(lia)). lia.
  - f_equal. lia.
  - pose proof (before_lt lp m' m ltac:(lia) L ltac:(lia)). lia.
Qed.
Definition date_at (n : Z) : date := let '(y, m, d) := civil n in Date y m d.
Lemma date_at_real n : real (date_at n) /\ number (date_at n) = n.
Proof.
  unfold date_at, civil. pose proof (day_no_back n) as H. destruct (year_ordinal n) as [y o]. destruct H as [H1 H2].
  destruct (month_day (month_lengths (is_leap y)) 1 o) as [m d] eqn:E. unfold year_len in H1.
  destruct (month_of _ _ H1 _ _ E) as (M1 & M2 & M3). unfold real, number. cbn [in_year in_month of_month]. rewrite M3. auto.
Qed.
Lemma number_date d : real d -> date_at (number d) = d.
Proof. intros H. destruct (date_at_real (number d)) as [H1 H2]. now apply number_inj. Qed.
Lemma civil_back n y m d : civil n = (y, m, d) -> from_ymd y m d = Some n.
Proof.
  intros E. pose proof (date_at_real n) as [[H1 H2] H3]. unfold date_at in *. rewrite E in *. cbn [in_year in_month of_month] in *.
  unfold from_ymd. fold (ml (is_leap y) m).
  replace ((1 <=? m) && (m <=? 12) && (1 <=? d) && (d <=? ml (is_leap y) m)) with true by lia. f_equal. exact H3.
Qed.
Lemma from_ymd_real y m d n : from_ymd y m d = Some n <-> real (Date y m d) /\ n = number (Date y m d).
Proof.
  unfold from_ymd, real, number, day_no. cbn [in_year in_month of_month]. fold (ml (is_leap y) m).
  destruct ((1 <=? m) && (m <=? 12) && (1 <=? d) && (d <=? ml (is_leap y) m)) eqn:E; split.
  - intros [= <-]. split; [lia|reflexivity].
  - intros [_ ->]. reflexivity.
  - discriminate.
  - intros [H _]. lia.
Qed.

Lemma leap_ok y : is_leap y = true <-> leap_year y.
Proof. unfold is_leap, leap_year. lia. Qed.
Lemma month_has_ml y m n : month_has y m n -> 1 <= m <= 12 /\ n = ml (is_leap y) m.
Proof.
  assert (L := leap_ok y). intros [[H ->]|[[H ->]|[(-> & H & ->)|(-> & H & ->)]]].
  1,2: cbn [In] in H; split; [lia|]; repeat (destruct H as [<-|H]; [destruct (is_leap y); reflexivity|]); destruct H.
  - apply L in H. rewrite H. split; [lia|reflexivity].
  - destruct (is_leap y); [tauto|]. split; [lia|reflexivity].
Qed.
Lemma ml_month_has y m : 1 <= m <= 12 -> month_has y m (ml (is_leap y) m).
Proof.
  intros H. pose proof (leap_ok y) as L. unfold month_has.
  each_month H; cbn [In]; destruct (is_leap y) eqn:E; try (left; split; [tauto|reflexivity]); try (right; left; split; [tauto|reflexivity]).
  - right. right. left. split; [reflexivity|]. split; [tauto|reflexivity].
  - right. right. right. split; [reflexivity|]. split; [intros X; apply L in X; discriminate|reflexivity].
Qed.
Lemma tomorrow_ok d d' : tomorrow d d' -> real d /\ real d' /\ number d' = number d + 1.
Proof.
  intros [y m x n H Hx|y m n H Hm|y]; unfold real, number; cbn [in_year in_month of_month].
  - apply month_has_ml in H as [H1 ->]. splits; try lia.
    pose proof (before_bounds (is_leap y) m H1). unfold year_len in *.
    pose proof (day_no_next y (days_before (month_lengths (is_leap y)) m + x) ltac:(lia)) as [D _]. unfold year_len in D.
    rewrite Z.add_assoc. apply D. lia.
  - apply month_has_ml in H as [H1 ->]. pose proof (ml_bounds (is_leap y) m H1). pose proof (ml_bounds (is_leap y) (m + 1) ltac:(lia)).
    splits; try lia. rewrite before_step by lia. pose proof (before_bounds (is_leap y) m H1).
    pose proof (before_bounds (is_leap y) (m + 1) ltac:(lia)) as [_ B]. rewrite before_step in B by lia.
    pose proof (day_no_next y (days_before (month_lengths (is_leap y)) m + ml (is_leap y) m) ltac:(lia)) as [D _]. unfold year_len in D.
    apply D. destruct (is_leap y); lia.
  - assert (H1 : ml (is_leap y) 12 = 31) by (destruct (is_leap y); reflexivity). assert (H2 : ml (is_leap (y + 1)) 1 = 31) by (destruct (is_leap (y + 1)); reflexivity).
    splits; try lia. pose proof (before_all (is_leap y)) as A. rewrite H1 in A. rewrite A.
    pose proof (day_no_next y (year_len y)) as D. pose proof (len_cases y). destruct D as [_ D]; [lia|]. specialize (D eq_refl).
    replace (days_before (month_lengths (is_leap (y + 1))) 1 + 1) with 1 by (destruct (is_leap (y + 1)); reflexivity).
    unfold year_len in D. exact D.
Qed.
Lemma has_tomorrow d : real d -> exists d', tomorrow d d'.
Proof.
  destruct d as [y m x]. intros [H1 H2]. cbn [in_year in_month of_month] in *. pose proof (ml_month_has y m H1) as M.
  destruct (Z.eq_dec x (ml (is_leap y) m)) as [->|N].
  - destruct (Z.eq_dec m 12) as [->|N]; [|eexists; apply next_month; [exact M|lia]].
    replace (ml (is_leap y) 12) with 31 by (destruct (is_leap y); reflexivity). eexists. apply next_year.
  - eexists. eapply same_month; [exact M|lia].
Qed.
Lemma tomorrow_at n : tomorrow (date_at n) (date_at (n + 1)).
Proof.
  destruct (date_at_real n) as [H1 H2]. destruct (has_tomorrow _ H1) as (d' & T). pose proof (tomorrow_ok _ _ T) as (_ & R & E).
  rewrite H2 in E. rewrite <- E, number_date by exact R. exact T.
Qed.
Lemma date_of_at n d : date_of n d <-> date_at n = d.
Proof.
  split.
  - induction 1 as [|n d d' _ IH T|n d d' _ IH T].
    + vm_compute. reflexivity.
    + apply tomorrow_ok in T as (R & R' & E). rewrite <- IH in E. destruct (date_at_real n) as [_ H]. rewrite H in E.
      now rewrite <- E, number_date.
    + apply tomorrow_ok in T as (R & R' & E). rewrite <- IH in E. destruct (date_at_real (n + 1)) as [_ H]. rewrite H in E.
      replace n with (number d) by lia. now rewrite number_date.
  - intros <-. assert (P : forall k, 0 <= k -> date_of k (date_at k) /\ date_of (- k) (date_at (- k))).
    { apply natlike_ind; [split; apply on_epoch|]. intros x Hx [I1 I2]. split.
      - apply (day_later x (date_at x)); [exact I1|apply tomorrow_at].
      - apply (day_earlier _ _ (date_at (- x))); [|pose proof (tomorrow_at (- Z.succ x)) as T; now replace (- Z.succ x + 1) with (- x) in T by lia].
        now replace (- Z.succ x + 1) with (- x) by lia. }
    destruct (Z.le_gt_cases 0 n) as [L|L]; [now apply P|]. specialize (P (- n) ltac:(lia)) as [_ P]. now rewrite Z.opp_involutive in P.
Qed.
Lemma date_of_real n d : date_of n d -> real d /\ number d = n.
Proof. intros H. apply date_of_at in H as <-. apply date_at_real. Qed.
