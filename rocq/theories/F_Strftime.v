(** Facts about times as text. *)
From Verif Require Export S_Strftime F_Calendar F_Rotation F_Due.
Local Open Scope Z_scope.

(** padded numbers *)
Fixpoint same_str (a b : str) : bool :=
  match a, b with
  | [], [] => true
  | x :: a', y :: b' => (x =? y)%N && same_str a' b'
  | _, _ => false
  end.
Lemma same_str_ok : forall a b, same_str a b = true -> a = b.
Proof.
  induction a as [|x a IH]; intros [|y b] H; try discriminate; [reflexivity|]. cbn in H. apply andb_true_iff in H as [H1 H2].
  apply N.eqb_eq in H1 as ->. f_equal. now apply IH.
Qed.
Lemma padded_two n : 0 <= n < 100 -> padded 48 2 n = two n.
Proof.
  intros H. apply same_str_ok. apply (all_from_ok (fun n => same_str (padded 48 2 n) (two n)) 100 0); [vm_compute; reflexivity|lia].
Qed.
Lemma padded_three n : 0 <= n < 1000 -> padded 48 3 n = three n.
Proof.
  intros H. apply same_str_ok. apply (all_from_ok (fun n => same_str (padded 48 3 n) (three n)) 1000 0); [vm_compute; reflexivity|lia].
Qed.
Lemma padded_four n : 0 <= n <= 9999 -> padded 48 4 n = four n.
Proof.
  intros H. apply same_str_ok. apply (all_from_ok (fun n => same_str (padded 48 4 n) (four n)) (Z.to_nat 10000) 0); [vm_compute; reflexivity|lia].
Qed.
Lemma padded_value c n w : c = 48%N -> 0 <= n -> dvalue (padded c w n) = Z.to_N n.
Proof.
  intros -> Hn. unfold padded. cbv zeta. destruct (dec_value (Z.to_N n)) as (_ & _ & V).
  assert (E : forall k, dvalue (repeat 48%N k ++ map code (dec (Z.to_N n))) = dvalue (map code (dec (Z.to_N n)))).
  { unfold dvalue. intros k. rewrite fold_left_app. f_equal. induction k as [|k IH]; [reflexivity|]. exact IH. }
  now rewrite E.
Qed.
Lemma padded_digits n w : 0 <= n -> Forall (fun c => 48 <= c <= 57)%N (padded 48 w n).
Proof.
  intros Hn. unfold padded. cbv zeta. apply Forall_app. split.
  - apply Forall_forall. intros x Hx. apply repeat_spec in Hx as ->. lia.
  - destruct (dec_value (Z.to_N n)) as (_ & V & _). rewrite forallb_forall in V. apply Forall_forall. intros x Hx.
    apply V in Hx. unfold is_digit, in_range in Hx. lia.
Qed.
Lemma year_text_inj y y' : year_text y = year_text y' -> y = y'.
Proof.
  assert (P : forall n, 0 <= n -> exists c s, padded 48 4 n = c :: s /\ (48 <= c <= 57)%N).
  { intros n Hn. pose proof (padded_digits n 4 Hn) as D. destruct (padded 48 4 n) as [|c s] eqn:E.
    - pose proof (dec_value (Z.to_N n)) as (V & _). unfold padded in E. cbv zeta in E. apply app_eq_nil in E as [_ E].
      now apply map_eq_nil in E.
    - inversion D; subst. eauto. }
  unfold year_text. intros H. destruct ((0 <=? y) && (y <=? 9999)) eqn:E1, ((0 <=? y') && (y' <=? 9999)) eqn:E2.
  - apply (f_equal dvalue) in H. rewrite !padded_value in H by (reflexivity || lia). lia.
  - destruct (P y ltac:(lia)) as (c & s & E & L). rewrite E in H. injection H as -> _. destruct (y' <? 0); lia.
  - destruct (P y' ltac:(lia)) as (c & s & E & L). rewrite E in H. injection H as <- _. destruct (y <? 0); lia.
  - injection H as H1 H. apply (f_equal dvalue) in H. rewrite !padded_value in H by (reflexivity || lia).
    destruct (Z.ltb_spec y 0), (Z.ltb_spec y' 0); try discriminate; lia.
Qed.
Lemma two_inj n n' : 0 <= n < 100 -> 0 <= n' < 100 -> two n = two n' -> n = n'.
Proof.
  intros H H' E. rewrite <- !padded_two in E by assumption. apply (f_equal dvalue) in E.
  rewrite !padded_value in E by (reflexivity || lia). lia.
Qed.

(** layouts *)
Lemma after_shorter : forall key s s', after key s = Some s' -> (length s' <= length s)%nat.
Proof.
  induction key as [|a key IH]; intros s s' H; [injection H as ->; lia|]. destruct s as [|b s]; [discriminate|]. cbn [after] in H.
  destruct (a =? b)%N; [|discriminate]. apply IH in H. cbn [length]. lia.
Qed.
Lemma specifier_shorter : forall t s ps s', specifier t s = Some (ps, s') -> (length s' <= length s)%nat.
Proof.
  induction t as [|[key ps0] t IH]; intros s ps s' H; [discriminate|]. cbn [specifier] in H.
  destruct (after key s) eqn:E; [|eauto]. injection H as -> ->. now apply after_shorter in E.
Qed.
Lemma parts_fuel : forall f s, (length s <= f)%nat -> parts_of f s = parts_of (length s) s.
Proof.
  assert (G : forall n f f' s, (length s <= n)%nat -> (length s <= f)%nat -> (length s <= f')%nat -> parts_of f s = parts_of f' s).
  { induction n as [|n IH]; intros f f' s Hn Hf Hf'.
    - destruct s; [|cbn in Hn; lia]. destruct f, f'; reflexivity.
    - destruct s as [|c s]; [destruct f, f'; reflexivity|]. cbn [length] in *. destruct f as [|f]; [lia|]. destruct f' as [|f']; [lia|].
      cbn [parts_of]. destruct (c =? 37)%N.
      + destruct (no_specifier s); [reflexivity|]. destruct (specifier specifiers s) as [[ps s2]|] eqn:E; [|reflexivity]. apply specifier_shorter in E.
        now rewrite (IH f f' s2) by lia.
      + destruct (c <? 128)%N; [|reflexivity]. now rewrite (IH f f' s) by lia. }
  intros f s H. now apply (G (length s)).
Qed.
Lemma layout_char c s : c <> 37%N -> (c < 128)%N -> layout_parts (c :: s) = option_map (cons (PLit c)) (layout_parts s).
Proof.
  intros H1 H2. unfold layout_parts. cbn [length parts_of]. apply N.eqb_neq in H1. rewrite H1.
  apply N.ltb_lt in H2. now rewrite H2.
Qed.
Lemma layout_spec s ps s2 : specifier specifiers s = Some (ps, s2) -> no_specifier s = false ->
  layout_parts (37%N :: s) = option_map (app ps) (layout_parts s2).
Proof.
  intros H N. unfold layout_parts. cbn [length parts_of]. change (37 =? 37)%N with true. cbv iota. rewrite N, H.
  apply specifier_shorter in H. now rewrite parts_fuel.
Qed.

(** the clock *)
Definition shows_all (l ns : Z) (c : clock) : Prop :=
  civil (l / day) = (in_year (on_date c), in_month (on_date c), of_month (on_date c))
  /\ hms (l mod day) = (c_hour c, c_minute c, c_second c) /\ ns / 1000000 = c_milli c /\ 0 <= ns < nano.
Lemma clock_shows z now c : clock_at z now c -> shows_all (local_secs z now) (now mod nano) c.
Proof.
  intros (t & n & Ht & Hs & Hd & H1 & H2 & H3 & Hm).
  assert (E : secs now = t) by (unfold secs, nano; lia). unfold local_secs. rewrite E.
  unfold shows in Hs. rewrite Hs. apply date_of_at in Hd. unfold shows_all.
  replace ((n * 86400 + c_hour c * 3600 + c_minute c * 60 + c_second c) / day) with n by (unfold day; lia).
  replace ((n * 86400 + c_hour c * 3600 + c_minute c * 60 + c_second c) mod day)
    with (c_hour c * 3600 + c_minute c * 60 + c_second c) by (unfold day; lia).
  split; [|split; [|split]].
  - unfold date_at in Hd. destruct (civil n) as [[y m] d]. now rewrite <- Hd.
  - unfold hms. f_equal; [f_equal|]; lia.
  - unfold nano. lia.
  - unfold nano. lia.
Qed.
Lemma clock_exists z now : exists c, clock_at z now c.
Proof.
  set (l := local_secs z now). set (t := l mod day).
  exists (Clock (date_at (l / day)) (t / 3600) (t / 60 mod 60) (t mod 60) (now mod nano / 1000000)).
  exists (secs now), (l / day). cbn [on_date c_hour c_minute c_second c_milli].
  assert (0 <= t < day) by (apply Z.mod_pos_bound; reflexivity).
  assert (l = day * (l / day) + t) by (apply Z.div_mod; discriminate).
  splits; try (unfold secs, nano, day in *; lia).
  - unfold shows. fold l. unfold l, local_secs in *. unfold day in *. lia.
  - now apply date_of_at.
Qed.
Lemma clock_real z now c : clock_at z now c -> real (on_date c) /\ 0 <= c_hour c < 24 /\ 0 <= c_minute c < 60 /\ 0 <= c_second c < 60 /\ 0 <= c_milli c < 1000.
Proof.
  intros (t & n & Ht & Hs & Hd & H1 & H2 & H3 & Hm). splits; try lia. now apply date_of_real in Hd as [].
Qed.
Lemma clock_one z now c c' : clock_at z now c -> clock_at z now c' -> c = c'.
Proof.
  intros H H'. apply clock_shows in H as (A1 & A2 & A3 & _), H' as (B1 & B2 & B3 & _).
  rewrite B1 in A1. rewrite B2 in A2. rewrite B3 in A3. destruct c as [[y m d] h mi s ms], c' as [[y' m' d'] h' mi' s' ms'].
  cbn [on_date in_year in_month of_month c_hour c_minute c_second c_milli] in *. congruence.
Qed.

Lemma said l ns c layout txt : shows_all l ns c -> real (on_date c) -> four_digits (on_date c) ->
  0 <= c_hour c < 24 -> 0 <= c_minute c < 60 -> 0 <= c_second c < 60 -> 0 <= c_milli c < 1000 ->
  says c layout txt -> option_map (parts_text l ns) (layout_parts layout) = Some txt.
Proof.
  intros (E1 & E2 & E3 & _) [R1 R2] R3 H1 H2 H3 H4 S.
  pose proof (ml_bounds (is_leap (in_year (on_date c))) _ R1) as R4.
  assert (P : forall p, part_text l ns p = match p with
    | PYear => four (in_year (on_date c)) | PMonth => two (in_month (on_date c)) | PDay => two (of_month (on_date c))
    | PHour => two (c_hour c) | PMinute => two (c_minute c) | PSecond => two (c_second c)
    | PFrac true 3 => chars "." ++ three (c_milli c) | PLit x => [x] | q => part_text l ns q end).
  { intros p. unfold part_text. rewrite E1, E2. destruct p as [x| | | | | | | | | | | |dot [|w|w]|]; try reflexivity; try (destruct dot; reflexivity).
    - unfold year_text, four_digits in *. replace ((0 <=? in_year (on_date c)) && (in_year (on_date c) <=? 9999)) with true by lia. now apply padded_four.
    - apply padded_two. lia.
    - apply padded_two. lia.
    - apply padded_two. lia.
    - apply padded_two. lia.
    - apply padded_two. lia.
    - destruct dot; [|destruct w; reflexivity]. destruct (Pos.eq_dec w 3) as [->|N].
      + change (10 ^ (9 - 3)) with 1000000. rewrite E3. change (Z.to_nat 3) with 3%nat. now rewrite padded_three by assumption.
      + destruct w as [[|[]|]|[[]|[]|]|]; try reflexivity; congruence. }
  assert (Q : forall ps s, option_map (parts_text l ns) (option_map (app ps) (layout_parts s))
    = option_map (app (parts_text l ns ps)) (option_map (parts_text l ns) (layout_parts s))).
  { intros ps s. destruct (layout_parts s) as [qs|]; [|reflexivity]. cbn [option_map]. unfold parts_text. now rewrite map_app, concat_app. }
  assert (Q1 : forall p, parts_text l ns [p] = part_text l ns p) by (intros; unfold parts_text; cbn [map concat]; now rewrite app_nil_r).
  induction S as [|x s t Hx Hx' S IH|s t S IH|s t S IH|s t S IH|s t S IH|s t S IH|s t S IH|s t S IH|s t S IH|s t S IH|s t S IH].
  - reflexivity.
  - rewrite layout_char by assumption. change (cons (PLit x)) with (app [PLit x]). rewrite Q, IH, Q1, P. reflexivity.
  - change (chars "%%" ++ s) with (37%N :: 37%N :: s). rewrite (layout_spec _ [PLit 37] s) by reflexivity. rewrite Q, IH, Q1, P. reflexivity.
  - change (chars "%Y" ++ s) with (37%N :: 89%N :: s). rewrite (layout_spec _ [PYear] s) by reflexivity. rewrite Q, IH, Q1, P. reflexivity.
  - change (chars "%m" ++ s) with (37%N :: 109%N :: s). rewrite (layout_spec _ [PMonth] s) by reflexivity. rewrite Q, IH, Q1, P. reflexivity.
  - change (chars "%d" ++ s) with (37%N :: 100%N :: s). rewrite (layout_spec _ [PDay] s) by reflexivity. rewrite Q, IH, Q1, P. reflexivity.
  - change (chars "%H" ++ s) with (37%N :: 72%N :: s). rewrite (layout_spec _ [PHour] s) by reflexivity. rewrite Q, IH, Q1, P. reflexivity.
  - change (chars "%M" ++ s) with (37%N :: 77%N :: s). rewrite (layout_spec _ [PMinute] s) by reflexivity. rewrite Q, IH, Q1, P. reflexivity.
  - change (chars "%S" ++ s) with (37%N :: 83%N :: s). rewrite (layout_spec _ [PSecond] s) by reflexivity. rewrite Q, IH, Q1, P. reflexivity.
  - change (chars "%.3f" ++ s) with (37%N :: chars ".3f" ++ s). rewrite (layout_spec _ [PFrac true 3] s) by reflexivity. rewrite Q, IH, Q1, P. reflexivity.
  - rewrite <- IH. change (chars "%F" ++ s) with (37%N :: 70%N :: s).
    rewrite (layout_spec _ [PYear; PLit 45; PMonth; PLit 45; PDay] s) by reflexivity.
    change (chars "%Y-%m-%d" ++ s) with (37%N :: 89%N :: 45%N :: 37%N :: 109%N :: 45%N :: 37%N :: 100%N :: s).
    rewrite (layout_spec _ [PYear] (45%N :: 37%N :: 109%N :: 45%N :: 37%N :: 100%N :: s)) by reflexivity.
    rewrite layout_char by (discriminate || reflexivity).
    rewrite (layout_spec _ [PMonth] (45%N :: 37%N :: 100%N :: s)) by reflexivity.
    rewrite layout_char by (discriminate || reflexivity). rewrite (layout_spec _ [PDay] s) by reflexivity.
    destruct (layout_parts s); reflexivity.
  - rewrite <- IH. change (chars "%T" ++ s) with (37%N :: 84%N :: s).
    rewrite (layout_spec _ [PHour; PLit 58; PMinute; PLit 58; PSecond] s) by reflexivity.
    change (chars "%H:%M:%S" ++ s) with (37%N :: 72%N :: 58%N :: 37%N :: 77%N :: 58%N :: 37%N :: 83%N :: s).
    rewrite (layout_spec _ [PHour] (58%N :: 37%N :: 77%N :: 58%N :: 37%N :: 83%N :: s)) by reflexivity.
    rewrite layout_char by (discriminate || reflexivity).
    rewrite (layout_spec _ [PMinute] (58%N :: 37%N :: 83%N :: s)) by reflexivity.
    rewrite layout_char by (discriminate || reflexivity). rewrite (layout_spec _ [PSecond] s) by reflexivity.
    destruct (layout_parts s); reflexivity.
Qed.
Lemma says_fine c layout txt : says c layout txt -> option_map (existsb is_bad) (layout_parts layout) = Some false.
Proof.
  assert (Q : forall p ps s, existsb is_bad (p :: ps) = false -> option_map (existsb is_bad) (layout_parts s) = Some false ->
    option_map (existsb is_bad) (option_map (app (p :: ps)) (layout_parts s)) = Some false).
  { intros p ps s H. destruct (layout_parts s) as [qs|]; [|discriminate]. cbn [option_map]. rewrite existsb_app, H. auto. }
  assert (Q' : forall p ps s, existsb is_bad (p :: ps) = false -> option_map (existsb is_bad) (option_map (app (p :: ps)) (layout_parts s)) = Some false ->
    option_map (existsb is_bad) (layout_parts s) = Some false).
  { intros p ps s H. destruct (layout_parts s) as [qs|]; [|discriminate]. cbn [option_map]. rewrite existsb_app, H. auto. }
  assert (C : forall x s, (x < 128)%N -> x <> 37%N -> layout_parts (x :: s) = option_map (app [PLit x]) (layout_parts s)).
  { intros. now rewrite layout_char. }
  intros S. induction S as [|x s t Hx Hx' S IH|s t S IH|s t S IH|s t S IH|s t S IH|s t S IH|s t S IH|s t S IH|s t S IH|s t S IH|s t S IH].
  - reflexivity.
  - rewrite C by assumption. now apply Q.
  - change (chars "%%" ++ s) with (37%N :: 37%N :: s). rewrite (layout_spec _ [PLit 37] s) by reflexivity. now apply Q.
  - change (chars "%Y" ++ s) with (37%N :: 89%N :: s). rewrite (layout_spec _ [PYear] s) by reflexivity. now apply Q.
  - change (chars "%m" ++ s) with (37%N :: 109%N :: s). rewrite (layout_spec _ [PMonth] s) by reflexivity. now apply Q.
  - change (chars "%d" ++ s) with (37%N :: 100%N :: s). rewrite (layout_spec _ [PDay] s) by reflexivity. now apply Q.
  - change (chars "%H" ++ s) with (37%N :: 72%N :: s). rewrite (layout_spec _ [PHour] s) by reflexivity. now apply Q.
  - change (chars "%M" ++ s) with (37%N :: 77%N :: s). rewrite (layout_spec _ [PMinute] s) by reflexivity. now apply Q.
  - change (chars "%S" ++ s) with (37%N :: 83%N :: s). rewrite (layout_spec _ [PSecond] s) by reflexivity. now apply Q.
  - change (chars "%.3f" ++ s) with (37%N :: chars ".3f" ++ s). rewrite (layout_spec _ [PFrac true 3] s) by reflexivity. now apply Q.
  - change (chars "%F" ++ s) with (37%N :: 70%N :: s).
    rewrite (layout_spec _ [PYear; PLit 45; PMonth; PLit 45; PDay] s) by reflexivity. apply Q; [reflexivity|].
    change (chars "%Y-%m-%d" ++ s) with (37%N :: 89%N :: 45%N :: 37%N :: 109%N :: 45%N :: 37%N :: 100%N :: s) in IH.
    rewrite (layout_spec _ [PYear] (45%N :: 37%N :: 109%N :: 45%N :: 37%N :: 100%N :: s)) in IH by reflexivity. apply Q' in IH; [|reflexivity].
    rewrite C in IH by (discriminate || reflexivity). apply Q' in IH; [|reflexivity].
    rewrite (layout_spec _ [PMonth] (45%N :: 37%N :: 100%N :: s)) in IH by reflexivity. apply Q' in IH; [|reflexivity].
    rewrite C in IH by (discriminate || reflexivity). apply Q' in IH; [|reflexivity].
    rewrite (layout_spec _ [PDay] s) in IH by reflexivity. now apply Q' in IH.
  - change (chars "%T" ++ s) with (37%N :: 84%N :: s).
    rewrite (layout_spec _ [PHour; PLit 58; PMinute; PLit 58; PSecond] s) by reflexivity. apply Q; [reflexivity|].
    change (chars "%H:%M:%S" ++ s) with (37%N :: 72%N :: 58%N :: 37%N :: 77%N :: 58%N :: 37%N :: 83%N :: s) in IH.
    rewrite (layout_spec _ [PHour] (58%N :: 37%N :: 77%N :: 58%N :: 37%N :: 83%N :: s)) in IH by reflexivity. apply Q' in IH; [|reflexivity].
    rewrite C in IH by (discriminate || reflexivity). apply Q' in IH; [|reflexivity].
    rewrite (layout_spec _ [PMinute] (58%N :: 37%N :: 83%N :: s)) in IH by reflexivity. apply Q' in IH; [|reflexivity].
    rewrite C in IH by (discriminate || reflexivity). apply Q' in IH; [|reflexivity].
    rewrite (layout_spec _ [PSecond] s) in IH by reflexivity. now apply Q' in IH.
Qed.
Lemma broken_bad layout : broken layout -> option_map (existsb is_bad) (layout_parts layout) = Some true.
Proof.
  assert (Q : forall ps s, option_map (existsb is_bad) (layout_parts s) = Some true ->
    option_map (existsb is_bad) (option_map (app ps) (layout_parts s)) = Some true).
  { intros ps s H. destruct (layout_parts s) as [qs|]; [|discriminate]. cbn [option_map] in *. injection H as H.
    rewrite existsb_app, H. now rewrite orb_true_r. }
  intros B. induction B as [|x s H|x s Hx Hx' B IH|k s Hk B IH].
  - reflexivity.
  - unfold layout_parts. cbn [length parts_of]. change (37 =? 37)%N with true. cbv iota.
    assert (E : no_specifier (x :: s) = true) by (apply existsb_exists; exists x; split; [assumption|apply N.eqb_refl]).
    now rewrite E.
  - rewrite layout_char by assumption. change (cons (PLit x)) with (app [PLit x]). now apply Q.
  - cbn [map In] in Hk. repeat destruct Hk as [<-|Hk]; [| | | | | | | | | |contradiction].
    + change (chars "%%" ++ s) with (37%N :: 37%N :: s). rewrite (layout_spec _ [PLit 37] s) by reflexivity. now apply Q.
    + change (chars "%Y" ++ s) with (37%N :: 89%N :: s). rewrite (layout_spec _ [PYear] s) by reflexivity. now apply Q.
    + change (chars "%m" ++ s) with (37%N :: 109%N :: s). rewrite (layout_spec _ [PMonth] s) by reflexivity. now apply Q.
    + change (chars "%d" ++ s) with (37%N :: 100%N :: s). rewrite (layout_spec _ [PDay] s) by reflexivity. now apply Q.
    + change (chars "%H" ++ s) with (37%N :: 72%N :: s). rewrite (layout_spec _ [PHour] s) by reflexivity. now apply Q.
    + change (chars "%M" ++ s) with (37%N :: 77%N :: s). rewrite (layout_spec _ [PMinute] s) by reflexivity. now apply Q.
    + change (chars "%S" ++ s) with (37%N :: 83%N :: s). rewrite (layout_spec _ [PSecond] s) by reflexivity. now apply Q.
    + change (chars "%.3f" ++ s) with (37%N :: chars ".3f" ++ s). rewrite (layout_spec _ [PFrac true 3] s) by reflexivity. now apply Q.
    + change (chars "%F" ++ s) with (37%N :: 70%N :: s).
      rewrite (layout_spec _ [PYear; PLit 45; PMonth; PLit 45; PDay] s) by reflexivity. now apply Q.
    + change (chars "%T" ++ s) with (37%N :: 84%N :: s).
      rewrite (layout_spec _ [PHour; PLit 58; PMinute; PLit 58; PSecond] s) by reflexivity. now apply Q.
Qed.
Lemma layout_broken z now layout : broken layout -> local_text z now layout = Some None.
Proof.
  intros B. apply broken_bad in B. unfold local_text. destruct (layout_parts layout) as [ps|]; [|discriminate].
  cbn [option_map] in *. injection B as B. unfold display. now rewrite B.
Qed.
Lemma layout_said z now c layout txt : clock_at z now c -> four_digits (on_date c) -> says c layout txt ->
  local_text z now layout = Some (Some txt).
Proof.
  intros H F S. pose proof (clock_real _ _ _ H) as (R & R1 & R2 & R3 & R4). pose proof (says_fine _ _ _ S) as G.
  pose proof (said _ (now mod nano) c layout txt (clock_shows _ _ _ H) R F R1 R2 R3 R4 S) as T. unfold local_text.
  destruct (layout_parts layout) as [ps|]; [|discriminate]. cbn [option_map] in *. injection G as G. injection T as T.
  unfold display. now rewrite G, T.
Qed.
Lemma usual_said c : says c (chars "%Y-%m-%d %H:%M:%S%.3f") (usual_text c).
Proof.
  unfold usual_text.
  apply (says_year c (chars "-%m-%d %H:%M:%S%.3f")). apply says_char; [reflexivity|discriminate|].
  apply (says_month c (chars "-%d %H:%M:%S%.3f")). apply says_char; [reflexivity|discriminate|].
  apply (says_day c (chars " %H:%M:%S%.3f")). apply says_char; [reflexivity|discriminate|].
  apply (says_hour c (chars ":%M:%S%.3f")). apply says_char; [reflexivity|discriminate|].
  apply (says_minute c (chars ":%S%.3f")). apply says_char; [reflexivity|discriminate|].
  apply (says_second c (chars "%.3f")). rewrite <- (app_nil_r (three (c_milli c))).
  apply (says_milli c []). apply says_end.
Qed.
Lemma stamp_said k c : says c (stamp_layout k) (stamp_text k c).
Proof.
  unfold stamp_text. destruct k.
  - apply says_char; [reflexivity|discriminate|]. apply (says_year c (chars "%m%d%H")). apply (says_month c (chars "%d%H")).
    apply (says_day c (chars "%H")). rewrite <- (app_nil_r (two (c_hour c))). apply (says_hour c []). apply says_end.
  - apply says_char; [reflexivity|discriminate|]. apply (says_year c (chars "%m%d")). apply (says_month c (chars "%d")).
    apply (says_day c []). apply says_end.
Qed.

(** stamps *)
Definition stamp_of (k : rotation_kind) (n : Z) : str :=
  let l := n * period_of k in let d := date_at (l / day) in
  chars "." ++ year_text (in_year d) ++ two (in_month d) ++ two (of_month d)
  ++ match k with Hourly => two (l mod day / 3600) | Daily_ => [] end.
Lemma stamps_of k n : stamps k n = stamp_of k n.
Proof.
  pose proof (date_at_real (n * period_of k / day)) as [[R1 R2] _].
  assert (0 <= n * period_of k mod day < day) by (apply Z.mod_pos_bound; reflexivity).
  unfold stamps, stamp_of. cbv zeta. revert R1 R2. unfold date_at. destruct (civil (n * period_of k / day)) as [[y m] d] eqn:E.
  cbn [in_year in_month of_month]. intros R1 R2. pose proof (ml_bounds (is_leap y) _ R1) as R4.
  assert (0 <= n * period_of k mod day / 3600 < 24) by (unfold day in *; lia).
  destruct k; cbn [layout_parts stamp_layout].
  - change (layout_parts (chars ".%Y%m%d%H")) with (Some [PLit 46; PYear; PMonth; PDay; PHour]). unfold parts_text, part_text.
    cbn [map concat]. rewrite E. unfold hms. cbn [app]. rewrite app_nil_r. rewrite !padded_two by lia. reflexivity.
  - change (layout_parts (chars ".%Y%m%d")) with (Some [PLit 46; PYear; PMonth; PDay]). unfold parts_text, part_text.
    cbn [map concat]. rewrite E. unfold hms. cbn [app]. rewrite !app_nil_r. rewrite !padded_two by lia. reflexivity.
Qed.
Lemma app_same_tail (A : Type) (a b c d : list A) : length c = length d -> a ++ c = b ++ d -> a = b /\ c = d.
Proof.
  revert b. induction a as [|x a IH]; intros [|y b] L H.
  - auto.
  - apply (f_equal (@length A)) in H. cbn [app] in H. rewrite ?app_length in H. cbn [length] in H. rewrite ?app_length in H. lia.
  - apply (f_equal (@length A)) in H. cbn [app] in H. rewrite ?app_length in H. cbn [length] in H. rewrite ?app_length in H. lia.
  - cbn [app] in H. injection H as -> H. apply IH in H as [-> ->]; auto.
Qed.
Lemma stamps_inj k n n' : stamps k n = stamps k n' -> n = n'.
Proof.
  rewrite !stamps_of. unfold stamp_of. cbv zeta. intros H. apply app_inv_head in H.
  pose proof (date_at_real (n * period_of k / day)) as [[R1 R2] R3]. pose proof (date_at_real (n' * period_of k / day)) as [[R1' R2'] R3'].
  destruct (date_at (n * period_of k / day)) as [y m d], (date_at (n' * period_of k / day)) as [y' m' d'].
  cbn [in_year in_month of_month] in *. pose proof (ml_bounds (is_leap y) _ R1). pose proof (ml_bounds (is_leap y') _ R1').
  apply app_same_tail in H as [Hy H]; [|destruct k; reflexivity]. apply year_text_inj in Hy as ->.
  apply app_same_tail in H as [Hm H]; [|destruct k; reflexivity]. apply two_inj in Hm as ->; try lia.
  apply app_same_tail in H as [Hd H]; [|destruct k; reflexivity]. apply two_inj in Hd as ->; try lia.
  rewrite R3 in R3'. destruct k.
  - cbn [period_of] in *. unfold day, hour in *. apply two_inj in H; lia.
  - cbn [period_of] in *. unfold day in *. lia.
Qed.
Lemma period_day k l : l / period_of k * period_of k / day = l / day.
Proof.
  destruct k; cbn [period_of].
  - change day with (hour * 24). rewrite <- (Z.div_div l hour 24) by (unfold hour; lia). rewrite (Z.mul_comm (l / hour)).
    rewrite Z.div_mul_cancel_l by (unfold hour; lia). reflexivity.
  - now rewrite Z.div_mul by discriminate.
Qed.
Lemma period_hour l : l / period_of Hourly * period_of Hourly mod day / 3600 = l mod day / 3600.
Proof.
  pose proof (period_day Hourly l) as E. pose proof (Z.div_mod l day ltac:(discriminate)) as M.
  pose proof (Z.div_mod (l / period_of Hourly * period_of Hourly) day ltac:(discriminate)) as M'. rewrite E in M'.
  cbn [period_of] in *. unfold hour, day in *. lia.
Qed.
Lemma stamps_text z now c k : clock_at z now c -> four_digits (on_date c) ->
  stamps k (local_secs z now / period_of k) = stamp_text k c.
Proof.
  intros H F. apply clock_shows in H as (E1 & E2 & _). rewrite stamps_of. unfold stamp_of, stamp_text. cbv zeta.
  set (l := local_secs z now) in *.
  assert (E : l / period_of k * period_of k / day = l / day) by apply period_day.
  rewrite E. unfold date_at. rewrite E1. cbn [in_year in_month of_month]. f_equal. f_equal.
  { unfold year_text, four_digits in *. replace ((0 <=? in_year (on_date c)) && (in_year (on_date c) <=? 9999)) with true by lia.
    now apply padded_four. }
  f_equal. f_equal. destruct k; [|reflexivity]. f_equal. unfold hms in E2. injection E2 as E2 _ _. rewrite <- E2.
  apply period_hour.
Qed.

(** order *)
Lemma day_no_less y o y' o' : 1 <= o <= year_len y -> 1 <= o' <= year_len y' -> y < y' -> day_no y o < day_no y' o'.
Proof.
  intros H H' L. assert (0 <= y mod 400 < 400) by (apply Z.mod_pos_bound; lia). assert (0 <= y' mod 400 < 400) by (apply Z.mod_pos_bound; lia).
  assert (Hl : forall a, year_len (a mod 400) = year_len a) by (intros; unfold year_len; now rewrite leap_mod).
  unfold day_no. destruct (Z.eq_dec (y / 400) (y' / 400)) as [E|E].
  - rewrite E. assert (y mod 400 < y' mod 400) by lia.
    pose proof (yo_le (y mod 400) o (y' mod 400) o'). rewrite !Hl in *. lia.
  - assert (y / 400 < y' / 400) by lia.
    pose proof (yo_cycle (y mod 400) o). pose proof (yo_cycle (y' mod 400) o'). rewrite !Hl in *. lia.
Qed.
Definition day_before (d d' : date) : Prop :=
  in_year d < in_year d' \/ (in_year d = in_year d' /\ (in_month d < in_month d' \/ (in_month d = in_month d' /\ of_month d < of_month d'))).
Lemma day_no_mono y o o' : day_no y o < day_no y o' <-> o < o'.
Proof. unfold day_no, yo_to_cycle. lia. Qed.
Lemma number_before d d' : real d -> real d' -> number d < number d' -> day_before d d'.
Proof.
  intros R R' H. pose proof (real_ordinal d R) as O. pose proof (real_ordinal d' R') as O'. cbv zeta in O, O'. unfold number in H. unfold day_before.
  destruct (Z.lt_trichotomy (in_year d) (in_year d')) as [L|[E|L]]; [now left| |].
  - right. split; [assumption|]. destruct R as [R1 R2], R' as [R1' R2']. rewrite E in *. apply day_no_mono in H.
    destruct (Z.lt_trichotomy (in_month d) (in_month d')) as [L|[E'|L]]; [now left| |].
    + right. split; [assumption|]. rewrite E' in *. lia.
    + pose proof (before_lt (is_leap (in_year d')) (in_month d') (in_month d)). lia.
  - pose proof (day_no_less _ _ _ _ O' O L). lia.
Qed.
Lemma sorts_cons a s t : sorts_before s t -> sorts_before (a :: s) (a :: t).
Proof. intros (p & x & y & s' & t' & -> & -> & H). exists (a :: p), x, y, s', t'. auto. Qed.
Lemma sorts_app p s t : sorts_before s t -> sorts_before (p ++ s) (p ++ t).
Proof. induction p; [auto|]. intros H. apply sorts_cons. auto. Qed.
Lemma sorts_more s t u v : sorts_before s t -> sorts_before (s ++ u) (t ++ v).
Proof. intros (p & x & y & s' & t' & -> & -> & H). exists p, x, y, (s' ++ u), (t' ++ v). now rewrite <- !app_assoc. Qed.
Lemma sorts_head a b s t : (a < b)%N -> sorts_before (a :: s) (b :: t).
Proof. intros H. now exists [], a, b, s, t. Qed.
Lemma two_less n n' : 0 <= n -> n < n' -> n' < 100 -> sorts_before (two n) (two n').
Proof.
  intros H1 H2 H3. unfold two, figure. change (10 ^ 1) with 10. change (10 ^ 0) with 1.
  assert (n / 10 mod 10 < n' / 10 mod 10 \/ (n / 10 mod 10 = n' / 10 mod 10 /\ n / 1 mod 10 < n' / 1 mod 10)) as [L|[E L]] by lia.
  - apply sorts_head. lia.
  - rewrite E. apply sorts_cons, sorts_head. lia.
Qed.
Lemma three_less n n' : 0 <= n -> n < n' -> n' < 1000 -> sorts_before (three n) (three n').
Proof.
  intros H1 H2 H3. unfold three, figure. change (10 ^ 2) with 100. change (10 ^ 1) with 10. change (10 ^ 0) with 1.
  assert (n / 100 mod 10 < n' / 100 mod 10 \/ (n / 100 mod 10 = n' / 100 mod 10 /\
    (n / 10 mod 10 < n' / 10 mod 10 \/ (n / 10 mod 10 = n' / 10 mod 10 /\ n / 1 mod 10 < n' / 1 mod 10)))) as [L|[E [L|[E' L]]]] by lia.
  - apply sorts_head. lia.
  - rewrite E. apply sorts_cons, sorts_head. lia.
  - rewrite E, E'. apply sorts_cons, sorts_cons, sorts_head. lia.
Qed.
Lemma four_less n n' : 0 <= n -> n < n' -> n' <= 9999 -> sorts_before (four n) (four n').
Proof.
  intros H1 H2 H3. unfold four, figure. change (10 ^ 3) with 1000. change (10 ^ 2) with 100. change (10 ^ 1) with 10. change (10 ^ 0) with 1.
  assert (n / 1000 mod 10 < n' / 1000 mod 10 \/ (n / 1000 mod 10 = n' / 1000 mod 10 /\
   (n / 100 mod 10 < n' / 100 mod 10 \/ (n / 100 mod 10 = n' / 100 mod 10 /\
    (n / 10 mod 10 < n' / 10 mod 10 \/ (n / 10 mod 10 = n' / 10 mod 10 /\ n / 1 mod 10 < n' / 1 mod 10)))))) as [L|[E0 [L|[E [L|[E' L]]]]]] by lia.
  - apply sorts_head. lia.
  - rewrite E0. apply sorts_cons, sorts_head. lia.
  - rewrite E0, E. apply sorts_cons, sorts_cons, sorts_head. lia.
  - rewrite E0, E, E'. apply sorts_cons, sorts_cons, sorts_cons, sorts_head. lia.
Qed.
Lemma days_less d d' s t : day_before d d' -> real d -> real d' -> four_digits d -> four_digits d' -> forall u v,
  sorts_before (four (in_year d) ++ s ++ two (in_month d) ++ t ++ two (of_month d) ++ u)
    (four (in_year d') ++ s ++ two (in_month d') ++ t ++ two (of_month d') ++ v).
Proof.
  intros B [R1 R2] [R1' R2'] F F' u v. unfold four_digits in *. pose proof (ml_bounds (is_leap (in_year d)) _ R1). pose proof (ml_bounds (is_leap (in_year d')) _ R1').
  destruct B as [L|[E [L|[E' L]]]].
  - apply sorts_more, four_less; lia.
  - rewrite E. apply sorts_app, sorts_app, sorts_more, two_less; lia.
  - rewrite E, E'. apply sorts_app, sorts_app, sorts_app, sorts_app, sorts_more, two_less; lia.
Qed.
Definition clock_fine (c : clock) : Prop :=
  real (on_date c) /\ four_digits (on_date c) /\ 0 <= c_hour c < 24 /\ 0 <= c_minute c < 60 /\ 0 <= c_second c < 60 /\ 0 <= c_milli c < 1000.
Lemma usual_less c c' : clock_fine c -> clock_fine c' -> earlier c c' -> sorts_before (usual_text c) (usual_text c').
Proof.
  intros (R & F & B1 & B2 & B3 & B4) (R' & F' & B1' & B2' & B3' & B4') (n & n' & Hn & Hn' & L).
  apply date_of_real in Hn as [_ Hn], Hn' as [_ Hn']. unfold usual_text. cbv zeta.
  destruct (Z.lt_trichotomy n n') as [N|[N|N]]; [| |lia].
  - apply days_less; auto. apply number_before; auto. lia.
  - assert (E : on_date c = on_date c') by (apply number_inj; auto; lia). rewrite E. apply sorts_app, sorts_app, sorts_app, sorts_app, sorts_app, sorts_app.
    destruct (Z.lt_trichotomy (c_hour c) (c_hour c')) as [M|[M|M]]; [apply sorts_more, two_less; lia| |lia]. rewrite M. apply sorts_app, sorts_app.
    destruct (Z.lt_trichotomy (c_minute c) (c_minute c')) as [M1|[M1|M1]]; [apply sorts_more, two_less; lia| |lia]. rewrite M1. apply sorts_app, sorts_app.
    destruct (Z.lt_trichotomy (c_second c) (c_second c')) as [M2|[M2|M2]]; [apply sorts_more, two_less; lia| |lia]. rewrite M2. apply sorts_app, sorts_app.
    apply three_less; lia.
Qed.
Lemma stamp_less k c c' : clock_fine c -> clock_fine c' -> earlier c c' ->
  stamp_text k c = stamp_text k c' \/ sorts_before (stamp_text k c) (stamp_text k c').
Proof.
  intros (R & F & B1 & B2 & B3 & B4) (R' & F' & B1' & B2' & B3' & B4') (n & n' & Hn & Hn' & L).
  apply date_of_real in Hn as [_ Hn], Hn' as [_ Hn']. unfold stamp_text. cbv zeta.
  destruct (Z.lt_trichotomy n n') as [N|[N|N]]; [| |lia].
  - right. apply sorts_app. apply (days_less _ _ [] []); auto. apply number_before; auto. lia.
  - assert (E : on_date c = on_date c') by (apply number_inj; auto; lia). rewrite E. destruct k; [|now left].
    destruct (Z.lt_trichotomy (c_hour c) (c_hour c')) as [M|[M|M]]; [|rewrite M; now left|lia].
    right. apply sorts_app, sorts_app, sorts_app, sorts_app, two_less; lia.
Qed.
Lemma clock_is_fine z now c : clock_at z now c -> four_digits (on_date c) -> clock_fine c.
Proof. intros H F. apply clock_real in H as (? & ? & ? & ? & ?). unfold clock_fine. auto 10. Qed.
Lemma stamps_local z now k : local_text z now (stamp_layout k) = Some (Some (stamps k (local_secs z now / period_of k))).
Proof.
  set (l := local_secs z now). assert (H : forall p, In p [PLit 46; PYear; PMonth; PDay] ->
    part_text l (now mod nano) p = part_text (l / period_of k * period_of k) 0 p).
  { intros p Hp. unfold part_text. rewrite period_day. destruct (civil (l / day)) as [[y m] d]. unfold hms.
    cbn [In] in Hp. repeat destruct Hp as [<-|Hp]; try reflexivity. contradiction. }
  unfold local_text, stamps. fold l. destruct k.
  - change (layout_parts (stamp_layout Hourly)) with (Some [PLit 46; PYear; PMonth; PDay; PHour]). cbn [option_map]. unfold display.
    change (existsb is_bad [PLit 46; PYear; PMonth; PDay; PHour]) with false. cbv iota. f_equal. f_equal. unfold parts_text. cbn [map].
    rewrite !H by (cbn; auto). do 5 f_equal. unfold part_text. rewrite period_day.
    destruct (civil (l / day)) as [[y m] d]. unfold hms. now rewrite period_hour.
  - change (layout_parts (stamp_layout Daily_)) with (Some [PLit 46; PYear; PMonth; PDay]). cbn [option_map]. unfold display.
    change (existsb is_bad [PLit 46; PYear; PMonth; PDay]) with false. cbv iota. f_equal. f_equal. unfold parts_text. cbn [map].
    now rewrite !H by (cbn; auto).
Qed.
Lemma fixed_earlier z o now now' c c' : fixed z o -> clock_at z now c -> clock_at z now' c' -> now / 1000000 < now' / 1000000 -> earlier c c'.
Proof.
  intros [F _] (t & n & Ht & Hs & Hd & H1 & H2 & H3 & Hm) (t' & n' & Ht' & Hs' & Hd' & H1' & H2' & H3' & Hm') L.
  exists n, n'. splits; auto. unfold shows in *. rewrite F in *. lia.
Qed.
Lemma fixed_not_later z o now now' c c' : fixed z o -> clock_at z now c -> clock_at z now' c' -> now <= now' -> earlier c c' \/ c = c'.
Proof.
  intros F H H' L. destruct (Z.lt_ge_cases (now / 1000000) (now' / 1000000)) as [M|M].
  - left. eapply fixed_earlier; eauto.
  - right. assert (E : now / 1000000 = now' / 1000000) by (pose proof (Z.div_le_mono now now' 1000000); lia).
    destruct F as [F _].
    apply clock_shows in H as (A1 & A2 & A3 & _), H' as (B1 & B2 & B3 & _). unfold local_secs in *. rewrite F in *.
    assert (S : secs now = secs now').
    { unfold secs, nano. change 1000000000 with (1000000 * 1000). rewrite <- !Z.div_div by lia. now rewrite E. }
    rewrite S in *. assert (M' : now mod nano / 1000000 = now' mod nano / 1000000).
    { unfold secs in S. rewrite !Z.mod_eq by discriminate. rewrite S. unfold nano in *. lia. }
    rewrite M' in A3. rewrite B1 in A1. rewrite B2 in A2. rewrite B3 in A3. destruct c as [[y m d] h mi s ms], c' as [[y' m' d'] h' mi' s' ms'].
    cbn [on_date in_year in_month of_month c_hour c_minute c_second c_milli] in *. congruence.
Qed.
