(** Properties C120, C121 and more of C78: dates and times in log lines and file names. *)
From Verif Require Import F_Strftime P_Files.
Local Open Scope Z_scope.

(** C120: every day has the date that counting from 1 January 1970 gives it, and the other way
    round. *)
Theorem C120_calendar : forall n y m d, civil n = (y, m, d) <-> date_of n (Date y m d).
Proof.
  intros n y m d. rewrite date_of_at. unfold date_at. destruct (civil n) as [[y' m'] d']. split; congruence.
Qed.
Print Assumptions C120_calendar.
Theorem C120_days : forall n y m d, from_ymd y m d = Some n <-> date_of n (Date y m d).
Proof.
  intros n y m d. rewrite from_ymd_real, date_of_at. split.
  - intros [R ->]. now apply number_date.
  - intros <-. destruct (date_at_real n) as [R E]. auto.
Qed.
Print Assumptions C120_days.
(** A clock in a time zone shows one date and time. *)
Theorem C120_clock : forall z now, exists c, clock_at z now c /\ forall c', clock_at z now c' -> c' = c.
Proof.
  intros z now. destruct (clock_exists z now) as [c H]. exists c. split; [easy|]. intros c' H'. now apply (clock_one z now).
Qed.
Print Assumptions C120_clock.
(** The time of a record is shown as its local date and time, to the millisecond, ... *)
Theorem C120_default : forall z other it c, clock_at z (Z.of_N (i_time it)) c -> four_digits (on_date c) ->
  time_text (fmtlocal z other) [] it = Ret (map ascii_of_N (usual_text c)).
Proof.
  intros z other it c H F. unfold time_text, fmtlocal, default_layout. now rewrite (layout_said _ _ _ _ _ H F (usual_said c)).
Qed.
Print Assumptions C120_default.
(** ... or in the layout that is set. *)
Theorem C120_layouts : forall z other it c layout txt, clock_at z (Z.of_N (i_time it)) c -> four_digits (on_date c) ->
  layout <> [] -> says c layout txt -> time_text (fmtlocal z other) layout it = Ret (map ascii_of_N txt).
Proof.
  intros z other it c layout txt H F N S. unfold time_text, fmtlocal. destruct layout as [|x layout]; [congruence|].
  now rewrite (layout_said _ _ _ _ _ H F S).
Qed.
Print Assumptions C120_layouts.
(** Without clock changes, lines sort by time: records of different milliseconds have texts in
    alphabetical order. *)
Theorem C120_order : forall z o other it it' c c', fixed z o ->
  clock_at z (Z.of_N (i_time it)) c -> clock_at z (Z.of_N (i_time it')) c' -> four_digits (on_date c) -> four_digits (on_date c') ->
  (i_time it / 1000000 < i_time it' / 1000000)%N ->
  exists t t', time_text (fmtlocal z other) [] it = Ret (map ascii_of_N t)
    /\ time_text (fmtlocal z other) [] it' = Ret (map ascii_of_N t') /\ sorts_before t t'.
Proof.
  intros z o other it it' c c' Fx H H' F F' L. exists (usual_text c), (usual_text c'). splits; try now apply C120_default.
  apply usual_less; [eapply clock_is_fine; eauto|eapply clock_is_fine; eauto|]. eapply fixed_earlier; eauto. lia.
Qed.
Print Assumptions C120_order.
Definition berlin_summer : zone := Zone (fun _ => 7200) (fun l => Single (l - 7200)).
Example C120_nonvacuous :
  let it := Item 1715925780125000000 Info (B "main.rs") 7 (B "hello") [] 0 in
  let c := Clock (Date 2024 5 17) 8 3 0 125 in
  clock_at berlin_summer (Z.of_N (i_time it)) c /\ four_digits (on_date c) /\ fixed berlin_summer 7200
  /\ time_text (fmtlocal berlin_summer (fun _ _ => None)) [] it = Ret (B "2024-05-17 08:03:00.125")
  /\ time_text (fmtlocal berlin_summer (fun _ _ => None)) (chars "%d.%m. %T") it = Ret (B "17.05. 08:03:00")
  /\ date_of (-1) (Date 1969 12 31) /\ date_of 11016 (Date 2000 2 29).
Proof.
  cbv zeta. assert (D : date_at 19860 = Date 2024 5 17) by (vm_compute; reflexivity).
  assert (C : clock_at berlin_summer 1715925780125000000 (Clock (Date 2024 5 17) 8 3 0 125)).
  { exists 1715925780, 19860. cbn [on_date c_hour c_minute c_second c_milli]. splits; try lia; [vm_compute; reflexivity|].
    now apply date_of_at. }
  splits.
  - exact C.
  - unfold four_digits. cbn. lia.
  - split; intros; reflexivity.
  - vm_compute; reflexivity.
  - vm_compute; reflexivity.
  - apply date_of_at; vm_compute; reflexivity.
  - apply date_of_at; vm_compute; reflexivity.
Qed.

(** C78 fails for layouts such as "100%" or "%Y%Q": no record can be rendered. *)
Theorem C78_broken_refuted : forall z other r it, broken (r_timelayout r) ->
  (forall t, ~ shown_time (fmtlocal z other) (r_timelayout r) it t) /\ render (fmtlocal z other) r it = Panic.
Proof.
  intros z other r it B. assert (E : fmtlocal z other (i_time it) (match r_timelayout r with [] => default_layout | _ => r_timelayout r end) = None).
  { assert (N : r_timelayout r <> []) by (intros X; rewrite X in B; inversion B as [| | |k l Hk _ Hl];
      cbn [map In] in Hk; repeat destruct Hk as [<-|Hk]; try discriminate; contradiction).
    unfold fmtlocal. destruct (r_timelayout r) as [|x l]; [congruence|]. now rewrite (layout_broken _ _ _ B). }
  split.
  - intros t. unfold shown_time. change usual_layout with default_layout. congruence.
  - unfold render, render_json, render_color, time_text. rewrite E. now destruct (r_kind r).
Qed.
Print Assumptions C78_broken_refuted.
(** What holds: a layout of characters and these specifiers renders every record of the years
    0 to 9999. *)
Theorem C78_layouts_partial : forall z other r it c, clock_at z (Z.of_N (i_time it)) c -> four_digits (on_date c) ->
  r_timelayout r = [] \/ (exists txt, says c (r_timelayout r) txt) ->
  exists line, render (fmtlocal z other) r it = Ret line.
Proof.
  intros z other r it c H F L.
  assert (exists t, time_text (fmtlocal z other) (r_timelayout r) it = Ret t) as [t E].
  { destruct (r_timelayout r) as [|x l] eqn:El.
    - eexists. eapply C120_default; eauto.
    - destruct L as [L|[txt L]]; [discriminate|]. eexists. eapply C120_layouts; eauto. discriminate. }
  unfold render, render_json, render_color. rewrite E. destruct (r_kind r); cbn [obind]; eauto.
Qed.
Print Assumptions C78_layouts_partial.
Example C78_layouts_nonvacuous : broken (chars "100%") /\ broken (chars "%Y%Q")
  /\ says (Clock (Date 2024 5 17) 8 3 0 125) (chars "%d.%m.") (chars "17.05.").
Proof.
  splits.
  - change (chars "100%") with (49%N :: 48%N :: 48%N :: chars "%"). repeat (apply broken_char; [reflexivity|discriminate|]). apply broken_end.
  - apply (broken_rest (chars "%Y") (chars "%Q")); [cbn; auto|]. apply (broken_letter 81 []). cbn. auto 10.
  - replace (chars "17.05.") with (two 17 ++ 46%N :: two 5 ++ [46%N]) by (vm_compute; reflexivity).
    apply (says_day (Clock (Date 2024 5 17) 8 3 0 125) (chars ".%m.")). apply says_char; [reflexivity|discriminate|].
    apply (says_month (Clock (Date 2024 5 17) 8 3 0 125) (chars ".")). apply says_char; [reflexivity|discriminate|]. apply says_end.
Qed.

(** C121: a log is rotated to the name its layout gives for the local time, ... *)
Theorem C121_layout : forall r now, rt_stamps r = stamps (rt_kind r) ->
  local_text (rt_zone r) now (stamp_layout (rt_kind r)) = Some (Some (stamp_at r now)).
Proof. intros r now E. unfold stamp_at. rewrite E. apply stamps_local. Qed.
Print Assumptions C121_layout.
(** ... that is, to year, month and day, and the hour of hourly logs. *)
Theorem C121_named : forall r now c, rt_stamps r = stamps (rt_kind r) ->
  clock_at (rt_zone r) now c -> four_digits (on_date c) -> stamp_at r now = stamp_text (rt_kind r) c.
Proof. intros r now c E H F. unfold stamp_at. rewrite E. now apply stamps_text. Qed.
Print Assumptions C121_named.
(** This is the name of the log of the period in which it is rotated. *)
Theorem C121_archive : forall r now c k, rt_stamps r = stamps (rt_kind r) ->
  clock_at (rt_zone r) now c -> four_digits (on_date c) -> period_at r now k ->
  archive r k = rotated_name (rt_name r) (stamp_text (rt_kind r) c).
Proof.
  intros r now c k E H F P. rewrite <- (C121_named _ _ _ E H F). unfold archive, stamp_at. do 2 f_equal.
  unfold period_at, in_period in P. unfold local_secs, secs, nano. apply Z.div_unique_pos with (r := now / 1000000000 + offset (rt_zone r) (now / 1000000000) - k * period_of (rt_kind r)).
  all: change (period_of (rt_kind r)) with (length_of (rt_kind r)); lia.
Qed.
Print Assumptions C121_archive.
(** Two different days or hours never have the same name, in whatever years; ... *)
Theorem C121_distinct : forall k n n', stamps k n = stamps k n' -> n = n'.
Proof. exact stamps_inj. Qed.
Print Assumptions C121_distinct.
(** ... and, without clock changes, names sort by time. *)
Theorem C121_sorted : forall r o now now' c c', rt_stamps r = stamps (rt_kind r) -> fixed (rt_zone r) o ->
  clock_at (rt_zone r) now c -> clock_at (rt_zone r) now' c' -> four_digits (on_date c) -> four_digits (on_date c') ->
  now <= now' -> stamp_at r now = stamp_at r now' \/ sorts_before (stamp_at r now) (stamp_at r now').
Proof.
  intros r o now now' c c' E Fx H H' F F' L. rewrite (C121_named _ _ _ E H F), (C121_named _ _ _ E H' F').
  destruct (fixed_not_later _ _ _ _ _ _ Fx H H' L) as [B|<-]; [|now left].
  apply stamp_less; auto; eapply clock_is_fine; eauto.
Qed.
Print Assumptions C121_sorted.
(** So C79's theorem about kept logs needs no assumption about names. *)
Theorem C121_kept : forall e t nm d fp bufsize kind z o digits r rs K cs1 cs2 rs1 oks1 rs2 oks2,
  fixed z o -> monotone e -> permissive e -> calm e -> names_ok nm d ->
  rot_new e t nm d fp bufsize kind z (stamps kind) digits = Ret (Some (r, rs)) ->
  in_period z (length_of kind) (secs (e_now e (S t))) K ->
  (forall k, (K < k)%Z -> denotes nm (archive r k) = None) ->
  rot_calls e r rs cs1 = Ret (rs1, oks1) -> rot_calls e r rs1 cs2 = Ret (rs2, oks2) ->
  forall p i, p <> fp -> denotes (names (fst rs1)) p = Some i -> denotes (names (fst rs2)) p = Some i.
Proof.
  intros. eapply C79_archives_kept_partial with (stamps := stamps kind) (cs1 := cs1) (cs2 := cs2); eauto.
  - intros k. rewrite stamps_of. discriminate.
  - apply stamps_inj.
Qed.
Print Assumptions C121_kept.
Example C121_nonvacuous :
  let r k := Rotation k berlin_summer (chars "a.log") ([], chars "a", chars "log") (stamps k) nanos_text in
  let now := 1715925780125000000 in
  stamp_at (r Daily_) now = chars ".20240517" /\ stamp_at (r Hourly) now = chars ".2024051708"
  /\ stamps Daily_ (-1) = chars ".19691231" /\ stamps Daily_ 2932897 = chars ".+100000101"
  /\ sorts_before (chars ".20240517") (chars ".20240601").
Proof.
  cbv zeta. splits.
  1-4: vm_compute; reflexivity.
  exists (chars ".20240"), 53%N, 54%N, (chars "17"), (chars "01"). splits; reflexivity.
Qed.
