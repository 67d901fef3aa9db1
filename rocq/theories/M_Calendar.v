(** Model of the part of chrono's calendar that src/utils/luxon.rs and the log layouts use:
    chrono::NaiveDate from and to day numbers (the proleptic Gregorian calendar).  A day is given by
    its number, 1970-01-01 being day 0.  chrono's range of years (about 262000 either way) is not
    modelled. *)
From Verif Require Export M_Base.
Local Open Scope Z_scope.

(** chrono::naive::internals::YEAR_DELTAS: the leap days in the first [y] years of a cycle of 400 *)
Definition year_delta (y : Z) : Z := (y + 3) / 4 - (y + 99) / 100 + (y + 399) / 400.
(** chrono::naive::internals::cycle_to_yo: year of the cycle and day of the year (from 1) *)
Definition cycle_to_yo (c : Z) : Z * Z :=
  let y := c / 365 in
  let o := c mod 365 in
  let delta := year_delta y in
  if o <? delta then (y - 1, o + (365 - year_delta (y - 1)) + 1) else (y, o - delta + 1).
(** chrono::naive::internals::yo_to_cycle *)
Definition yo_to_cycle (y o : Z) : Z := y * 365 + year_delta y + o - 1.

(** chrono's tables OL_TO_MDL and MDL_TO_OL, as the lengths of the months *)
Definition is_leap (y : Z) : bool := ((y mod 4 =? 0) && negb (y mod 100 =? 0)) || (y mod 400 =? 0).
Definition month_lengths (leap : bool) : list Z :=
  [31; if leap then 29 else 28; 31; 30; 31; 30; 31; 31; 30; 31; 30; 31].
Fixpoint month_day (lengths : list Z) (m o : Z) : Z * Z :=
  match lengths with
  | [] => (m, o)
  | l :: rest => if o <=? l then (m, o) else month_day rest (m + 1) (o - l)
  end.
Definition days_before (lengths : list Z) (m : Z) : Z := fold_right Z.add 0 (firstn (Z.to_nat (m - 1)) lengths).

(** NaiveDate::from_num_days_from_ce_opt, year(), month(), day(), ordinal(); day 0 of the cycles is
    January 1 of the year 0 *)
Definition days_to_epoch : Z := 719528.
Definition year_ordinal (n : Z) : Z * Z :=
  let d := n + days_to_epoch in
  let (y, o) := cycle_to_yo (d mod 146097) in (d / 146097 * 400 + y, o).
Definition civil (n : Z) : Z * Z * Z :=
  let (y, o) := year_ordinal n in
  let (m, d) := month_day (month_lengths (is_leap y)) 1 o in (y, m, d).
(** NaiveDate::from_ymd_opt, as the number of the day *)
Definition from_ymd (y m d : Z) : option Z :=
  let lengths := month_lengths (is_leap y) in
  if (1 <=? m) && (m <=? 12) && (1 <=? d) && (d <=? nth (Z.to_nat (m - 1)) lengths 0)
  then Some (y / 400 * 146097 + yo_to_cycle (y mod 400) (days_before lengths m + d) - days_to_epoch)
  else None.
(** NaiveTime::from_hms_milli_opt, as the number of the second (the milliseconds given are 0) *)
Definition from_hms (h mi s : Z) : option Z :=
  if (h <? 24) && (mi <? 60) && (s <? 60) then Some (h * 3600 + mi * 60 + s) else None.
(** hour(), minute(), second() of a time of day *)
Definition hms (t : Z) : Z * Z * Z := (t / 3600, t / 60 mod 60, t mod 60).
