(** The calendar, as one would explain it. *)
From Verif Require Export M_Luxon.
Local Open Scope Z_scope.

Record date := Date { in_year : Z; in_month : Z; of_month : Z }.
Definition leap_year (y : Z) : Prop := (y mod 4 = 0 /\ y mod 100 <> 0) \/ y mod 400 = 0.
(** how long a month is *)
Definition month_has (y m n : Z) : Prop :=
  (In m [4; 6; 9; 11] /\ n = 30) \/ (In m [1; 3; 5; 7; 8; 10; 12] /\ n = 31)
  \/ (m = 2 /\ leap_year y /\ n = 29) \/ (m = 2 /\ ~ leap_year y /\ n = 28).
(** the day after *)
Inductive tomorrow : date -> date -> Prop :=
| same_month y m d n : month_has y m n -> 1 <= d < n -> tomorrow (Date y m d) (Date y m (d + 1))
| next_month y m n : month_has y m n -> m < 12 -> tomorrow (Date y m n) (Date y (m + 1) 1)
| next_year y : tomorrow (Date y 12 31) (Date (y + 1) 1 1).
(** the date of a day, counted from January 1, 1970 *)
Inductive date_of : Z -> date -> Prop :=
| on_epoch : date_of 0 (Date 1970 1 1)
| day_later n d d' : date_of n d -> tomorrow d d' -> date_of (n + 1) d'
| day_earlier n d d' : date_of (n + 1) d' -> tomorrow d d' -> date_of n d.
