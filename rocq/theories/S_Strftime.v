(** Times as text. *)
From Verif Require Export M_Strftime S_Files S_Calendar S_Log.
Local Open Scope Z_scope.

(** the decimal digit of [n] with [k] digits behind it *)
Definition figure (n k : Z) : N := (48 + Z.to_N (n / 10 ^ k mod 10))%N.
Definition two (n : Z) : str := [figure n 1; figure n 0].
Definition three (n : Z) : str := [figure n 2; figure n 1; figure n 0].
Definition four (n : Z) : str := [figure n 3; figure n 2; figure n 1; figure n 0].

(** what a clock shows: date and time of day, down to milliseconds *)
Record clock := Clock { on_date : date; c_hour : Z; c_minute : Z; c_second : Z; c_milli : Z }.
(** the clock in a time zone at an instant (nanoseconds since the epoch) *)
Definition clock_at (z : zone) (now : Z) (c : clock) : Prop :=
  exists t n, t * 1000000000 <= now < (t + 1) * 1000000000
  /\ shows z t (n * 86400 + c_hour c * 3600 + c_minute c * 60 + c_second c)
  /\ date_of n (on_date c) /\ 0 <= c_hour c < 24 /\ 0 <= c_minute c < 60 /\ 0 <= c_second c < 60
  /\ t * 1000000000 + c_milli c * 1000000 <= now < t * 1000000000 + (c_milli c + 1) * 1000000.
(** years written with four digits *)
Definition four_digits (d : date) : Prop := 0 <= in_year d <= 9999.

(** 2024-05-17 08:03:00.125 *)
Definition usual_text (c : clock) : str :=
  let d := on_date c in
  four (in_year d) ++ chars "-" ++ two (in_month d) ++ chars "-" ++ two (of_month d) ++ chars " "
  ++ two (c_hour c) ++ chars ":" ++ two (c_minute c) ++ chars ":" ++ two (c_second c) ++ chars "." ++ three (c_milli c).
(** .20240517, .2024051708 *)
Definition stamp_text (k : rotation_kind) (c : clock) : str :=
  let d := on_date c in
  chars "." ++ four (in_year d) ++ two (in_month d) ++ two (of_month d)
  ++ match k with Hourly => two (c_hour c) | Daily_ => [] end.

(** what a layout asks for *)
Inductive says (c : clock) : str -> str -> Prop :=
| says_end : says c [] []
| says_char x l t : (x < 128)%N -> x <> 37%N -> says c l t -> says c (x :: l) (x :: t)
| says_percent l t : says c l t -> says c (chars "%%" ++ l) (chars "%" ++ t)
| says_year l t : says c l t -> says c (chars "%Y" ++ l) (four (in_year (on_date c)) ++ t)
| says_month l t : says c l t -> says c (chars "%m" ++ l) (two (in_month (on_date c)) ++ t)
| says_day l t : says c l t -> says c (chars "%d" ++ l) (two (of_month (on_date c)) ++ t)
| says_hour l t : says c l t -> says c (chars "%H" ++ l) (two (c_hour c) ++ t)
| says_minute l t : says c l t -> says c (chars "%M" ++ l) (two (c_minute c) ++ t)
| says_second l t : says c l t -> says c (chars "%S" ++ l) (two (c_second c) ++ t)
| says_milli l t : says c l t -> says c (chars "%.3f" ++ l) (chars "." ++ three (c_milli c) ++ t)
| says_date l t : says c (chars "%Y-%m-%d" ++ l) t -> says c (chars "%F" ++ l) t
| says_time l t : says c (chars "%H:%M:%S" ++ l) t -> says c (chars "%T" ++ l) t.

(** layouts the time library has no meaning for: after characters and specifiers, a '%' at the end
    or before a letter that is no specifier *)
Inductive broken : str -> Prop :=
| broken_end : broken (chars "%")
| broken_letter x l : In x (chars "EJKOQio") -> broken (37%N :: x :: l)
| broken_char x l : (x < 128)%N -> x <> 37%N -> broken l -> broken (x :: l)
| broken_rest k l : In k (map chars ["%%"; "%Y"; "%m"; "%d"; "%H"; "%M"; "%S"; "%.3f"; "%F"; "%T"]%string) ->
    broken l -> broken (k ++ l).

(** [s] stands before [t] in alphabetical order *)
Definition sorts_before (s t : str) : Prop :=
  exists p a b s' t', s = p ++ a :: s' /\ t = p ++ b :: t' /\ (a < b)%N.
(** one clock shows an earlier time than the other *)
Definition earlier (c c' : clock) : Prop :=
  exists n n', date_of n (on_date c) /\ date_of n' (on_date c')
  /\ ((n * 24 + c_hour c) * 60 + c_minute c) * 60000 + c_second c * 1000 + c_milli c
     < ((n' * 24 + c_hour c') * 60 + c_minute c') * 60000 + c_second c' * 1000 + c_milli c'.
