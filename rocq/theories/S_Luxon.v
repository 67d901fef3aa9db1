(** Time zones, independently of the code. *)
From Verif Require Export M_Luxon.
Local Open Scope Z_scope.

(** what clocks show at an instant (seconds) *)
Definition shows (z : zone) (t l : Z) : Prop := t + offset z t = l.

(** the two directions of the zone agree *)
Definition coherent (z : zone) : Prop :=
  forall l, match instants z l with
  | NoTime => forall t, ~ shows z t l
  | Single t => shows z t l /\ forall u, shows z u l -> u = t
  | Ambiguous a b => a <> b /\ shows z a l /\ shows z b l
  end.
(** offsets are less than a day *)
Definition ordinary (z : zone) : Prop := forall t, -86400 < offset z t < 86400.
(** no clock change within three days of t *)
Definition steady (z : zone) (t : Z) : Prop := forall u, Z.abs (u - t) <= 259200 -> offset z u = offset z t.

(** clocks show a multiple of the period (a full hour, midnight) *)
Definition boundary (z : zone) (period t : Z) : Prop := exists k, shows z t (k * period).
Definition length_of (k : rotation_kind) : Z := match k with Hourly => 3600 | Daily_ => 86400 end.

(** the local period (hour or day) an instant lies in *)
Definition in_period (z : zone) (period t k : Z) : Prop :=
  k * period <= t + offset z t < (k + 1) * period.
