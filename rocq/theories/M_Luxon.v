(** Model of src/utils/luxon.rs: ends of local days and hours. *)
From Verif Require Export M_Calendar.
Local Open Scope Z_scope.

(** What chrono::Local knows about the time zone: the offset in force at an instant (seconds since
    the epoch), and the instants at which clocks show a local time (in seconds, counted as if
    local time were UTC).  chrono::LocalResult. *)
Inductive local_result := NoTime | Single (t : Z) | Ambiguous (a b : Z).
Record zone := Zone { offset : Z -> Z; instants : Z -> local_result }.

(** Instants are nanoseconds since the epoch (std::time::SystemTime); [/] rounds down. *)
Definition nano : Z := 1000000000.
Definition secs (now : Z) : Z := now / nano.
(** SystemTime -> DateTime<Local> *)
Definition local_secs (z : zone) (now : Z) : Z := secs now + offset z (secs now).

(** SystemTime::duration_since(UNIX_EPOCH).unwrap().as_millis() *)
Definition unix_millis (now : Z) : outcome Z :=
  if now <? 0 then Panic else Ret (now / 1000000).

Definition hour : Z := 3600.
Definition day : Z := 86400.
(** src/utils/luxon.rs:40-63; None is an error *)
Definition local (z : zone) (y mo d h mi s : Z) : option Z :=
  match from_ymd y mo d with
  | None => None
  | Some n =>
      match from_hms h mi s with
      | None => None
      | Some t => match instants z (n * day + t) with Single u => Some u | _ => None end
      end
  end.
(** SystemTime of a local time in seconds, in milliseconds since the epoch *)
Definition to_millis (o : option Z) : outcome (option Z) :=
  match o with
  | Some t => r <- unix_millis (t * nano) ;; Ret (Some r)
  | None => Ret None
  end.
(** src/utils/luxon.rs:65-77; all times are in chrono's range *)
Definition endofday (z : zone) (now : Z) : outcome (option Z) :=
  let l := local_secs z now in
  let '(y, m, d) := civil (l / day) in
  to_millis (option_map (fun t => t + day) (local z y m d 0 0 0)).
(** src/utils/luxon.rs:79-91 *)
Definition endofhour (z : zone) (now : Z) : outcome (option Z) :=
  let l := local_secs z now in
  let '(y, m, d) := civil (l / day) in
  let '(h, _, _) := hms (l mod day) in
  to_millis (option_map (fun t => t + hour) (local z y m d h 0 0)).

(** src/logging/rotation_file_appender.rs:8-11, 112-118 *)
Inductive rotation_kind := Hourly | Daily_.
Definition calcnext (k : rotation_kind) (z : zone) (now : Z) : outcome Z :=
  r <- match k with Hourly => endofhour z now | Daily_ => endofday z now end ;;
  match r with Some m => Ret m | None => Panic end.
