(** Model of src/logging/file_appender.rs and src/logging/rotation_file_appender.rs, on top of
    tokio 1.36's BufWriter and fs::File and of a file system. *)
From Verif Require Export M_Paths M_Units M_Luxon.

(** Everything the outside decides, at each step: the clock (nanoseconds since the epoch), whether
    a write to a file succeeds (None) or fails after some bytes (Some k), and whether renaming and
    opening are allowed. *)
Record env := Env {
  e_now : nat -> Z;
  e_write : nat -> option nat;
  e_rename : nat -> bool;
  e_open : nat -> bool
}.

(** An appender and its file system.  [names] says which file a path denotes, [data] what the
    files contain; [ino] is the file of the appender's handle, [fly] the bytes of tokio's
    fs::File being written by a blocking task ([] when idle), [buf] and [cap] the BufWriter.
    [tick] counts the uses of the environment.  Only the appender changes the files. *)
Record state := State {
  tick : nat;
  names : list (str * nat);
  data : list bytes;
  ino : nat;
  fly : bytes;
  buf : bytes;
  cap : nat
}.

(** path lookup *)
Fixpoint denotes (l : list (str * nat)) (p : str) : option nat :=
  match l with
  | [] => None
  | (q, i) :: l' => if chars_eqb q p then Some i else denotes l' p
  end.
Definition without (l : list (str * nat)) (p : str) : list (str * nat) :=
  filter (fun e => negb (chars_eqb (fst e) p)) l.
(** open with append and create (file_appender.rs:41-43, 71-76): the file and its number *)
Definition open_file (names : list (str * nat)) (data : list bytes) (p : str)
    : list (str * nat) * list bytes * nat :=
  match denotes names p with
  | Some i => (names, data, i)
  | None => ((p, length data) :: names, data ++ [[]], length data)
  end.
(** rename(2): replaces an existing target *)
Definition rename (names : list (str * nat)) (src dst : str) : option (list (str * nat)) :=
  match denotes names src with
  | None => None
  | Some i => Some (if chars_eqb src dst then names
                    else (dst, i) :: without (without names src) dst)
  end.

(** tokio::fs::File: the task writing [fly] (std's write_all on a file opened for appending) ends *)
Definition settle (e : env) (s : state) : state * bool :=
  match fly s with
  | [] => (s, true)
  | chunk =>
      let done := match e_write e (tick s) with None => chunk | Some k => firstn k chunk end in
      (State (S (tick s)) (names s) (update_nth (ino s) (fun c => c ++ done) (data s))
             (ino s) [] (buf s) (cap s),
       match e_write e (tick s) with None => true | Some _ => false end)
  end.
(** MAX_BUF of tokio::io::blocking: the most one write takes *)
Definition max_chunk : N := 2097152.
(** File::poll_write: waits for the previous task, then starts the next.  None is an error, found
    when the previous write failed.  Starting a task fails only when the runtime is shutting down
    (not modelled). *)
Definition file_write (e : env) (s : state) (src : bytes) : state * option nat :=
  let (s1, ok) := settle e s in
  if ok then
    let n := N.to_nat (N.min (N.of_nat (length src)) max_chunk) in
    (State (tick s1) (names s1) (data s1) (ino s1) (firstn n src) (buf s1) (cap s1), Some n)
  else (s1, None).
(** BufWriter::flush_buf: the accepted part of the buffer is removed even after an error.
    Every write takes at least one byte, so [length rest] rounds are enough. *)
Fixpoint drain (e : env) (fuel : nat) (s : state) (rest : bytes) : state * bytes * bool :=
  match rest, fuel with
  | [], _ => (s, [], true)
  | _, O => (s, rest, false)
  | _, S f =>
      match file_write e s rest with
      | (s', Some n) => drain e f s' (skipn n rest)
      | (s', None) => (s', rest, false)
      end
  end.
Definition set_buf (s : state) (b : bytes) : state :=
  State (tick s) (names s) (data s) (ino s) (fly s) b (cap s).
Definition flush_buf (e : env) (s : state) : state * bool :=
  match drain e (length (buf s)) s (buf s) with
  | (s', rest, ok) => (set_buf s' rest, ok)
  end.
(** BufWriter::poll_write *)
Definition buf_write (e : env) (s : state) (b : bytes) : state * option nat :=
  let (s1, ok) := if cap s <? length (buf s) + length b then flush_buf e s else (s, true) in
  if negb ok then (s1, None)
  else if cap s <=? length b then file_write e s1 b
  else (set_buf s1 (buf s1 ++ b), Some (length b)).
(** AsyncWriteExt::write_all *)
Fixpoint write_all (e : env) (fuel : nat) (s : state) (b : bytes) : state * bool :=
  match b, fuel with
  | [], _ => (s, true)
  | _, O => (s, false)
  | _, S f =>
      match buf_write e s b with
      | (s', Some n) => write_all e f s' (skipn n b)
      | (s', None) => (s', false)
      end
  end.

(** src/logging/file_appender.rs:30-32 *)
Definition file_writeall (e : env) (s : state) (b : bytes) : state * bool := write_all e (length b) s b.
(** src/logging/file_appender.rs:34-36: BufWriter::poll_flush, File::poll_flush *)
Definition file_flush (e : env) (s : state) : state * bool :=
  let (s1, ok) := flush_buf e s in
  if ok then settle e s1 else (s1, false).
(** src/logging/file_appender.rs:56-58: the smallest buffer *)
Definition min_buffer : nat := N.to_nat 8092.
(** src/logging/file_appender.rs:45-67; None is an error *)
Definition file_new (e : env) (t : nat) (names : list (str * nat)) (data : list bytes) (fp : str)
    (bufsize : nat) : option state :=
  if e_open e t then
    let '(names', data', i) := open_file names data fp in
    Some (State (S t) names' data' i [] [] (Nat.max min_buffer bufsize))
  else None.
(** src/logging/file_appender.rs:69-80.  The old BufWriter and File are dropped: buffered bytes
    are forgotten, the running task (if any) still ends.  Nothing else writes to the old file, so
    it is taken to end here. *)
Definition file_reopen (e : env) (s : state) (fp : str) : state * bool :=
  if e_open e (tick s) then
    let s1 := fst (settle e (State (S (tick s)) (names s) (data s) (ino s) (fly s) (buf s) (cap s))) in
    let '(names', data', i) := open_file (names s1) (data s1) fp in
    (State (tick s1) names' data' i [] [] (cap s1), true)
  else (State (S (tick s)) (names s) (data s) (ino s) (fly s) (buf s) (cap s), false).

(** src/logging/rotation_file_appender.rs:13-24.  [stamps] formats the number of a local hour or
    day (luxon::fmtlocal with ".%Y%m%d%H" or ".%Y%m%d"); [digits] formats the clock. *)
Record rotation := Rotation {
  rt_kind : rotation_kind;
  rt_zone : zone;
  rt_fp : str;
  rt_name : str * str * str;
  rt_stamps : Z -> str;
  rt_digits : Z -> str
}.
Definition period_of (k : rotation_kind) : Z := match k with Hourly => hour | Daily_ => day end.
(** src/logging/rotation_file_appender.rs:135-153 *)
Definition stamp_at (r : rotation) (now : Z) : str :=
  rt_stamps r (local_secs (rt_zone r) now / period_of (rt_kind r))%Z.

(** a rotating appender: the file appender and rotate_at (milliseconds) *)
Definition rstate : Type := state * Z.
Definition bump (s : state) : state := State (S (tick s)) (names s) (data s) (ino s) (fly s) (buf s) (cap s).
(** src/logging/rotation_file_appender.rs:120-123 *)
Definition rot_next (e : env) (r : rotation) (s : state) : outcome rstate :=
  m <- calcnext (rt_kind r) (rt_zone r) (e_now e (tick s)) ;;
  Ret (bump s, m).
(** src/logging/rotation_file_appender.rs:155-178: attempts [i] to 9; Ret true when renamed *)
Fixpoint rot_rename (e : env) (r : rotation) (stamp : str) (left : nat) (first : bool) (s : state)
    : outcome (state * bool) :=
  match left with
  | O => Ret (s, false)
  | S left' =>
      q <- (if first then Ret (rotated_name (rt_name r) stamp, s)
            else if (e_now e (tick s) <? 0)%Z then Panic
            else Ret (rotated_name_again (rt_name r) stamp (rt_digits r (e_now e (tick s))), bump s)) ;;
      let (name, s1) := (q : str * state) in
      let allowed := e_rename e (tick s1) in
      match (if allowed then rename (names s1) (rt_fp r) name else None) with
      | Some names' => Ret (State (S (tick s1)) names' (data s1) (ino s1) (fly s1) (buf s1) (cap s1), true)
      | None => rot_rename e r stamp left' false (bump s1)
      end
  end.
(** src/logging/rotation_file_appender.rs:125-191 *)
Definition rotate (e : env) (r : rotation) (rs : rstate) : outcome (rstate * bool) :=
  let (s, at_) := rs in
  let now := e_now e (tick s) in
  let s0 := bump s in
  mills <- unix_millis now ;;
  if (mills <? at_)%Z then Ret ((s0, at_), false)
  else
    q <- rot_rename e r (stamp_at r now) 10 true s0 ;;
    let (s1, renamed) := (q : state * bool) in
    if negb renamed then
      rs' <- rot_next e r s1 ;; Ret (rs', false)
    else
      let (s2, reopened) := file_reopen e s1 (rt_fp r) in
      rs' <- rot_next e r s2 ;; Ret (rs', reopened).
(** src/logging/rotation_file_appender.rs:42-55 *)
Definition rot_writeall (e : env) (r : rotation) (rs : rstate) (b : bytes) : outcome (rstate * bool) :=
  let (s, at_) := rs in
  let (s1, ok) := file_writeall e s b in
  q <- rotate e r (s1, at_) ;;
  let (rs2, rotated) := (q : rstate * bool) in
  if ok then Ret (rs2, true)
  else if rotated then
    let (s3, ok3) := file_writeall e (fst rs2) b in Ret ((s3, snd rs2), ok3)
  else Ret (rs2, false).
(** src/logging/rotation_file_appender.rs:57-59 *)
Definition rot_flush (e : env) (rs : rstate) : rstate * bool :=
  let (s1, ok) := file_flush e (fst rs) in ((s1, snd rs), ok).
(** src/logging/rotation_file_appender.rs:63-110; Ret None is an error *)
Definition rot_new (e : env) (t : nat) (names : list (str * nat)) (data : list bytes) (fp : str)
    (bufsize : nat) (kind : rotation_kind) (z : zone) (stamps digits : Z -> str)
    : outcome (option (rotation * rstate)) :=
  match file_new e t names data fp bufsize with
  | None => Ret None
  | Some s =>
      m <- calcnext kind z (e_now e (tick s)) ;;
      match log_name fp with
      | None => Ret None
      | Some n => Ret (Some (Rotation kind z fp n stamps digits, (bump s, m)))
      end
  end.

(** the calls made on an appender by the consumer (src/logging/consumer.rs:94-124, 197-204) *)
Inductive call := Write (b : bytes) | Flush.
Definition file_call (e : env) (s : state) (c : call) : state * bool :=
  match c with Write b => file_writeall e s b | Flush => file_flush e s end.
Fixpoint file_calls (e : env) (s : state) (cs : list call) : state * list bool :=
  match cs with
  | [] => (s, [])
  | c :: rest =>
      let (s1, ok) := file_call e s c in
      let (s2, oks) := file_calls e s1 rest in (s2, ok :: oks)
  end.
Definition rot_call (e : env) (r : rotation) (rs : rstate) (c : call) : outcome (rstate * bool) :=
  match c with Write b => rot_writeall e r rs b | Flush => Ret (rot_flush e rs) end.
Fixpoint rot_calls (e : env) (r : rotation) (rs : rstate) (cs : list call) : outcome (rstate * list bool) :=
  match cs with
  | [] => Ret (rs, [])
  | c :: rest =>
      q <- rot_call e r rs c ;;
      q2 <- rot_calls e r (fst q) rest ;;
      Ret (fst q2, snd q :: snd q2)
  end.
