(** Log files, independently of the code. *)
From Verif Require Export M_Files S_Luxon.

Inductive subseq {A} : list A -> list A -> Prop :=
| ss_nil l : subseq [] l
| ss_skip x a l : subseq a l -> subseq a (x :: l)
| ss_take x a l : subseq a l -> subseq (x :: a) (x :: l).
Definition begins {A} (a b : list A) : Prop := exists c, b = a ++ c.

(** everything a list of calls writes *)
Fixpoint written (cs : list call) : bytes :=
  match cs with [] => [] | Write b :: r => b ++ written r | Flush :: r => written r end.

(** what a file contains *)
Definition content (s : state) (i : nat) : bytes := nth i (data s) [].
(** the file of the appender, and what is on its way there *)
Definition current (s : state) : bytes := content s (ino s).
Definition pending (s : state) : bytes := fly s ++ buf s.

(** no write fails *)
Definition calm (e : env) : Prop := forall t, e_write e t = None.
(** the handle is that of an existing file, and so are the named ones; buffers fit *)
Definition sound (s : state) : Prop :=
  ino s < length (data s) /\ (forall p i, denotes (names s) p = Some i -> i < length (data s))
  /\ length (buf s) <= cap s /\ 0 < cap s.

(** renaming and opening are allowed *)
Definition permissive (e : env) : Prop := (forall t, e_rename e t = true) /\ (forall t, e_open e t = true).
(** the clock never goes back, and starts after the epoch *)
Definition monotone (e : env) : Prop := forall t u, t <= u -> (0 <= e_now e t <= e_now e u)%Z.
(** a time zone without clock changes *)
Definition fixed (z : zone) (o : Z) : Prop :=
  (forall t, offset z t = o) /\ forall l, instants z l = Single (l - o)%Z.
(** the number of the local hour or day; clocks count nanoseconds *)
Definition period_at (r : rotation) (now : Z) (k : Z) : Prop :=
  in_period (rt_zone r) (length_of (rt_kind r)) (now / 1000000000) k.
(** the appender's naming is that of its path, and dates are not written as nothing *)
Definition naming (r : rotation) : Prop :=
  log_name (rt_fp r) = Some (rt_name r) /\ forall k, rt_stamps r k <> [].
(** the name of the log of a period *)
Definition archive (r : rotation) (k : Z) : str := rotated_name (rt_name r) (rt_stamps r k).

(** How a history of calls has distributed the log over files.  The files opened one after the
    other are [first], [next], [next+1], ...  Each segment is what a file no longer written to
    contains and what is missing at its end. *)
Fixpoint opened (first next n : nat) : list nat :=
  match n with O => [] | S n' => first :: opened next (S next) n' end.
Definition segments (s s' : state) (new : bytes) (segs : list (bytes * bytes)) : Prop :=
  current s ++ pending s ++ new = concat (map (fun p => fst p ++ snd p) segs) ++ current s' ++ pending s'
  /\ Forall (fun p => length (snd p) <= cap s) segs
  /\ map (content s') (opened (ino s) (length (data s)) (length segs)) = map fst segs
  /\ cap s' = cap s
  /\ (segs = [] -> ino s' = ino s)
  /\ (segs <> [] -> ino s' = length (data s) + length segs - 1)
  /\ length (data s') = length (data s) + length segs
  /\ (forall i, i < length (data s) -> i <> ino s -> content s' i = content s i).

(** a file system in which every name denotes an existing file *)
Definition names_ok (names : list (str * nat)) (data : list bytes) : Prop :=
  forall p i, denotes names p = Some i -> i < length data.
