(** Logging threads, flushing and shutdown, independently of the code. *)
From Verif Require Export M_Dispatch S_Files.

(** what a record puts into appender [i] *)
Fixpoint lines_for (i : nat) (lines : list (nat * bytes)) : bytes :=
  match lines with
  | [] => []
  | (j, line) :: r => (if j =? i then line else []) ++ lines_for i r
  end.
(** the text logged for appender [i] by a schedule, in the order of the log calls *)
Fixpoint logged (i : nat) (l : list action) : bytes :=
  match l with
  | [] => []
  | Log (Some lines) :: r => lines_for i lines ++ logged i r
  | _ :: r => logged i r
  end.
(** every record can be rendered *)
Definition renderable (l : list action) : Prop := ~ In (Log None) l.
(** the flags of the flush calls; every call makes its own *)
Fixpoint flush_calls (l : list action) : list nat :=
  match l with [] => [] | FlushCall f :: r => f :: flush_calls r | _ :: r => flush_calls r end.
(** all files work *)
Definition all_calm (e : nat -> env) : Prop := forall i, calm (e i).
Definition all_sound (fs : list state) : Prop := forall i s, nth_error fs i = Some s -> sound s.
