(** Model of src/logging/dispatcher.rs: the channel between logging threads and the consumer
    thread, flushing, and the shutdown guard; with file appenders behind it (src/logging/consumer.rs
    :88-118, 150-191 writes, 193-207 flushes).  Appenders to the console and rotating ones are not
    distinguished here; M_Files models rotation. *)
From Verif Require Export M_Files.

(** src/logging/dispatcher.rs:6-9.  A record is represented by what the consumer writes for it:
    lines with the index of the appender each goes to (None: rendering panics); a flush by the flag
    it waits for. *)
Inductive message := LogItem (lines : option (list (nat * bytes))) | FlushRequest (flag : nat).

(** the consumer thread: in its loop (:102-114), between setting the shutdown signal and the last
    flush (:123-126), finished, or dead of a panic *)
Inductive consumer_phase := Consuming | Ending | Finished | Dead.
(** the guard, held by main: not dropped, in its destructor (:46-59), gone *)
Inductive guard_phase := Held | Waiting | Gone.

(** The channel is a queue (std::sync::mpsc keeps the order of the sends); [sender] says whether
    the Dispatcher, which owns the sending end, still exists. *)
Record machine := Machine {
  queue : list message;
  sender : bool;
  outs : list state;
  phase : consumer_phase;
  flags : list nat;
  signal : bool;
  guard : guard_phase;
  exited : bool
}.

(** What can happen next.  [Log], [FlushCall], [FlushReturn]: by any thread (:20-38).  [Take]: the
    consumer handles the next message.  [Closed]: the consumer finds the channel empty and closed,
    leaves the loop and sets the signal.  [LastFlush]: the flush after that.  [DropGuard],
    [GuardReturn]: the guard's destructor.  [Exit]: main returns, which ends the process. *)
Inductive action :=
| Log (lines : option (list (nat * bytes))) | FlushCall (flag : nat) | FlushReturn (flag : nat)
| Take | Closed | LastFlush | DropGuard | GuardReturn | Exit.

(** Not possible now; freed memory is used; the calling thread panics; or the next state. *)
Inductive result := Impossible | Freed | Panics | Next (m : machine).

Definition put (m : machine) (x : message) : machine :=
  Machine (queue m ++ [x]) (sender m) (outs m) (phase m) (flags m) (signal m) (guard m) (exited m).
(** Sender::send fails when the receiver is gone, that is when the consumer thread is dead
    (it ends normally only after the sender) *)
Definition send (m : machine) (x : message) : result :=
  if negb (sender m) then Freed
  else match phase m with Consuming => Next (put m x) | _ => Panics end.

Definition with_phase (m : machine) (p : consumer_phase) (q : list message) (s : list state) (fl : list nat) : machine :=
  Machine q (sender m) s p fl (signal m) (guard m) (exited m).

(** src/logging/consumer.rs:103-117, 170-190: every chosen appender gets its line; a failed write
    is reported on the standard error and forgotten.  The appenders have an environment each. *)
Fixpoint write_lines (e : nat -> env) (fs : list state) (lines : list (nat * bytes)) : list state :=
  match lines with
  | [] => fs
  | (i, line) :: rest => write_lines e (update_nth i (fun s => fst (file_writeall (e i) s line)) fs) rest
  end.
(** src/logging/consumer.rs:193-207 *)
Fixpoint flush_files (e : nat -> env) (i : nat) (fs : list state) : list state :=
  match fs with
  | [] => []
  | s :: rest => fst (file_flush (e i) s) :: flush_files e (S i) rest
  end.

Definition step (e : nat -> env) (m : machine) (a : action) : result :=
  if exited m then Impossible else
  match a with
  | Log lines => send m (LogItem lines)
  | FlushCall f => send m (FlushRequest f)
  | FlushReturn f => if existsb (Nat.eqb f) (flags m) then Next m else Impossible
  | Take =>
      match phase m, queue m with
      | Consuming, LogItem (Some lines) :: q =>
          Next (with_phase m Consuming q (write_lines e (outs m) lines) (flags m))
      | Consuming, LogItem None :: q => Next (with_phase m Dead q (outs m) (flags m))
      | Consuming, FlushRequest f :: q =>
          Next (with_phase m Consuming q (flush_files e 0 (outs m)) (f :: flags m))
      | _, _ => Impossible
      end
  | Closed =>
      match phase m, queue m, sender m with
      | Consuming, [], false =>
          Next (Machine [] false (outs m) Ending (flags m) true (guard m) false)
      | _, _, _ => Impossible
      end
  | LastFlush =>
      match phase m with
      | Ending => Next (with_phase m Finished (queue m) (flush_files e 0 (outs m)) (flags m))
      | _ => Impossible
      end
  | DropGuard =>
      match guard m with
      | Held => Next (Machine (queue m) false (outs m) (phase m) (flags m) (signal m) Waiting false)
      | _ => Impossible
      end
  | GuardReturn =>
      match guard m with
      | Waiting => if signal m then Next (Machine (queue m) (sender m) (outs m) (phase m) (flags m)
                                             (signal m) Gone false)
                   else Impossible
      | _ => Impossible
      end
  | Exit =>
      match guard m with
      | Gone => Next (Machine (queue m) (sender m) (outs m) (phase m) (flags m) (signal m) Gone true)
      | _ => Impossible
      end
  end.

(** A schedule: the actions of all threads in the order they take effect. *)
Fixpoint schedule (e : nat -> env) (m : machine) (l : list action) : result :=
  match l with
  | [] => Next m
  | a :: rest => match step e m a with Next m' => schedule e m' rest | r => r end
  end.

(** src/logging/dispatcher.rs:61-133: after init *)
Definition started (s : list state) : machine := Machine [] true s Consuming [] false Held false.
