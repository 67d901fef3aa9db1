(** Model of src/logging/console_appender.rs, on top of tokio 1.36's Stdout: several appenders, each
    with a handle of its own (tokio::io::stdout), write to the one standard output of the process. *)
From Verif Require Export M_Files M_Consumer.

(** A handle (tokio::io::blocking::Blocking): nothing in progress, a task of the blocking pool that
    writes some bytes, or such a task that has ended, well or not, which the handle has not noticed. *)
Inductive job := Resting | Writing (piece : bytes) | Written (ok : bool).

(** The calls the consumer awaits, one after the other: src/logging/console_appender.rs:15-17 and
    :19-21, by the number of the appender. *)
Inductive console_call := WriteAll (h : nat) (text : bytes) | FlushAll (h : nat).

(** [screen] is what the standard output has received; [todo] the calls to make, the first being in
    progress (of a write, what is not yet accepted); [told] the results of the finished calls. *)
Record terminal := Terminal {
  screen : bytes;
  jobs : list job;
  todo : list console_call;
  told : list bool
}.
Definition job_of (t : terminal) (h : nat) : job := nth h (jobs t) Resting.

(** The call in progress ends. *)
Definition call_ends (t : terminal) (ts : list job) (rest : list console_call) (ok : bool) : terminal :=
  Terminal (screen t) ts rest (told t ++ [ok]).

(** The consumer is polled: AsyncWriteExt::write_all over Blocking::poll_write, which waits for the
    previous task of the handle, told its failure, or hands at most [max_chunk] bytes to a new
    one; Blocking::poll_flush waits for the task.  None: the call has to wait, or none is left.
    The lines end with a newline, so the line buffer of the standard library's Stdout holds nothing
    after a write and its own flush has no effect (not modelled). *)
Definition poll (t : terminal) : option terminal :=
  match todo t with
  | [] => None
  | WriteAll h [] :: rest => Some (call_ends t (jobs t) rest true)
  | WriteAll h text :: rest =>
      match job_of t h with
      | Writing _ => None
      | Written false => Some (call_ends t (update_nth h (fun _ => Resting) (jobs t)) rest false)
      | _ =>
          let n := N.to_nat (N.min (N.of_nat (length text)) max_chunk) in
          Some (Terminal (screen t) (update_nth h (fun _ => Writing (firstn n text)) (jobs t))
                         (WriteAll h (skipn n text) :: rest) (told t))
      end
  | FlushAll h :: rest =>
      match job_of t h with
      | Writing _ => None
      | Written ok => Some (call_ends t (update_nth h (fun _ => Resting) (jobs t)) rest ok)
      | Resting => Some (call_ends t (jobs t) rest true)
      end
  end.

(** A thread of the pool does the task of [h]: std's Stdout is locked while its write_all runs.  It
    fails after [k] bytes, or not at all. *)
Definition land (t : terminal) (h : nat) (failed : option nat) : option terminal :=
  match job_of t h with
  | Writing piece =>
      Some (Terminal (screen t ++ match failed with None => piece | Some k => firstn k piece end)
                     (update_nth h (fun _ => Written (match failed with None => true | Some _ => false end)) (jobs t))
                     (todo t) (told t))
  | _ => None
  end.

(** What happens next: the consumer goes on, a task is done, or another thread prints (println! in
    src/main.rs:176, 275-288 locks the standard output too). *)
Inductive turn := GoOn | Land (h : nat) (failed : option nat) | Print (text : bytes).
Definition turn_step (t : terminal) (x : turn) : option terminal :=
  match x with
  | GoOn => poll t
  | Land h failed => land t h failed
  | Print text => Some (Terminal (screen t ++ text) (jobs t) (todo t) (told t))
  end.
Fixpoint turns (t : terminal) (l : list turn) : option terminal :=
  match l with
  | [] => Some t
  | x :: rest => match turn_step t x with Some t' => turns t' rest | None => None end
  end.

(** src/logging/console_appender.rs:36-44: [n] appenders, new *)
Definition consoles (n : nat) (calls : list console_call) : terminal := Terminal [] (repeat Resting n) calls [].

(** src/logging/dispatcher.rs:100-126 and src/logging/consumer.rs:113-120, 181-188, 197-212: what
    the consumer thread asks of the [n] appenders for a history of records (each by its writes), and
    the flush of all appenders when it ends. *)
Definition session (n : nat) (wss : list (list write)) : list console_call :=
  map (fun w : write => WriteAll (fst w) (snd w)) (concat wss) ++ map FlushAll (seq 0 n).
